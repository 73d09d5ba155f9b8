(** * Properties of a copy that is interrupted *)
From Verif Require Import Py Dict NdArray_Model NdArray_Proofs Dataset_Model Dataset_Spec Meta_Model PartPath_Model PartPath_Proofs
  DaskUtils_Model Split_Spec FS_Model FS_Proofs Pool_Model Pool_Proofs Storage_Model Storage_Spec Storage_Proofs
  Listing_Model Listing_Spec Listing_Proofs Collection_Model Collection_Spec Collection_Proofs Collection_State Collection_Insert Collection_Select Collection_Load Collection_Total
  Collection_Example Collection_Props Crash_Spec Collection_Crash Crash_Props Update_Model Update_Spec Update_Proofs Update_Example DaskUtils_Proofs Variable_Proofs Variable_Crash Validate_Props Copy_Spec Copy_Proofs Copy_Props Reopen_Props.

(** ** Programs that keep an invariant, whatever else keeps it *)
Section keeps.
  Context (Phi : store -> Prop).
  Fixpoint keeps {A : Type} (p : program A) : Prop :=
    match p with
    | Ret _ => True
    | Op o k => forall u, Phi u -> mid CTorn o u Phi /\ Phi (exec_op o u).2 /\ keeps (k (exec_op o u).1)
    end.
  Lemma keeps_always {A : Type} (p : program A) : forall s, keeps p -> Phi s -> always CTorn Phi p s.
  Proof.
    induction p as [r|o k IH]; intros s Hk Hs; cbn; [done|]. destruct (Hk s Hs) as (H1 & H2 & H3). split_and!; [done..|]. by apply IH.
  Qed.
  Lemma keeps_bind {A B : Type} (p : program A) (f : A -> program B) : keeps p -> (forall a, keeps (f a)) -> keeps (pbind p f).
  Proof.
    intros Hp Hf. induction p as [[a|ex]|o k IH]; cbn; [apply Hf|done|]. intros u Hu. destruct (Hp u Hu) as (H1 & H2 & H3). split_and!; [done..|]. by apply IH.
  Qed.
  Lemma keeps_attempt {A : Type} (p : program A) : keeps p -> keeps (attempt p).
  Proof.
    induction p as [r|o k IH]; cbn; [done|]. intros Hp u Hu. destruct (Hp u Hu) as (H1 & H2 & H3). split_and!; [done..|]. by apply IH.
  Qed.
  Lemma keeps_run_all {A : Type} (ps : list (program A)) : Forall keeps ps -> keeps (run_all ps).
  Proof.
    induction 1 as [|p ps Hp _ IH]; cbn [run_all]; [done|]. apply keeps_bind; [by apply keeps_attempt|]. intros r. apply keeps_bind; [done|]. done.
  Qed.
  Lemma keeps_interleave {A : Type} sched : forall ps : list (program A), Forall keeps ps -> keeps (interleave CTorn sched ps).
  Proof.
    induction sched as [|[i tear] sched IH]; intros ps Hps; cbn [interleave]; [by apply keeps_run_all|].
    destruct (ps !! i) as [[r|o k]|] eqn:Ei; [by apply IH| |by apply IH].
    pose proof (proj1 (Forall_lookup _ _) Hps i _ Ei) as Hk.
    assert (Hn : keeps (Op o (fun r => interleave CTorn sched (<[i := k r]> ps)))).
    { intros u Hu. destruct (Hk u Hu) as (H1 & H2 & H3). split_and!; [done..|]. apply IH. by apply Forall_insert. }
    destruct tear; [|done]. destruct o as [| q x| | |]; try done.
    intros u Hu. destruct (Hk u Hu) as (H1 & _ & _). cbn in H1 |- *. split_and!; [done..|]. by apply IH.
  Qed.
  Lemma keeps_transaction {A : Type} sched (ps : list (program A)) : Forall keeps ps -> keeps (execute_transaction CTorn sched ps).
  Proof. intros H. apply keeps_bind; [by apply keeps_interleave|done]. Qed.
  Lemma keeps_pfor {A B : Type} (l : list A) (f : A -> program B) : (forall x, x ∈ l -> keeps (f x)) -> keeps (pfor l f).
  Proof.
    intros H. apply keeps_bind; [|done]. induction l as [|x l IH]; cbn [map pseq]; [done|]. apply keeps_bind; [apply H; left|]. intros b.
    apply keeps_bind; [|done]. apply IH. intros y Hy. apply H. by right.
  Qed.
End keeps.

Section stop.
  Context (e : env) (c : collection) (filt : filter) (P : list Z -> bool) (target : path) (s : store).
  Local Notation copied := (moved_to target c).
  (** The files of the target are those of the source, some of them incomplete;
      the configuration is not there. *)
  Definition copying (u : store) : Prop :=
    (forall q, ~ under target q -> u !! q = s !! q) /\
    (forall f x, u !! (target ++ f) = Some x -> x = CTorn \/ s !! (c_dir c ++ f) = Some x) /\
    u !! (target ++ [CONFIG]) = None.
  Context (Hap : apart (c_dir c) target).
  Lemma copying_write u f x : copying u -> x = CTorn \/ s !! (c_dir c ++ f) = Some x -> f <> [CONFIG] -> copying (<[target ++ f := x]> u).
  Proof.
    intros (H1 & H2 & H3) Hx N. split_and!.
    - intros q Nq. rewrite lookup_insert_ne; [by apply H1|]. intros <-. apply Nq, under_app.
    - intros g y. destruct (decide (f = g)) as [->|N']; [rewrite lookup_insert; by intros [= <-]|]. rewrite lookup_insert_ne; [apply H2|]. intros E. by apply app_inv_head in E.
    - rewrite lookup_insert_ne; [done|]. intros E. by apply app_inv_head in E.
  Qed.
  Lemma keeps_copy_tree k : (forall f, k ++ f <> [CONFIG]) -> keeps copying (copy_tree (c_dir c ++ k) (target ++ k)).
  Proof using Hap.
    intros Hk. unfold copy_tree. apply keeps_bind; [by cbn|]. intros x. destruct x; [done|]. apply keeps_bind; [by cbn|]. intros t.
    apply keeps_pfor. intros q _. cbn. intros u Hu. split; [done|]. split; [done|]. rewrite sub_lookup, app_nil_r.
    destruct (u !! ((c_dir c ++ k) ++ q)) as [f|] eqn:Ef; [|done]. cbn. intros w Hw. rewrite <-!app_assoc.
    assert (Es : s !! (c_dir c ++ k ++ q) = Some f).
    { rewrite <-app_assoc in Ef. rewrite <-Ef. symmetry. apply (proj1 Hu). intros U. exact (Hap _ (under_app _ _) U). }
    split; [|split; [|done]]; apply copying_write; auto.
  Qed.
End stop.

(** Opening a directory whose configuration is there changes nothing. *)
Lemma always_open (Phi : store -> Prop) reg d mode (s : store) : is_Some (s !! (d ++ [CONFIG])) -> Phi s -> always CTorn Phi (from_config reg d mode) s.
Proof.
  intros [x Hx] Hs. assert (He : empty_at (d ++ [CONFIG]) s = false) by (apply empty_at_false; exists (d ++ [CONFIG]), x; split; [apply under_refl|done]).
  unfold from_config. apply always_bind; [by apply always_exists|]. intros y s1 E. rewrite exec_exists, He in E. injection E as <- <-. cbn [negb].
  apply always_bind; [by cbn|]. intros f s1 E. rewrite exec_read_file in E. injection E as <- <-. rewrite Hx. destruct x as [| | |cc| | |]; try by cbn.
  destruct (md_from_config _) as [m|]; [|by cbn]. cbn [pbind]. destruct (get_codecs _ _) as [p|]; [|by cbn]. cbn [pbind]. unfold make_collection.
  destruct (new_collection _ m p d _) as [c1|ex] eqn:En; [|by cbn]. cbn [pbind]. destruct (c_readonly c1); [by cbn|].
  assert (Hd : c_dir c1 = d).
  { revert En. unfold new_collection. destruct (dget _ _) as [v|]; [|done]. destruct (negb _); [done|]. destruct (negb _); [done|]. destruct (mv_dims v); [done|]. by intros [= <-]. }
  apply always_bind; [|by intros [] s1 E; cbn; unfold write_config in E; rewrite Hd, exec_bind, exec_exists, He in E; cbn in E; injection E as <-].
  unfold write_config. rewrite Hd. apply always_bind; [by apply always_exists|]. intros y s1 E. rewrite exec_exists, He in E. injection E as <- <-. by cbn.
Qed.

Section C96.
Context (e : env) (c : collection) (filt : filter) (P : list Z -> bool) (target : path).
Local Notation copied := (moved_to target c).
Lemma copy_states M I s sched workers reg mode np conf :
  regular e c -> represents c M I s -> filterable c -> (forall v, is_Some (M v) -> says (c_part c) filt v (P v = true)) ->
  apart (c_dir c) target -> nothing_at target s -> s !! (c_dir c ++ [CONFIG]) = Some conf ->
  (exists v, is_Some (M v) /\ P v = true) -> (0 < workers)%Z -> (forall n, np = Some n -> (0 <= n)%Z) ->
  exists s1 s2, copying c target s s1 /\ stopped_at (copy e sched workers reg c target filt mode np) s s1 /\
    (forall v f, is_Some (M v) -> P v = true -> s1 !! (part_dir copied v ++ f) = s !! (part_dir c v ++ f)) /\
    s2 = <[target ++ [CONFIG] := conf]> s1 /\ (exec (copy e sched workers reg c target filt mode np) s).2 = s2 /\
    always CTorn (fun u => copying c target s u \/ u = <[target ++ [CONFIG] := CTorn]> s1 \/ u = s2) (copy e sched workers reg c target filt mode np) s.
Proof.
  intros Hr Hs Hfi HP Hap Hno Hconf Hex Hw Hnp.
  destruct (C30_copy e c filt P target M I s sched workers reg mode np conf Hr Hs Hfi HP Hap Hno Hconf Hex Hw Hnp) as (r & s' & _ & Ex & _ & _ & _ & _).
  destruct Hex as (v0 & Hv0 & HPv0).
  destruct (select_filter e c Hr M I s filt (fun v => P v = true) Hs Hfi HP) as (vss & Hso & Hin & Esel). assert (Hnd : NoDup vss) by (by apply sorted_nodup_rows).
  unfold copy in *. set (n := match np with Some n => if (n =? 0)%Z then workers else n | None => workers end) in *.
  assert (Hn : (0 < n)%Z).
  { unfold n. destruct np as [k|]; [|done]. specialize (Hnp k eq_refl). destruct (k =? 0)%Z eqn:E; [done|]. lia. }
  assert (Eargs : map (fun q => (q, target ++ drop (length (c_dir c)) q)) (map (part_dir c) vss) = map (fun v => (part_dir c v, part_dir copied v)) vss).
  { rewrite map_map. apply map_ext. intros v. f_equal. unfold part_dir. by rewrite drop_app. }
  assert (exists bs, split_sequence (map (fun v => (part_dir c v, part_dir copied v)) vss) (Some n) = Ok bs) as [bs Ebs].
  { unfold split_sequence. rewrite map_length. destruct (n <=? 0)%Z eqn:E; [lia|]. destruct (_ =? 0) eqn:E0; [|by eexists]. exfalso. apply Nat.eqb_eq in E0.
    assert (v0 ∈ vss) by (by apply Hin). destruct vss; [by apply (not_elem_of_nil v0)|]. cbn [length] in E0. lia. }
  destruct (split_map _ _ _ _ Ebs) as (bs' & _ & -> & Hcat).
  destruct (exec_batches c target Hap sched bs' s) as (rs & s1 & E1 & A1 & A2).
  { by rewrite Hcat. }
  { rewrite Hcat. intros v Hv. apply Hin in Hv as [[d Hd] _]. split; [by apply (rp_part _ _ _ _ Hs) in Hd as [? _]|]. intros q U. apply Hno. eapply under_trans; [apply under_app|exact U]. }
  rewrite Hcat in A1, A2.
  assert (Hout : forall q, ~ under target q -> s1 !! q = s !! q).
  { intros q Hq. apply A2. intros (v & _ & U)%Exists_exists. apply Hq. eapply under_trans; [apply under_app|exact U]. }
  assert (Hin_src : forall q, s1 !! (c_dir c ++ q) = s !! (c_dir c ++ q)).
  { intros q. apply Hout. intros U. exact (Hap _ (under_app _ _) U). }
  assert (Hfiles : List.filter (fun n => bool_decide (is_Some (sub (c_dir c) s1 !! [n]))) (children (e_order e) [] (sub (c_dir c) s1)) = [CONFIG]).
  { set (l := List.filter _ _). assert (Hl : forall n, n ∈ l <-> n = CONFIG).
    { intros m. unfold l. rewrite elem_of_list_In, filter_In, <-elem_of_list_In, bool_decide_eq_true, (children_elem _ (rg_order _ _ Hr)). rewrite sub_lookup, Hin_src. split.
      - intros [_ [x Hx]]. by eapply root_files.
      - intros ->. split; [|by eexists]. exists [], conf. cbn. by rewrite sub_lookup, Hin_src. }
    assert (Hndl : NoDup l) by (unfold l; apply NoDup_ListNoDup, List.NoDup_filter, NoDup_ListNoDup, children_nodup, Hr). clearbody l.
    destruct l as [|a l]; [exfalso; by apply (not_elem_of_nil CONFIG), Hl|]. assert (a = CONFIG) as -> by (apply Hl; left). destruct l as [|b l]; [done|].
    exfalso. assert (b = CONFIG) as -> by (apply Hl; right; left). inversion Hndl as [|? ? Hx _]. apply Hx. left. }
  assert (H0 : copying c target s s).
  { split_and!; [done| |apply Hno, under_app]. intros f x Hx. rewrite Hno in Hx by apply under_app. done. }
  assert (Hks : keeps (copying c target s) (execute_transaction CTorn sched (map (batch c target) bs'))).
  { apply keeps_transaction. apply Forall_forall. intros p Hp. apply elem_of_list_In, in_map_iff in Hp as (b & <- & Hb). unfold batch. apply keeps_pfor.
    intros st Hst. apply elem_of_list_In, in_map_iff in Hst as (v & <- & Hv). change (keeps (copying c target s) (copy_tree (c_dir c ++ key_dirs (c_part c) v) (target ++ key_dirs (c_part c) v))). apply keeps_copy_tree; [done|]. intros f Ef.
    assert (Hv' : v ∈ vss) by (rewrite <-Hcat; apply elem_of_list_In, in_concat; by exists b).
    apply Hin in Hv' as [[d Hd] _]. destruct (rp_part _ _ _ _ Hs _ _ Hd) as (Hl & _). destruct (key_head e c Hr v Hl) as (a & r' & Ea & Ha & _). rewrite Ea in Ef. cbn in Ef. injection Ef as -> _. done. }
  assert (H1 : copying c target s s1).
  { pose proof (exec_steps CTorn (execute_transaction CTorn sched (map (batch c target) bs')) s) as Hst. rewrite E1 in Hst. cbn [fst snd] in Hst.
    eapply always_sound; [by apply keeps_always|exact Hst]. }
  set (s2 := <[target ++ [CONFIG] := conf]> s1). exists s1, s2. split; [exact H1|]. split; [|split; [|split; [done|split]]].
  - eapply stopped_then; [exact Esel|]. rewrite Eargs, Ebs. cbn [pbind]. rewrite map_map. eapply stopped_then; [exact E1|]. eexists. reflexivity.
  - intros v f Hv HPv. apply A1, Hin. by split.
  - rewrite exec_bind, Esel, Eargs, exec_bind, Ebs. cbn [exec]. rewrite exec_bind. rewrite map_map. unfold batch in E1. rewrite E1.
    rewrite exec_bind, exec_get_tree, exec_bind, Hfiles. cbn [map]. unfold copy_files, pfor. cbn [map pseq].
    rewrite exec_bind, exec_bind, exec_bind, exec_read_file, Hin_src, Hconf, last_snoc, exec_write. cbn [exec pbind pret]. fold s2.
    destruct (open_moved reg (Some mode) (c_dir c) target s s2 conf Hconf ltac:(unfold s2; apply lookup_insert)) as (r0 & _ & Er'). unfold open_collection in Er'. by rewrite Er'.
  - apply always_bind.
    { eapply always_impl; [|apply (always_read (fun u => u = s)); [apply reading_select|done]]. cbn. intros u ->. by left. }
    intros parts u E. rewrite Esel in E. injection E as <- <-. rewrite Eargs, Ebs. cbn [pbind]. rewrite map_map. apply always_bind.
    { eapply always_impl; [|apply keeps_always; [exact Hks|exact H0]]. cbn. auto. }
    intros rs0 u E. change (exec (execute_transaction CTorn sched (map (batch c target) bs')) s = (Ok rs0, u)) in E. rewrite E1 in E. injection E as <- <-.
    apply always_bind; [by cbn; auto|]. intros t u E. rewrite exec_get_tree in E. injection E as <- <-. rewrite Hfiles. cbn [map]. apply always_bind.
    + assert (Ew : exec (let! f <- read_file (c_dir c ++ [CONFIG]); match f, last (c_dir c ++ [CONFIG]) with Some f, Some n => write_file (target ++ [n]) f | _, _ => praise FileNotFoundError end) s1 = (Ok tt, s2)).
      { by rewrite exec_bind, exec_read_file, Hin_src, Hconf, last_snoc, exec_write. }
      unfold copy_files, pfor. cbn [map pseq]. apply always_bind; [apply always_bind|].
      * apply always_bind; [by cbn; auto|]. intros f u E. rewrite exec_read_file, Hin_src, Hconf in E. injection E as <- <-. rewrite last_snoc. apply always_write; auto.
      * intros a u E. rewrite Ew in E. injection E as <- <-. cbn. auto.
      * intros a u E. rewrite exec_bind, Ew in E. cbn in E. injection E as <- <-. cbn. auto.
    + intros [] u E. unfold copy_files, pfor in E. cbn [map pseq] in E. rewrite exec_bind, exec_bind, exec_bind, exec_read_file, Hin_src, Hconf, last_snoc, exec_write in E. cbn in E.
      injection E as <-. fold s2. apply always_open; [unfold s2; rewrite lookup_insert; by eexists|auto].
Qed.
End C96.

(** ** C96: a copy that is interrupted is not taken for a collection *)
Section C96_statements.
Context (e : env) (c : collection) (filt : filter) (P : list Z -> bool) (target : path).
Local Notation copied := (moved_to target c).

(** Wherever a copy is stopped, the source and the rest of the store are as
    before; each file of the target is the file of the source of the same name,
    complete or not; and the target cannot be opened as a collection, whatever
    the mode, unless the copy is complete. *)
Theorem C96_copy_stopped M I s sched workers reg mode np conf u :
  regular e c -> represents c M I s -> filterable c -> (forall v, is_Some (M v) -> says (c_part c) filt v (P v = true)) ->
  apart (c_dir c) target -> nothing_at target s -> s !! (c_dir c ++ [CONFIG]) = Some conf ->
  (exists v, is_Some (M v) /\ P v = true) -> (0 < workers)%Z -> (forall n, np = Some n -> (0 <= n)%Z) ->
  stopped_at (copy e sched workers reg c target filt mode np) s u ->
  (forall q, ~ under target q -> u !! q = s !! q) /\
  (forall f x, u !! (target ++ f) = Some x -> x = CTorn \/ s !! (c_dir c ++ f) = Some x) /\
  ((forall reg' mode', exec (open_collection reg' target mode') u = (Raise ValueError, u)) \/ (exec (copy e sched workers reg c target filt mode np) s).2 = u).
Proof.
  intros Hr Hs Hfi HP Hap Hno Hconf Hex Hw Hnp [p' H].
  destruct (copy_states e c filt P target M I s sched workers reg mode np conf Hr Hs Hfi HP Hap Hno Hconf Hex Hw Hnp) as (s1 & s2 & H1 & _ & _ & E2 & Ex & Ha).
  pose proof (always_sound CTorn _ _ p' s u Ha H) as Hu. cbn beta in Hu. destruct H1 as (A1 & A2 & A3).
  assert (Hins : forall x, (forall q, ~ under target q -> <[target ++ [CONFIG] := x]> s1 !! q = s !! q) /\
    (x = CTorn \/ x = conf -> forall f y, <[target ++ [CONFIG] := x]> s1 !! (target ++ f) = Some y -> y = CTorn \/ s !! (c_dir c ++ f) = Some y)).
  { intros x. split.
    - intros q Nq. rewrite lookup_insert_ne; [by apply A1|]. intros <-. apply Nq, under_app.
    - intros Hx f y. destruct (decide (f = [CONFIG])) as [->|N]; [rewrite lookup_insert; intros [= <-]; destruct Hx as [->| ->]; auto|].
      rewrite lookup_insert_ne; [apply A2|]. intros E. by apply app_inv_head in E. }
  destruct Hu as [(B1 & B2 & B3)|[->| ->]].
  - split; [exact B1|]. split; [exact B2|]. left. intros reg' mode'. unfold open_collection, from_config. rewrite exec_bind, exec_exists.
    destruct (empty_at (target ++ [CONFIG]) u) eqn:Ee; [done|]. cbn [negb]. rewrite exec_bind, exec_read_file, B3. done.
  - split; [apply Hins|]. split; [apply Hins; by left|]. left. intros reg' mode'. apply C64_absent. right. apply lookup_insert.
  - rewrite E2. split; [apply Hins|]. split; [apply Hins; by right|]. right. by rewrite Ex.
Qed.

(** ** C97: an interrupted copy can be made again *)

(** The copy of a partition that is there, complete or not, raises. *)
Lemma keeps_copy_again src tgt (u : store) : ~ nothing_at tgt u -> keeps (fun w => w = u) (copy_tree src tgt) /\ exec (copy_tree src tgt) u = (Raise ValueError, u).
Proof.
  intros H. assert (Ee : empty_at tgt u = false). { destruct (empty_at tgt u) eqn:E; [|done]. exfalso. apply H. by apply nothing_empty. }
  split.
  - unfold copy_tree. cbn. intros w ->. unfold empty_at in Ee. rewrite Ee. done.
  - unfold copy_tree. rewrite exec_bind, exec_exists, Ee. done.
Qed.

(** What follows a program that raises is not run. *)
Lemma keeps_bind_raise {A B : Type} (u : store) (p : program A) (f : A -> program B) ex :
  keeps (fun w => w = u) p -> exec p u = (Raise ex, u) -> keeps (fun w => w = u) (pbind p f).
Proof.
  induction p as [[a|x]|o k IH]; cbn [pbind]; [intros _ [=]|done|]. intros Hk He w ->. destruct (Hk u eq_refl) as (H1 & H2 & H3). cbn [exec] in He.
  destruct (exec_op o u) as [x w] eqn:Eo. cbn [fst snd] in *. subst w. split_and!; [done..|]. by apply IH.
Qed.

(** Tasks which all raise without a change make the transaction raise, whatever
    the schedule. *)
Lemma exec_all_raise {A : Type} (u : store) ex sched : forall ps : list (program A), ps <> [] ->
  Forall (fun p => keeps (fun w => w = u) p /\ exec p u = (Raise ex, u)) ps ->
  exec (execute_transaction CTorn sched ps) u = (Raise ex, u).
Proof.
  intros ps Hne Hps.
  assert (H : exists rs, exec (interleave CTorn sched ps) u = (Ok (Raise ex :: rs), u)); [|unfold execute_transaction; destruct H as [rs H]; rewrite exec_bind, H; done].
  revert ps Hne Hps. induction sched as [|[i tear] sched IH]; intros ps Hne Hps; cbn [interleave].
  - assert (Hall : forall ps, Forall (fun p => keeps (fun w => w = u) p /\ exec p u = (Raise ex, u)) ps -> exec (run_all ps) u = (Ok (map (fun _ : program A => Raise ex) ps), u)).
    { clear. induction 1 as [|p ps [_ Hp] _ IH]; [done|]. cbn [run_all map]. rewrite exec_bind, exec_attempt, Hp. cbn [fst snd]. rewrite exec_bind, IH. done. }
    destruct ps as [|p ps]; [done|]. rewrite (Hall _ Hps). by eexists.
  - destruct (ps !! i) as [[r|o k]|] eqn:Ei; [by apply IH| |by apply IH].
    destruct (proj1 (Forall_lookup _ _) Hps i _ Ei) as [Hk He]. destruct (Hk u eq_refl) as (H1 & H2 & H3). cbn [exec] in He.
    destruct (exec_op o u) as [x w] eqn:Eo. cbn [fst snd] in H2, H3. subst w.
    assert (Hn : exists rs, exec (Op o (fun r => interleave CTorn sched (<[i := k r]> ps))) u = (Ok (Raise ex :: rs), u)).
    { cbn [exec]. rewrite Eo. apply IH; [by destruct ps, i|]. apply Forall_insert; [done|]. split; [done|]. exact He. }
    destruct tear; [|exact Hn]. destruct o as [| q y| | |]; try exact Hn.
    cbn [exec exec_op]. cbn in H1. rewrite H1. by apply IH.
Qed.

(** The claim is false of the code: in every collection, there is a moment of the
    copy where all the partitions are at the target, which cannot be opened, and
    from which every further copy to
    the same target raises. *)
Theorem C97_again_refuted M I s sched workers reg mode np conf :
  regular e c -> represents c M I s -> filterable c -> (forall v, is_Some (M v) -> says (c_part c) filt v (P v = true)) ->
  apart (c_dir c) target -> nothing_at target s -> s !! (c_dir c ++ [CONFIG]) = Some conf ->
  (exists v, is_Some (M v) /\ P v = true) -> (0 < workers)%Z -> (forall n, np = Some n -> (0 <= n)%Z) ->
  exists u, stopped_at (copy e sched workers reg c target filt mode np) s u /\
    (forall v q, is_Some (M v) -> P v = true -> u !! (part_dir copied v ++ q) = s !! (part_dir c v ++ q)) /\
    (forall reg' mode', exec (open_collection reg' target mode') u = (Raise ValueError, u)) /\
    forall sched', exec (copy e sched' workers reg c target filt mode np) u = (Raise ValueError, u).
Proof.
  intros Hr Hs Hfi HP Hap Hno Hconf Hex Hw Hnp.
  destruct (copy_states e c filt P target M I s sched workers reg mode np conf Hr Hs Hfi HP Hap Hno Hconf Hex Hw Hnp) as (u & s2 & (A1 & A2 & A3) & Hst & Hparts & _ & _ & _).
  exists u. split; [exact Hst|]. split; [exact Hparts|]. split.
  { intros reg' mode'. unfold open_collection, from_config. rewrite exec_bind, exec_exists.
    destruct (empty_at (target ++ [CONFIG]) u) eqn:Ee; [done|]. cbn [negb]. rewrite exec_bind, exec_read_file, A3. done. }
  destruct Hex as (v0 & Hv0 & HPv0).
  assert (Hsrc : forall q, u !! (c_dir c ++ q) = s !! (c_dir c ++ q)) by (intros q; apply A1; intros U; exact (Hap _ (under_app _ _) U)).
  assert (Hsu : represents c M I u).
  { split.
    - intros q x Hx. rewrite Hsrc in Hx. exact (rp_files _ _ _ _ Hs _ _ Hx).
    - intros v d Hd. destruct (rp_part _ _ _ _ Hs _ _ Hd) as (Hl & Hso & Hh). split; [done|]. split; [done|].
      assert (sub (part_dir c v) u = sub (part_dir c v) s) as ->; [|done]. apply map_eq. intros q. rewrite !sub_lookup. unfold part_dir. rewrite <-app_assoc. apply Hsrc.
    - intros d Hd. destruct (rp_immutable _ _ _ _ Hs _ Hd) as (Hso & Hh). split; [done|].
      assert (sub (c_dir c ++ [IMMUTABLE]) u = sub (c_dir c ++ [IMMUTABLE]) s) as ->; [|done]. apply map_eq. intros q. rewrite !sub_lookup, <-app_assoc. apply Hsrc. }
  destruct (select_filter e c Hr M I u filt (fun v => P v = true) Hsu Hfi HP) as (vss & Hso & Hin & Esel).
  assert (Hthere : forall v, v ∈ vss -> ~ nothing_at (part_dir copied v) u).
  { intros v Hv Hn. apply Hin in Hv as [[d Hd] HPv]. destruct (rp_part _ _ _ _ Hs _ _ Hd) as (_ & _ & _ & Hh). pose proof (hg_group _ _ _ Hh) as Hg. rewrite sub_lookup in Hg.
    rewrite <-(Hparts v [ZGROUP] ltac:(by eexists) HPv), Hn in Hg by apply under_app. done. }
  unfold copy. set (n := match np with Some n => if (n =? 0)%Z then workers else n | None => workers end) in *.
  assert (Hn : (0 < n)%Z).
  { unfold n. destruct np as [k|]; [|done]. specialize (Hnp k eq_refl). destruct (k =? 0)%Z eqn:E; [done|]. lia. }
  assert (Eargs : map (fun q => (q, target ++ drop (length (c_dir c)) q)) (map (part_dir c) vss) = map (fun v => (part_dir c v, part_dir copied v)) vss).
  { rewrite map_map. apply map_ext. intros v. f_equal. unfold part_dir. by rewrite drop_app. }
  assert (exists bs, split_sequence (map (fun v => (part_dir c v, part_dir copied v)) vss) (Some n) = Ok bs) as [bs Ebs].
  { unfold split_sequence. rewrite map_length. destruct (n <=? 0)%Z eqn:E; [lia|]. destruct (_ =? 0) eqn:E0; [|by eexists]. exfalso. apply Nat.eqb_eq in E0.
    assert (v0 ∈ vss) by (by apply Hin). destruct vss; [by apply (not_elem_of_nil v0)|]. cbn [length] in E0. lia. }
  pose proof (split_sequence_lengths _ _ _ Ebs) as Hlen.
  intros sched'. rewrite exec_bind, Esel, Eargs, Ebs. cbn [pbind]. rewrite exec_bind. rewrite (exec_all_raise u ValueError); [done|..].
  - intros Hm. apply map_eq_nil in Hm. subst bs. destruct Hlen as [Hc _]. cbn in Hc. assert (v0 ∈ vss) as Hv by (by apply Hin). destruct vss; [by apply elem_of_nil in Hv|done].
  - apply Forall_forall. intros p Hp. apply elem_of_list_In, in_map_iff in Hp as (b & <- & Hb).
    destruct b as [|st b].
    + exfalso. destruct Hlen as (_ & Hk & Hl). rewrite map_length in Hl, Hk. set (k := Z.to_nat _) in *. cbn [from_option id] in k.
      assert (In 0 (map length bs)) as H0 by (apply in_map_iff; by exists []). rewrite Hl in H0. 
      assert (k <= length vss) by (unfold k; lia). assert (1 <= length vss / k) by (apply Nat.div_le_lower_bound; lia).
      apply in_app_iff in H0 as [H0|H0]; apply repeat_spec in H0 || (apply elem_of_list_In, elem_of_replicate in H0 as [H0 _]); lia.
    + assert (exists v, st = (part_dir c v, part_dir copied v) /\ v ∈ vss) as (v & -> & Hv).
      { destruct Hlen as [Hc _]. assert (In st (concat bs)) as Hsb by (apply in_concat; exists (st :: b); split; [done|by left]). rewrite Hc in Hsb. apply in_map_iff in Hsb as (v & <- & Hv). exists v. split; [done|by apply elem_of_list_In]. }
      destruct (keeps_copy_again (part_dir c v) _ u (Hthere v Hv)) as [K1 K2]. unfold pfor. cbn [map pseq fst snd]. split.
      * apply keeps_bind; [|done]. exact (keeps_bind_raise u _ _ ValueError K1 K2).
      * rewrite exec_bind, exec_bind, K2. done.
Qed.
End C96_statements.

Print Assumptions C96_copy_stopped.
Print Assumptions C97_again_refuted.

(** The copy of the second partition of a collection of two: stopped once the
    partition is there, it cannot be opened nor made again. *)
Example C96_case : exists M s u, represents Y_coll M None s /\ is_Some (M [1%Z]) /\ is_Some (M [2%Z]) /\
  let again sched := copy X_env sched 2 X_registry Y_coll X_target (FFun (fun kv => Ok (bool_decide (kv = [(lit "pass", 2%Z)])))) (lit "r") None in
  stopped_at (again []) s u /\ (forall q, u !! (part_dir (moved_to X_target Y_coll) [2%Z] ++ q) = s !! (part_dir Y_coll [2%Z] ++ q)) /\
  (forall reg mode, exec (open_collection reg X_target mode) u = (Raise ValueError, u)) /\ exec (again []) u = (Raise ValueError, u).
Proof.
  destruct Y_filled as (M & s0 & Hs0 & _ & (p1 & p2 & H1 & H2 & H3 & _)).
  pose proof (proj1 (alone_represents X_env Y_coll M None s0 Y_regular Hs0)) as Hs.
  assert (HP : forall v, is_Some (M v) -> says (c_part Y_coll) (FFun (fun kv => Ok (bool_decide (kv = [(lit "pass", 2%Z)])))) v (bool_decide (v = [2%Z]) = true)).
  { intros v [d Hd]. destruct (decide (v = [1%Z])) as [->|N1]; [exists false; by vm_compute|]. destruct (decide (v = [2%Z])) as [->|N2]; [exists true; by vm_compute|].
    rewrite H3 in Hd by done. done. }
  pose proof (alone_target X_env Y_coll M None s0 eq_refl Y_regular Hs0) as Hno.
  destruct (C97_again_refuted X_env Y_coll _ (fun v => bool_decide (v = [2%Z])) X_target M None (alone Y_coll s0) [] 2%Z X_registry (lit "r") None
    (CConf (config_of Y_coll)) Y_regular Hs Y_filterable HP X_target_apart Hno (alone_config _ _) ltac:(exists [2%Z]; split; [by eexists|reflexivity]) ltac:(reflexivity) ltac:(discriminate)) as (u & Hu & Hp & Ho & Ha).
  exists M, (alone Y_coll s0), u. split; [exact Hs|]. split; [by eexists|]. split; [by eexists|]. split; [exact Hu|]. split; [|split; [exact Ho|apply Ha]].
  intros q. apply Hp; [by eexists|reflexivity].
Qed.
