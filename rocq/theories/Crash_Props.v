(** * Interrupted insertions and removals: C22, C23, C50, C51 *)
From Verif Require Import Py Dict NdArray_Model NdArray_Spec NdArray_Proofs Dataset_Model Dataset_Spec Dataset_Proofs Dataset_Props Dataset_Props2 Meta_Model Meta_Spec Meta_Props PartPath_Model PartPath_Proofs
  Split_Model Split_Spec DaskUtils_Model DaskUtils_Proofs DaskUtils_Props FS_Model FS_Proofs Pool_Model Pool_Proofs Storage_Model Storage_Chunks Storage_Spec Storage_Proofs
  Listing_Model Listing_Spec Listing_Proofs Collection_Model Collection_Spec Collection_Split Collection_Proofs Collection_State Collection_Prepare Collection_Insert
  Collection_Select Collection_Total Collection_Create Collection_Crash Crash_Spec Collection_Example Assemble_Proofs Collection_Props.

Lemma open_same (u u' : store) d d' delayed sel : sub d u = sub d' u' ->
  (exec (open_zarr_group d delayed sel) u).1 = (exec (open_zarr_group d' delayed sel) u').1.
Proof. intros E. cbn. by rewrite E. Qed.
Lemma readable_sub (u : store) d ds : sound ds -> holds_dataset (sub d u) ds -> readable_as u d ds.
Proof.
  intros Hs Hh delayed sel. destruct (holds_reads _ _ delayed sel Hs Hh) as (ds' & E & H). exists ds'. split; [|done]. cbn. by rewrite E.
Qed.
Lemma readable_tree (u : store) d ds : sound ds -> sub d u = group_tree ds -> readable_as u d ds.
Proof. intros Hs E. apply readable_sub; [done|]. rewrite E. apply holds_tree, Hs. Qed.
Lemma unreadable_cons (u : store) d : u !! (d ++ [ZMETADATA]) = None \/ u !! (d ++ [ZMETADATA]) = Some CTorn -> unreadable u d.
Proof.
  intros H delayed sel. cbn. unfold read_group, read_cons. rewrite sub_lookup. by destruct H as [->| ->]; cbn; eexists.
Qed.
Lemma untouched_sub (s u : store) d : sub d u = sub d s -> untouched s u d.
Proof. intros E q (t & ->). by rewrite <-!sub_lookup, E. Qed.

(** ** C22 *)
Section C22.
  Context (e : env) (c : collection) (ds : dataset) (rows : list (list Z)) (merge : option merge_callable)
    (scheds : nat -> schedule) (inner : path -> schedule) (np : option Z) (validate : bool)
    (M : list Z -> option dataset) (I : option dataset) (s u : store).
  Hypothesis Hr : regular e c.
  Hypothesis Hc : declared c.
  Hypothesis Hi : insertable e c ds rows merge.
  Hypothesis Hs : represents c M I s.
  Hypothesis Hu : stopped_at (insert e scheds inner c ds merge np validate) s u.

  Lemma stopped_under_way : under_way e c ds rows merge M I s u.
  Proof. destruct Hu as [p' H]. eapply always_sound; [|exact H]. by apply always_insert. Qed.

  (** The other partitions, the configuration and what lies outside of the
      collection are not touched. *)
Theorem C22_others :
    (forall v, length v = length (p_keys (c_part c)) -> v ∉ rows -> untouched s u (part_dir c v)) /\
    (forall q, ~ under (c_dir c) q \/ q = c_dir c ++ [CONFIG] -> u !! q = s !! q) /\
    (is_Some I -> untouched s u (c_dir c ++ [IMMUTABLE])).
  Proof.
    destruct (under_way_spec e c Hr Hc ds rows merge Hi M I s u Hs stopped_under_way) as (H1 & H2 & H3). split_and!; [|done|].
    - intros v Hl Hv. apply untouched_sub. destruct (H3 v Hl) as [|[? _]]; done.
    - intros HI. by apply untouched_sub, H2.
  Qed.
  (** A partition written for the first time. *)
Theorem C22_new_partition v : v ∈ rows -> M v = None ->
    let d := part_dir c v in
    absent u d \/
    (unreadable u d /\ (absent u (d ++ [ZMETADATA]) \/ u !! (d ++ [ZMETADATA]) = Some CTorn)) \/
    exists part new, fitted c (moving c) ds part /\ replaced c merge (d_delayed ds) rows part v None new /\ readable_as u d new.
  Proof.
    intros Hv HM d. destruct (under_way_spec e c Hr Hc ds rows merge Hi M I s u Hs stopped_under_way) as (_ & _ & H).
    assert (Hl : length v = length (p_keys (c_part c))) by (eapply record_keys_length; [apply (in_keys _ _ _ _ _ Hi)|done]).
    destruct (H v Hl) as [E|(_ & part & new & Hf & Hso & Hrep & Hst)].
    - left. intros q Hq. rewrite (untouched_sub _ _ _ E q Hq). by eapply (part_nothing e c Hr M I s v).
    - right. rewrite HM in *. destruct Hst as [E|[(_ & Hz & _)|[(_ & Hz)|([? ?] & _)]]]; [| | |done].
      + right. exists part, new. split_and!; [done|done|]. by apply readable_tree.
      + left. split; [|by left]. apply unreadable_cons. left. apply Hz, under_refl.
      + left. split; [|by right]. apply unreadable_cons. by right.
  Qed.

  (** ** C23 *)
  (** A partition that is replaced. What is missing: in the last case nothing
      can be told of what is read of the partition, see
      [C23_gone_refuted] and [C23_missing_chunk_refuted]. *)
Theorem C23_replaced_partial v old : v ∈ rows -> M v = Some old ->
    let d := part_dir c v in
    (untouched s u d /\ readable_as u d old) \/
    exists part new, fitted c (moving c) ds part /\ replaced c merge (d_delayed ds) rows part v (Some old) new /\
      (readable_as u d new \/
       ((forall q, u !! (d ++ q) = s !! (d ++ q) \/ u !! (d ++ q) = None) /\ readable_as u (c_dir c ++ [e_hash e d]) new)).
  Proof.
    intros Hv HM d. destruct (under_way_spec e c Hr Hc ds rows merge Hi M I s u Hs stopped_under_way) as (_ & _ & H).
    destruct (rp_part _ _ _ _ Hs _ _ HM) as (Hl & Hso' & Hh).
    destruct (H v Hl) as [E|(_ & part & new & Hf & Hso & Hrep & Hst)].
    - left. split; [by apply untouched_sub|]. apply readable_sub; [done|]. unfold d. by rewrite E.
    - right. exists part, new. rewrite HM in *. split_and!; [done|done|]. destruct Hst as [E|[(? & _)|[(? & _)|(_ & Hp & Ht)]]]; [|done|done|].
      + left. by apply readable_tree.
      + right. split.
        * intros q. destruct (Hp q) as [E|[_ E]]; rewrite !sub_lookup in E; auto.
        * apply readable_tree; [done|]. unfold d. by rewrite <-(temp_part e c Hr v).
  Qed.
End C22.
Print Assumptions C22_others.
Print Assumptions C22_new_partition.
Print Assumptions C23_replaced_partial.

(** ** Reaching a crash point *)
Lemma steps_bind {A B : Type} (p p' : program A) (f : A -> program B) (s s' : store) :
  rtc (step CTorn) (p, s) (p', s') -> rtc (step CTorn) (pbind p f, s) (pbind p' f, s').
Proof.
  intros H. remember (p, s) as x eqn:Ex. remember (p', s') as y eqn:Ey. revert p s Ex. induction H as [x|x [p1 s1] y H1 H2 IH]; intros p s Ex; subst.
  - injection Ex as -> ->. constructor.
  - eapply rtc_l; [|by apply IH]. inversion H1; subst; cbn [pbind].
    + apply (step_do CTorn o (fun r => pbind (k r) f)).
    + apply (step_tear CTorn p0 c (fun r => pbind (k r) f)).
    + by apply (step_rm CTorn p0 (fun r => pbind (k r) f)).
    + by apply (step_rmtree CTorn p0 (fun r => pbind (k r) f)).
Qed.
Lemma steps_catch {A : Type} (p p' : program A) (h : exn -> program A) (s s' : store) :
  rtc (step CTorn) (p, s) (p', s') -> rtc (step CTorn) (pcatch p h, s) (pcatch p' h, s').
Proof.
  intros H. remember (p, s) as x eqn:Ex. remember (p', s') as y eqn:Ey. revert p s Ex. induction H as [x|x [p1 s1] y H1 H2 IH]; intros p s Ex; subst.
  - injection Ex as -> ->. constructor.
  - eapply rtc_l; [|by apply IH]. inversion H1; subst; cbn [pcatch].
    + apply (step_do CTorn o (fun r => pcatch (k r) h)).
    + apply (step_tear CTorn p0 c (fun r => pcatch (k r) h)).
    + by apply (step_rm CTorn p0 (fun r => pcatch (k r) h)).
    + by apply (step_rmtree CTorn p0 (fun r => pcatch (k r) h)).
Qed.
Lemma steps_attempt {A : Type} (p p' : program A) (s s' : store) :
  rtc (step CTorn) (p, s) (p', s') -> rtc (step CTorn) (attempt p, s) (attempt p', s').
Proof.
  intros H. remember (p, s) as x eqn:Ex. remember (p', s') as y eqn:Ey. revert p s Ex. induction H as [x|x [p1 s1] y H1 H2 IH]; intros p s Ex; subst.
  - injection Ex as -> ->. constructor.
  - eapply rtc_l; [|by apply IH]. inversion H1; subst; cbn [attempt].
    + apply (step_do CTorn o (fun r => attempt (k r))).
    + apply (step_tear CTorn p0 c (fun r => attempt (k r))).
    + by apply (step_rm CTorn p0 (fun r => attempt (k r))).
    + by apply (step_rmtree CTorn p0 (fun r => attempt (k r))).
Qed.
Lemma stopped_first {A B : Type} (p : program A) (f : A -> program B) s u : stopped_at p s u -> stopped_at (pbind p f) s u.
Proof. intros [p' H]. exists (pbind p' f). by apply steps_bind. Qed.
Lemma stopped_then {A B : Type} (p : program A) (f : A -> program B) a s s1 u : exec p s = (Ok a, s1) -> stopped_at (f a) s1 u -> stopped_at (pbind p f) s u.
Proof.
  intros E [p' H]. exists p'. pose proof (exec_steps CTorn p s) as Hs. rewrite E in Hs. cbn [fst snd] in Hs.
  eapply rtc_transitive; [exact (steps_bind p (Ret (Ok a)) f s s1 Hs)|exact H].
Qed.
Lemma stopped_catch {A : Type} (p : program A) (h : exn -> program A) s u : stopped_at p s u -> stopped_at (pcatch p h) s u.
Proof. intros [p' H]. exists (pcatch p' h). by apply steps_catch. Qed.
Lemma stopped_attempt {A : Type} (p : program A) s u : stopped_at p s u -> stopped_at (attempt p) s u.
Proof. intros [p' H]. exists (attempt p'). by apply steps_attempt. Qed.

(** The first partition of an insertion, when the partitions are written one
    by one. *)
Section first.
  Context (e : env) (c : collection) (ds : dataset) (v : list Z) (rest : list (list Z)) (merge : option merge_callable)
    (inner : path -> schedule) (validate : bool) (M : list Z -> option dataset) (I : option dataset) (s : store) (dirs : list path) (s' : store).
  Hypothesis Hr : regular e c.
  Hypothesis Hc : declared c.
  Hypothesis Hi : insertable e c ds (v :: rest) merge.
  Hypothesis Hs : represents c M I s.
  Hypothesis HI : is_Some I \/ c_immutable c = false.
  Hypothesis Hx : exec (insert e (fun _ => []) inner c ds merge None validate) s = (Ok dirs, s').

  Lemma first_partition : exists part sl, sound part /\ fitted c (moving c) ds part /\ sl.1 <= sl.2 <= length (v :: rest) /\
    positions_of (v :: rest) v (seq sl.1 (sl.2 - sl.1)) /\ dget (d_dims part) (c_dim c) = Some (length (v :: rest)) /\
    forall u : store, untouched s u (c_dir c ++ [IMMUTABLE]) ->
      (forall w, stopped_at (insert_partition e inner c part merge (key_dirs (c_part c) v, sl)) u w -> stopped_at (insert e (fun _ => []) inner c ds merge None validate) u w) /\
      (forall ex w, exec (insert_partition e inner c part merge (key_dirs (c_part c) v, sl)) u = (Raise ex, w) ->
         exec (insert e (fun _ => []) inner c ds merge None validate) u = (Raise ex, w)).
  Proof.
    unfold insert in *. destruct (c_readonly c); [done|]. destruct (prepare c ds validate) as [out|ex] eqn:Ep; [|done]. cbn [pbind] in *.
    destruct (exec_insert_immutable e c Hr Hc ds (in_sound _ _ _ _ _ Hi) (in_conforms _ _ _ _ _ Hi) M I s validate out Ep Hs)
      as (part & I' & s1 & E & Hp & Hf & Hs1 & Hout & HI').
    rewrite exec_bind, E in Hx. cbv iota in Hx.
    destruct (split_dataset (c_part c) part) as [parts|ex] eqn:Es; cbn [pbind] in *; [|done].
    destruct (batches_of parts None) as [bs|ex] eqn:Eb; cbn [pbind] in *; [|done].
    destruct (part_rows e c Hr Hc ds (v :: rest) merge Hi part Hp Hf) as [Hrk Hn].
    destruct (split_sound _ _ _ _ (rg_keys _ _ Hr) Hrk (in_size _ _ _ _ _ Hi) Es) as (kparts & -> & Hk & Hlz).
    assert (Hsorted : never_decreases row_lt (v :: rest)).
    { destruct (in_sorted _ _ _ _ _ Hi) as [Hd|]; [|done]. apply Hlz. by rewrite (ft_delayed _ _ _ _ Hf). }
    assert (Hfi : files_every_record_once (v :: rest) kparts) by (by apply (ks_files _ _ Hk)).
    destruct kparts as [|[w sl] l]; [by pose proof (batches_concat _ _ _ Eb) as [_ ?]|].
    assert (Hb : bs = [(key_dirs (c_part c) w, sl)] :: map (fun x => [x]) (map (fun ks => (key_dirs (c_part c) ks.1, ks.2)) l)).
    { unfold batches_of in Eb. rewrite C08_split_sequence_default in Eb by done. by injection Eb as <-. }
    assert (Hw : w = v).
    { pose proof (ks_cover _ _ Hk) as Hcv. pose proof (ks_first _ _ Hk) as Hf1. pose proof (ks_some _ _ Hk) as Hsm.
      inversion Hf1 as [|? ? Hw _]; subst. inversion Hsm as [|? ? Hlt _]; subst. cbn in Hw, Hlt, Hcv.
      destruct (sl.2 - sl.1) as [|k] eqn:Ek; [lia|]. cbn in Hcv. injection Hcv as Hz _. rewrite Hz in Hw. by injection Hw. }
    subst w. exists part, sl. split_and!; try done.
    - apply (keyed_bounds _ _ Hk (v, sl)). left.
    - apply (keyed_bounds _ _ Hk (v, sl)). left.
    - apply (keyed_positions _ _ Hk Hfi (v, sl)). left.
    - intros u Hu.
      assert (Eu : exec (insert_immutable c out) u = (Ok part, u)).
      { assert (Ess : exec (insert_immutable c out) s = (Ok part, s)).
        { rewrite E. f_equal. destruct I; [by destruct HI'|]. destruct HI as [[? ?]|Ei]; [done|]. rewrite Ei in HI'. by destruct HI'. }
        assert (sub (c_dir c ++ [IMMUTABLE]) u = sub (c_dir c ++ [IMMUTABLE]) s) as Esub by (apply map_eq; intros q; rewrite !sub_lookup; apply Hu, under_app).
        unfold insert_immutable in Ess |- *. destruct (c_immutable c) eqn:Ei; [|cbn in Ess |- *; congruence].
        destruct HI as [[i Hi']|]; [|done]. rewrite exec_bind, exec_exists in Ess |- *. cbv iota in Ess |- *. unfold empty_at in *. rewrite Esub.
        assert (bool_decide (map_to_list (sub (c_dir c ++ [IMMUTABLE]) s) = []) = false) as Ene.
        { apply (proj2 (empty_at_false (c_dir c ++ [IMMUTABLE]) s)). exists ((c_dir c ++ [IMMUTABLE]) ++ [ZGROUP]), (CMeta MGroup). split; [apply under_app|].
          rewrite <-sub_lookup. apply (rp_immutable _ _ _ _ Hs i Hi'). }
        rewrite Ene in Ess |- *. cbn in Ess |- *. congruence. }
      split.
      + intros w Hst. eapply stopped_then; [exact Eu|]. rewrite Es. cbn [pbind]. rewrite Eb, Hb. cbn [pbind].
        apply stopped_first. unfold pfor. apply stopped_first. cbn [imap map pseq fst snd]. apply stopped_first.
        unfold execute_transaction. cbn [interleave]. apply stopped_first. cbn [run_all]. apply stopped_first. by apply stopped_attempt.
      + intros ex w Hex. rewrite exec_bind, Eu. cbv iota. rewrite Es. cbn [pbind]. rewrite Eb, Hb. cbn [pbind]. rewrite exec_bind.
        unfold pfor. rewrite exec_bind. cbn [imap map pseq fst snd]. rewrite exec_bind.
        unfold execute_transaction. cbn [interleave]. rewrite exec_bind, exec_run_all. cbn [exec_all]. rewrite Hex. cbn. done.
  Qed.
End first.

(** The claim "inserting again ends with the complete partition" is false of
    the code: over the remains of an interrupted first write, the insertion
    raises an error; it removes the remains, so that only the second attempt
    writes the partition. *)
Theorem C51_retry_refuted e c ds v rest merge inner validate M I s dirs s' u :
  regular e c -> declared c -> insertable e c ds (v :: rest) merge -> represents c M I s -> M v = None ->
  is_Some I \/ c_immutable c = false ->
  exec (insert e (fun _ => []) inner c ds merge None validate) s = (Ok dirs, s') ->
  (forall q, ~ under (part_dir c v) q -> u !! q = s !! q) ->
  absent u (part_dir c v ++ [ZMETADATA]) -> is_Some (u !! (part_dir c v ++ [ZGROUP])) ->
  exists ex, exec (insert e (fun _ => []) inner c ds merge None validate) u = (Raise ex, s).
Proof.
  intros Hr Hc Hi Hs HM HI Hx Hu Hz Hg.
  assert (Hl : length v = length (p_keys (c_part c))) by (eapply record_keys_length; [apply (in_keys _ _ _ _ _ Hi)|left]).
  destruct (first_partition e c ds v rest merge inner validate M I s dirs s' Hr Hc Hi Hs HI Hx) as (part & sl & Hp & Hf & Hsl & _ & Hn & H).
  assert (Hk : untouched s u (c_dir c ++ [IMMUTABLE])).
  { intros q (t & ->). apply Hu. intros (f & Ef). unfold part_dir in Ef. rewrite <-!app_assoc in Ef. apply app_inv_head in Ef.
    destruct (key_head e c Hr v Hl) as (a & r & Ea' & Ha & Hd). rewrite Ea' in Ef. injection Ef as <- _. done. }
  destruct (H u Hk) as [_ Hex]. pose proof (part_nothing e c Hr M I s v Hs Hl HM) as Hno.
  assert (Epr : prune (part_dir c v) u = s).
  { apply map_eq. intros q. rewrite prune_lookup. destruct (decide _) as [U|U]; [symmetry; by apply Hno|by apply Hu]. }
  exists (if decide (is_Some (u !! (part_dir c v ++ [ZARRAY]))) then ContainsArrayError else ContainsGroupError). apply Hex. clear Hex H Hx.
  unfold insert_partition. cbv zeta. cbn [fst snd]. fold (part_dir c v). set (d := part_dir c v) in *.
  rewrite exec_bind, exec_exists. cbv iota. assert (empty_at (d ++ [ZMETADATA]) u = true) as -> by (by apply empty_at_true).
  cbn [negb]. rewrite exec_catch, exec_bind. unfold init_group. rewrite exec_bind, exec_read_file. cbv iota. rewrite exec_bind, exec_read_file. cbv iota.
  rewrite (bool_decide_eq_true_2 _ Hg). destruct (decide (is_Some (u !! (d ++ [ZARRAY])))) as [D|D].
  - rewrite (bool_decide_eq_true_2 _ D). cbn. by rewrite Epr.
  - rewrite (bool_decide_eq_false_2 _ D). cbn. by rewrite Epr.
Qed.
Print Assumptions C51_retry_refuted.
(** The second attempt is the one that ends as the insertion would have without
    the interruption. What is missing: the claim for the first attempt, which is
    false. *)
Theorem C51_second_retry_partial e c ds v rest merge inner validate M I s dirs s' u :
  regular e c -> declared c -> insertable e c ds (v :: rest) merge -> represents c M I s -> M v = None ->
  is_Some I \/ c_immutable c = false ->
  exec (insert e (fun _ => []) inner c ds merge None validate) s = (Ok dirs, s') ->
  (forall q, ~ under (part_dir c v) q -> u !! q = s !! q) ->
  absent u (part_dir c v ++ [ZMETADATA]) -> is_Some (u !! (part_dir c v ++ [ZGROUP])) ->
  let u' := (exec (insert e (fun _ => []) inner c ds merge None validate) u).2 in
  exec (insert e (fun _ => []) inner c ds merge None validate) u' = (Ok dirs, s').
Proof.
  intros Hr Hc Hi Hs HM HI Hx Hu Hz Hg u'. subst u'.
  destruct (C51_retry_refuted e c ds v rest merge inner validate M I s dirs s' u Hr Hc Hi Hs HM HI Hx Hu Hz Hg) as [ex ->]. exact Hx.
Qed.
Print Assumptions C51_second_retry_partial.

(** The window of C23: while a partition is replaced, the process may be
    stopped when any part of the old files is gone, the new ones being in a
    directory of another name. *)
Theorem C23_window e c ds v rest inner validate M I s dirs s' :
  regular e c -> declared c -> insertable e c ds (v :: rest) None -> represents c M I s -> is_Some (M v) ->
  is_Some I \/ c_immutable c = false ->
  exec (insert e (fun _ => []) inner c ds None None validate) s = (Ok dirs, s') ->
  forall keep : path -> bool, exists u,
    stopped_at (insert e (fun _ => []) inner c ds None None validate) s u /\
    (forall q, u !! (part_dir c v ++ q) = if keep q then s !! (part_dir c v ++ q) else None) /\
    is_Some (u !! (c_dir c ++ [e_hash e (part_dir c v); ZGROUP])).
Proof.
  intros Hr Hc Hi Hs [old HM] HI Hx keep.
  assert (Hl : length v = length (p_keys (c_part c))) by (eapply record_keys_length; [apply (in_keys _ _ _ _ _ Hi)|left]).
  destruct (first_partition e c ds v rest None inner validate M I s dirs s' Hr Hc Hi Hs HI Hx) as (part & sl & Hp & Hf & Hsl & _ & Hn & H).
  destruct (H s ltac:(done)) as [Hst _]. clear H Hx.
  destruct (slice_ok c part (length (v :: rest)) Hp Hn sl Hsl) as (piece & E & Hpi & _).
  destruct (rp_part _ _ _ _ Hs _ _ HM) as (_ & Ho & Hh).
  pose proof (temp_apart e c Hr v v Hl) as Ha. pose proof (temp_nothing e c Hr M I s v Hs) as Ht. pose proof (temp_part e c Hr v) as Etp.
  assert (Hz : empty_at (part_dir c v ++ [ZMETADATA]) s = false).
  { apply empty_at_false. exists (part_dir c v ++ [ZMETADATA]). destruct Hh as [_ Hh]. pose proof (hg_cons _ _ _ Hh) as Hcons. rewrite sub_lookup in Hcons.
    eexists. split; [apply under_refl|exact Hcons]. }
  clear Hh. set (d := part_dir c v) in *. set (t := temp_dir e d) in *.
  assert (Hf' : fresh_at t (<[t ++ [ZGROUP] := CMeta MGroup]> s)).
  { intros q x0. destruct (decide (q = [ZGROUP])) as [->|Nq]; [done|]. rewrite lookup_insert_ne by (intros E'; by apply app_inv_head in E').
    rewrite Ht by apply under_app. done. }
  set (s2 := graft t (group_tree piece) (prune t s)).
  set (kept := fun p : path => match strip d p with Some q => keep q | None => true end).
  set (u := base.filter (fun kc : path * content => kept kc.1 = true) s2 : store).
  assert (Lu : forall p, u !! p = if kept p then s2 !! p else None).
  { intros p. unfold u. destruct (kept p) eqn:K.
    - destruct (s2 !! p) as [x|] eqn:Ex; [by apply map_filter_lookup_Some|]. apply map_filter_lookup_None. by left.
    - apply map_filter_lookup_None. right. intros x _ N. cbn in N. congruence. }
  exists u. split_and!.
  - apply Hst. unfold insert_partition. cbv zeta. cbn [fst snd]. change (c_dir c ++ key_dirs (c_part c) v) with d.
    eapply stopped_then; [apply exec_exists|]. rewrite Hz. cbn [negb].
    change [(c_dim c, ISlice (Some (Z.of_nat sl.1)) (Some (Z.of_nat sl.2)))] with (slice_of c sl). rewrite E. cbn [pbind]. unfold perform. cbn [pbind pret]. unfold update_fs. cbv zeta. fold t.
    eapply stopped_then; [apply exec_exists|]. rewrite (proj1 (nothing_empty _ _) Ht). cbn [negb].
    eapply stopped_then; [reflexivity|].
    eapply stopped_then; [by apply exec_init_group|].
    eapply stopped_then; [rewrite exec_catch, exec_write_group by (by try apply Hpi); reflexivity|].
    rewrite prune_insert. fold s2. unfold rename. apply stopped_first. eexists. apply rtc_once. unfold rmtree. apply step_rmtree.
    intros q. rewrite Lu. unfold kept. destruct (strip d q) as [f|] eqn:Ef; [|by left]. apply strip_Some in Ef as ->.
    destruct (keep f); [by left|right]. split; [apply under_app|done].
  - intros q. rewrite Lu. unfold kept. rewrite strip_app. destruct (keep q); [|done]. unfold s2.
    assert (~ under t (d ++ q)) by (intros U; apply (Ha (d ++ q)); [apply under_app|done]).
    by rewrite graft_lookup_out, prune_lookup, decide_False.
  - change [e_hash e d; ZGROUP] with ([e_hash e d] ++ [ZGROUP]). rewrite app_assoc, <-Etp. rewrite Lu. unfold kept.
    assert (strip d (t ++ [ZGROUP]) = None) as ->. { apply strip_None. intros U. apply (Ha (t ++ [ZGROUP])); [done|apply under_app]. }
    unfold s2. rewrite graft_lookup_under. pose proof (holds_tree piece (sound_storable _ Hpi)) as [_ Hh]. pose proof (hg_group _ _ _ Hh) as Hg. rewrite Hg. by eexists.
Qed.
Print Assumptions C23_window.

Lemma search_ceq ks s r : search ks s = Some r -> length ks <= ceq s.
Proof.
  revert r. induction s as [|x s IH]; intros r; cbn [search]; (destruct (match_from ks _) as [r'|] eqn:E; [intros _; by apply match_from_ceq in E|]); [done|].
  intros H. apply IH in H. cbn [ceq]. lia.
Qed.
(** A directory of the collection whose name is not one of a partition makes
    the listing of the partitions raise. *)
Lemma listing_stray e c f (u : store) a n x : regular e c -> p_len (c_part c) = 1 ->
  u !! (c_dir c ++ [a; n]) = Some x -> digest a -> exists ex, exec (select_parts e c f) u = (Raise ex, u).
Proof.
  intros Hr Hlen Hx Ha. unfold select_parts. cbn [pbind get_tree exec exec_op fst snd].
  set (t := sub [] u). assert (Ht : t !! (c_dir c ++ [a; n]) = Some x) by (unfold t; by rewrite sub_lookup).
  unfold partitions. cbv iota. destruct (list_partitions (e_order e) (c_part c) t (c_dir c)) as [l0|ex] eqn:El; [exfalso|exists ex; cbn; fold t; by rewrite El].
  unfold list_partitions in El. rewrite Hlen in El. set (tr := traverse _ _) in El. destruct tr as [l|ex] eqn:E; [|done]. subst tr.
  cbn [list_root] in E. apply traverse_inv in E.
  assert (Hin : c_dir c ++ [a] ∈ map (fun n => c_dir c ++ [n]) (List.filter (fun n => is_dir (c_dir c ++ [n]) t && negb (hidden n)) (children (e_order e) (c_dir c) t))).
  { apply elem_of_list_In, in_map_iff. exists a. split; [done|]. apply filter_In. split.
    - apply elem_of_list_In, children_elem; [apply (rg_order _ _ Hr)|]. by exists [n], x.
    - apply andb_true_iff. split.
      + apply is_dir_iff. exists n, [], x. by rewrite <-app_assoc.
      + apply negb_true_iff, not_true_is_false. rewrite hidden_iff. intros [s0 ->]. destruct Ha as [_ Ha]. specialize (Ha "."%char (elem_of_list_here _ _)). revert Ha. apply (bool_decide_unpack _). by vm_compute. }
  apply elem_of_list_lookup in Hin as [i Hi]. destruct (Forall2_lookup_l _ _ _ _ _ E Hi) as (y & _ & Ey).
  unfold p_parse in Ey. destruct (search _ _) as [g|] eqn:Es; [|done].
  pose proof (search_ceq _ _ _ Es) as Hc. rewrite ceq_0 in Hc; [pose proof (plain_some _ (rg_keys _ _ Hr)); destruct (p_keys (c_part c)); [done|cbn in Hc; lia]|].
  apply Forall_forall. intros y0 Hy ->. revert Hy. apply path_no_eq. unfold plain_path. apply Forall_app. split; [apply (rg_path _ _ Hr)|].
  constructor; [|done]. intros Hq. pose proof (digest_no_eq _ Ha) as Hn. unfold has_eq, memb in Hn. by rewrite bool_decide_eq_true_2 in Hn.
Qed.

(** So does an insertion stopped in that window: nothing can be listed, loaded
    or removed any more, whatever the filter, until the directory is removed by
    hand. *)
Theorem C23_gone_refuted e c ds v rest inner validate M I s dirs s' :
  regular e c -> declared c -> insertable e c ds (v :: rest) None -> represents c M I s -> is_Some (M v) ->
  is_Some I \/ c_immutable c = false -> p_len (c_part c) = 1 ->
  exec (insert e (fun _ => []) inner c ds None None validate) s = (Ok dirs, s') ->
  exists u, stopped_at (insert e (fun _ => []) inner c ds None None validate) s u /\ absent u (part_dir c v) /\
    (forall f, exists ex, exec (select_parts e c f) u = (Raise ex, u)) /\
    (forall f delayed sel, exists ex, exec (load e c delayed f sel) u = (Raise ex, u)).
Proof.
  intros Hr Hc Hi Hs HM HI Hl Hx.
  destruct (C23_window e c ds v rest inner validate M I s dirs s' Hr Hc Hi Hs HM HI Hx (fun _ => false)) as (u & Hu & H1 & x & H2).
  assert (H : forall f, exists ex, exec (select_parts e c f) u = (Raise ex, u)) by (intros f; by eapply listing_stray, (rg_digest _ _ Hr)).
  exists u. split_and!; [done| |done|].
  - intros q (t & ->). apply H1.
  - intros f delayed sel. destruct (H f) as [ex E]. exists ex. unfold load. rewrite exec_bind, E. done.
Qed.
Print Assumptions C23_gone_refuted.

(** The files of a group without the chunks: every item is read as the fill
    value. *)
Definition blank (v : variable) : variable := with_array v (Arr (v_shape v) (map (fun _ => default (Num 0) (v_fill v)) (NdArray_Model.indices (v_shape v)))).
Definition bare (q : path) : bool := is_zarr_key q || bool_decide (q = [ZMETADATA]).
Lemma holds_bare t t' attrs vars : holds_group t attrs vars -> (forall q, t' !! q = if bare q then t !! q else None) ->
  holds_group t' attrs (map (fun nv => (nv.1, blank nv.2)) vars).
Proof.
  intros H Ht. assert (Hk : forall q, is_zarr_key q = true -> t' !! q = t !! q) by (intros q Hq; rewrite Ht; unfold bare; by rewrite Hq).
  assert (Hm : metas t' = metas t).
  { apply map_eq. intros q. rewrite !metas_lookup. destruct (is_zarr_key q) eqn:E; [|done]. by rewrite Hk. }
  assert (Ekeys : dkeys (map (fun nv => (nv.1, blank nv.2)) vars) = dkeys vars) by (unfold dkeys; by rewrite map_map).
  split.
  - rewrite Ht, Hm. apply (hg_cons _ _ _ H).
  - intros q x E Hq. rewrite Hk in E by done. by apply (hg_clean _ _ _ H q).
  - rewrite Hk by done. apply (hg_group _ _ _ H).
  - rewrite Hk by done. apply (hg_attrs _ _ _ H).
  - rewrite Ekeys. apply (hg_names _ _ _ H).
  - intros n w Hw. assert (exists v, dget vars n = Some v /\ w = blank v) as (v & Ev & ->).
    { revert Hw. clear. induction vars as [|[m v] vars IH]; cbn; [done|]. destruct (decide (n = m)); [|done]. intros [= <-]. by eexists. }
    destruct (hg_vars _ _ _ H _ _ Ev) as (H1 & H2 & [(cs & Hcs & Hz & _) Ha]). split_and!; [done|done|]. split.
    + exists cs. split_and!; [done| |].
      * rewrite sub_lookup in Hz |- *. by rewrite Hk.
      * unfold read_array. rewrite (traverse_Ok _ (fun _ => default (Num 0) (v_fill v))); [done|]. intros idx _. unfold read_item.
        rewrite sub_lookup, Ht. unfold bare. rewrite is_zarr_chunk, bool_decide_eq_false_2; [done|]. by intros [=].
    + rewrite sub_lookup in Ha |- *. by rewrite Hk.
  - intros n x E. rewrite Ekeys. rewrite Hk in E by done. by apply (hg_only _ _ _ H n x).
Qed.
Theorem C23_erased_refuted e c ds v rest inner validate M I s dirs s' old :
  regular e c -> declared c -> insertable e c ds (v :: rest) None -> represents c M I s -> M v = Some old ->
  is_Some I \/ c_immutable c = false ->
  exec (insert e (fun _ => []) inner c ds None None validate) s = (Ok dirs, s') ->
  exists u, stopped_at (insert e (fun _ => []) inner c ds None None validate) s u /\
    forall delayed, exists got, exec (open_zarr_group (part_dir c v) delayed None) u = (Ok got, u) /\
      forall n w, dget (d_vars old) n = Some w -> exists w', dget (d_vars got) n = Some w' /\ v_shape w' = v_shape w /\
        forall x, x ∈ a_flat (v_array w') -> x = default (Num 0) (v_fill w).
Proof.
  intros Hr Hc Hi Hs HM HI Hx.
  destruct (C23_window e c ds v rest inner validate M I s dirs s' Hr Hc Hi Hs ltac:(by eexists) HI Hx bare) as (u & Hu & H1 & _).
  exists u. split; [done|]. intros delayed. destruct (rp_part _ _ _ _ Hs _ _ HM) as (_ & [Ho Hno] & [_ Hh]).
  pose proof (holds_bare _ (sub (part_dir c v) u) _ _ Hh ltac:(intros q; rewrite !sub_lookup; apply H1)) as Hb.
  destruct (read_group_ok _ _ _ delayed None (dget (d_dims old)) Hb) as (got & E & _ & _ & _ & _ & _ & Hg).
  - intros n w Hw. rewrite (dget_map_vals (fun _ => blank)), dget_stored in Hw. destruct (dget (d_vars old) n) as [w0|] eqn:E0; [|done]. injection Hw as <-.
    apply (proj2 (proj2 (proper_consistent _ (storable_proper _ Ho) n w0 E0))).
  - intros n w Hw. rewrite (dget_map_vals (fun _ => blank)) in Hw. destruct (dget (stored_vars (d_vars old)) n) as [w0|]; [|done]. injection Hw as <-.
    unfold arr_wf. cbn. rewrite map_length. apply indices_length.
  - exists got. split; [cbn; by rewrite E|]. intros n w Hw. exists (with_delayed (blank (stored w)) delayed). split_and!; [|done|].
    + apply Hg. split; [done|]. exists (blank (stored w)). split; [|done]. by rewrite (dget_map_vals (fun _ => blank)), dget_stored, Hw.
    + cbn. intros x Hin. apply elem_of_list_In, in_map_iff in Hin as (_ & <- & _). done.
Qed.
Print Assumptions C23_erased_refuted.

(** ** C50 *)
(** An interrupted removal: every file is as before, or is a file of a selected
    partition and is gone. *)
Theorem C50_drop_stopped e c M I s sched f older (P : list Z -> Prop) u :
  regular e c -> represents c M I s -> filterable c ->
  (forall v, is_Some (M v) -> says (c_part c) f v (P v)) ->
  stopped_at (drop_partitions e sched c f older) s u ->
  forall q, u !! q = s !! q \/
    (u !! q = None /\ exists v, is_Some (M v) /\ P v /\ match older with None => True | Some o => o (part_dir c v) = true end /\ under (part_dir c v) q).
Proof.
  intros Hr Hs Hfi HP [p' Hu] q0. destruct (select_filter e c Hr M I s f P Hs Hfi HP) as (vs0 & H1 & H2 & H3).
  set (vs := match older with None => vs0 | Some o => List.filter (fun v => o (part_dir c v)) vs0 end).
  assert (Hin : forall v, v ∈ vs <-> is_Some (M v) /\ P v /\ match older with None => True | Some o => o (part_dir c v) = true end).
  { intros v. subst vs. destruct older as [o|]; [|rewrite H2; tauto]. rewrite elem_of_list_In, filter_In, <-elem_of_list_In, H2. tauto. }
  assert (Hnd : NoDup vs) by (subst vs; apply sorted_nodup_rows; destruct older; [by apply sorted_filter|done]).
  set (Phi := fun u : store => forall q, u !! q = s !! q \/ (u !! q = None /\ exists v, v ∈ vs /\ under (part_dir c v) q)).
  assert (H0 : Phi s) by (intros q; by left).
  assert (Ha : always CTorn Phi (drop_partitions e sched c f older) s).
  2: { pose proof (always_sound CTorn Phi _ _ _ _ Ha Hu) as H. destruct (H q0) as [|(E & v & Hv & U)]; [by left|right]. split; [done|]. exists v. apply Hin in Hv. tauto. }
  clear Hu. unfold drop_partitions. destruct (c_readonly c); [by cbn|].
  apply always_bind; [by cbn|]. intros x s' E. rewrite H3 in E. injection E as <- <-.
  destruct (map (part_dir c) vs0) as [|x l] eqn:El; [by cbn|].
  assert (Ed : match older with None => x :: l | Some o => List.filter o (x :: l) end = map (part_dir c) vs).
  { rewrite <-El. subst vs. destruct older; [apply filter_map|done]. }
  cbv zeta. rewrite Ed. apply always_bind; [|intros a s' E; rewrite (exec_rm_all e c Hr M I s sched vs Hs Hnd) in E by (intros v Hv; by apply Hin in Hv as [? _]);
    injection E as _ <-; cbn; split; [|done]; intros q; rewrite prune_all_lookup; destruct (decide _) as [X|X]; [|by left]; apply Exists_exists in X; by right].
  assert (Hlen : forall v, v ∈ vs -> length v = length (p_keys (c_part c))).
  { intros v Hv. apply Hin in Hv as [[d Hd] _]. by apply (rp_part _ _ _ _ Hs) in Hd as [? _]. }
  set (ps := map rm (map (part_dir c) vs) : list (program unit)).
  set (W := fun i q => match vs !! i with Some v => under (part_dir c v) q | None => False end).
  assert (Hlk : forall i p, ps !! i = Some p -> exists v, vs !! i = Some v /\ p = rm (part_dir c v)).
  { intros i p. unfold ps. rewrite map_map. change (map ?f vs) with (f <$> vs). rewrite list_lookup_fmap. destruct (vs !! i) as [v|]; [|done]. intros [= <-]. eauto. }
  assert (Hind : independent ps (fun _ _ => False) W).
  { split.
    - intros i p E. apply Hlk in E as (v & Ei & ->). apply within_rm. intros q Hq. unfold W. by rewrite Ei.
    - intros i j p p2 Ei Ej N q Wi [?|Wj]; [done|]. apply Hlk in Ei as (v & Ei & _), Ej as (v' & Ej & _). unfold W in *. rewrite Ei in Wi. rewrite Ej in Wj.
      refine (parts_apart c v v' _ _ _ q Wi Wj); try (apply Hlen; by eapply elem_of_list_lookup_2). intros ->. apply N. by eapply NoDup_lookup. }
  eapply always_impl; [|apply (always_transaction CTorn sched ps (fun _ _ => False) W (fun i u => forall q, W i q -> u !! q = s !! q \/ u !! q = None) s Hind)].
  - intros w [Hw1 Hw2] q. assert (Hle : length ps = length vs) by (unfold ps; by rewrite !map_length).
    destruct (decide (Exists (fun v => under (part_dir c v) q) vs)) as [X|X].
    + apply Exists_exists in X as (v & Hv & U). pose proof Hv as Hv'. apply elem_of_list_lookup in Hv as [i Hi].
      destruct (Hw1 i ltac:(rewrite Hle; by eapply lookup_lt_Some) q) as [|E]; [unfold W; by rewrite Hi|by left|right; eauto].
    + left. apply Hw2. intros i _ Hi. apply X, Exists_exists. unfold W in Hi. destruct (vs !! i) as [v|] eqn:Ei; [|done]. exists v. split; [by eapply elem_of_list_lookup_2|done].
  - intros i _ w w' Ha H q Hq. rewrite <-(Ha q) by tauto. by apply H.
  - intros i p Ei. apply Hlk in Ei as (v & Ei & ->). cbn [rm always mid exec_op fst snd]. split; [by left|]. split.
    + intros w Hw q _. destruct (Hw q) as [|[_ ?]]; auto.
    + destruct (empty_at _ _); cbn; (split; [|done]); intros q _; [by left|]. rewrite prune_lookup. destruct (decide _); auto.
Qed.
Print Assumptions C50_drop_stopped.

(** ** The example *)
Notation X_insert := (insert X_env (fun _ => []) X_inner X_coll X_ds None None true).
Lemma X_again M I s : represents X_coll M I s -> exists dirs s' M' I',
  exec X_insert s = (Ok dirs, s') /\ represents X_coll M' I' s' /\ is_Some (M' [1%Z]) /\ is_Some I'.
Proof.
  intros Hs.
  destruct (insert_total _ _ X_regular X_declared _ _ _ X_insertable None true ltac:(apply X_accepted; by intros k [=]) _ _ s (fun _ => []) X_inner Hs ltac:(by left)) as (dirs & s1 & E).
  destruct (insert_spec _ _ X_regular X_declared _ _ _ X_insertable _ _ s _ _ _ _ _ s1 Hs E) as (M' & I' & Hs1 & _ & Hins & Hk & _).
  exists dirs, s1, M', I'. split; [exact E|]. split; [exact Hs1|]. clear E Hs1. split.
  - destruct Hins as (part & _ & H). destruct (H [1%Z]) as [H1 _]. destruct H1 as (new & -> & _); [unfold X_rows; left|by eexists].
  - unfold kept in Hk. destruct I as [i|]; [rewrite Hk; by eexists|]. destruct Hk as (i & -> & _). by eexists.
Qed.
Example C23_case : exists s u, stopped_at X_insert s u /\ absent u (part_dir X_coll [1%Z]) /\ exists ex, exec (select_parts X_env X_coll NoFilter) u = (Raise ex, u).
Proof.
  destruct (X_again _ _ _ X_empty) as (_ & s & M & I & _ & Hs & HM & HI). destruct (X_again _ _ _ Hs) as (dirs & s' & _ & _ & E & _).
  destruct (C23_gone_refuted X_env X_coll X_ds [1%Z] [[1%Z]; [2%Z]] X_inner true M I s dirs s' X_regular X_declared X_insertable Hs HM ltac:(by left) eq_refl E)
    as (u & Hu & Ha & Hl & _).
  exists s, u. split; [exact Hu|split; [exact Ha|exact (Hl NoFilter)]].
Qed.
(** Both partitions are removed, then written again by an insertion that is
    stopped just after the group of the first one is made: the partition cannot be read, and
    the next insertion fails. *)
Example C22_case : exists s u, stopped_at X_insert s u /\ unreadable u (part_dir X_coll [1%Z]) /\ exists ex, exec X_insert u = (Raise ex, s).
Proof.
  destruct (X_again _ _ _ X_empty) as (_ & s0 & M0 & I & _ & Hs0 & HM0 & HI).
  destruct (C28_drop X_env X_coll M0 I s0 [] NoFilter None (fun _ => True) X_regular eq_refl Hs0 X_filterable ltac:(done)) as (vs & s & _ & _ & Hin & _ & _ & M & Hrem & Hs & _).
  assert (HM : M [1%Z] = None) by (apply Hrem, Hin; done).
  destruct (X_again _ _ _ Hs) as (dirs & s' & _ & _ & E & _). clear Hs0 HM0 Hin Hrem M0 s0 vs.
  destruct (first_partition X_env X_coll X_ds [1%Z] [[1%Z]; [2%Z]] None X_inner true M I s dirs s' X_regular X_declared X_insertable Hs ltac:(by left) E)
    as (part & sl & _ & _ & _ & _ & _ & Hst).
  destruct (Hst s ltac:(intros q _; reflexivity)) as [Hst' _]. clear Hst.
  pose proof (part_nothing X_env X_coll X_regular M I s [1%Z] Hs eq_refl HM) as Hno.
  set (d := part_dir X_coll [1%Z]) in *.
  assert (Hz : absent (<[d ++ [ZGROUP] := CMeta MGroup]> s) (d ++ [ZMETADATA])).
  { intros q (x & ->). rewrite lookup_insert_ne; [apply Hno; exists (ZMETADATA :: x); by rewrite <-app_assoc|].
    rewrite <-app_assoc. intros Eq. apply app_inv_head in Eq. discriminate. }
  exists s, (<[d ++ [ZGROUP] := CMeta MGroup]> s). split; [|split].
  - apply Hst'. unfold insert_partition. cbv zeta. cbn [fst snd]. change (c_dir X_coll ++ key_dirs (c_part X_coll) [1%Z]) with d.
    eapply stopped_then; [apply exec_exists|].
    assert (empty_at (d ++ [ZMETADATA]) s = true) as -> by (apply empty_at_true; intros q Hq; apply Hno; by eapply under_snoc). cbn [negb].
    apply stopped_catch. eapply stopped_then; [by apply exec_init_group|]. by exists (let! piece <- Ret (ds_isel part [(c_dim X_coll, ISlice (Some (Z.of_nat sl.1)) (Some (Z.of_nat sl.2)))]); write_zarr_group d piece (Some (X_inner d))).
  - apply unreadable_cons. left. apply Hz, under_refl.
  - eapply (C51_retry_refuted X_env X_coll X_ds [1%Z] [[1%Z]; [2%Z]] None X_inner true M I s dirs s'); [exact X_regular|exact X_declared|exact X_insertable|exact Hs|exact HM|by left|exact E| |exact Hz|].
    + intros q Hq. apply lookup_insert_ne. intros <-. apply Hq, under_app.
    + change (part_dir X_coll [1%Z]) with d. rewrite lookup_insert. by eexists.
Qed.

Example C50_case : exists (s : store) (M : list Z -> option dataset), is_Some (M [1%Z]) /\ forall u, stopped_at (drop_partitions X_env [(1, true); (0, false)] X_coll NoFilter None) s u ->
  forall q, u !! q = s !! q \/ (u !! q = None /\ exists v, is_Some (M v) /\ True /\ True /\ under (part_dir X_coll v) q).
Proof.
  destruct (X_again _ _ _ X_empty) as (_ & s & M & I & _ & Hs & HM & HI). exists s, M. split; [exact HM|]. intros u Hu.
  exact (C50_drop_stopped X_env X_coll M I s _ NoFilter None (fun _ => True) u X_regular Hs X_filterable ltac:(done) Hu).
Qed.
