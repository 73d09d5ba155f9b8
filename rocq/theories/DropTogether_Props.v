(** * Properties of removals of partitions made at the same time by several processes *)
From Verif Require Import Py Dict NdArray_Model NdArray_Proofs Dataset_Model Dataset_Spec Meta_Model PartPath_Model PartPath_Proofs
  Split_Spec FS_Model FS_Proofs Pool_Model Pool_Proofs Storage_Model Storage_Spec Storage_Proofs
  Listing_Model Listing_Spec Listing_Proofs Listing_Props Collection_Model Collection_Spec Collection_Proofs Collection_State Collection_Select Collection_Load
  Collection_Example Collection_Props Crash_Spec Collection_Crash Crash_Props Update_Model Update_Spec Update_Proofs Update_Example Validate_Spec Validate_Proofs Validate_Props CopyStop_Props Together_Props.

(** ** Programs that only read and remove *)
Section erase.
Context (Phi : store -> Prop).
Fixpoint erasing {A : Type} (p : program A) : Prop :=
  match p with
  | Ret _ => True
  | Op o k => match o with Get _ | Rm _ | RmTree _ => True | _ => False end /\ forall r, erasing (k r)
  end.
Lemma erasing_bind {A B : Type} (p : program A) (f : A -> program B) : erasing p -> (forall a, erasing (f a)) -> erasing (pbind p f).
Proof. intros Hp Hf. induction p as [[a|ex]|o k IH]; cbn; [apply Hf|done|]. destruct Hp as [Ho Hk]. split; [done|]. intros r. by apply IH. Qed.
Lemma erasing_attempt {A : Type} (p : program A) : erasing p -> erasing (attempt p).
Proof. induction p as [r|o k IH]; cbn; [done|]. intros [Ho Hk]. split; [done|]. intros r. by apply IH. Qed.
Lemma erasing_run_all {A : Type} (ps : list (program A)) : Forall erasing ps -> erasing (run_all ps).
Proof. induction 1 as [|p ps Hp _ IH]; cbn [run_all]; [done|]. apply erasing_bind; [by apply erasing_attempt|]. intros r. by apply erasing_bind. Qed.
Lemma erasing_interleave {A : Type} sched : forall ps : list (program A), Forall erasing ps -> erasing (interleave CTorn sched ps).
Proof.
  induction sched as [|[i tear] sched IH]; intros ps Hps; cbn [interleave]; [by apply erasing_run_all|].
  destruct (ps !! i) as [[r|o k]|] eqn:Ei; [by apply IH| |by apply IH].
  destruct (proj1 (Forall_lookup _ _) Hps i _ Ei) as [Ho Hk].
  assert (Hn : erasing (Op o (fun r => interleave CTorn sched (<[i := k r]> ps)))) by (split; [exact Ho|]; intros r; apply IH; apply Forall_insert; [exact Hps|exact (Hk r)]).
  destruct tear; [|exact Hn]. destruct o; first [exact Hn|destruct Ho].
Qed.
Lemma erasing_step {A : Type} (p p' : program A) s s' : erasing p -> step CTorn (p, s) (p', s') -> erasing p' /\ forall q, s' !! q = s !! q \/ s' !! q = None.
Proof.
  intros Hp H. remember (p, s) as x eqn:Ex. remember (p', s') as y eqn:Ey. destruct H; injection Ex as <- <-; injection Ey as <- <-; destruct Hp as [Ho Hk].
  - split; [apply Hk|]. intros q. destruct o; cbn; try done; [by left| |].
    + destruct (empty_at _ _); cbn; [by left|]. rewrite prune_lookup. case_decide; auto.
    + rewrite prune_lookup. case_decide; auto.
  - done.
  - split; [done|]. intros q. destruct (H0 q) as [|[_ ?]]; auto.
  - split; [done|]. intros q. destruct (H q) as [|[_ ?]]; auto.
Qed.

(** ** Programs that end by removing a directory, unless it is gone *)
Section clear.
Context (d : path).
Fixpoint clears {A : Type} (p : program A) : Prop :=
  match p with
  | Ret _ => False
  | Op o k => o = Rm d \/ o = RmTree d \/ forall u, Phi u -> absent u d \/ clears (k (exec_op o u).1)
  end.
Lemma clears_bind {A B : Type} (p : program A) (f : A -> program B) : clears p -> clears (pbind p f).
Proof.
  induction p as [r|o k IH]; cbn; [done|]. intros [H|[H|H]]; [by left|by right; left|right; right]. intros u Hu. destruct (H u Hu) as [|H']; [by left|right]. by apply IH.
Qed.
Lemma clears_attempt {A : Type} (p : program A) : clears p -> clears (attempt p).
Proof.
  induction p as [r|o k IH]; cbn; [done|]. intros [H|[H|H]]; [by left|by right; left|right; right]. intros u Hu. destruct (H u Hu) as [|H']; [by left|right]. by apply IH.
Qed.
Lemma clears_after {A B : Type} (p : program A) (f : res A -> program B) : (forall r, clears (f r)) -> clears (pbind (attempt p) f).
Proof. intros Hf. induction p as [r|o k IH]; cbn; [apply Hf|]. right. right. intros u _. right. apply IH. Qed.
Lemma clears_run_all {A : Type} (ps : list (program A)) : forall i p, ps !! i = Some p -> clears p -> clears (run_all ps).
Proof.
  induction ps as [|p0 ps IH]; intros i p Hi Hp; [done|]. cbn [run_all]. destruct i as [|i]; cbn in Hi.
  - injection Hi as ->. by apply clears_bind, clears_attempt.
  - apply clears_after. intros r. apply clears_bind. by eapply IH.
Qed.
Lemma clears_interleave {A : Type} sched : forall (ps : list (program A)) i p, ps !! i = Some p -> clears p -> clears (interleave CTorn sched ps).
Proof.
  induction sched as [|[j tear] sched IH]; intros ps i p Hi Hp; cbn [interleave]; [exact (clears_run_all ps i p Hi Hp)|].
  destruct (ps !! j) as [[r|o k]|] eqn:Ej; [exact (IH ps i p Hi Hp)| |exact (IH ps i p Hi Hp)].
  assert (Hn : clears (Op o (fun r => interleave CTorn sched (<[j := k r]> ps)))).
  { destruct (decide (i = j)) as [->|N].
    - rewrite Hi in Ej. injection Ej as ->. destruct Hp as [H|[H|H]]; [by left|by right; left|right; right]. intros u Hu. destruct (H u Hu) as [|H']; [by left|right].
      eapply IH; [|exact H']. apply list_lookup_insert. by eapply lookup_lt_Some.
    - right. right. intros u _. right. eapply IH; [|exact Hp]. by rewrite list_lookup_insert_ne. }
  destruct tear; [|exact Hn]. destruct o; try exact Hn. right. right. intros u _. right. exact (IH ps i p Hi Hp).
Qed.
Lemma absent_less (u u' : store) : (forall q, u' !! q = u !! q \/ u' !! q = None) -> absent u d -> absent u' d.
Proof. intros H Ha q U. destruct (H q) as [->|]; [by apply Ha|done]. Qed.
Lemma clears_step {A : Type} (p p' : program A) s s' : Phi s -> erasing p -> step CTorn (p, s) (p', s') -> absent s d \/ clears p -> absent s' d \/ clears p'.
Proof.
  intros Hs He H Hc. destruct (erasing_step _ _ _ _ He H) as [_ Hle]. destruct Hc as [Ha|Hc]; [left; by eapply absent_less|].
  remember (p, s) as x eqn:Ex. remember (p', s') as y eqn:Ey. destruct H; injection Ex as <- <-; injection Ey as <- <-.
  - destruct Hc as [->|[->|Hc]].
    + left. intros q U. cbn. destruct (empty_at d s0) eqn:E; cbn; [by apply (nothing_empty d s0)|]. by rewrite prune_lookup, decide_True.
    + left. intros q U. cbn. by rewrite prune_lookup, decide_True.
    + destruct (Hc _ Hs) as [Ha|?]; [|by right]. left. by eapply absent_less.
  - by destruct He.
  - destruct Hc as [[= ->]|[?|Hc]]; [by right; right; left|done|]. destruct (Hc _ Hs) as [Ha|Hk]; [left; by eapply absent_less|]. right. right. right. intros u _. right. cbn in Hk |- *. by rewrite H in Hk.
  - by right.
Qed.
End clear.

Lemma keeps_step {A : Type} (p p' : program A) s s' : keeps Phi p -> Phi s -> step CTorn (p, s) (p', s') -> keeps Phi p' /\ Phi s'.
Proof.
  intros Hk Hs H. remember (p, s) as x eqn:Ex. remember (p', s') as y eqn:Ey. destruct H; injection Ex as <- <-; injection Ey as <- <-; destruct (Hk _ Hs) as (H1 & H2 & H3).
  - done.
  - done.
  - split; [|by apply H1]. intros u Hu. destruct (Hk u Hu) as (G1 & _ & _). split; [exact G1|]. cbn in H3 |- *. rewrite H in H3. split; [|exact H3]. apply G1.
    intros q. rewrite prune_lookup. case_decide; auto.
  - split; [done|]. by apply H1.
Qed.

(** ** All the processes *)
Context {A : Type} (D : nat -> path -> Prop).
Definition pooled (ps : list (program A)) (u : store) : Prop := Phi u /\
  forall i p, ps !! i = Some p -> keeps Phi p /\ erasing p /\ forall d, D i d -> absent u d \/ clears d p.
Lemma pooled_step ps u ps' u' : pooled ps u -> pool_step CTorn (ps, u) (ps', u') -> pooled ps' u'.
Proof.
  intros [Hu Hps] H. inversion H as [? i p p' ? ? Hi Hst]; subst. destruct (Hps i p Hi) as (Hk & He & Hc).
  destruct (keeps_step _ _ _ _ Hk Hu Hst) as [Hk' Hu']. destruct (erasing_step _ _ _ _ He Hst) as [He' Hle]. split; [done|]. intros j q Hj. destruct (decide (j = i)) as [->|N].
  - rewrite list_lookup_insert in Hj by (by eapply lookup_lt_Some). injection Hj as <-. split; [done|]. split; [done|]. intros d Hd. eapply clears_step; [exact Hu|exact He|exact Hst|by apply Hc].
  - rewrite list_lookup_insert_ne in Hj by done. destruct (Hps j q Hj) as (G1 & G2 & G3). split; [done|]. split; [done|]. intros d Hd. destruct (G3 d Hd) as [Ha|]; [left|by right]. by eapply absent_less.
Qed.
Lemma pooled_steps ps u ps' u' : pooled ps u -> rtc (pool_step CTorn) (ps, u) (ps', u') -> pooled ps' u'.
Proof.
  intros H0 H. refine (rtc_ind_r (fun y : list (program A) * store => pooled y.1 y.2) (ps, u) H0 _ (ps', u') H).
  intros [qs1 t1] [qs2 t2] _ Hst IH. by eapply pooled_step.
Qed.
End erase.

Section C109.
Context (e : env) (c : collection) (P : filter -> list Z -> Prop) (M : list Z -> option dataset) (I : option dataset) (s : store).
Definition drop_call (call : filter * schedule) : program (list path) := drop_partitions e call.2 c call.1 None.

(** Whatever the processes do, a file is as it was, or it was removed from a
    partition that one of the calls selects; and as soon as a call has ended,
    with a result or with an error, the partitions it selects are gone. *)
Theorem C109_together calls ps u :
  regular e c -> c_readonly c = false -> represents c M I s -> filterable c ->
  (forall call v, call ∈ calls -> is_Some (M v) -> says (c_part c) call.1 v (P call.1 v)) ->
  rtc (pool_step CTorn) (map drop_call calls, s) (ps, u) ->
  (forall q, u !! q = s !! q \/
     (u !! q = None /\ exists call v, call ∈ calls /\ is_Some (M v) /\ P call.1 v /\ under (part_dir c v) q)) /\
  (forall i call r v, calls !! i = Some call -> ps !! i = Some (Ret r) -> is_Some (M v) -> P call.1 v -> absent u (part_dir c v)).
Proof.
  intros Hr Hw Hs Hfi HP H.
  set (Phi := fun u : store => forall q, u !! q = s !! q \/ (u !! q = None /\ exists call v, call ∈ calls /\ is_Some (M v) /\ P call.1 v /\ under (part_dir c v) q)).
  set (D := fun i d => exists call v, calls !! i = Some call /\ is_Some (M v) /\ P call.1 v /\ d = part_dir c v).
  assert (Hsel : forall call t, call ∈ calls -> Phi t -> exists vs, (forall v, v ∈ vs <-> stands c t v /\ P call.1 v) /\ (forall v, v ∈ vs -> is_Some (M v)) /\
    partitions (e_order e) (c_part c) (c_dir c) (immutable_path c) None call.1 (sub [] t) = Ok (map (part_dir c) vs)).
  { intros call t Hc Ht. assert (Hsub : forall q x, t !! q = Some x -> s !! q = Some x) by (intros q x Hx; destruct (Ht q) as [X|[X _]]; congruence).
    assert (Hlo : laid_out (c_part c) (c_dir c) t).
    { intros q x Hx. destruct (represents_laid_out c M I s Hs q x (Hsub _ _ Hx)) as [(a & -> & Hn)|[?|?]]; [left|by right; left|by right; right].
      exists a. split; [done|]. intros (b & f & y & Hy). apply Hn. exists b, f, y. by apply Hsub. }
    assert (Hst : forall v, stands c t v -> is_Some (M v)).
    { intros v (Hl & a & f & x & Hx). apply (represents_directory e c Hr M I s v Hs). split; [done|]. exists a, f, x. by apply Hsub. }
    destruct (select_filter_laid e c Hr t call.1 (P call.1) Hlo Hfi) as (vs & _ & Hin & Esel).
    { intros v Hv. by apply (HP call v Hc), Hst. }
    exists vs. split; [exact Hin|]. split; [intros v Hv; apply Hin in Hv as [Hv _]; by apply Hst|].
    unfold select_parts in Esel. rewrite exec_bind, exec_get_tree in Esel. cbn [exec] in Esel. by injection Esel. }
  assert (Hrm : forall call v, call ∈ calls -> is_Some (M v) -> P call.1 v -> keeps Phi (rm (part_dir c v))).
  { intros call v Hc Hv HPv. cbn. intros t Ht.
    assert (Hpart : forall t', partly_removed (part_dir c v) t t' -> Phi t').
    { intros t' Hp q. destruct (Hp q) as [->|[U E]]; [apply Ht|]. right. split; [done|]. by exists call, v. }
    split; [exact Hpart|]. destruct (empty_at _ t); cbn; [done|]. split; [|done]. apply Hpart. intros q. rewrite prune_lookup. case_decide; auto. }
  assert (H0 : pooled Phi D (map drop_call calls) s).
  { split; [intros q; by left|]. intros i p Hi. change (map drop_call calls) with (drop_call <$> calls) in Hi. rewrite list_lookup_fmap in Hi.
    destruct (calls !! i) as [call|] eqn:Ei; [|done]. injection Hi as <-. assert (Hc : call ∈ calls) by (by eapply elem_of_list_lookup_2).
    unfold drop_call, drop_partitions. rewrite Hw. unfold select_parts, get_tree. split; [|split].
    - cbn [pbind keeps]. intros t Ht. split; [done|]. split; [exact Ht|]. cbn [exec_op fst pbind pret]. destruct (Hsel call t Hc Ht) as (vs & Hin & HvM & Er). rewrite Er. cbn [pbind].
      destruct (map (part_dir c) vs) as [|x l] eqn:El; [done|]. cbv zeta. rewrite <-El. apply keeps_bind; [|done]. apply keeps_transaction. apply Forall_forall. intros p Hp.
      apply elem_of_list_In, in_map_iff in Hp as (d & <- & Hd). apply in_map_iff in Hd as (v & <- & Hv). apply elem_of_list_In in Hv. apply (Hrm call); [done|by apply HvM|by apply Hin in Hv as [_ ?]].
    - apply erasing_bind.
      + apply erasing_bind; [|done]. cbn. split; [done|]. by intros [].
      + intros [|x l]; [done|]. cbv zeta. apply erasing_bind; [|done]. apply erasing_bind; [|done]. apply erasing_interleave. apply Forall_forall. intros p Hp.
        apply elem_of_list_In, in_map_iff in Hp as (d & <- & _). cbn. split; [done|]. by intros [].
    - intros d (call' & v & Ec & Hv & HPv & ->). rewrite Ei in Ec. injection Ec as <-. right. cbn [pbind clears]. right. right. intros t Ht. cbn [exec_op fst pbind pret].
      destruct (Hsel call t Hc Ht) as (vs & Hin & HvM & Er). rewrite Er. cbn [pbind].
      destruct (decide (v ∈ vs)) as [Hvs|Hno].
      + right. pose proof Hvs as [j Hj]%elem_of_list_lookup. destruct (map (part_dir c) vs) as [|x l] eqn:El; [by destruct vs|]. cbv zeta. rewrite <-El.
        apply clears_bind. apply clears_bind. apply (clears_interleave Phi _ _ _ j (rm (part_dir c v))); [|by left].
        rewrite map_map. change (map ?f vs) with (f <$> vs). by rewrite list_lookup_fmap, Hj.
      + left. intros q (f & ->). destruct (t !! (part_dir c v ++ f)) as [x|] eqn:Ex; [|done]. exfalso. apply Hno, Hin. split; [|done].
        pose proof (proj2 (represents_directory e c Hr M I s v Hs) Hv) as [Hl _]. split; [done|].
        destruct f as [|a f]; [|by exists a, f, x]. exfalso. assert (Hx : s !! (part_dir c v ++ []) = Some x) by (destruct (Ht (part_dir c v ++ [])) as [X|[X _]]; congruence).
        destruct Hv as [ds Hd]. destruct (rp_part _ _ _ _ Hs _ _ Hd) as (_ & _ & Hn0 & _). rewrite sub_lookup in Hn0. congruence. }
  destruct (pooled_steps Phi D _ _ _ _ H0 H) as [Hu Hps]. split; [exact Hu|].
  intros i call r v Ei Hi Hv HPv. destruct (Hps i _ Hi) as (_ & _ & Hd). destruct (Hd (part_dir c v)) as [?|[]]; [|done]. by exists call, v.
Qed.
End C109.
Print Assumptions C109_together.

(** Removals of directories that are gone. *)
Lemma rm_gone (u : store) l : Forall (fun d => empty_at d u = true) l -> exec (run_all (map rm l)) u = (Ok (map (fun _ => Raise FileNotFoundError) l), u).
Proof.
  induction 1 as [|d l Hd _ IH]; [done|]. cbn [map run_all]. rewrite exec_bind, exec_attempt, exec_rm, Hd. cbn [fst snd]. rewrite exec_bind, IH. done.
Qed.

(** Two processes remove the same partitions: one may find that the directories
    it has listed are gone, and raises FileNotFoundError. *)
Theorem C110_both_refuted e c f (P : list Z -> Prop) M I s sched v :
  regular e c -> c_readonly c = false -> represents c M I s -> filterable c -> (forall v, is_Some (M v) -> says (c_part c) f v (P v)) ->
  is_Some (M v) -> P v ->
  exists dirs u, rtc (pool_step CTorn) ([drop_call e c (f, sched); drop_call e c (f, [])], s) (map Ret [Ok dirs; Raise FileNotFoundError], u) /\ part_dir c v ∈ dirs.
Proof.
  intros Hr Hw Hs Hfi HP Hv HPv.
  destruct (C28_drop e c M I s sched f None P Hr Hw Hs Hfi HP) as (vs & u & E & Hso & Hvs & Hgone & _).
  destruct (select_filter e c Hr M I s f P Hs Hfi HP) as (vs' & Hso' & Hin & Esel).
  exists (map (part_dir c) vs), u.
  assert (Hd : Forall (fun d => empty_at d u = true) (map (part_dir c) vs')).
  { apply Forall_forall. intros d Hd. apply elem_of_list_In, in_map_iff in Hd as (w & <- & Hw'). apply elem_of_list_In, Hin in Hw' as [Hw' HPw].
    apply nothing_empty. intros q U. apply (Hgone w); [|done]. by apply Hvs. }
  assert (Hne : exists d l, map (part_dir c) vs' = d :: l).
  { assert (Hx : v ∈ vs') by (by apply Hin). destruct vs' as [|w l]; [by apply elem_of_nil in Hx|]. by eexists _, _. }
  split.
  - set (rest := fun folders : list path => match folders with [] => pret [] | _ => let! _ <- execute_transaction CTorn [] (map rm folders); pret folders end : program (list path)).
    assert (Hq : rtc (step CTorn) (drop_call e c (f, []), s) (rest (map (part_dir c) vs'), s)).
    { unfold drop_call, drop_partitions. rewrite Hw. pose proof (exec_steps CTorn (select_parts e c f) s) as Hst. rewrite Esel in Hst. cbn [fst snd] in Hst.
      exact (steps_bind _ _ rest _ _ Hst). }
    pose proof (pool_between (drop_call e c (f, sched)) _ _ _ _ _ _ Hq E) as H.
    assert (Ex : exec (rest (map (part_dir c) vs')) u = (Raise FileNotFoundError, u)).
    { unfold rest. destruct Hne as (d & l & El). rewrite El in Hd |- *. unfold execute_transaction. cbn [interleave]. rewrite exec_bind, exec_bind, rm_gone by done. done. }
    rewrite Ex in H. exact H.
  - apply elem_of_list_In, in_map_iff. exists v. split; [done|]. apply elem_of_list_In. by apply Hvs.
Qed.
Print Assumptions C110_both_refuted.

(** ** A concrete case *)

(** Two processes remove the two partitions of a collection. When they have
    ended, none is left and the configuration is as it was; one of them may have
    raised FileNotFoundError. *)
Example C109_case : exists M s, represents Y_coll M None s /\ is_Some (M [1%Z]) /\ is_Some (M [2%Z]) /\
  (forall rs u, rtc (pool_step CTorn) (map (drop_call X_env Y_coll) [(NoFilter, []); (NoFilter, [(1, false)])], s) (map Ret rs, u) ->
    (forall v, v = [1%Z] \/ v = [2%Z] -> absent u (part_dir Y_coll v)) /\ u !! (c_dir Y_coll ++ [CONFIG]) = s !! (c_dir Y_coll ++ [CONFIG])) /\
  exists dirs u, rtc (pool_step CTorn) (map (drop_call X_env Y_coll) [(NoFilter, [(1, false)]); (NoFilter, [])], s) (map Ret [Ok dirs; Raise FileNotFoundError], u).
Proof.
  destruct Y_filled as (M & s & Hs & Hu & (p1 & p2 & H1 & H2 & H3 & _)). exists M, s. split; [exact Hs|]. split; [by eexists|]. split; [by eexists|]. split.
  - intros rs u H. set (calls := [(NoFilter, []); (NoFilter, [(1, false)])] : list (filter * schedule)) in H.
    assert (HP : forall call v, call ∈ calls -> is_Some (M v) -> says (c_part Y_coll) call.1 v True).
    { intros call v Hc _. apply elem_of_list_In in Hc as [<-|[<-|[]]]; done. }
    destruct (C109_together X_env Y_coll (fun _ _ => True) M None s calls _ u Y_regular eq_refl Hs Y_filterable HP H) as [Hq Hd].
    assert (Hlen : exists r rs', rs = r :: rs').
    { assert (E : length (map (@Ret content (list path)) rs) = 2).
      { refine (rtc_ind_r (fun y : list (program (list path)) * store => length y.1 = 2) (map (drop_call X_env Y_coll) calls, s) eq_refl _ (map Ret rs, u) H). intros x y _ Hst IH. inversion Hst; subst. cbn in *. by rewrite insert_length. }
      destruct rs as [|r rs]; [discriminate E|]. by eexists _, _. }
    destruct Hlen as (r & rs' & ->). split.
    + intros v Hv. apply (Hd 0 (NoFilter, []) r v eq_refl eq_refl); [|exact Logic.I]. destruct Hv as [->| ->]; by eexists.
    + destruct (Hq (c_dir Y_coll ++ [CONFIG])) as [|(_ & call & v & _ & [d Hdv] & _ & U)]; [done|]. exfalso.
      destruct (rp_part _ _ _ _ Hs _ _ Hdv) as (Hl & _). destruct U as (t & E). unfold part_dir in E. rewrite <-app_assoc in E. apply app_inv_head in E.
      destruct v as [|z [|]]; try discriminate Hl. discriminate E.
  - destruct (C110_both_refuted X_env Y_coll NoFilter (fun _ => True) M None s [(1, false)] [1%Z] Y_regular eq_refl Hs Y_filterable ltac:(done) ltac:(by eexists) Logic.I) as (dirs & u & H & _).
    exists dirs, u. exact H.
Qed.
