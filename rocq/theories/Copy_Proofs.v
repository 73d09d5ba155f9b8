(** * The copy of a collection: proofs *)
From Verif Require Import Py Dict NdArray_Model NdArray_Proofs Dataset_Model Dataset_Spec Meta_Model PartPath_Model PartPath_Proofs
  Split_Spec FS_Model FS_Proofs Pool_Model Pool_Proofs Storage_Model Storage_Spec Storage_Proofs
  Listing_Model Listing_Spec Listing_Proofs Collection_Model Collection_Spec Collection_Proofs Collection_State Collection_Select Collection_Load
  Update_Model Update_Spec Update_Proofs Copy_Spec.

(** ** One tree *)

Lemma copy_loop src tgt (s : store) l : apart src tgt -> (forall q, q ∈ l -> is_Some (s !! (src ++ q))) -> forall u : store,
  (forall q, under src q -> u !! q = s !! q) -> exists rs u',
  exec (pseq (map (fun q => let! f <- read_file (src ++ q); match f with Some f => write_file (tgt ++ q) f | None => praise FileNotFoundError end) l)) u = (Ok rs, u') /\
  (forall q, q ∈ l -> u' !! (tgt ++ q) = s !! (src ++ q)) /\ (forall q, (forall r, r ∈ l -> q <> tgt ++ r) -> u' !! q = u !! q).
Proof.
  intros Hap. induction l as [|q l IH]; intros Hl u Hu; cbn [map pseq].
  - exists [], u. split; [done|]. split; [|done]. intros q Hq. by apply elem_of_nil in Hq.
  - destruct (Hl q ltac:(left)) as [x Hx]. destruct (IH ltac:(intros; apply Hl; by right) (<[tgt ++ q := x]> u)) as (rs & u' & E & H1 & H2).
    { intros q' U. rewrite lookup_insert_ne; [by apply Hu|]. intros <-. apply (Hap (tgt ++ q)); [done|apply under_app]. }
    exists (tt :: rs), u'. split.
    + rewrite exec_bind, exec_bind, exec_read_file. rewrite Hu by apply under_app. rewrite Hx, exec_write, exec_bind. cbv beta in E. rewrite E. done.
    + split.
      * intros q' Hq'. destruct (decide (q' ∈ l)) as [Hin|Hn]; [by apply H1|]. apply elem_of_cons in Hq' as [->|]; [|done].
        rewrite H2, lookup_insert; [done|]. intros r Hr Eq. apply app_inv_head in Eq as ->. done.
      * intros q' Hq'. rewrite H2 by (intros r Hr; apply Hq'; by right). rewrite lookup_insert_ne; [done|]. intros <-. by apply (Hq' q ltac:(left)).
Qed.

Lemma exec_copy_tree src tgt (s : store) : apart src tgt -> nothing_at tgt s -> exists s',
  exec (copy_tree src tgt) s = (Ok tt, s') /\ (forall q, s' !! (tgt ++ q) = s !! (src ++ q)) /\ (forall q, ~ under tgt q -> s' !! q = s !! q).
Proof.
  intros Hap Hno.
  destruct (copy_loop src tgt s (map fst (map_to_list (sub src s))) Hap) with (u := s) as (rs & s' & E & H1 & H2); [|done|].
  { intros q Hq. change (map fst ?l) with (l.*1) in Hq. apply elem_of_list_fmap in Hq as ([q' x] & -> & Hq). apply elem_of_map_to_list in Hq. rewrite sub_lookup in Hq. by eexists. }
  exists s'. split; [|split].
  - unfold copy_tree. rewrite exec_bind, exec_exists. assert (empty_at tgt s = true) as -> by (by apply empty_at_true). cbn [negb]. rewrite exec_bind, exec_get_tree.
    unfold pfor. rewrite exec_bind, E. done.
  - intros q. destruct (decide (q ∈ map fst (map_to_list (sub src s)))) as [Hq|Hn]; [by apply H1|].
    rewrite H2; [|intros r Hr Eq; apply app_inv_head in Eq as ->; done]. rewrite Hno by apply under_app. destruct (s !! (src ++ q)) as [x|] eqn:Ex; [|done].
    exfalso. apply Hn. change (map fst ?l) with (l.*1). apply elem_of_list_fmap. exists (q, x). split; [done|]. apply elem_of_map_to_list. by rewrite sub_lookup.
  - intros q Hq. apply H2. intros r _ ->. apply Hq, under_app.
Qed.

Lemma within_copy_tree (R W : path -> Prop) src tgt : (forall q, under src q -> R q) -> (forall q, under tgt q -> W q) -> within R W (copy_tree src tgt).
Proof.
  intros HR HW. unfold copy_tree. apply within_bind; [apply within_exists; intros; right; by apply HW|]. intros x. destruct x; [done|].
  apply within_bind; [apply within_get_tree; intros; left; by apply HR|]. intros t. apply within_pfor. intros q Hq.
  apply within_bind; [apply within_read_file; intros q' U; left; apply HR; by eapply under_trans; [apply under_app|]|]. intros [f|]; [|done]. apply within_write, HW, under_app.
Qed.

(** ** The partitions *)

Section parts.
  Context (e : env) (c : collection) (Hr : regular e c) (target : path) (Hap : apart (c_dir c) target).
  Local Notation keys := (p_keys (c_part c)).
  Local Notation c' := (moved_to target c).

  Definition batch (b : list (list Z)) : program unit := pfor (map (fun v => (part_dir c v, part_dir c' v)) b) (fun st : path * path => copy_tree st.1 st.2).

  Lemma target_apart v w : apart (part_dir c v) (part_dir c' w).
  Proof. apply (apart_under (c_dir c) target); [done|apply under_app|apply under_app]. Qed.
  Lemma targets_apart v w : length v = length keys -> length w = length keys -> v <> w -> apart (part_dir c' v) (part_dir c' w).
  Proof. exact (parts_apart c' v w). Qed.

  Lemma exec_batch b s : NoDup b -> (forall v, v ∈ b -> length v = length keys /\ nothing_at (part_dir c' v) s) -> exists s',
    exec (batch b) s = (Ok tt, s') /\ (forall v q, v ∈ b -> s' !! (part_dir c' v ++ q) = s !! (part_dir c v ++ q)) /\
    (forall q, ~ region_of c' b q -> s' !! q = s !! q).
  Proof.
    intros Hnd Hb. unfold batch, pfor. assert (exists rs s', exec (pseq (map (fun st : path * path => copy_tree st.1 st.2) (map (fun v => (part_dir c v, part_dir c' v)) b))) s = (Ok rs, s') /\
      (forall v q, v ∈ b -> s' !! (part_dir c' v ++ q) = s !! (part_dir c v ++ q)) /\ (forall q, ~ region_of c' b q -> s' !! q = s !! q)) as (rs & s' & E & H).
    { revert s Hb. induction Hnd as [|v b Hv Hnd IH]; intros s Hb; cbn [map pseq].
      - exists [], s. split; [done|]. split; [|done]. intros v q Hv. by apply elem_of_nil in Hv.
      - destruct (Hb v ltac:(left)) as [Hl Hno]. destruct (exec_copy_tree _ _ s (target_apart v v) Hno) as (s1 & E1 & A1 & A2).
        destruct (IH s1) as (rs & s' & E & B1 & B2).
        { intros w Hw. destruct (Hb w ltac:(by right)) as [Hlw Hnw]. split; [done|]. intros q U. rewrite A2; [by apply Hnw|]. intros U'.
          refine (targets_apart v w Hl Hlw _ q U' U). by intros ->. }
        exists (tt :: rs), s'. split; [|split].
        + rewrite exec_bind. cbn [fst snd]. rewrite E1, exec_bind, E. done.
        + intros w q Hw. apply elem_of_cons in Hw as [->|Hw].
          * rewrite B2; [apply A1|]. intros (w & Hw & U)%Exists_exists. destruct (Hb w ltac:(by right)) as [Hlw _].
            refine (targets_apart v w Hl Hlw _ _ (under_app _ _) U). by intros ->.
          * rewrite B1 by done. apply A2. intros U. exact (target_apart w v _ (under_app _ _) U).
        + intros q Hq. rewrite B2 by (intros Hx; apply Hq; by right). apply A2. intros U. apply Hq. by left. }
    exists s'. split; [|done]. rewrite exec_bind, E. done.
  Qed.
  Lemma within_batch b : within (under (c_dir c)) (region_of c' b) (batch b).
  Proof.
    unfold batch. apply within_pfor. intros st Hst. apply elem_of_list_In, in_map_iff in Hst as (v & <- & Hv). cbn [fst snd]. apply within_copy_tree.
    - intros q U. eapply under_trans; [apply under_app|exact U].
    - intros q U. apply Exists_exists. exists v. split; [by apply elem_of_list_In|done].
  Qed.

  Lemma exec_batches sched bs s : NoDup (concat bs) -> (forall v, v ∈ concat bs -> length v = length keys /\ nothing_at (part_dir c' v) s) -> exists rs s',
    exec (execute_transaction CTorn sched (map batch bs)) s = (Ok rs, s') /\
    (forall v q, v ∈ concat bs -> s' !! (part_dir c' v ++ q) = s !! (part_dir c v ++ q)) /\
    (forall q, ~ region_of c' (concat bs) q -> s' !! q = s !! q).
  Proof.
    intros Hnd Hb. set (W := fun i q => match bs !! i with Some b => region_of c' b q | None => False end).
    assert (Hlk : forall i p, map batch bs !! i = Some p -> exists b, bs !! i = Some b /\ p = batch b).
    { intros i p. change (map batch bs) with (batch <$> bs). rewrite list_lookup_fmap. destruct (bs !! i) as [b|]; [|done]. intros [= <-]. eauto. }
    assert (Hdec : forall i q, Decision (W i q)) by (intros i q; unfold W, region_of; destruct (bs !! i); apply _).
    assert (Hcat : forall i b v, bs !! i = Some b -> v ∈ b -> v ∈ concat bs).
    { intros i b v Hi Hv. apply elem_of_list_In, in_concat. exists b. split; [|by apply elem_of_list_In]. apply elem_of_list_In. by eapply elem_of_list_lookup_2. }
    assert (Hndb : forall i b, bs !! i = Some b -> NoDup b).
    { clear -Hnd. induction bs as [|x bs IH]; intros i b Hi; [done|]. cbn in Hnd. apply NoDup_app in Hnd as (H1 & _ & H2). destruct i; [by injection Hi as <-|by apply (IH H2 i)]. }
    assert (Hdis : forall i j b b' v, bs !! i = Some b -> bs !! j = Some b' -> i <> j -> v ∈ b -> v ∈ b' -> False).
    { intros i j b b' v Hi Hj N Hv Hv'. clear -Hnd N Hi Hj Hv Hv'. revert i j N Hi Hj. induction bs as [|x bs IH]; intros i j N Hi Hj; [done|].
      cbn in Hnd. apply NoDup_app in Hnd as (_ & Hd & Hnd). destruct i as [|i], j as [|j]; [done|..].
      * injection Hi as ->. apply (Hd v Hv). apply elem_of_list_In, in_concat. exists b'. split; [|by apply elem_of_list_In]. apply elem_of_list_In. by eapply elem_of_list_lookup_2.
      * injection Hj as ->. apply (Hd v Hv'). apply elem_of_list_In, in_concat. exists b. split; [|by apply elem_of_list_In]. apply elem_of_list_In. by eapply elem_of_list_lookup_2.
      * apply (IH Hnd i j); [congruence|done..]. }
    assert (Hind : independent (map batch bs) (fun _ => under (c_dir c)) W).
    { split.
      - intros i p E. apply Hlk in E as (b & Hi & ->). eapply within_impl; [..|apply within_batch]; [done|]. intros q Hq. unfold W. by rewrite Hi.
      - intros i j p p' Ei Ej N q Wi Hq. apply Hlk in Ei as (b & Hi & _), Ej as (b' & Hj & _). unfold W in Wi, Hq. rewrite Hi in Wi. rewrite Hj in Hq.
        apply Exists_exists in Wi as (v & Hv & U). destruct (Hb _ (Hcat _ _ _ Hi Hv)) as [Hl _]. destruct Hq as [Hq|Hq].
        + refine (Hap q Hq _). eapply under_trans; [apply under_app|exact U].
        + apply Exists_exists in Hq as (v' & Hv' & U'). destruct (Hb _ (Hcat _ _ _ Hj Hv')) as [Hl' _].
          refine (targets_apart v v' Hl Hl' _ q U U'). intros <-. exact (Hdis i j b b' v Hi Hj N Hv Hv'). }
    rewrite (exec_transaction CTorn sched (map batch bs) (fun _ => under (c_dir c)) W s Hdec Hind).
    destruct (exec_all_spec CTorn (map batch bs) (fun _ => under (c_dir c)) W s Hind) as (E1 & E2 & E3).
    assert (Hok : forall i b, bs !! i = Some b -> exists s', exec (batch b) s = (Ok tt, s') /\ (forall v q, v ∈ b -> s' !! (part_dir c' v ++ q) = s !! (part_dir c v ++ q)) /\
      (forall q, ~ region_of c' b q -> s' !! q = s !! q)).
    { intros i b Hi. apply exec_batch; [by eapply Hndb|]. intros v Hv. apply Hb. by eapply Hcat. }
    exists (map (fun _ => tt) bs), (exec_all (map batch bs) s).2. split; [|split].
    - f_equal. apply first_error_Ok. rewrite E1. clear -Hok. rewrite !map_map. apply map_ext_in. intros b Hb. apply elem_of_list_In, elem_of_list_lookup in Hb as [i Hi].
      destruct (Hok i b Hi) as (s' & -> & _). done.
    - intros v q Hv. apply elem_of_list_In, in_concat in Hv as (b & Hb' & Hv). apply elem_of_list_In in Hb', Hv. apply elem_of_list_lookup in Hb' as [i Hi].
      destruct (Hok i b Hi) as (s' & E & A1 & _). rewrite (E2 i (batch b)), E.
      + by apply A1.
      + change (map batch bs) with (batch <$> bs). by rewrite list_lookup_fmap, Hi.
      + right. unfold W. rewrite Hi. apply Exists_exists. exists v. split; [done|apply under_app].
    - intros q Hq. apply E3. intros i p E Hw. apply Hlk in E as (b & Hi & ->). unfold W in Hw. rewrite Hi in Hw. apply Hq. apply Exists_exists in Hw as (v & Hv & U).
      apply Exists_exists. exists v. split; [by eapply Hcat|done].
  Qed.
End parts.
