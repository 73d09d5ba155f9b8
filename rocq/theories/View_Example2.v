(** * A view with two partitions, to show that the hypotheses of the theorems on loading are met *)
From Verif Require Import Py Dict NdArray_Model NdArray_Spec NdArray_Proofs Dataset_Model Dataset_Spec Dataset_Proofs Meta_Model PartPath_Model PartPath_Proofs
  Split_Spec FS_Model FS_Proofs Pool_Model Pool_Proofs Storage_Model Storage_Spec Storage_Chunks Storage_Proofs Storage_Change
  Listing_Model Listing_Spec Listing_Proofs Collection_Model Collection_Spec Collection_Proofs Collection_State Collection_Select Update_Model
  Collection_Split Collection_Create Collection_Example Update_Example
  Index_Model View_Model View_Spec View_State View_Proofs View_Sync View_Init View_Example.

Definition U_axis (zs : list Z) : arr := Arr [length zs] (map Num zs).
Definition U_var (zs : list Z) : variable := Var (lit "speed") false (Arr [length zs / 2; 2] (map Num zs)) (lit "float64") [lit "time"; lit "x"] [] None (Some (Num 7)) [].
Definition U_part (ts zs : list Z) : vpart := VPart (U_axis ts) [(lit "speed", U_var zs)].
Definition U_tree (ts zs : list Z) : store :=
  graft [CHECKSUM] (written_tree (sum_var W_env W_view (lit "int64") (U_axis ts)) [2]) (graft [lit "speed"] (written_tree (U_var zs) [2; 2]) ∅).
Lemma U_keeps ts zs : length zs = 2 * length ts -> keeps_part W_env W_view (U_tree ts zs) (U_part ts zs).
Proof.
  intros Hl. assert (Hd : length zs / 2 = length ts) by (rewrite Hl, Nat.mul_comm; by apply Nat.div_mul).
  assert (Wa : arr_wf (U_axis ts)) by (unfold arr_wf; cbn [a_flat a_shape U_axis]; rewrite map_length; cbn; lia).
  assert (Wz : arr_wf (v_array (U_var zs))) by (unfold arr_wf; cbn [a_flat a_shape U_var v_array]; rewrite map_length, Hd; cbn; lia).
  assert (Hsub : sub [CHECKSUM] (U_tree ts zs) = written_tree (sum_var W_env W_view (lit "int64") (U_axis ts)) [2]).
  { unfold U_tree. apply map_eq. intros q. rewrite sub_lookup, graft_lookup, strip_app, graft_lookup. change (strip [lit "speed"] ([CHECKSUM] ++ q)) with (None : option path). rewrite lookup_empty. by destruct (written_tree (sum_var W_env W_view (lit "int64") (U_axis ts)) [2] !! q). }
  assert (Hsub2 : sub [lit "speed"] (U_tree ts zs) = written_tree (U_var zs) [2; 2]).
  { unfold U_tree. apply map_eq. intros q. rewrite sub_lookup, graft_lookup. cbn [strip app]. rewrite decide_False by done. rewrite graft_lookup.
    change ([lit "speed"] ++ q) with (lit "speed" :: q). cbn [strip]. rewrite decide_True by done. rewrite lookup_empty. by destruct (written_tree (U_var zs) [2; 2] !! q). }
  split; cbn [vp_axis vp_vars U_part].
  - intros q x H. unfold U_tree in H. rewrite graft_lookup in H. destruct (strip [CHECKSUM] q) as [r|] eqn:E.
    + apply strip_Some in E as ->. exists CHECKSUM, r. split; [done|by left].
    + rewrite graft_lookup in H. destruct (strip [lit "speed"] q) as [r|] eqn:E'; [|by rewrite lookup_empty in H].
      apply strip_Some in E' as ->. exists (lit "speed"), r. split; [done|right]. left.
  - split; [done|]. exists (lit "int64"). rewrite Hsub. apply keeps_written; [exact Wa|reflexivity|]. split; [reflexivity|repeat constructor].
  - apply (bool_decide_unpack _). vm_compute. done.
  - done.
  - intros n a H. apply dget_elem, elem_of_list_singleton in H as [= -> ->]. exists W_speed. split; [reflexivity|]. split; [unfold fits; split_and!; reflexivity|].
    assert (K : keeps (sub [lit "speed"] (U_tree ts zs)) (U_var zs)); [|exact K]. rewrite Hsub2. apply keeps_written; [exact Wz|reflexivity|]. split; [reflexivity|repeat constructor].
  - intros n a k H Hk. apply dget_elem, elem_of_list_singleton in H as [= -> ->]. destruct k as [|[|k]]; try done. change (Some (length zs / 2) = Some (length (map Num ts))). by rewrite Hd, map_length.
Qed.

Definition U_parts (x : list Z) : option vpart :=
  if decide (x = [1%Z]) then Some (U_part [10; 20]%Z [1; 2; 3; 4]%Z) else if decide (x = [2%Z]) then Some (U_part [30]%Z [5; 6]%Z) else None.
Definition U_store (s : store) : store :=
  graft (vdir W_view [2%Z]) (U_tree [30]%Z [5; 6]%Z) (graft (vdir W_view [1%Z]) (U_tree [10; 20]%Z [1; 2; 3; 4]%Z) (prune W_dir s)).
Section store.
  Context (s : store).
  Lemma U_out q : ~ under W_dir q -> U_store s !! q = s !! q.
  Proof using.
    intros Hq. unfold U_store. rewrite graft_lookup. destruct (strip (vdir W_view [2%Z]) q) as [r|] eqn:E.
    { apply strip_Some in E as ->. destruct Hq. unfold vdir. rewrite <-app_assoc. apply under_app. }
    rewrite graft_lookup. destruct (strip (vdir W_view [1%Z]) q) as [r|] eqn:E1.
    { apply strip_Some in E1 as ->. destruct Hq. unfold vdir. rewrite <-app_assoc. apply under_app. }
    by rewrite prune_lookup, decide_False.
  Qed.
  Lemma U_sub x p : U_parts x = Some p -> exists ts zs, p = U_part ts zs /\ length zs = 2 * length ts /\ sub (vdir W_view x) (U_store s) = U_tree ts zs /\ (x = [1%Z] \/ x = [2%Z]) /\
    (x = [1%Z] -> ts = [10; 20]%Z /\ zs = [1; 2; 3; 4]%Z) /\ (x = [2%Z] -> ts = [30]%Z /\ zs = [5; 6]%Z).
  Proof using.
    assert (H12 : forall q, strip (vdir W_view [2%Z]) (vdir W_view [1%Z] ++ q) = None).
    { intros q. apply strip_None. intros [r Hr]. unfold vdir in Hr. rewrite <-!app_assoc in Hr. apply app_inv_head in Hr. vm_compute in Hr. injection Hr as Hr. done. }
    intros H. unfold U_parts in H. destruct (decide (x = [1%Z])) as [->|N1]; [|destruct (decide (x = [2%Z])) as [->|N2]; [|done]]; injection H as <-.
    - exists [10; 20]%Z, [1; 2; 3; 4]%Z. split; [done|]. split; [done|]. split; [|split; [by left|split; [done|intros [=]]]].
      apply map_eq. intros q. unfold U_store. rewrite sub_lookup, graft_lookup, H12, graft_lookup, strip_app, prune_lookup, decide_True; [by destruct (U_tree [10; 20]%Z [1; 2; 3; 4]%Z !! q)|].
      unfold vdir. rewrite <-app_assoc. apply under_app.
    - exists [30]%Z, [5; 6]%Z. split; [done|]. split; [done|]. split; [|split; [by right|split; [intros [=]|done]]].
      apply map_eq. intros q. unfold U_store. rewrite sub_lookup, graft_lookup, strip_app.
      assert (graft (vdir W_view [1%Z]) (U_tree [10; 20]%Z [1; 2; 3; 4]%Z) (prune W_dir s) !! (vdir W_view [2%Z] ++ q) = None) as ->; [|by destruct (U_tree [30]%Z [5; 6]%Z !! q)].
      rewrite graft_lookup. assert (strip (vdir W_view [1%Z]) (vdir W_view [2%Z] ++ q) = None) as ->.
      { apply strip_None. intros [r Hr]. unfold vdir in Hr. rewrite <-!app_assoc in Hr. apply app_inv_head in Hr. vm_compute in Hr. injection Hr as Hr. done. }
      rewrite prune_lookup, decide_True; [done|]. unfold vdir. rewrite <-app_assoc. apply under_app.
  Qed.
  Lemma U_holds : holds_view W_env W_view U_parts (U_store s).
  Proof using.
    split.
    - intros q x H. change (w_dir W_view) with W_dir in H. unfold U_store in H. rewrite graft_lookup in H. destruct (strip (vdir W_view [2%Z]) _) as [r|] eqn:E.
      { apply strip_Some in E. unfold vdir in E. rewrite <-app_assoc in E. apply app_inv_head in E as ->. right. exists [2%Z], r. split; [by eexists|done]. }
      rewrite graft_lookup in H. destruct (strip (vdir W_view [1%Z]) _) as [r|] eqn:E1.
      { apply strip_Some in E1. unfold vdir in E1. rewrite <-app_assoc in E1. apply app_inv_head in E1 as ->. right. exists [1%Z], r. split; [by eexists|done]. }
      rewrite prune_lookup, decide_True in H; [done|apply under_app].
    - intros x p H. destruct (U_sub x p H) as (ts & zs & -> & Hl & -> & Hx & _). split; [by destruct Hx as [->| ->]|]. by apply U_keeps.
  Qed.
  Lemma U_agrees M : X_contents M -> (forall x ds, M x = Some ds -> sound ds) -> forall x ds p, M x = Some ds -> U_parts x = Some p -> agrees ds p.
  Proof using s.
    intros HM Hso0 x ds p Hx Hp n a Ha. destruct (U_sub x p Hp) as (ts & zs & -> & Hl & _ & Hxx & E1 & E2). cbn [U_part vp_vars] in Ha. apply dget_elem, elem_of_list_singleton in Ha as [= -> ->].
    pose proof (Hso0 _ _ Hx) as Hso. destruct HM as (p1 & p2 & H1 & H2 & _ & _ & _ & _ & C1 & _ & _ & _ & C2).
    assert (Hh : exists h, dget (d_vars ds) (lit "height") = Some (X_height h) /\ length h = length zs).
    { destruct Hxx as [->| ->].
      - rewrite H1 in Hx. injection Hx as <-. destruct (E1 eq_refl) as [-> ->]. by eexists.
      - rewrite H2 in Hx. injection Hx as <-. destruct (E2 eq_refl) as [-> ->]. by eexists. }
    destruct Hh as (h & Hh & Hlh). split; [|split; [apply NoDup_nil_2|intros Hd; by apply elem_of_nil in Hd]].
    destruct (proper_consistent _ (storable_proper _ (sound_storable _ Hso)) _ _ Hh) as (_ & _ & Hz). intros k d Hk. destruct (Hz k d Hk) as (m & A & B). exists m. split; [|done].
    rewrite <-A. cbn. by rewrite Hlh.
  Qed.
  Lemma U_follows M : X_contents M -> follows W_view M U_parts.
  Proof using s.
    intros HM x p Hp. destruct (U_sub x p Hp) as (ts & zs & -> & Hl & _ & Hxx & E1 & E2). destruct HM as (p1 & p2 & H1 & H2 & _ & _ & A1 & _ & _ & _ & A2 & _).
    destruct Hxx as [->| ->].
    - exists p1. split; [done|]. destruct (E1 eq_refl) as [-> ->]. by exists (X_time [10; 20]%Z).
    - exists p2. split; [done|]. destruct (E2 eq_refl) as [-> ->]. by exists (X_time [30]%Z).
  Qed.
End store.
Lemma U_filled : exists M s, represents Y_coll M None s /\ uniform Y_coll M None /\ X_contents M /\ (forall x ds, M x = Some ds -> made_of Y_coll ds) /\
  holds_view W_env W_view U_parts s /\ (forall x ds p, M x = Some ds -> U_parts x = Some p -> agrees ds p) /\ follows W_view M U_parts.
Proof.
  destruct Y_filled as (M & s & Hs & Hu & HM). exists M, (U_store s).
  split; [|split; [exact Hu|split; [exact HM|split; [intros x d; by apply W_made|split; [apply U_holds|split; [|by apply (U_follows s)]]]]]].
  - eapply (represents_frame W_view); [exact Hs|]. intros q Hq. apply U_out. intros U. by apply (vw_apart _ _ W_viewable q).
  - apply (U_agrees s M HM). intros x ds Hx. exact (proj1 (proj2 (rp_part _ _ _ _ Hs _ _ Hx))).
Qed.

(** The same, when the reference has a variable that does not have the dimension
    of the partitioning. *)
Definition T_view : view := View W_dir X_coll W_meta NoFilter.
Lemma T_viewable : viewable W_env T_view.
Proof.
  destruct W_viewable as [H1 H2 H3 H4 H5 H6 H7]. split; [exact X_regular|exact H2|exact H3|exact H4|exact H5| |].
  - intros n mv H. destruct (H6 n mv H) as (A & B & C & D & E & _). split; [exact A|]. split; [exact B|]. split; [exact C|]. split; [exact D|]. split; [exact E|].
    apply dget_elem, elem_of_list_singleton in H as [= -> ->]. split; [apply (bool_decide_unpack _); vm_compute; done|]. exists (lit "height"). eexists. split; vm_compute; reflexivity.
  - split; [apply (bool_decide_unpack _); vm_compute; done|]. intros n mv H. apply dget_elem in H. cbn in H.
    repeat (apply elem_of_cons in H as [[= -> ->]|H]; [done|]). by apply elem_of_nil in H.
Qed.
Lemma T_made ds : made_of Y_coll ds -> made_of X_coll ds.
Proof.
  intros [A B C]. split; [exact A| |].
  - intros n mv H Hd. apply (B n mv); [|done]. apply dget_elem in H. cbn in H.
    repeat (apply elem_of_cons in H as [[= -> ->]|H]; [first [reflexivity|exfalso; revert Hd; apply (bool_decide_unpack _); vm_compute; done]|]). by apply elem_of_nil in H.
  - intros n v H. destruct (C n v H) as [D [mv E]]. split; [done|]. exists mv. apply dget_elem in E. cbn in E.
    repeat (apply elem_of_cons in E as [[= -> ->]|E]; [reflexivity|]). by apply elem_of_nil in E.
Qed.
Lemma T_filled : exists M i s, represents X_coll M (Some i) s /\ uniform X_coll M (Some i) /\ lit "bias" ∈ dkeys (d_vars i) /\ X_contents M /\ (forall x ds, M x = Some ds -> made_of X_coll ds) /\
  holds_view W_env T_view U_parts s /\ (forall x ds p, M x = Some ds -> U_parts x = Some p -> agrees ds p).
Proof.
  destruct X_filled_fixed as (M & i & s & Hs & Hu & Hb & HM). exists M, i, (U_store s).
  split; [|split; [exact Hu|split; [exact Hb|split; [exact HM|split; [|split]]]]].
  - eapply (represents_frame T_view); [exact Hs|]. intros q Hq. apply U_out. intros U. by apply (vw_apart _ _ W_viewable q).
  - intros x d Hx. apply T_made. by apply (W_made M x).
  - destruct (U_holds s) as [H1 H2]. split; [exact H1|]. intros x p Hp. destruct (H2 x p Hp) as (A & [B1 B2 B3 B4 B5 B6]). split; [exact A|]. split; [exact B1|exact B2|exact B3|exact B4|exact B5|exact B6].
  - apply (U_agrees s M HM). intros x ds Hx. exact (proj1 (proj2 (rp_part _ _ _ _ Hs _ _ Hx))).
Qed.
