(** * What merge_time_series returns can be stored *)
From Verif Require Import Py Dict NdArray_Model NdArray_Spec NdArray_Proofs Dataset_Model Dataset_Spec Dataset_Proofs Dataset_Props Dataset_Props2
  Period_Model Period_Spec TimeSeries_Model Storage_Model Storage_Spec Collection_Model Collection_Spec Collection_Prepare Assemble_Spec Assemble_Proofs Immutable_Spec.

(** The variable with other records. *)
Definition kin (dim : str) (v v' : variable) : Prop :=
  exists a, v' = with_array v a /\ arr_wf a /\ length (a_shape a) = length (v_shape v) /\ forall k, v_dims v !! k <> Some dim -> a_shape a !! k = v_shape v !! k.
Lemma cat_shape ax bs : forall a c, arr_wf a -> cat ax a bs = Ok c -> arr_wf c /\ length (a_shape c) = length (a_shape a) /\ forall k, k <> ax -> a_shape c !! k = a_shape a !! k.
Proof.
  unfold cat. induction bs as [|b bs IH]; intros a c Hw E; cbn [foldM] in E; [injection E as <-; by split|].
  destruct (cat2 ax a b) as [a1|] eqn:E1; [|done]. cbn [rbind] in E. unfold cat2 in E1. destruct (_ || _); [done|]. injection E1 as <-.
  apply IH in E as (H1 & H2 & H3); [|apply tabulate_wf]. cbn [a_shape tabulate] in H2, H3. rewrite insert_length in H2. split; [done|]. split; [done|].
  intros k Hk. rewrite H3 by done. by apply list_lookup_insert_ne.
Qed.
Lemma index_shape key : forall ax a c, arr_wf a -> index_axes ax key a = Ok c -> arr_wf c /\ length (a_shape c) = length (a_shape a) /\
  forall k, (forall j ix, key !! j = Some ix -> ax + j = k -> ix = ISlice None None) -> a_shape c !! k = a_shape a !! k.
Proof.
  induction key as [|ix key IH]; intros ax a c Hw E; cbn [index_axes] in E; [injection E as <-; by split|].
  destruct (length (a_shape a) <=? ax) eqn:El; [done|]. apply Nat.leb_gt in El. destruct (positions _ ix) as [ps|] eqn:Ep; [|done]. cbn [rbind] in E.
  apply IH in E as (H1 & H2 & H3); [|apply take_axis_wf]. rewrite take_axis_shape in H2, H3. rewrite insert_length in H2. split; [done|]. split; [done|].
  intros k Hk. rewrite H3 by (intros j ix' Hj Ej; apply (Hk (S j) ix'); [done|lia]). destruct (decide (k = ax)) as [->|N]; [|by apply list_lookup_insert_ne].
  assert (ix = ISlice None None) as -> by (apply (Hk 0); [done|lia]). cbn in Ep. rewrite Nat.sub_0_r in Ep. injection Ep as <-. rewrite seq_length.
  destruct (lookup_lt_is_Some_2 (a_shape a) ax El) as [m Hm]. rewrite (nth_lookup_Some _ _ _ _ Hm). by rewrite list_lookup_insert by done.
Qed.
Lemma var_concat_kin v os dim v' : arr_wf (v_array v) -> var_concat v os dim = Ok v' -> kin dim v v'.
Proof.
  intros Hw E. unfold var_concat in E. destruct (_ =? 0); [done|]. destruct (negb _); [done|].
  assert (Hid : kin dim v (with_array v (v_array v))) by (by exists (v_array v)).
  destruct (index_of dim (v_dims v)) as [ax|] eqn:Ei; [|injection E as <-; exact Hid].
  destruct (cat ax (v_array v) (map v_array os)) as [a|[]] eqn:Ec; try done.
  - injection E as <-. exists a. apply cat_shape in Ec as (H1 & H2 & H3); [|done]. split_and!; [done|done|done|].
    intros k Hk. apply H3. intros ->. apply Hk. by apply index_of_lookup.
  - injection E as <-. exact Hid.
Qed.
Lemma var_isel_kin dim ix v a : arr_wf (v_array v) -> index_axes 0 (map (fun d => default (ISlice None None) (dget [(dim, ix)] d)) (v_dims v)) (v_array v) = Ok a -> kin dim v (with_array v a).
Proof.
  intros Hw E. apply index_shape in E as (H1 & H2 & H3); [|done]. exists a. split_and!; [done|done|done|]. intros k Hk. apply H3. intros j ix' Hj Ej.
  cbn in Ej. subst j. change (map ?f ?l) with (f <$> l) in Hj. rewrite list_lookup_fmap in Hj. destruct (v_dims v !! k) as [d|]; [|done]. cbn in Hj.
  destruct (decide (d = dim)) as [->|]; [done|]. by injection Hj as <-.
Qed.

(** The datasets made of the variables of a dataset with other records. *)
Lemma sound_arrays dim ds vs ds' : sound ds -> Forall2 (kin dim) (dvals (d_vars ds)) vs ->
  new_dataset vs (d_attrs ds) (Some (d_block ds)) (d_chunks ds) (Some (d_delayed ds)) = Ok ds' -> sound ds' /\ alike dim ds ds'.
Proof.
  intros [Hst Hnr] H E. pose proof (storable_proper _ Hst) as Hp.
  assert (Hnames : map v_name (dvals (d_vars ds)) = dkeys (d_vars ds)).
  { pose proof (proper_consistent _ Hp) as Hc. pose proof (proper_names _ Hp) as Hnd. unfold consistent in Hc. clear -Hc Hnd.
    unfold dvals, dkeys. rewrite map_map. apply map_ext_in. intros [n v] Hin. cbn. apply (Hc n v). apply elem_dget; [done|]. by apply elem_of_list_In. }
  assert (Hvs : map v_name vs = map v_name (dvals (d_vars ds))).
  { clear -H. induction H as [|v v' l l' (a & -> & _) _ IH]; [done|]. cbn [map]. by rewrite IH. }
  pose proof (new_dataset_ok _ _ _ _ _ _ E) as (_ & _ & _ & _ & Hdl & _). specialize (Hdl _ eq_refl).
  eapply sound_new in E as (Hso & Ev & _); [| |by apply Hp|by apply Hp|].
  - split; [done|].
    assert (Hvars : Forall2 (fun nv nv' => nv'.1 = nv.1 /\ kin dim nv.2 nv'.2) (d_vars ds) (d_vars ds')).
    { rewrite Ev. assert (Hk : d_vars ds = map (fun v => (v_name v, v)) (dvals (d_vars ds))).
      { unfold dvals. rewrite map_map. rewrite <-(map_id (d_vars ds)) at 1. apply map_ext_in. intros [n v] Hin. cbn. f_equal.
        symmetry. apply (proper_consistent _ Hp n v). apply elem_dget; [by apply Hp|]. by apply elem_of_list_In. }
      rewrite Hk. clear -H. induction H as [|v v' l l' Hv _ IH]; cbn [map]; constructor; [|done]. cbn. split; [|done]. destruct Hv as (a & -> & _). done. }
    assert (Hget : forall n, match dget (d_vars ds) n, dget (d_vars ds') n with Some v, Some v' => kin dim v v' | None, None => True | _, _ => False end).
    { intros n. clear -Hvars. induction Hvars as [|[n1 v] [n2 v'] l l' [Hn Hv] _ IH]; [done|]. cbn in *. subst n2. by destruct (decide (n = n1)). }
    split; [done|]. split.
    + intros n. specialize (Hget n). destruct (dget (d_vars ds) n), (dget (d_vars ds') n); try done; split; by eexists.
    + intros n v w Hv Hw. specialize (Hget n). rewrite Hv, Hw in Hget. destruct Hget as (a & -> & _ & Hl & Hs). by split_and!.
  - by rewrite Hvs, Hnames; apply Hp.
  - intros v' Hv'. apply elem_of_list_lookup in Hv' as [i Hi]. destruct (Forall2_lookup_r _ _ _ _ _ H Hi) as (v & Hv & a & -> & Ha & Hl & _).
    apply elem_of_list_lookup_2 in Hv. split; [done|]. split; [|split].
    + cbn. unfold v_shape in *. cbn. rewrite Hl. by apply (storable_rank _ Hst).
    + cbn. apply (storable_plain _ Hst). rewrite <-Hnames. apply elem_of_list_In, in_map. by apply elem_of_list_In.
    + cbn. by apply Hnr.
Qed.
Lemma concat_keeps_sound ds others dim ds' : sound ds -> ds_concat ds others dim = Ok ds' -> sound ds' /\ alike dim ds ds'.
Proof.
  intros Hs E. unfold ds_concat in E. destruct (_ =? 0); [done|]. destruct (negb _); [done|].
  match type of E with context [traverse ?f ?l] => destruct (traverse f l) as [vs|] eqn:Et end; [|done]. cbn [rbind] in E.
  eapply sound_arrays; [done| |exact E]. apply traverse_inv in Et.
  pose proof (proper_arrays _ (storable_proper _ (sound_storable _ Hs))) as Hw. clear -Et Hw. unfold dvals in *.
  induction Et as [|[n v] v' l l' Ef _ IH]; [constructor|]. cbn [map] in *. constructor.
  - cbn [fst snd] in *. destruct (traverse _ others) as [os|]; [|done]. cbn [rbind] in Ef. eapply var_concat_kin; [|done]. apply Hw. left.
  - apply IH. intros w Hin. apply Hw. by right.
Qed.
Lemma isel_keeps_sound ds dim ix ds' : sound ds -> ds_isel ds [(dim, ix)] = Ok ds' -> sound ds' /\ alike dim ds ds'.
Proof.
  intros Hs E. unfold ds_isel in E. destruct (negb _); [done|].
  match type of E with context [traverse ?f ?l] => destruct (traverse f l) as [vs|] eqn:Et end; [|done]. cbn [rbind] in E.
  eapply sound_arrays; [done| |exact E]. apply traverse_inv in Et.
  pose proof (proper_arrays _ (storable_proper _ (sound_storable _ Hs))) as Hw. clear -Et Hw.
  induction Et as [|v v' l l' Ef _ IH]; [constructor|]. constructor.
  - destruct (index_axes _ _ (v_array v)) as [a|] eqn:Ei; [|done]. cbn in Ef. injection Ef as <-. eapply var_isel_kin; [|exact Ei]. apply Hw. left.
  - apply IH. intros w Hin. apply Hw. by right.
Qed.

Lemma merge_one_keeps r a b axis dim out : sound a -> sound b -> merge_time_series_ r a b axis dim = Ok out -> sound out /\ (alike dim a out \/ alike dim b out).
Proof.
  intros Ha Hb E. unfold merge_time_series_ in E.
  do 6 (match type of E with (do _ <- ?m; _) = _ => destruct m; [cbn [rbind] in E|done] end). cbv zeta in E.
  match type of E with (do _ <- ?m; _) = _ => destruct m; [cbn [rbind] in E|done] end.
  destruct (rel_is_before _); [apply concat_keeps_sound in E as [? ?]; auto|].
  destruct (rel_is_after _); [apply concat_keeps_sound in E as [? ?]; auto|].
  destruct (rel_contains _); [injection E as <-; split; [done|right; apply alike_refl]|].
  destruct (rel_is_before_overlapping _); [|destruct (rel_is_after_overlapping _)].
  - match type of E with (do _ <- ?m; _) = _ => destruct m; [cbn [rbind] in E|done] end. apply concat_keeps_sound in E as [? ?]; auto.
  - match type of E with (do _ <- ?m; _) = _ => destruct m eqn:E1; [cbn [rbind] in E|done] end. apply isel_keeps_sound in E1 as [S1 A1]; [|done].
    apply concat_keeps_sound in E as [S2 A2]; [|done]. split; [done|]. left. by eapply alike_trans.
  - destruct (negb _); [done|]. match type of E with (do _ <- ?m; _) = _ => destruct m; [cbn [rbind] in E|done] end.
    match type of E with (do _ <- ?m; _) = _ => destruct m eqn:E1; [cbn [rbind] in E|done] end. apply isel_keeps_sound in E1 as [S1 A1]; [|done].
    do 3 (match type of E with (do _ <- ?m; _) = _ => destruct m; [cbn [rbind] in E|done] end).
    apply concat_keeps_sound in E as [S2 A2]; [|done]. split; [done|]. left. by eapply alike_trans.
Qed.
Lemma merge_keeps r a b axis dim tol out : sound a -> sound b -> merge_time_series r a b axis dim tol = Ok out -> sound out /\ (alike dim a out \/ alike dim b out).
Proof.
  intros Ha Hb E. unfold merge_time_series in E. match type of E with (do _ <- ?m; _) = _ => destruct m as [index|]; [cbn [rbind] in E|done] end.
  destruct (1 <? length index); [|by eapply merge_one_keeps].
  match type of E with foldM ?f _ _ = _ => assert (Hfold : forall l a1, (alike dim a a1 \/ alike dim b a1) -> sound a1 -> foldM f a1 l = Ok out -> sound out /\ (alike dim a out \/ alike dim b out)) end;
    [|eapply Hfold; [|exact Ha|exact E]; left; apply alike_refl]. clear E.
  intros l. induction l as [|ab l IH]; intros a1 H0 Ha1 E; cbn [foldM] in E; [injection E as <-; by split|].
  match type of E with rbind ?m _ = _ => destruct m as [a'|] eqn:E1; [cbn [rbind] in E|done] end.
  destruct (ds_isel b _) as [p|] eqn:E2; [|done]. cbn [rbind] in E1. apply isel_keeps_sound in E2 as [S2 A2]; [|done].
  apply merge_one_keeps in E1 as [S1 A1]; [|done|done]. apply IH in E; [done| |done].
  destruct A1 as [A1|A1]; [|right; exact (alike_trans _ _ _ _ A2 A1)]. destruct H0 as [H0|H0]; [left|right]; exact (alike_trans _ _ _ _ H0 A1).
Qed.
Lemma merge_sound r a b axis dim tol out : sound a -> sound b -> merge_time_series r a b axis dim tol = Ok out -> sound out.
Proof. intros Ha Hb E. by eapply merge_keeps in E as [? ?]. Qed.
Lemma time_series_sound c r tol : merges_sound c (Some (fun ex ins axis dim => merge_time_series r ex ins axis dim tol)).
Proof. intros f a b out [= <-] Ha Hb E. by eapply merge_keeps in E as [? ?]. Qed.
Lemma time_series_layout c r tol : keeps_layout c (Some (fun ex ins axis dim => merge_time_series r ex ins axis dim tol)).
Proof. intros f a b out [= <-] Ha Hb E. by eapply merge_keeps in E as [? ?]. Qed.
Lemma replacing_layout c : keeps_layout c None.
Proof. by intros f a b out [=]. Qed.
