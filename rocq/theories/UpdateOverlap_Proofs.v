(** * The update of partitions with their neighbours *)
From Verif Require Import Py Dict NdArray_Model NdArray_Spec NdArray_Proofs Dataset_Model Dataset_Spec Dataset_Proofs Dataset_Main Dataset_Props Dataset_Props2 Meta_Model PartPath_Model PartPath_Proofs
  Split_Spec DaskUtils_Model DaskUtils_Proofs FS_Model FS_Proofs Pool_Model Pool_Proofs Rely_Proofs Storage_Model Storage_Chunks Storage_Spec Storage_Proofs
  Listing_Model Listing_Spec Listing_Proofs Assemble_Proofs Collection_Model Collection_Spec Collection_Split Collection_Proofs Collection_State Collection_Select Collection_Load
  Update_Model Update_Spec Storage_Change Update_State Update_Proofs Overlap_Proofs UpdateOverlap_Spec.

(** ** Reading a group while some arrays are written *)
Definition disturbed (W : str -> Prop) (t0 t : store) : Prop :=
  forall q, t !! q = t0 !! q \/ ((exists n ci, W n /\ q = [n; chunk_key ci]) /\ exists x, t !! q = Some x /\ (x = CTorn \/ exists a, x = CChunk a)).
(** [d'] is [d] with other values for the variables in [W]. *)
Definition varies (W : str -> Prop) (d d' : dataset) : Prop :=
  exists l, fits d l /\ d' = assign_all d l /\ forall n v, dget (d_vars d) n = Some v -> ~ W n -> dget (d_vars d') n = Some v.

Definition mend (x : content) : content := match x with CTorn => CChunk (Arr [] []) | _ => x end.
Lemma sub_mend d (t : store) : sub d (mend <$> t) = mend <$> sub d t.
Proof. apply map_eq. intros q. by rewrite sub_lookup, !lookup_fmap, sub_lookup. Qed.
Lemma read_item_mend z t idx x : read_item z t idx = Ok x -> read_item z (mend <$> t) idx = Ok x.
Proof. unfold read_item. rewrite lookup_fmap. by destruct (t !! _) as [[]|]. Qed.
Lemma traverse_impl {A B} (f g : A -> res B) l r : (forall x y, x ∈ l -> f x = Ok y -> g x = Ok y) -> traverse f l = Ok r -> traverse g l = Ok r.
Proof.
  revert r. induction l as [|x l IH]; intros r H; [done|]. cbn. destruct (f x) as [y|] eqn:E; [|done]. rewrite (H x y) by (left || done). cbn.
  destruct (traverse f l) as [ys|] eqn:El; [|done]. rewrite (IH ys); [done| |done]. intros a b Ha. apply H. by right.
Qed.
Lemma read_array_mend z t a : read_array z t = Ok a -> read_array z (mend <$> t) = Ok a.
Proof.
  unfold read_array. destruct (traverse (read_item z t) _) as [l|] eqn:E; [|done]. erewrite traverse_impl; [done| |exact E]. intros x y _. apply read_item_mend.
Qed.
Lemma read_array_shape z t a : read_array z t = Ok a -> a_shape a = z_shape z /\ arr_wf a.
Proof.
  unfold read_array. destruct (traverse (read_item z t) _) as [l|] eqn:E; [|done]. intros [= <-]. split; [done|].
  unfold arr_wf. cbn. apply traverse_inv, Forall2_length in E. by rewrite <-E, indices_length.
Qed.
Lemma read_array_total z t0 t a0 : read_array z t0 = Ok a0 -> (forall ci, t !! [chunk_key ci] = t0 !! [chunk_key ci] \/ exists a, t !! [chunk_key ci] = Some (CChunk a)) -> exists a, read_array z t = Ok a.
Proof.
  intros H0 H. unfold read_array in *.
  assert (exists l, traverse (read_item z t) (indices (z_shape z)) = Ok l) as [l ->]; [|by eexists].
  destruct (traverse (read_item z t0) (indices (z_shape z))) as [l0|] eqn:E; [|done]. clear H0. revert l0 E.
  induction (indices (z_shape z)) as [|idx l IH]; intros l0 E; [by exists []|]. cbn in *. destruct (read_item z t0 idx) as [x|] eqn:Ex; [|done]. cbn in E.
  destruct (traverse (read_item z t0) l) as [l1|]; [|done]. destruct (IH _ eq_refl) as [r ->].
  unfold read_item in *. destruct (H (chunk_of (z_chunks z) idx)) as [->|[a ->]]; [|by eexists]. rewrite Ex. by eexists.
Qed.
(** The chunks that are read. *)
Lemma read_array_chunks z t t' a : read_array z t = Ok a -> (forall ci c, t !! [chunk_key ci] = c -> (c = None \/ exists a, c = Some (CChunk a)) -> t' !! [chunk_key ci] = c) ->
  read_array z t' = Ok a.
Proof.
  unfold read_array. destruct (traverse (read_item z t) _) as [l|] eqn:E; [|done]. intros Ha H. erewrite traverse_impl; [exact Ha| |exact E].
  intros x y _. unfold read_item. destruct (t !! _) as [c|] eqn:Ec.
  - destruct c as [| |b| | | |]; try done. rewrite (H _ (Some (CChunk b)) Ec); [done|]. right. by exists b.
  - rewrite (H _ None Ec); [done|by left].
Qed.
Lemma disturbed_reads W t0 t old delayed sel o : sound old -> holds_dataset t0 old -> disturbed W t0 t -> read_group t delayed sel = Ok o ->
  exists old', varies W old old' /\ opens delayed sel old' o.
Proof.
  intros Hso [Hnil Hg] Hd Ho. set (t1 := mend <$> t). pose proof (storable_proper _ (sound_storable _ Hso)) as Hp.
  assert (Hsame : forall q, (forall n ci, q <> [n; chunk_key ci]) -> (forall c, t0 !! q = Some c -> c <> CTorn) -> t1 !! q = t0 !! q).
  { intros q Hq Hc. unfold t1. rewrite lookup_fmap. destruct (Hd q) as [->|[(n & ci & _ & ->) _]]; [|by destruct (Hq n ci)].
    destruct (t0 !! q) as [c|] eqn:E; [|done]. specialize (Hc c eq_refl). by destruct c. }
  assert (Hk : forall q, is_zarr_key q = true -> t1 !! q = t0 !! q).
  { intros q Hq. apply Hsame.
    - intros n ci ->. pose proof (chunk_not_zarr_key ci) as H. unfold is_zarr_key in *. cbn [last] in *. congruence.
    - intros c Hc ->. destruct (hg_clean _ _ _ Hg _ _ Hc Hq) as [? ?]. done. }
  assert (Hm : t1 !! [ZMETADATA] = t0 !! [ZMETADATA]).
  { apply Hsame; [done|]. intros c Hc ->. rewrite (hg_cons _ _ _ Hg) in Hc. done. }
  assert (Hm' : t !! [ZMETADATA] = t0 !! [ZMETADATA]).
  { destruct (Hd [ZMETADATA]) as [|[(n & ci & _ & ?) _]]; [done|done]. }
  assert (Ho1 : read_group t1 delayed sel = Ok o).
  { unfold read_group in *. assert (read_cons t1 = read_cons t) as -> by (unfold read_cons; by rewrite Hm, Hm').
    destruct (read_cons t) as [m|]; [|done]. cbn [rbind] in *. destruct (traverse (open_zarr_array m t delayed) _) as [vs|] eqn:E; [|done].
    erewrite (traverse_impl _ (open_zarr_array m t1 delayed)); [done| |exact E]. intros x y _ H. unfold open_zarr_array in *. destruct (array_meta m x) as [z|]; [|done]. cbn [rbind] in *.
    unfold t1. rewrite sub_mend. destruct (read_array z (sub [x] t)) as [a|] eqn:Ea; [|done]. by rewrite (read_array_mend _ _ _ Ea). }
  set (getarr := fun n : str => match t1 !! [n; ZARRAY] with
                       | Some (CMeta (MArray z)) => match read_array z (sub [n] t1) with Ok a => a | Raise _ => Arr [] [] end
                       | _ => Arr [] [] end).
  set (l := map (fun nv : str * variable => (nv.1, getarr nv.1)) (d_vars old)).
  assert (Hl : forall n, dget l n = option_map (fun _ => getarr n) (dget (d_vars old) n)).
  { intros n. unfold l. clear. induction (d_vars old) as [|[m v] vars IH]; [done|]. cbn. by destruct (decide (n = m)) as [->|]. }
  assert (Harr : forall n v, dget (d_vars old) n = Some v -> exists cs, chunked (v_shape v) cs /\ t1 !! [n; ZARRAY] = Some (CMeta (MArray (zarr_for (stored v) cs))) /\
     read_array (zarr_for (stored v) cs) (sub [n] t1) = Ok (getarr n) /\ a_shape (getarr n) = v_shape v /\ arr_wf (getarr n) /\ (~ W n -> getarr n = v_array v)).
  { intros n v Ev. assert (Es : dget (stored_vars (d_vars old)) n = Some (stored v)) by (by rewrite dget_stored, Ev).
    destruct (hg_vars _ _ _ Hg _ _ Es) as (_ & _ & [(cs & Hc & Hz & Hra) _]). exists cs. rewrite sub_lookup in Hz. cbn [app] in Hz.
    assert (Hz1 : t1 !! [n; ZARRAY] = Some (CMeta (MArray (zarr_for (stored v) cs)))) by (rewrite Hk by done; exact Hz).
    destruct (read_array_total (zarr_for (stored v) cs) _ (sub [n] t1) _ Hra) as [a Ea].
    { intros ci. rewrite !sub_lookup. cbn [app]. unfold t1. rewrite lookup_fmap. destruct (Hd [n; chunk_key ci]) as [->|[_ (x & -> & [->|[b ->]])]]; [|right; by eexists|right; by eexists].
      destruct (t0 !! [n; chunk_key ci]) as [[]|]; cbn; first [by left|right; by eexists]. }
    assert (Eg : getarr n = a) by (unfold getarr; by rewrite Hz1, Ea). rewrite Eg. destruct (read_array_shape _ _ _ Ea) as [S1 S2]. split_and!; [done..|].
    intros Hn. assert (read_array (zarr_for (stored v) cs) (sub [n] t1) = Ok (v_array (stored v))); [|cbn in *; congruence].
    eapply read_array_chunks; [exact Hra|]. intros ci x. rewrite !sub_lookup. cbn [app]. intros Ex Hx. unfold t1. rewrite lookup_fmap.
    destruct (Hd [n; chunk_key ci]) as [->|[(n' & ci' & Hn' & [= <- _]) _]]; [|done]. rewrite Ex. by destruct Hx as [->|[b ->]]. }
  assert (Hf : fits old l).
  { intros n a. rewrite Hl. destruct (dget (d_vars old) n) as [v|] eqn:E; [|done]. intros [= <-]. destruct (Harr n v E) as (cs & _ & _ & _ & H1 & H2 & _).
    split; [done|]. by intros v' [= <-]. }
  exists (assign_all old l). split.
  { exists l. split; [done|]. split; [done|]. intros n v Ev Hn. rewrite assign_get, Ev, Hl, Ev. cbn. destruct (Harr n v Ev) as (cs & _ & _ & _ & _ & _ & Ha).
    rewrite Ha by done. f_equal. by destruct v. }
  assert (Hh : holds_dataset (sub [] t1) (assign_all old l)).
  { replace (sub [] t1) with t1 by (apply map_eq; intros q; by rewrite sub_lookup). split.
    - rewrite Hsame; [done|done|]. by rewrite Hnil.
    - cbn [d_attrs assign_all with_vars]. rewrite stored_assign. split.
      + rewrite Hm, (metas_same t0 t1) by done. apply Hg.
      + eapply clean_same; [done|apply Hg].
      + rewrite Hk by done. apply Hg.
      + rewrite Hk by done. apply Hg.
      + unfold dkeys. rewrite map_map. cbn. change (NoDup (dkeys (stored_vars (d_vars old)))). apply Hg.
      + intros n v' Ev. rewrite <-stored_assign, dget_stored, assign_get, Hl in Ev. destruct (dget (d_vars old) n) as [v|] eqn:E; [|done]. cbn in Ev. injection Ev as <-.
        assert (Es : dget (stored_vars (d_vars old)) n = Some (stored v)) by (by rewrite dget_stored, E).
        destruct (hg_vars _ _ _ Hg _ _ Es) as (H1 & H2 & H3). split; [done|]. split; [done|]. destruct (Harr n v E) as (cs & Hc & Hz & Hra & Hs & _).
        assert (Ez : zarr_for (stored (with_array v (getarr n))) cs = zarr_for (stored v) cs) by (unfold zarr_for, v_shape; cbn; by rewrite Hs).
        split.
        * exists cs. split; [unfold v_shape; cbn; by rewrite Hs|]. rewrite Ez, sub_lookup. done.
        * rewrite sub_lookup. cbn [app]. rewrite Hk by done. pose proof (hv_attrs _ _ H3) as Ea. rewrite sub_lookup in Ea. exact Ea.
      + intros n x E. rewrite Hk in E by done. apply (hg_only _ _ _ Hg) in E. unfold dkeys in *. rewrite map_map. exact E. }
  destruct (open_opens [] t1 _ delayed sel (assign_sound _ _ Hso Hf) Hh) as (o' & Eo & Hop).
  unfold open_zarr_group in Eo. rewrite exec_bind, exec_get_tree in Eo. cbn [exec] in Eo.
  replace (sub [] t1) with t1 in Eo by (apply map_eq; intros q; by rewrite sub_lookup). rewrite Ho1 in Eo. by injection Eo as ->.
Qed.

(** ** Datasets that differ by values *)
Lemma varies_alike W d d' : varies W d d' -> alike W d d'.
Proof.
  intros (l & Hf & -> & Hk) n. rewrite assign_get. destruct (dget (d_vars d) n) as [v|] eqn:E; [|done]. cbn.
  specialize (Hk n v E). rewrite assign_get, E in Hk. cbn in Hk.
  destruct (dget l n) as [a|] eqn:El.
  - split; [done|]. split; [|intros Hn; by injection (Hk Hn)]. unfold v_shape at 1. cbn. by apply (Hf n).
  - split; [by destruct v|done].
Qed.
Lemma alike_get W d d' n v : alike W d d' -> dget (d_vars d) n = Some v ->
  exists v', dget (d_vars d') n = Some v' /\ v' = with_array v (v_array v') /\ v_shape v' = v_shape v /\ (~ W n -> v' = v).
Proof. intros H E. specialize (H n). rewrite E in H. destruct (dget (d_vars d') n) as [v'|]; [|done]. by exists v'. Qed.
Lemma varies_sound W d d' : sound d -> varies W d d' -> sound d'.
Proof. intros Hs (l & Hf & -> & _). by apply assign_sound. Qed.
Lemma varies_form W d d' : varies W d d' -> same_form d d'.
Proof. intros (l & Hf & -> & _). by apply same_form_assign. Qed.
Lemma varies_measured W dim sel d d' : varies W d d' -> measured dim sel d -> measured dim sel d'.
Proof.
  intros Hv (n & v & Hw & Ev & Hd). destruct (alike_get W d d' n v (varies_alike _ _ _ Hv) Ev) as (v' & Ev' & Eq & _). exists n, v'. split; [done|]. split; [done|].
  rewrite Eq. done.
Qed.
Lemma varies_refl (W : str -> Prop) d : varies W d d.
Proof. exists []. rewrite assign_nil. done. Qed.
Lemma varies_assign (W : str -> Prop) d l : fits d l -> (forall n, n ∈ dkeys l -> W n) -> varies W d (assign_all d l).
Proof.
  intros Hf Hl. exists l. split; [done|]. split; [done|]. intros n v Ev Hn. rewrite assign_get, Ev. cbn.
  destruct (dget l n) as [a|] eqn:E; [|done]. exfalso. apply Hn, Hl, dget_is_Some. by eexists.
Qed.

Lemma records_alike dim v v' rs rs' : v' = with_array v (v_array v') -> v_shape v' = v_shape v -> records v dim = Some rs -> records v' dim = Some rs' -> length rs' = length rs.
Proof.
  intros E Hs. rewrite !records_index. rewrite E at 1. cbn [v_dims with_array]. destruct (index_of dim (v_dims v)) as [ax|]; [|done].
  intros [= <-] [= <-]. rewrite !rows_length. unfold v_shape in Hs. by rewrite Hs.
Qed.
Lemma records_in_alike W dim n ds ds' rss rss' : Forall2 (alike W) ds ds' -> records_in dim n ds rss -> records_in dim n ds' rss' ->
  length (mjoin rss') = length (mjoin rss) /\ (~ W n -> rss' = rss).
Proof.
  intros H. revert rss rss'. induction H as [|d d' ds ds' Hd _ IH]; intros rss rss' H1 H2; inversion H1 as [|? rs ? rss1 (v & Ev & Hr) H1']; inversion H2 as [|? rs' ? rss2 (v' & Ev' & Hr') H2']; subst; [done|].
  destruct (IH _ _ H1' H2') as [IH1 IH2]. destruct (alike_get W d d' n v Hd Ev) as (w & Ew & Eq & Hs & Hn). assert (w = v') as -> by congruence.
  split.
  - change (mjoin (?a :: ?b)) with (a ++ mjoin b). rewrite !app_length, IH1, (records_alike dim v v' rs rs'); done.
  - intros HW. f_equal; [|by apply IH2]. rewrite Hn in Hr' by done. congruence.
Qed.

Lemma seen_alike W dim delayed sel before old after before' old' after' ds ds' range range' :
  (forall v, v ∈ dvals (d_vars (hd old before)) -> NoDup (v_dims v)) -> same_layout dim (hd old before) old -> measured dim sel old ->
  Forall2 (alike W) before before' -> alike W old old' -> Forall2 (alike W) after after' ->
  seen_around dim delayed sel before old after ds range -> seen_around dim delayed sel before' old' after' ds' range' ->
  alike W ds ds' /\ range' = range.
Proof.
  intros Hnd Hlay Hme Hb Ho Ha H H'.
  assert (Hhd : alike W (hd old before) (hd old' before')) by (by inversion Hb; subst).
  assert (Hn : forall n, n ∈ dkeys (d_vars ds) <-> n ∈ dkeys (d_vars ds')).
  { intros n. rewrite (sa_names _ _ _ _ _ _ _ _ H), (sa_names _ _ _ _ _ _ _ _ H'). rewrite <-!dget_is_Some. specialize (Ho n).
    destruct (dget (d_vars old) n), (dget (d_vars old') n); try done; split; intros [? ?]; (split; [done|]); by eexists. }
  assert (Hrec : forall n v w w', dget (d_vars ds) n = Some w -> dget (d_vars ds') n = Some w' -> dget (d_vars old) n = Some v -> dim ∈ v_dims v ->
     exists rs rs', records w dim = Some rs /\ records w' dim = Some rs' /\ length rs' = length rs /\ (~ W n -> rs' = rs) /\ range' = range).
  { intros n v w w' Ew Ew' Ev Hd. destruct (alike_get W _ _ _ _ Ho Ev) as (v' & Ev' & Eq & Hs & HW).
    assert (Hd' : dim ∈ v_dims v') by (by rewrite Eq).
    destruct (sa_records _ _ _ _ _ _ _ _ H n v w Ew Ev Hd) as (b1 & r1 & a1 & Hb1 & Hr1 & Ha1 & E1 & R1).
    destruct (sa_records _ _ _ _ _ _ _ _ H' n v' w' Ew' Ev' Hd') as (b2 & r2 & a2 & Hb2 & Hr2 & Ha2 & E2 & R2).
    destruct (records_in_alike W dim n before before' b1 b2 Hb Hb1 Hb2) as [L1 X1]. destruct (records_in_alike W dim n after after' a1 a2 Ha Ha1 Ha2) as [L2 X2].
    pose proof (records_alike dim v v' r1 r2 Eq Hs Hr1 Hr2) as L3.
    eexists _, _. split; [exact E1|]. split; [exact E2|]. split; [rewrite !app_length; lia|]. split; [|congruence].
    intros Hw. rewrite X1, X2 by done. assert (r2 = r1) as ->; [|done]. rewrite HW in Hr2 by done. congruence. }
  split.
  - intros n. destruct (dget (d_vars ds) n) as [w|] eqn:Ew.
    2:{ destruct (dget (d_vars ds') n) as [w'|] eqn:Ew'; [|done]. exfalso. assert (n ∈ dkeys (d_vars ds)) by (apply Hn, dget_is_Some; by eexists).
        apply dget_is_Some in H0 as [? ?]. congruence. }
    assert (exists w', dget (d_vars ds') n = Some w') as [w' Ew'] by (apply dget_is_Some, Hn, dget_is_Some; by eexists). rewrite Ew'.
    destruct (sa_vars _ _ _ _ _ _ _ _ H n w Ew) as (vp & Evp & Hsb). destruct (sa_vars _ _ _ _ _ _ _ _ H' n w' Ew') as (vp' & Evp' & Hsb').
    destruct (alike_get W _ _ _ _ Hhd Evp) as (x & Ex & Eq & Hs & HW). assert (x = vp') as -> by congruence.
    set (X := with_delayed (stored vp) delayed) in *. set (X' := with_delayed (stored vp') delayed) in *.
    assert (EX : X' = with_array X (v_array vp')) by (unfold X', X; rewrite Eq; done).
    destruct Hsb as (S1 & S2 & S3 & S4), Hsb' as (S1' & S2' & S3' & S4').
    assert (Ew1 : w' = with_array w (v_array w')) by (rewrite S1', EX, S1; done).
    assert (HsX : v_shape X' = v_shape X) by (rewrite EX; exact Hs).
    assert (HdX : v_dims X' = v_dims X) by (by rewrite EX). assert (Hdw : v_dims w = v_dims X) by (by rewrite S1).
    assert (Hndw : NoDup (v_dims w)).
    { rewrite Hdw. change (v_dims X) with (v_dims vp). apply Hnd. eapply vals_elem. by apply dget_elem. }
    assert (exists v, dget (d_vars old) n = Some v) as [v Ev].
    { apply dget_is_Some. apply (sa_names _ _ _ _ _ _ _ _ H n). apply dget_is_Some. by eexists. }
    assert (Hdv : v_dims v = v_dims X) by (by destruct (proj2 Hlay n vp v Evp Ev)).
    destruct (decide (dim ∈ v_dims X)) as [Hd|Hd].
    2:{ split; [done|]. rewrite (S4 Hd). rewrite <-HdX in Hd. rewrite (S4' Hd). split; [done|]. intros Hw. rewrite EX, (HW Hw). done. }
    destruct (Hrec n v w w' Ew Ew' Ev ltac:(by rewrite Hdv)) as (rs & rs' & E1 & E2 & L & HWr & _).
    assert (Hsh : v_shape w' = v_shape w).
    { apply list_eq. intros k. destruct (decide (v_dims X !! k = Some dim)) as [Hk|Hk].
      - rewrite !records_index in E1, E2. rewrite Ew1 in E2. cbn [v_dims with_array] in E2. rewrite Hdw in *.
        rewrite (index_of_nodup _ _ _ Hndw Hk) in E1, E2. injection E1 as <-. injection E2 as <-. rewrite !rows_length in L. cbn [v_array with_array] in L.
        assert (Hlen : length (v_shape w') = length (v_shape w)) by (rewrite S2', S2, HsX; done).
        assert (Hlt : k < length (v_shape w)).
        { destruct (proper_consistent _ (sa_proper _ _ _ _ _ _ _ _ H) _ _ Ew) as (_ & _ & Hz). destruct (Hz k dim) as (m & Hm & _); [by rewrite Hdw|]. by apply lookup_lt_Some in Hm. }
        destruct (lookup_lt_is_Some_2 _ _ Hlt) as [m Hm]. rewrite <-Hlen in Hlt. destruct (lookup_lt_is_Some_2 _ _ Hlt) as [m' Hm'].
        unfold v_shape in *. rewrite (nth_lookup_Some _ _ _ _ Hm), (nth_lookup_Some _ _ _ _ Hm') in L. rewrite Hm, Hm'. congruence.
      - rewrite S3 by done. rewrite S3' by (by rewrite HdX). by rewrite HsX. }
    split; [done|]. split; [done|]. intros Hw. apply (var_determined (d_dims ds) dim w w').
    + destruct (proper_consistent _ (sa_proper _ _ _ _ _ _ _ _ H) _ _ Ew) as (_ & _ & Hz). exact Hz.
    + done.
    + apply (proper_arrays _ (sa_proper _ _ _ _ _ _ _ _ H)). eapply vals_elem. by apply dget_elem.
    + apply (proper_arrays _ (sa_proper _ _ _ _ _ _ _ _ H')). eapply vals_elem. by apply dget_elem.
    + split; [done|]. split; [by rewrite Hsh|]. split; [by intros k _; rewrite Hsh|]. rewrite Hdw. done.
    + rewrite E1, E2. f_equal. by apply HWr.
  - destruct Hme as (n & v & Hw & Ev & Hd).
    assert (n ∈ dkeys (d_vars ds)) as Hin by (apply (sa_names _ _ _ _ _ _ _ _ H); split; [done|]; apply dget_is_Some; by eexists).
    pose proof Hin as Hin'. apply Hn in Hin'. apply dget_is_Some in Hin as [w Ew], Hin' as [w' Ew'].
    by destruct (Hrec n v w w' Ew Ew' Ev Hd) as (_ & _ & _ & _ & _ & _ & ?).
Qed.

(** ** Trimming *)
Lemma index_axes_rank key : forall k a b, index_axes k key a = Ok b -> key = [] \/ k + length key <= length (a_shape a).
Proof.
  induction key as [|ix key IH]; intros k a b H; [by left|]. right. cbn [index_axes length] in *. destruct (length (a_shape a) <=? k) eqn:E; [done|].
  apply Nat.leb_gt in E. destruct (positions _ ix) as [ps|]; [|done]. cbn [rbind] in H. apply IH in H as [->|H]; [cbn; lia|].
  rewrite take_axis_shape, insert_length in H. lia.
Qed.
Lemma slices_keys dim dims ix k : NoDup dims -> index_of dim dims = Some k ->
  <[k := ix]> (replicate (length dims) (ISlice None None)) = map (key_for dim ix) dims.
Proof.
  revert k. induction dims as [|d dims IH]; intros k Hnd E; [done|]. inversion Hnd as [|? ? Hd Hnd']; subst. cbn in E. cbn [length replicate map].
  unfold key_for at 1. destruct (decide (dim = d)) as [<-|N].
  - injection E as <-. cbn. rewrite decide_True by done. f_equal. clear -Hd. induction dims as [|d dims IH]; [done|]. apply not_elem_of_cons in Hd as [H1 H2].
    cbn. unfold key_for at 1. rewrite decide_False by done. f_equal. by apply IH.
  - destruct (index_of dim dims) as [j|] eqn:Ej; [|done]. injection E as <-. cbn. rewrite decide_False by done. f_equal. by apply IH.
Qed.
Lemma take_drop_seq n a b : a <= n -> take (b - a) (drop a (seq 0 n)) = seq a (min b n - a).
Proof.
  intros H. replace n with (a + (n - a)) at 1 by lia. rewrite seq_app, drop_app_alt by (by rewrite seq_length). cbn.
  destruct (decide (b - a <= n - a)).
  - replace (n - a) with ((b - a) + (n - a - (b - a))) at 1 by lia. rewrite seq_app, take_app_alt by (by rewrite seq_length). f_equal. lia.
  - rewrite take_ge by (rewrite seq_length; lia). f_equal. lia.
Qed.
Lemma index_portion dim dims ax (a b : nat) x y : arr_wf x -> NoDup dims -> dims !! ax = Some dim ->
  index_axes 0 (map (key_for dim (ISlice (Some (Z.of_nat a)) (Some (Z.of_nat b)))) dims) x = Ok y ->
  exists ps, y = take_axis ax ps x /\ ax < length (a_shape x) /\ Forall (fun j => j < nth ax (a_shape x) 0) ps /\ ps = seq (min a (nth ax (a_shape x) 0)) (min b (nth ax (a_shape x) 0) - min a (nth ax (a_shape x) 0)) /\ portion ax (a, b) x y.
Proof.
  intros Hw Hnd Hax E. pose proof (lookup_lt_Some _ _ _ Hax) as Hlt.
  assert (Hrk : length dims <= length (a_shape x)).
  { apply index_axes_rank in E as [E|E]; [apply map_eq_nil in E as ->; cbn; lia|]. rewrite map_length in E. lia. }
  set (n := nth ax (a_shape x) 0) in *.
  assert (Hcl : forall k : nat, clip n (Z.of_nat k) = min k n) by (intros k; unfold clip; destruct (Z.ltb_spec (Z.of_nat k) 0); lia).
  assert (Hp : positions (nth (0 + ax) (a_shape x) 0) (ISlice (Some (Z.of_nat a)) (Some (Z.of_nat b))) = Ok (seq (min a n) (min b n - min a n))).
  { cbn [positions slice_bounds Nat.add]. fold n. by rewrite !Hcl. }
  rewrite (index_axes_at dim _ _ dims 0 ax x Hw Hrk Hnd Hax Hp) in E. injection E as <-. cbn [Nat.add].
  assert (Hps : Forall (fun j => j < n) (seq (min a n) (min b n - min a n))) by (apply Forall_forall; intros j Hj%elem_of_seq; lia).
  eexists. split; [done|]. split; [lia|]. split; [done|]. split; [done|]. split.
  - intros k Hk. rewrite take_axis_shape. by rewrite list_lookup_insert_ne.
  - rewrite rows_take by (done || lia). cbn [fst snd]. unfold rows. fold n. change (map (row ax x)) with (fmap (M := list) (row ax x)). rewrite <-fmap_drop, <-fmap_take. f_equal.
    destruct (decide (a <= n)) as [Ha|Ha].
    + rewrite take_drop_seq by done. f_equal; lia.
    + rewrite drop_ge by (rewrite seq_length; lia). rewrite take_nil. replace (min b n - min a n) with 0 by lia. done.
Qed.
Lemma take_axis_items ax ps a x : arr_wf a -> ax < length (a_shape a) -> Forall (fun j => j < nth ax (a_shape a) 0) ps -> x ∈ a_flat (take_axis ax ps a) -> x ∈ a_flat a.
Proof.
  intros Hw Hl Hps Hx. unfold take_axis, tabulate in Hx. cbn [a_flat] in Hx. apply elem_of_list_In, in_map_iff in Hx as (idx & <- & Hi%elem_of_list_In).
  apply indices_valid in Hi. unfold get. apply elem_of_list_In, nth_In. rewrite Hw. apply indices_ravel. unfold valid in Hi |- *.
  assert (Hlen : length idx = length (a_shape a)) by (apply Forall2_length in Hi; by rewrite insert_length in Hi).
  destruct (lookup_lt_is_Some_2 idx ax ltac:(lia)) as [i Ei].
  apply Forall2_same_length_lookup_2; [by rewrite insert_length|]. intros k j m Hk Hm.
  destruct (decide (k = ax)) as [->|N].
  - rewrite list_lookup_insert in Hk by lia. injection Hk as <-.
    destruct (Forall2_lookup_l _ _ _ _ _ Hi Ei) as (m' & Em & Him). rewrite list_lookup_insert in Em by done. injection Em as <-.
    rewrite (nth_lookup_Some _ _ _ _ Ei). destruct (lookup_lt_is_Some_2 ps i Him) as [p Ep]. rewrite (nth_lookup_Some _ _ _ _ Ep).
    pose proof (Forall_lookup_1 _ _ _ _ Hps Ep) as Hp. cbn in Hp. by rewrite (nth_lookup_Some _ _ _ _ Hm) in Hp.
  - rewrite list_lookup_insert_ne in Hk by done. destruct (Forall2_lookup_l _ _ _ _ _ Hi Hk) as (m' & Em & Hjm). rewrite list_lookup_insert_ne in Em by done. congruence.
Qed.
Lemma trim_ok v dim range key x y : NoDup (v_dims v) -> get_slices v dim range = Ok key -> vd_wf x -> vd_index key x = Ok y ->
  exists ax, v_dims v !! ax = Some dim /\ trimmed ax range x y /\ vd_wf y.
Proof.
  intros Hnd Ek Hw Ey. unfold get_slices in Ek. destruct (index_of dim (v_dims v)) as [ax|] eqn:Eax; [|done]. injection Ek as <-.
  rewrite (slices_keys dim _ _ ax Hnd Eax) in Ey. apply index_of_lookup in Eax. exists ax. split; [done|]. destruct range as [a b]. cbn [fst snd] in Ey.
  destruct x as [x|m]; cbn [vd_index] in Ey.
  - destruct (index_axes _ _ x) as [y'|] eqn:E; [|done]. cbn in Ey. injection Ey as <-. destruct (index_portion dim _ ax a b x y' Hw Hnd Eax E) as (ps & -> & _ & _ & _ & Hp).
    split; [exact Hp|]. cbn. apply take_axis_wf.
  - destruct Hw as [Hw Hl]. assert (Hwm : arr_wf (mask_arr m)) by (unfold arr_wf in *; cbn; rewrite map_length; congruence).
    destruct (index_axes _ _ (m_data m)) as [d|] eqn:E; [|done]. cbn [rbind] in Ey. destruct (index_axes _ _ (mask_arr m)) as [f|] eqn:E'; [|done]. cbn [rbind] in Ey. injection Ey as <-.
    destruct (index_portion dim _ ax a b _ _ Hw Hnd Eax E) as (ps & -> & Hlt & Hps & Eps & Hp). destruct (index_portion dim _ ax a b _ _ Hwm Hnd Eax E') as (ps' & -> & Hlt' & Hps' & Eps' & Hp').
    cbn [a_shape mask_arr] in Eps'. rewrite <-Eps in Eps'. subst ps'.
    assert (Hflags : flags (MArr (take_axis ax ps (m_data m)) (map (fun v => bool_decide (v = Num 1)) (a_flat (take_axis ax ps (mask_arr m)))) (m_fill m)) = take_axis ax ps (mask_arr m)).
    { unfold flags. cbn [m_data m_mask]. rewrite map_map. transitivity (Arr (a_shape (take_axis ax ps (mask_arr m))) (a_flat (take_axis ax ps (mask_arr m)))); [|by destruct (take_axis ax ps (mask_arr m))].
      f_equal. rewrite <-(map_id (a_flat _)) at 2. apply map_ext_in. intros z Hz%elem_of_list_In. apply take_axis_items in Hz; [|done..].
      cbn [mask_arr a_flat] in Hz. apply elem_of_list_In, in_map_iff in Hz as (bb & <- & _). by destruct bb. }
    split; [split; [exact Hp|]|].
    + rewrite Hflags. exact Hp'.
    + split; [apply take_axis_wf|]. cbn [m_mask m_data]. rewrite map_length. rewrite !take_axis_wf. by rewrite !take_axis_shape.
Qed.

(** ** One variable of one partition *)
Lemma update_part (d : path) (s : store) old l n x : holds_dataset (sub d s) (assign_all old l) -> sound old -> fits old l -> n ∉ dkeys l -> vd_wf x ->
  exists r s', exec (update_zarr_array (d ++ [n]) (Ret (Ok x))) s = (r, s') /\
    ((s' = s /\ exists ex, r = Raise ex) \/
     exists v0, r = Ok tt /\ dget (d_vars old) n = Some v0 /\ vd_shape x = v_shape v0 /\ fits old (l ++ [(n, to_store (v_fill v0) x)]) /\
       holds_dataset (sub d s') (assign_all old (l ++ [(n, to_store (v_fill v0) x)]))).
Proof.
  intros [Hh0 Hh] Hso Hf Hn Hwf. pose proof (storable_proper _ (sound_storable _ Hso)) as Hp. set (cur := assign_all old l) in *.
  assert (Hget : dget (stored_vars (d_vars cur)) n = option_map stored (dget (d_vars old) n)).
  { rewrite dget_stored. unfold cur. rewrite assign_get. destruct (dget (d_vars old) n); [|done]. cbn. apply dget_None in Hn. by rewrite Hn. }
  destruct (update_array_spec d n (Ret (Ok x)) s _ _ (Ok x) Hh eq_refl) as (r' & s' & E & Hcase & _). exists r', s'. split; [done|].
  destruct Hcase as [?|(v' & x' & -> & Ev & [= <-] & Hne & Hsh & Hout & Hmeta & Hg)]; [by left|]. right.
  rewrite Hget in Ev. destruct (dget (d_vars old) n) as [v0|] eqn:E0; [|done]. injection Ev as <-. cbn [stored v_fill with_attrs] in *.
  exists v0. split_and!; try done.
  - intros m a. rewrite dget_app. destruct (dget l m) as [a'|] eqn:El; [intros [= <-]; by apply Hf|]. cbn.
    destruct (decide (m = n)) as [->|]; [|done]. intros [= <-]. split; [by apply to_store_wf|]. intros w Ew. assert (w = v0) as -> by congruence. by rewrite to_store_shape.
  - split.
    + rewrite sub_lookup, app_nil_r. rewrite Hout; [|intros (f & U); rewrite <-(app_nil_r d), <-!app_assoc in U; by apply app_inv_head in U].
      rewrite sub_lookup, app_nil_r in Hh0. done.
    + cbn [d_attrs assign_all with_vars]. specialize (Hg Hwf).
      replace (stored_vars (d_vars (assign_all old (l ++ [(n, to_store (v_fill v0) x)])))) with (dset (stored_vars (d_vars cur)) n (with_array (stored v0) (to_store (v_fill v0) x))); [done|].
      rewrite stored_assign. unfold cur. rewrite stored_assign. rewrite dset_map_keys.
      * rewrite map_map. apply map_ext_in. intros [m w] Hin. unfold assign. cbn. f_equal. rewrite dget_app. destruct (decide (m = n)) as [->|N].
        -- apply dget_None in Hn. rewrite Hn. cbn. rewrite decide_True by done. apply elem_of_list_In in Hin.
           apply elem_dget in Hin; [|rewrite keys_stored; apply Hp]. rewrite dget_stored, E0 in Hin. injection Hin as <-. done.
        -- destruct (dget l m); [done|]. cbn. by rewrite decide_False.
      * unfold dkeys. rewrite map_map. cbn. change (NoDup (dkeys (stored_vars (d_vars old)))). rewrite keys_stored. apply Hp.
      * unfold dkeys. rewrite map_map. cbn. change (n ∈ dkeys (stored_vars (d_vars old))). rewrite keys_stored. apply dget_is_Some. by eexists.
Qed.
Lemma sub_agree d (s s' : store) : agree (under d) s s' -> sub d s' = sub d s.
Proof. intros H. apply map_eq. intros q. rewrite !sub_lookup. symmetry. apply H, under_app. Qed.

Section concurrent.
  Context (e : env) (c : collection) (Hr : regular e c) (M : list Z -> option dataset) (I : option dataset) (s0 : store).
  Context (Hs : represents c M I s0) (Hu : uniform c M I) (Him : c_immutable c = false).
  Context (f : update_callback) (Hsane : sane f) (Hblind : blind f).
  Context (delayed : bool) (sel : option (list str)) (trim : bool) (depth : nat) (vs : list (list Z)).
  Context (Hvs : NoDup vs) (Hall : forall v, v ∈ vs -> is_Some (M v) /\ forall d, M v = Some d -> measured (c_dim c) sel d).
  Local Notation W := (returned f).
  Local Notation parts := (map (part_dir c) vs).

  (** What the tasks may change. *)
  Definition meanwhile (s : store) : Prop :=
    forall q, s !! q = s0 !! q \/ ((exists v n ci, v ∈ vs /\ W n /\ q = part_dir c v ++ [n; chunk_key ci]) /\ exists x, s !! q = Some x /\ (x = CTorn \/ exists a, x = CChunk a)).
  Local Notation safe := (safe CTorn meanwhile).

  Lemma vs_len v : v ∈ vs -> length v = length (p_keys (c_part c)).
  Proof using Hs Hall. intros Hv. destruct (Hall v Hv) as [[d Hd] _]. by apply (rp_part _ _ _ _ Hs) in Hd as [? _]. Qed.
  Lemma meanwhile_disturbed s v : meanwhile s -> v ∈ vs -> disturbed W (sub (part_dir c v) s0) (sub (part_dir c v) s).
  Proof using Hs Hall.
    intros Hm Hv q. rewrite !sub_lookup. destruct (Hm (part_dir c v ++ q)) as [|[(w & n & ci & Hw & Hn & Eq) Hx]]; [by left|]. right. split; [|done].
    destruct (decide (w = v)) as [->|N]; [apply app_inv_head in Eq as ->; by exists n, ci|]. exfalso.
    apply (parts_apart c w v (vs_len w Hw) (vs_len v Hv) N (part_dir c v ++ q)); [rewrite Eq; apply under_app|apply under_app].
  Qed.
  Lemma meanwhile_write s v n ci x : meanwhile s -> v ∈ vs -> W n -> x = CTorn \/ (exists a, x = CChunk a) -> meanwhile (<[part_dir c v ++ [n; chunk_key ci] := x]> s).
  Proof using.
    intros Hm Hv Hn Hx q. destruct (decide (part_dir c v ++ [n; chunk_key ci] = q)) as [<-|N].
    - right. split; [by exists v, n, ci|]. exists x. by rewrite lookup_insert.
    - rewrite lookup_insert_ne by done. apply Hm.
  Qed.

  Lemma safe_read_file (O : path -> Prop) d s : O d -> safe O (fun r s1 => agree O s s1 /\ r = Ok (s !! d)) (read_file d) s.
  Proof using.
    intros Hd. unfold read_file. cbn. intros t Ht Ha u Hu' Hau. split; [by eapply agree_trans|]. rewrite sub_lookup, app_nil_r. by rewrite Ha.
  Qed.
  Lemma simple_write_chunks v n z a : v ∈ vs -> W n -> simple CTorn meanwhile (under (part_dir c v)) (write_chunks (part_dir c v ++ [n]) z false a).
  Proof using.
    intros Hv Hn. unfold write_chunks, pfor. apply simple_bind; [|done]. induction (indices _) as [|ci l IH]; [done|]. cbn [map pseq andb].
    apply simple_bind; [|intros ?; apply simple_bind; [exact IH|done]]. cbn. rewrite <-app_assoc. cbn [app]. split; [split; [apply under_app|]|].
    - intros s Hm. split; apply meanwhile_write; eauto.
    - by intros [|].
  Qed.

  Lemma safe_update v n (array : program vdata) (R : vdata -> Prop) old l s : v ∈ vs -> W n -> sound old -> fits old l -> n ∉ dkeys l ->
    holds_dataset (sub (part_dir c v) s) (assign_all old l) -> meanwhile s ->
    (forall s1, meanwhile s1 -> agree (under (part_dir c v)) s s1 ->
       safe (under (part_dir c v)) (fun r s2 => agree (under (part_dir c v)) s1 s2 /\ forall x, r = Ok x -> vd_wf x /\ R x) array s1) ->
    safe (under (part_dir c v)) (fun r s' =>
      (exists ex, r = Raise ex /\ agree (under (part_dir c v)) s s') \/
      (r = Ok tt /\ exists v0 x, dget (d_vars old) n = Some v0 /\ R x /\ vd_wf x /\ vd_shape x = v_shape v0 /\ fits old (l ++ [(n, to_store (v_fill v0) x)]) /\
         holds_dataset (sub (part_dir c v) s') (assign_all old (l ++ [(n, to_store (v_fill v0) x)]))))
      (update_zarr_array (part_dir c v ++ [n]) array) s.
  Proof using Hs Hall.
    intros Hv Hn Hso Hf Hnl Hh Hm Ha. set (O := under (part_dir c v)) in *. unfold update_zarr_array.
    eapply safe_bind; [done|apply safe_read_file; unfold O; rewrite <-app_assoc; apply under_app| |].
    2:{ intros ex s' _ [_ ?]. done. }
    cbv beta. intros o s1 Hm1 [Ha1 [= ->]].
    assert (Hraise : forall (ex : exn) s2, agree O s s2 -> safe O (fun r s' => (exists ex, r = Raise ex /\ agree O s s') \/
      (r = Ok tt /\ exists v0 x, dget (d_vars old) n = Some v0 /\ R x /\ vd_wf x /\ vd_shape x = v_shape v0 /\ fits old (l ++ [(n, to_store (v_fill v0) x)]) /\
         holds_dataset (sub (part_dir c v) s') (assign_all old (l ++ [(n, to_store (v_fill v0) x)])))) (praise ex) s2).
    { intros ex s2 H2 t Ht Hat. left. exists ex. split; [done|]. by eapply agree_trans. }
    destruct (s !! ((part_dir c v ++ [n]) ++ [ZARRAY])) as [o|] eqn:Ez; [|by apply Hraise].
    destruct o as [m| | | | | |]; try (by apply Hraise). destruct m as [z| |]; try (by apply Hraise).
    eapply safe_bind; [done|by apply Ha| |].
    2:{ cbv beta. intros ex s2 Hm2 [Ha2 _]. left. exists ex. split; [done|]. by eapply agree_trans. }
    cbv beta. intros x s2 Hm2 [Ha2 Hx]. destruct (Hx x eq_refl) as [Hwf HR]. assert (Has2 : agree O s s2) by (by eapply agree_trans).
    destruct (z_shape z) as [|k sh] eqn:Esh; [by apply Hraise|]. case_bool_decide as Eshape; [|by apply Hraise].
    assert (Hh2 : holds_dataset (sub (part_dir c v) s2) (assign_all old l)) by (by rewrite (sub_agree _ _ _ Has2)).
    destruct (update_part (part_dir c v) s2 old l n x Hh2 Hso Hf Hnl Hwf) as (r & s3 & E & Hcase).
    assert (E' : exec (update_zarr_array (part_dir c v ++ [n]) (Ret (Ok x))) s2 = exec (write_chunks (part_dir c v ++ [n]) z false (to_store (z_fill z) x)) s2).
    { unfold update_zarr_array. rewrite exec_bind, exec_read_file. rewrite <-(Has2 ((part_dir c v ++ [n]) ++ [ZARRAY]) ltac:(unfold O; rewrite <-app_assoc; apply under_app)), Ez. rewrite exec_bind. cbn [exec].
      rewrite Esh. by rewrite bool_decide_true. }
    rewrite E' in E. eapply safe_mono; [|apply safe_simple, simple_write_chunks; done]. cbv beta. rewrite E. cbn [fst snd]. intros r' s' Hm' [-> Ha3].
    destruct Hcase as [[-> (ex & ->)]|(v0 & -> & E0 & Hsh & Hf' & Hh')].
    - left. exists ex. split; [done|]. by eapply agree_trans.
    - right. split; [done|]. exists v0, x. split_and!; try done. by rewrite (sub_agree _ _ _ Ha3).
  Qed.

  (** All the variables that the callback returns. *)
  Lemma safe_loop v old (body : str * result -> program unit) (R : str * result -> vdata -> Prop) : v ∈ vs -> sound old -> forall todo dn s,
    NoDup (dkeys dn ++ dkeys todo) -> (forall m, m ∈ dkeys dn ++ dkeys todo -> W m) -> fits old dn -> holds_dataset (sub (part_dir c v) s) (assign_all old dn) -> meanwhile s ->
    (forall nr l s1, nr ∈ todo -> nr.1 ∉ dkeys l -> fits old l -> holds_dataset (sub (part_dir c v) s1) (assign_all old l) -> meanwhile s1 ->
      safe (under (part_dir c v)) (fun r s' => (exists ex, r = Raise ex /\ agree (under (part_dir c v)) s1 s') \/
        (r = Ok tt /\ exists v0 x, dget (d_vars old) nr.1 = Some v0 /\ R nr x /\ vd_wf x /\ vd_shape x = v_shape v0 /\ fits old (l ++ [(nr.1, to_store (v_fill v0) x)]) /\
         holds_dataset (sub (part_dir c v) s') (assign_all old (l ++ [(nr.1, to_store (v_fill v0) x)])))) (body nr) s1) ->
    safe (under (part_dir c v)) (fun r s' => exists xs, fits old (dn ++ xs) /\ (forall m, m ∈ dkeys xs -> W m) /\ holds_dataset (sub (part_dir c v) s') (assign_all old (dn ++ xs)) /\
       (r = Ok tt -> Forall2 (fun nr na => na.1 = nr.1 /\ exists v0 x, dget (d_vars old) nr.1 = Some v0 /\ R nr x /\ vd_wf x /\ na.2 = to_store (v_fill v0) x) todo xs)) (pfor todo body) s.
  Proof using Hs Hall.
    intros Hv Hso todo. induction todo as [|nr todo IH]; intros dn s Hnd HW Hf Hh Hm Hb.
    - unfold pfor. cbn [map pseq]. cbn. intros t Ht Ha. exists []. rewrite app_nil_r. split_and!; try done; [intros m Hm'; by apply elem_of_nil in Hm'|].
      by rewrite (sub_agree _ _ _ Ha).
    - assert (Hn : nr.1 ∉ dkeys dn) by (intros Hin; cbn in Hnd; apply NoDup_app in Hnd as (_ & Hd & _); apply (Hd _ Hin); left).
      apply safe_pfor_cons.
      eapply safe_bind; [done|exact (Hb nr dn s (elem_of_list_here _ _) Hn Hf Hh Hm)| |].
      + cbv beta. intros [] s1 Hm1 [(ex & ? & _)|(_ & v0 & x & E0 & HR & Hwf & Hsh & Hf1 & Hh1)]; [done|].
          eapply safe_mono; [|apply (IH (dn ++ [(nr.1, to_store (v_fill v0) x)]) s1); try done].
        * cbv beta. intros r s' _ (xs & H1 & H2 & H3 & H4). exists ((nr.1, to_store (v_fill v0) x) :: xs). rewrite <-app_assoc in H1, H3. cbn [app] in H1, H3. split_and!; try done.
          -- cbn [dkeys map fst]. intros m [->|Hm']%elem_of_cons; [apply HW, elem_of_app; right; left|by apply H2].
          -- intros Er. constructor; [|by apply H4]. split; [done|]. by exists v0, x.
        * unfold dkeys in *. rewrite map_app, <-app_assoc. exact Hnd.
        * unfold dkeys in *. rewrite map_app, <-app_assoc. exact HW.
        * intros nr' l' s2 Hin. apply Hb. by right.
      + cbv beta. intros ex s1 Hm1 [(ex' & [= <-] & Ha)|(? & _)]; [|done]. exists []. rewrite app_nil_r. split_and!; try done; [intros m Hm'; by apply elem_of_nil in Hm'|].
          by rewrite (sub_agree _ _ _ Ha).
  Qed.

  (** Reading while the other tasks write. *)
  Lemma safe_open (O : path -> Prop) v d s : v ∈ vs -> M v = Some d ->
    safe O (fun r s1 => agree O s s1 /\ forall o, r = Ok o -> exists d', varies W d d' /\ opens delayed sel d' o) (open_zarr_group (part_dir c v) delayed sel) s.
  Proof using Hs Hall.
    intros Hv Hd. destruct (rp_part _ _ _ _ Hs _ _ Hd) as (_ & Hso & Hh). unfold open_zarr_group. cbn. intros t Ht Ha u Hu' Hau. split; [by eapply agree_trans|].
    intros o Eo. apply (disturbed_reads W _ _ d delayed sel o Hso Hh (meanwhile_disturbed _ _ Ht Hv) Eo).
  Qed.
  Lemma safe_opens (O : path -> Prop) ws ds : Forall2 (fun v d => M v = Some d) ws ds -> (forall v, v ∈ ws -> v ∈ vs) -> forall s, meanwhile s ->
    safe O (fun r s1 => agree O s s1 /\ forall os, r = Ok os -> exists ds', Forall2 (varies W) ds ds' /\ Forall2 (opens delayed sel) ds' os)
      (pseq (map (fun q => open_zarr_group q delayed sel) (map (part_dir c) ws))) s.
  Proof using Hs Hall.
    induction 1 as [|v d ws ds Hd _ IH]; intros Hw s Hm; cbn [map pseq].
    - cbn. intros t Ht Ha. split; [done|]. intros os [= <-]. exists []. by split.
    - eapply safe_bind; [done|apply (safe_open O v d); [apply Hw; left|done]| |].
      2:{ cbv beta. intros ex s1 _ [? _]. by split. }
      cbv beta. intros o s1 Hm1 [Ha1 Ho]. destruct (Ho o eq_refl) as (d' & Hd' & Hop). eapply safe_bind; [done|apply IH; [intros w Hw'; apply Hw; by right|done]| |].
      2:{ cbv beta. intros ex s2 _ [Ha2 _]. split; [by eapply agree_trans|done]. }
      cbv beta. intros os s2 Hm2 [Ha2 Hos]. destruct (Hos os eq_refl) as (ds' & H1 & H2). cbn. intros t Ht Ha. split; [by eapply agree_trans, agree_trans|].
      intros os' [= <-]. exists (d' :: ds'). split; by constructor.
  Qed.

  (** The neighbours of a partition. *)
  Definition around (v : list Z) (before : list dataset) (old : dataset) (after : list dataset) : Prop :=
    exists pre post, vs = pre ++ v :: post /\ M v = Some old /\ Forall2 (fun w d => M w = Some d) (drop (length pre - depth) pre) before /\ Forall2 (fun w d => M w = Some d) (take depth post) after.
  Lemma safe_load (O : path -> Prop) v before old after s : around v before old after -> meanwhile s ->
    safe O (fun r s1 => agree O s s1 /\ forall ds range, r = Ok (ds, range) -> exists before' old' after', Forall2 (varies W) before before' /\ varies W old old' /\ Forall2 (varies W) after after' /\
       seen_around (c_dim c) delayed sel before' old' after' ds range)
      (load_overlap c delayed (Z.of_nat depth) parts sel (part_dir c v)) s.
  Proof using Hr Hs Hu Him Hall Hvs.
    intros (pre & post & Evs & Hv & Hbe & Haf) Hm.
    assert (Hnd : NoDup (pre ++ v :: post)) by (by rewrite <-Evs). assert (Hlen : forall w, w ∈ pre ++ v :: post -> length w = length (p_keys (c_part c))) by (rewrite <-Evs; apply vs_len).
    destruct (overlap_window c depth pre v post Hnd Hlen) as ([Hw1 Hw2] & Hin & Hne). rewrite <-Evs in Hw1, Hw2, Hin.
    unfold load_overlap. rewrite Hw1, Hw2. cbv zeta. set (wb := drop (length pre - depth) pre) in *. set (wa := take depth post) in *.
    assert (Hheld : Forall2 (fun w d => M w = Some d) (wb ++ v :: wa) (before ++ old :: after)) by (apply Forall2_app; [done|by constructor]).
    eapply safe_bind; [done|apply (safe_opens O _ _ Hheld Hin s Hm)| |].
    2:{ cbv beta. intros ex s1 _ [? _]. by split. }
    cbv beta. intros os s1 Hm1 [Ha1 Hos]. destruct (Hos os eq_refl) as (ds' & Hvar & Hop).
    apply Forall2_app_inv_l in Hvar as (before' & rest & Hvb & Hvr & ->). inversion Hvr as [|? old' ? after' Hvo Hva]; subst.
    apply Forall2_app_inv_l in Hop as (ob & rest & Hob & Hor & ->). inversion Hor as [|? o ? oa Ho Hoa]; subst.
    assert (Hsound : forall w d, M w = Some d -> sound d) by (intros w d Hd; by apply (rp_part _ _ _ _ Hs) in Hd as (_ & ? & _)).
    assert (Hvar : Forall2 (varies W) (before ++ old :: after) (before' ++ old' :: after')) by (apply Forall2_app; [done|by constructor]).
    assert (Hms : Forall sound (before' ++ old' :: after') /\ Forall (measured (c_dim c) sel) (before' ++ old' :: after')).
    { split; apply Forall_forall; intros d' Hd'; apply elem_of_list_lookup_1 in Hd' as [i Hi]; destruct (Forall2_lookup_r _ _ _ _ _ Hvar Hi) as (d & Hd & Hv');
        destruct (Forall2_lookup_r _ _ _ _ _ Hheld Hd) as (w & Hw & Hmw).
      - eapply varies_sound; [|done]. by eapply Hsound.
      - eapply varies_measured; [done|]. apply (Hall w); [|done]. apply Hin. by eapply elem_of_list_lookup_2. }
    assert (Hlay : forall a b, a ∈ before' ++ old' :: after' -> b ∈ before' ++ old' :: after' -> same_layout (c_dim c) a b).
    { intros a b Ha Hb. apply elem_of_list_lookup_1 in Ha as [i Hi], Hb as [j Hj].
      destruct (Forall2_lookup_r _ _ _ _ _ Hvar Hi) as (a0 & Ha0 & Hva0), (Forall2_lookup_r _ _ _ _ _ Hvar Hj) as (b0 & Hb0 & Hvb0).
      destruct (Forall2_lookup_r _ _ _ _ _ Hheld Ha0) as (x & _ & Hx), (Forall2_lookup_r _ _ _ _ _ Hheld Hb0) as (y & _ & Hy).
      destruct (un_layout _ _ _ Hu _ _ _ _ Hx Hy) as [L1 L2]. destruct (varies_form _ _ _ Hva0) as [Ka Fa], (varies_form _ _ _ Hvb0) as [Kb Fb].
      split; [intros n; rewrite Ka, Kb; apply L1|]. intros n w w' Hw Hw'. destruct (Fa _ _ Hw) as (x1 & Ex & D1 & S1). destruct (Fb _ _ Hw') as (y1 & Ey & D2 & S2).
      rewrite D1, D2, S1, S2. by apply (L2 n). }
    destruct (around_ok c delayed sel wb v wa before' old' after' ob o oa) as (ds & range & E1 & (g & others & Eg & Ed) & Hsee).
    { apply Hms. } { apply Hms. } { done. } { done. } { done. } { done. } { apply Forall2_length in Hbe, Hvb. congruence. } { done. }
    rewrite E1, Eg. cbn [pbind]. rewrite Ed. cbn [pbind]. unfold immutable_path. rewrite Him. cbn [pbind].
    intros t Ht Ha. split; [by eapply agree_trans|]. intros ds1 range1 [= <- <-]. exists before', old', after'. done.
  Qed.

  (** The values that are written in a partition. *)
  Definition written (ds : dataset) (range : nat * nat) (old : dataset) (nr : str * result) (y : vdata) : Prop :=
    exists x, value ds nr.2 = Ok x /\
      if trim then exists v0 key, dget (d_vars old) nr.1 = Some v0 /\ get_slices v0 (c_dim c) range = Ok key /\ vd_wf x /\ vd_index key x = Ok y else y = x.
  Definition made (v : list Z) (before : list dataset) (old : dataset) (after : list dataset) (l : list (str * arr)) : Prop :=
    exists ds range l0, exec (load_overlap c delayed (Z.of_nat depth) parts sel (part_dir c v)) s0 = (Ok (ds, range), s0) /\ seen_around (c_dim c) delayed sel before old after ds range /\
      cb_call f ds (if cb_info f then Some (c_dim c, range) else None) = Ok l0 /\
      Forall2 (fun nr na => na.1 = nr.1 /\ exists v0 y, dget (d_vars old) nr.1 = Some v0 /\ written ds range old nr y /\ vd_wf y /\ na.2 = to_store (v_fill v0) y) (dict_of l0) l.
  Lemma made_updated v before old after l : sound old -> made v before old after l -> updated_around (c_dim c) delayed sel trim f before old after (assign_all old l).
  Proof using.
    intros Hso (ds & range & l0 & _ & Hsee & Ecb & Hok).
    assert (exists vals kept, valued ds (dict_of l0) vals /\ kept_values (c_dim c) trim range old vals kept /\ Forall2 (fun (nx : str * vdata) (na : str * arr) => na.1 = nx.1 /\ exists v0, dget (d_vars old) nx.1 = Some v0 /\ vd_wf nx.2 /\ na.2 = to_store (v_fill v0) nx.2) kept l) as (vals & kept & Hvals & Hkept & Has).
    { clear -Hok Hso. induction Hok as [|nr na todo xs (En & v0 & y & Ev0 & (x & Ex & Hxy) & Hwf & Ena) _ (vals & kept & H1 & H2 & H3)].
      - exists [], []. split_and!; [constructor| |constructor]. unfold kept_values. destruct trim; [constructor|done].
      - exists ((nr.1, x) :: vals), ((nr.1, y) :: kept). split_and!.
        + by constructor.
        + unfold kept_values in *. destruct trim.
          * constructor; [|done]. split; [done|]. destruct Hxy as (v1 & key & Ev1 & Ek & Hwx & Ey). cbn [fst snd].
            destruct (trim_ok v1 (c_dim c) range key x y) as (ax & Hax & Htr & _); [|done..|].
            { eapply sound_dims; [exact Hso|]. eapply vals_elem. by apply dget_elem. }
            by exists v1, ax.
          * by subst.
        + constructor; [|done]. split; [done|]. exists v0. done. }
    exists ds, range, l0, vals, kept. split_and!; try done. apply assigned_all; [apply Hso|done].
  Qed.
  Lemma made_unique v before old after l l' : made v before old after l -> made v before old after l' -> l' = l.
  Proof using.
    intros (ds & range & l0 & E & _ & Ecb & H) (ds' & range' & l0' & E' & _ & Ecb' & H'). rewrite E in E'. injection E' as <- <-. rewrite Ecb in Ecb'. injection Ecb' as <-.
    clear E Ecb. revert l' H'. induction H as [|nr [n a] todo l (En & v0 & y & Ev & (x & Ex & Hy) & _ & Ea) _ IH]; intros l' H'; inversion H' as [|? [n' a'] ? l1 (En' & v1 & y' & Ev' & (x' & Ex' & Hy') & _ & Ea') H1]; subst; [done|].
    f_equal; [|by apply IH]. cbn in *. subst. assert (x' = x) as -> by congruence. assert (v1 = v0) as -> by congruence. assert (y' = y) as ->; [|done].
    destruct trim; [|congruence]. destruct Hy as (w & key & Ew & Ek & _ & Ey), Hy' as (w' & key' & Ew' & Ek' & _ & Ey'). assert (w' = w) as -> by congruence. congruence.
  Qed.

  (** The update of one partition. *)
  Definition part_done (v : list Z) (ok : Prop) (s : store) : Prop :=
    forall before old after, around v before old after -> exists l, fits old l /\ (forall n, n ∈ dkeys l -> W n) /\ holds_dataset (sub (part_dir c v) s) (assign_all old l) /\
      (ok -> made v before old after l).
  Lemma safe_part v before old after s : around v before old after -> meanwhile s -> sub (part_dir c v) s = sub (part_dir c v) s0 ->
    safe (under (part_dir c v)) (fun r s' => exists l, fits old l /\ (forall n, n ∈ dkeys l -> W n) /\ holds_dataset (sub (part_dir c v) s') (assign_all old l) /\
      (r = Ok tt -> made v before old after l))
      (update_overlap c delayed (Z.of_nat depth) parts sel trim f (part_dir c v)) s.
  Proof using Hr Hs Hu Him Hall Hvs Hsane Hblind.
    intros Har Hm Esub. pose proof Har as (pre & post & Evs & Hv & Hbe & Haf).
    assert (Hin : v ∈ vs) by (rewrite Evs; apply elem_of_app; right; left).
    destruct (rp_part _ _ _ _ Hs _ _ Hv) as (_ & Hso & Hh). set (O := under (part_dir c v)).
    set (Q := fun (r : res unit) (s' : store) => exists l, fits old l /\ (forall n, n ∈ dkeys l -> W n) /\ holds_dataset (sub (part_dir c v) s') (assign_all old l) /\
      (r = Ok tt -> made v before old after l)).
    assert (Hnone : forall ex s', agree O s s' -> Q (Raise ex) s').
    { intros ex s' Ha. exists []. split; [done|]. split; [intros n Hn; by apply elem_of_nil in Hn|]. rewrite assign_nil. split; [|done]. by rewrite (sub_agree _ _ _ Ha), Esub. }
    destruct (load_overlap_ok e c Hr M I s0 Hs Hu delayed sel depth pre v post old before after Him) as (ds0 & range & E0 & Hsee0); [by rewrite <-Evs| |done..|].
    { intros w Hw. apply Hall. by rewrite Evs. }
    assert (Hsound : forall w d, M w = Some d -> sound d) by (intros w d Hd; by apply (rp_part _ _ _ _ Hs) in Hd as (_ & ? & _)).
    assert (Hhd : exists w, M w = Some (hd old before)) by (destruct before as [|b bs]; [by exists v|]; inversion Hbe as [|w ? ws ? Hw]; subst; by exists w). destruct Hhd as [wh Hwh].
    assert (Hlay0 : same_layout (c_dim c) (hd old before) old) by (by eapply (un_layout _ _ _ Hu)).
    assert (Hsame : forall before' old' after' ds range', Forall2 (varies W) before before' -> varies W old old' -> Forall2 (varies W) after after' ->
       seen_around (c_dim c) delayed sel before' old' after' ds range' -> alike W ds0 ds /\ range' = range).
    { intros before' old' after' ds range' H1 H2 H3 Hsee. eapply seen_alike; [..|exact Hsee0|exact Hsee].
      - intros w Hw. eapply sound_dims; [|done]. by eapply Hsound.
      - done.
      - by apply (Hall v).
      - eapply Forall2_impl; [done|apply varies_alike].
      - by apply varies_alike.
      - eapply Forall2_impl; [done|apply varies_alike]. }
    unfold update_overlap. set (load := load_overlap c delayed (Z.of_nat depth) parts sel (part_dir c v)).
    eapply safe_bind; [done|by apply (safe_load O v before old after)| |].
    2:{ cbv beta. intros ex s1 _ [Ha _]. by apply Hnone. }
    cbv beta. intros [ds range'] s1 Hm1 [Ha1 Hds]. destruct (Hds ds range' eq_refl) as (before1 & old1 & after1 & V1 & V2 & V3 & Hsee).
    destruct (Hsame _ _ _ _ _ V1 V2 V3 Hsee) as [Hal ->]. pose proof (sa_proper _ _ _ _ _ _ _ _ Hsee0) as Hp0. pose proof (sa_proper _ _ _ _ _ _ _ _ Hsee) as Hp1.
    set (info := if cb_info f then Some (c_dim c, range) else None).
    assert (Ecw : call_with f ds (c_dim c, range) = cb_call f ds info) by (unfold call_with, info; by destruct (cb_info f)). rewrite Ecw.
    destruct (Hblind ds0 ds info Hp0 Hp1 Hal) as [Ecall Hval]. rewrite Ecall.
    destruct (cb_call f ds0 info) as [l0|ex] eqn:Ecb; cbn [call_dict rbind].
    2:{ cbn. intros t Ht Ha. apply Hnone. by eapply agree_trans. }
    set (todo := dict_of l0). cbn [pbind].
    assert (Hin0 : forall nr, nr ∈ todo -> nr ∈ l0) by (intros [n r] Hnr; apply dict_of_elem, elem_dget; [apply dict_of_NoDup|done]).
    assert (HW : forall m, m ∈ dkeys todo -> W m) by (intros m Hm'; exists ds0, info, l0; split; [done|by apply dict_of_keys]).
    (* the value of an array *)
    assert (Hev : forall nr s2, nr ∈ todo -> meanwhile s2 -> safe O (fun r s3 => agree O s2 s3 /\ forall x, r = Ok x -> vd_wf x /\ value ds0 nr.2 = Ok x)
        (evaluate (let! di <- load; pret di.1) delayed ds nr.2) s2).
    { intros [n r] s2 Hnr Hm2. cbn [snd]. assert (Hwf : forall x, value ds0 r = Ok x -> vd_wf x) by (intros x Hx; exact (Hsane ds0 info l0 n r Hp0 Ecb (Hin0 _ Hnr) ds0 x Hp0 Hx)).
      assert (Hone : forall ds', proper ds' -> alike W ds0 ds' -> value ds' r = value ds0 r).
      { intros ds' Hp' Ha'. destruct (Hblind ds0 ds' info Hp0 Hp' Ha') as [_ H]. by apply (H l0 n r Ecb), Hin0. }
      destruct r as [d|g]; cbn [evaluate].
      - cbn. intros t Ht Ha. split; [done|]. intros x [= <-]. split; [by apply Hwf|done].
      - match goal with |- Rely_Proofs.safe _ _ _ _ (if _ then ?X else ?Y) _ =>
          assert (Hboth : forall b : bool, safe O (fun r s3 => agree O s2 s3 /\ forall x, r = Ok x -> vd_wf x /\ value ds0 (Lazy g) = Ok x) (if b then X else Y) s2); [intros b|by apply Hboth] end.
        destruct b.
        + eapply safe_bind; [done| | |].
          * eapply safe_bind; [done|by apply (safe_load O v before old after)| |].
            -- cbv beta. intros di s3 Hm3 H. refine (safe_ret _ _ O (fun r s4 => agree O s2 s4 /\ forall ds', r = Ok ds' -> alike W ds0 ds' /\ proper ds') _ _ _).
               intros s4 Hm4 Ha4. destruct H as [Ha3 H]. split; [by eapply agree_trans|]. intros ds' [= <-]. destruct di as [ds' rg]. destruct (H ds' rg eq_refl) as (b1 & o1 & a1 & X1 & X2 & X3 & X4).
               split; [by apply (Hsame _ _ _ _ _ X1 X2 X3 X4)|by apply (sa_proper _ _ _ _ _ _ _ _ X4)].
            -- cbv beta. intros ex s3 Hm3 [Ha3 _]. split; [done|]. done.
          * cbv beta. intros ds' s3 Hm3 [Ha3 H]. destruct (H ds' eq_refl) as [Hal' Hp']. cbn. intros t Ht Ha. split; [by eapply agree_trans|]. intros x Ex.
            pose proof (Hone ds' Hp' Hal') as Hg. cbn [value] in Hg, Hwf |- *. rewrite Ex in Hg. rewrite <-Hg. split; [|done]. apply Hwf. by rewrite <-Hg.
          * cbv beta. intros ex s3 Hm3 [Ha3 _]. by split.
        + cbn. intros t Ht Ha. split; [done|]. intros x Ex. pose proof (Hone ds Hp1 Hal) as Hg. cbn [value] in Hg, Hwf |- *. rewrite Ex in Hg. rewrite <-Hg. split; [|done]. apply Hwf. by rewrite <-Hg. }
    eapply safe_mono; [|apply (safe_loop v old _ (written ds0 range old) Hin Hso todo [] s1); try done].
    - cbv beta. intros r s' _ (xs & Hf & HWx & Hhx & Hok). cbn [app] in Hf, Hhx. exists xs. split; [done|]. split; [done|]. split; [done|]. intros ->. specialize (Hok eq_refl).
      exists ds0, range, l0. rewrite Evs. done.
    - cbn [dkeys map app]. apply dict_of_NoDup.
    - by rewrite assign_nil, (sub_agree _ _ _ Ha1), Esub.
    - intros nr l s2 Hnr Hnl Hf Hh2 Hm2. destruct trim eqn:Etrim.
      + assert (Hrs : forall ex, safe O (fun r s' => (exists ex, r = Raise ex /\ agree O s2 s') \/ (r = Ok tt /\ exists v0 x, dget (d_vars old) nr.1 = Some v0 /\ written ds0 range old nr x /\ vd_wf x /\ vd_shape x = v_shape v0 /\ fits old (l ++ [(nr.1, to_store (v_fill v0) x)]) /\
            holds_dataset (sub (part_dir c v) s') (assign_all old (l ++ [(nr.1, to_store (v_fill v0) x)])))) (Ret (Raise ex)) s2).
        { intros ex t Ht Ha. left. by exists ex. }
        destruct (get_var ds nr.1) as [w|ex] eqn:Ew; cbn [pbind]; [|by apply Hrs]. destruct (get_slices w (c_dim c) range) as [key|ex] eqn:Ek; cbn [pbind]; [|by apply Hrs].
        apply safe_update; try done; [by apply HW, elem_of_list_fmap; exists nr|]. intros s3 Hm3 Ha3.
        eapply safe_bind; [done|by apply (Hev nr s3)| |].
        2:{ cbv beta. intros ex s4 Hm4 [Ha4 _]. by split. }
        cbv beta. intros x s4 Hm4 [Ha4 Hx]. destruct (Hx x eq_refl) as [Hwf Evx]. cbn. intros t Ht Ha. split; [by eapply agree_trans|]. intros y Ey.
        unfold get_var in Ew. destruct (dget (d_vars ds) nr.1) as [w'|] eqn:Ew'; [|done]. injection Ew as ->.
        destruct (sa_vars _ _ _ _ _ _ _ _ Hsee nr.1 w Ew') as (vp & Evp & Hsb).
        assert (exists vp0, dget (d_vars (hd old before)) nr.1 = Some vp0 /\ v_dims vp = v_dims vp0) as (vp0 & Evp0 & Edims).
        { assert (Hal1 : varies W (hd old before) (hd old1 before1)) by (by inversion V1; subst). destruct (varies_form _ _ _ Hal1) as [_ HF]. destruct (HF _ _ Evp) as (vp0 & E & Ed & _). by exists vp0. }
        assert (exists v0, dget (d_vars old) nr.1 = Some v0) as [v0 Ev0].
        { apply dget_is_Some. apply (proj1 Hlay0). apply dget_is_Some. by eexists. }
        assert (Hdw : v_dims w = v_dims v0).
        { destruct Hsb as (S1 & _). rewrite S1. cbn. rewrite Edims. by destruct (proj2 Hlay0 nr.1 vp0 v0 Evp0 Ev0). }
        destruct (trim_ok w (c_dim c) range key x y) as (ax & Hax & Htr & Hwy); [|done..|].
        { rewrite Hdw. eapply sound_dims; [exact Hso|]. eapply vals_elem. by apply dget_elem. }
        split; [done|]. exists x. split; [done|]. rewrite Etrim. exists v0, key. split; [done|]. unfold get_slices in *. rewrite <-Hdw. done.
      + apply safe_update; try done; [by apply HW, elem_of_list_fmap; exists nr|]. intros s3 Hm3 Ha3.
        eapply safe_mono; [|by apply (Hev nr s3)]. cbv beta. intros r s' _ [Ha4 Hx]. split; [done|]. intros x Ex. destruct (Hx x Ex) as [Hwf Ev]. split; [done|]. exists x. by rewrite Etrim.
  Qed.

  Lemma around_exists v : v ∈ vs -> exists before old after, around v before old after.
  Proof using Hall.
    intros Hv. destruct (elem_of_list_split vs v Hv) as (pre & post & E). destruct (Hall v Hv) as [[old Hold] _].
    destruct (held M (drop (length pre - depth) pre)) as [before Hb].
    { intros w Hw. apply Hall. rewrite E. apply elem_of_app. left. rewrite <-(take_drop (length pre - depth) pre). apply elem_of_app. by right. }
    destruct (held M (take depth post)) as [after Ha].
    { intros w Hw. apply Hall. rewrite E. apply elem_of_app. right. right. rewrite <-(take_drop depth post). apply elem_of_app. by left. }
    exists before, old, after, pre, post. done.
  Qed.
  Lemma around_unique v before old after before' old' after' : around v before old after -> around v before' old' after' -> before' = before /\ old' = old /\ after' = after.
  Proof using Hvs Hall.
    intros (pre & post & E & H1 & H2 & H3) (pre' & post' & E' & H1' & H2' & H3').
    assert (pre' = pre /\ post' = post) as [-> ->].
    { clear -E E' Hvs. assert (Hnd : NoDup (pre ++ v :: post)) by (by rewrite <-E). rewrite E in E'. clear E Hvs. revert pre' E' Hnd. induction pre as [|x pre IH]; intros [|x' pre'] E Hnd; cbn in *.
      - by injection E as ->.
      - injection E as <- ->. inversion Hnd as [|? ? Hn _]; subst. exfalso. apply Hn, elem_of_app. right. left.
      - injection E as -> <-. inversion Hnd as [|? ? Hn _]; subst. exfalso. apply Hn, elem_of_app. right. left.
      - injection E as -> E. inversion Hnd; subst. destruct (IH pre' E) as [-> ->]; done. }
    assert (Hfun : forall ws ds ds', Forall2 (fun w d => M w = Some d) ws ds -> Forall2 (fun w d => M w = Some d) ws ds' -> ds' = ds).
    { intros ws ds ds' H. revert ds'. induction H as [|w d ws ds Hw _ IH]; intros ds' H'; inversion H'; subst; [done|]. f_equal; [congruence|by apply IH]. }
    split_and!; [by eapply Hfun|congruence|by eapply Hfun].
  Qed.
  Lemma part_done_local v (ok ok' : Prop) s s' : (ok' -> ok) -> sub (part_dir c v) s' = sub (part_dir c v) s -> part_done v ok s -> part_done v ok' s'.
  Proof using.
    intros Hok E H before old after Ha. destruct (H before old after Ha) as (l & H1 & H2 & H3 & H4). exists l. rewrite E. split; [done|]. split; [done|]. split; [done|]. auto.
  Qed.
  Lemma part_done_not v (ok : Prop) s : sub (part_dir c v) s = sub (part_dir c v) s0 -> ~ ok -> part_done v ok s.
  Proof using Hs.
    intros E Hok before old after Ha. exists []. destruct Ha as (pre & post & _ & Hv & _). destruct (rp_part _ _ _ _ Hs _ _ Hv) as (_ & _ & Hh).
    split; [done|]. split; [intros n Hn; by apply elem_of_nil in Hn|]. rewrite assign_nil, E. done.
  Qed.

  Local Notation one := (update_overlap c delayed (Z.of_nat depth) parts sel trim f).
  Lemma safe_batch b : NoDup b -> (forall v, v ∈ b -> v ∈ vs) -> forall s, meanwhile s -> (forall v, v ∈ b -> sub (part_dir c v) s = sub (part_dir c v) s0) ->
    safe (region_of c b) (fun r s' => forall v, v ∈ b -> part_done v (r = Ok tt) s') (pfor (map (part_dir c) b) one) s.
  Proof using Hr Hs Hu Him Hall Hvs Hsane Hblind.
    induction b as [|v b IH]; intros Hnd Hb s Hm Esub.
    - unfold pfor. cbn. intros t _ _ v Hv. by apply elem_of_nil in Hv.
    - inversion Hnd as [|? ? Hvb Hnd']; subst. cbn [map]. apply safe_pfor_cons. destruct (around_exists v) as (before & old & after & Har); [apply Hb; left|].
      assert (Hap : forall w q, w ∈ b -> under (part_dir c w) q -> ~ under (part_dir c v) q).
      { intros w q Hw U U'. refine (parts_apart c w v (vs_len w _) (vs_len v _) _ q U U'); [apply Hb; by right|apply Hb; left|by intros ->]. }
      eapply safe_bind; [done|eapply (safe_widen _ _ (under (part_dir c v))); [|apply (safe_part v before old after s Har Hm); apply Esub; left]| |].
      + intros q Hq. apply Exists_cons. by left.
      + cbv beta. intros [] s1 Hm1 [(l & Hf & HW & Hh & Hok) Hout].
        assert (Hs1 : forall w, w ∈ b -> sub (part_dir c w) s1 = sub (part_dir c w) s).
        { intros w Hw. apply map_eq. intros q. rewrite !sub_lookup. apply Hout; [|by eapply Hap; [|apply under_app]]. apply Exists_cons. right. apply Exists_exists. exists w. split; [done|apply under_app]. }
        eapply safe_mono; [|eapply (safe_widen _ _ (region_of c b)); [|apply (IH Hnd'); [intros w Hw; apply Hb; by right|done|]]].
        * cbv beta. intros r s' _ [H1 H2] w [->|Hw]%elem_of_cons; [|by apply H1]. intros before' old' after' Har'.
          destruct (around_unique _ _ _ _ _ _ _ Har Har') as (-> & -> & ->). exists l. split; [done|]. split; [done|].
          assert (E : sub (part_dir c v) s' = sub (part_dir c v) s1).
          { apply map_eq. intros q. rewrite !sub_lookup. apply H2; [apply Exists_cons; left; apply under_app|]. intros X. apply Exists_exists in X as (w & Hw & U).
            apply (Hap w _ Hw U), under_app. }
          rewrite E. split; [done|]. intros _. by apply Hok.
        * intros q Hq. apply Exists_cons. by right.
        * intros w Hw. rewrite Hs1 by done. apply Esub. by right.
      + cbv beta. intros ex s1 Hm1 [(l & Hf & HW & Hh & Hok) Hout] w [->|Hw]%elem_of_cons.
        * intros before' old' after' Har'. destruct (around_unique _ _ _ _ _ _ _ Har Har') as (-> & -> & ->). exists l. done.
        * apply part_done_not; [|done]. rewrite <-(Esub w) by (by right). apply map_eq. intros q. rewrite !sub_lookup. apply Hout; [|by eapply Hap; [|apply under_app]].
          apply Exists_cons. right. apply Exists_exists. exists w. split; [done|apply under_app].
  Qed.

  Lemma safe_transaction sched bs r s' : concat bs = vs ->
    exec (execute_transaction CTorn sched (map (fun b => pfor b one) (map (map (part_dir c)) bs))) s0 = (r, s') ->
    meanwhile s' /\ forall v, v ∈ vs -> part_done v (is_ok r = true) s'.
  Proof using Hr Hs Hu Him Hall Hvs Hsane Hblind.
    intros Hcat E. unfold execute_transaction in E. rewrite exec_bind in E. set (tasks := map (fun b => pfor b one) (map (map (part_dir c)) bs)) in *.
    assert (Hlk : forall i p, tasks !! i = Some p -> exists b, bs !! i = Some b /\ p = pfor (map (part_dir c) b) one).
    { intros i p. unfold tasks. rewrite map_map. change (map ?g bs) with (g <$> bs). rewrite list_lookup_fmap. destruct (bs !! i) as [b|]; [|done]. intros [= <-]. eauto. }
    assert (Hlt : length tasks = length bs) by (unfold tasks; by rewrite !map_length).
    assert (Hcin : forall i b v, bs !! i = Some b -> v ∈ b -> v ∈ vs).
    { intros i b v Hi Hv. rewrite <-Hcat. apply elem_of_list_In, in_concat. exists b. split; [|by apply elem_of_list_In]. apply elem_of_list_In. by eapply elem_of_list_lookup_2. }
    assert (Hndb : forall i b, bs !! i = Some b -> NoDup b).
    { rewrite <-Hcat in Hvs. clear -Hvs. induction bs as [|x bs IH]; intros i b Hi; [done|]. cbn in Hvs. apply NoDup_app in Hvs as (H1 & _ & H2). destruct i; [by injection Hi as ->|by eapply (IH H2)]. }
    assert (Hdis : forall i j b b' v, i <> j -> bs !! i = Some b -> bs !! j = Some b' -> v ∈ b -> v ∉ b').
    { rewrite <-Hcat in Hvs. clear -Hvs. induction bs as [|x bs IH]; intros i j b b' v N Hi Hj Hv Hv'; [done|]. cbn in Hvs. apply NoDup_app in Hvs as (_ & Hd & Hnd). destruct i as [|i], j as [|j]; [done|..].
      - injection Hi as ->. apply (Hd v Hv). apply elem_of_list_In, in_concat. exists b'. split; [|by apply elem_of_list_In]. apply elem_of_list_In. by eapply elem_of_list_lookup_2.
      - injection Hj as ->. apply (Hd v Hv'). apply elem_of_list_In, in_concat. exists b. split; [|by apply elem_of_list_In]. apply elem_of_list_In. by eapply elem_of_list_lookup_2.
      - apply (IH Hnd i j b b' v); [congruence|done..]. }
    set (O := fun i q => match bs !! i with Some b => region_of c b q | None => False end).
    set (Q := fun i (r : res unit) (s' : store) => match bs !! i with Some b => forall v, v ∈ b -> part_done v (r = Ok tt) s' | None => True end).
    destruct (safe_interleave CTorn meanwhile sched tasks O Q s0) as (rs & s1 & E1 & Hm & Hl & HQ & _).
    - intros i j q Hi Hj N Hq Hq'. unfold O in *. destruct (bs !! i) as [b|] eqn:Ei; [|done]. destruct (bs !! j) as [b'|] eqn:Ej; [|done].
      apply Exists_exists in Hq as (v & Hv & U), Hq' as (v' & Hv' & U'). refine (parts_apart c v v' (vs_len v _) (vs_len v' _) _ q U U'); [exact (Hcin i b v Ei Hv)|exact (Hcin j b' v' Ej Hv')|].
      intros ->. by apply (Hdis i j b b' v').
    - intros q. by left.
    - intros i p Ep. apply Hlk in Ep as (b & Ei & ->). unfold O, Q. rewrite Ei. apply safe_batch; [by eapply Hndb| | |done].
      + intros v Hv. exact (Hcin i b v Ei Hv).
      + intros q. by left.
    - rewrite E1 in E. cbn [exec] in E. injection E as <- <-. split; [done|]. intros v Hv. rewrite <-Hcat in Hv.
      apply elem_of_list_In, in_concat in Hv as (b & Hb & Hv). apply elem_of_list_In in Hb, Hv. apply elem_of_list_lookup_1 in Hb as [i Hi].
      destruct (lookup_lt_is_Some_2 rs i) as [ri Eri]; [rewrite Hl, Hlt; by eapply lookup_lt_Some|].
      specialize (HQ i ri Eri). unfold Q in HQ. rewrite Hi in HQ. eapply part_done_local; [|done|by apply HQ].
      intros Hok. destruct (first_error rs) as [l|] eqn:Ef; [|done]. apply first_error_Ok in Ef. rewrite Ef in Eri. change (map Ok l) with (Ok <$> l) in Eri. rewrite list_lookup_fmap in Eri.
      destruct (l !! i) as [[]|]; [|done]. by injection Eri as <-.
  Qed.
End concurrent.

(** ** One task *)
Lemma trim_works w dim ax range x : NoDup (v_dims w) -> v_dims w !! ax = Some dim -> length (v_dims w) <= length (vd_shape x) -> vd_wf x ->
  range.1 <= range.2 <= nth ax (vd_shape x) 0 ->
  exists key y, get_slices w dim range = Ok key /\ vd_index key x = Ok y /\ vd_shape y = <[ax := range.2 - range.1]> (vd_shape x).
Proof.
  intros Hnd Hax Hlen Hwf Hrg. pose proof (index_of_nodup _ _ _ Hnd Hax) as Eax. unfold get_slices. rewrite Eax. destruct range as [a b]. cbn [fst snd] in *. rewrite (slices_keys dim _ _ ax Hnd Eax).
  assert (H : forall z : arr, arr_wf z -> a_shape z = vd_shape x -> index_axes 0 (map (key_for dim (ISlice (Some (Z.of_nat a)) (Some (Z.of_nat b)))) (v_dims w)) z = Ok (take_axis ax (seq a (b - a)) z)).
  { intros z Hz Es. rewrite <-Es in Hlen, Hrg. apply (index_axes_at dim _ (seq a (b - a)) (v_dims w) 0 ax z Hz ltac:(lia) Hnd Hax). cbn [positions slice_bounds Nat.add].
    set (n := nth ax (a_shape z) 0) in *. assert (Hcl : forall k : nat, k <= n -> clip n (Z.of_nat k) = k) by (intros k Hk; unfold clip; destruct (Z.ltb_spec (Z.of_nat k) 0); lia).
    rewrite !Hcl by lia. done. }
  eexists. destruct x as [z|m]; cbn [vd_index vd_shape vd_wf] in *.
  - eexists. split; [done|]. rewrite (H z Hwf eq_refl). split; [done|]. cbn [vd_shape]. by rewrite take_axis_shape, seq_length.
  - destruct Hwf as [Hwf Hm]. assert (Hwm : arr_wf (mask_arr m)) by (unfold arr_wf in *; cbn; rewrite map_length; congruence).
    eexists. split; [done|]. rewrite (H _ Hwf eq_refl), (H _ Hwm eq_refl). split; [done|]. cbn [vd_shape m_data]. by rewrite take_axis_shape, seq_length.
Qed.
Lemma trim_shape dim delayed sel before old after ds range n w v0 : seen_around dim delayed sel before old after ds range -> same_layout dim (hd old before) old ->
  (forall v, v ∈ dvals (d_vars old) -> NoDup (v_dims v)) -> dget (d_vars ds) n = Some w -> dget (d_vars old) n = Some v0 -> dim ∈ v_dims v0 ->
  v_dims w = v_dims v0 /\ length (v_dims w) <= length (v_shape w) /\
  exists ax, v_dims w !! ax = Some dim /\ range.1 <= range.2 <= nth ax (v_shape w) 0 /\ <[ax := range.2 - range.1]> (v_shape w) = v_shape v0.
Proof.
  intros Hsee Hlay Hnd Hw Hv0 Hdim. destruct (sa_vars _ _ _ _ _ _ _ _ Hsee n w Hw) as (vp & Evp & Hsb). destruct Hsb as (E1 & L1 & S1 & _).
  destruct (proj2 Hlay n vp v0 Evp Hv0) as (E2 & L2 & S2). cbn [v_dims with_delayed stored with_attrs] in S1. change (v_shape (with_delayed (stored vp) delayed)) with (v_shape vp) in *.
  assert (Ed : v_dims w = v_dims v0) by (rewrite E1; cbn; by rewrite E2). split; [done|].
  assert (Hsz : length (v_dims w) <= length (v_shape w)).
  { destruct (proper_consistent _ (sa_proper _ _ _ _ _ _ _ _ Hsee) n w Hw) as (_ & _ & Hs). destruct (decide (length (v_dims w) = 0)) as [|N]; [lia|].
    destruct (lookup_lt_is_Some_2 (v_dims w) (length (v_dims w) - 1) ltac:(lia)) as [d Hd]. destruct (Hs _ _ Hd) as (m & Hm & _). apply lookup_lt_Some in Hm. lia. }
  split; [done|]. destruct (sa_records _ _ _ _ _ _ _ _ Hsee n v0 w Hw Hv0 Hdim) as (br & rs & ar & _ & Hrs & _ & Hrw & ->).
  rewrite records_index in Hrs, Hrw. rewrite Ed in Hrw. destruct (index_of dim (v_dims v0)) as [ax|] eqn:Eax; [|done]. injection Hrs as <-. injection Hrw as Hrw.
  apply index_of_lookup in Eax. exists ax. rewrite Ed. split; [done|]. apply (f_equal length) in Hrw. rewrite !app_length, !rows_length in Hrw. rewrite rows_length. cbn [fst snd].
  change (a_shape (v_array w)) with (v_shape w) in Hrw. change (a_shape (v_array v0)) with (v_shape v0) in *. split; [lia|].
  apply list_eq. intros k. destruct (decide (k = ax)) as [->|N].
  - assert (Hlt : ax < length (v_shape w)) by (apply lookup_lt_Some in Eax; rewrite Ed in Hsz; lia). rewrite list_lookup_insert by done.
    destruct (lookup_lt_is_Some_2 (v_shape v0) ax ltac:(lia)) as [m Hm]. rewrite Hm. f_equal. rewrite (nth_lookup_Some _ _ _ _ Hm). lia.
  - rewrite list_lookup_insert_ne by done.
    assert (Hk : v_dims vp !! k <> Some dim).
    { intros Hk. apply N. rewrite <-E2 in Hk. eapply NoDup_lookup; [|exact Hk|exact Eax]. apply (Hnd v0). eapply vals_elem. by apply dget_elem. }
    rewrite S1 by done. by rewrite S2.
Qed.

Section alone.
  Context (e : env) (c : collection) (Hr : regular e c) (M : list Z -> option dataset) (I : option dataset) (s0 : store).
  Context (Hs : represents c M I s0) (Hu : uniform c M I) (Him : c_immutable c = false).
  Context (f : update_callback) (Hsane : sane f).
  Context (delayed : bool) (sel : option (list str)) (trim : bool) (depth : nat) (vs : list (list Z)).
  Context (Hvs : NoDup vs) (Hall : forall v, v ∈ vs -> is_Some (M v) /\ forall d, M v = Some d -> measured (c_dim c) sel d).
  Local Notation W := (returned f).
  Local Notation parts := (map (part_dir c) vs).
  Local Notation one := (update_overlap c delayed (Z.of_nat depth) parts sel trim f).
  Definition varied (M1 : list Z -> option dataset) : Prop :=
    forall w, match M w, M1 w with Some d, Some d' => varies W d d' | None, None => True | _, _ => False end.
  Lemma varied_list M1 ws ds : varied M1 -> Forall2 (fun w d => M w = Some d) ws ds -> exists ds', Forall2 (fun w d => M1 w = Some d) ws ds' /\ Forall2 (varies W) ds ds'.
  Proof using.
    intros Hv H. induction H as [|w d ws ds Hw _ (ds' & H1 & H2)]; [exists []; by split|]. specialize (Hv w). rewrite Hw in Hv. destruct (M1 w) as [d'|] eqn:E; [|done].
    exists (d' :: ds'). split; by constructor.
  Qed.
  Lemma load_alone M1 s1 v before old after ds0 range : represents c M1 I s1 -> uniform c M1 I -> varied M1 -> around M depth vs v before old after ->
    seen_around (c_dim c) delayed sel before old after ds0 range ->
    exists ds, exec (load_overlap c delayed (Z.of_nat depth) parts sel (part_dir c v)) s1 = (Ok (ds, range), s1) /\ alike W ds0 ds /\ proper ds.
  Proof using Hr Hs Hu Him Hvs Hall.
    intros Hs1 Hu1 Hv1 (pre & post & Evs & Hv & Hbe & Haf) Hsee0.
    destruct (varied_list M1 _ _ Hv1 Hbe) as (before1 & Hbe1 & Vb). destruct (varied_list M1 _ _ Hv1 Haf) as (after1 & Haf1 & Va).
    pose proof (Hv1 v) as Vo. rewrite Hv in Vo. destruct (M1 v) as [old1|] eqn:Ev1; [|done].
    destruct (load_overlap_ok e c Hr M1 I s1 Hs1 Hu1 delayed sel depth pre v post old1 before1 after1 Him) as (ds & range1 & E & Hsee); [by rewrite <-Evs| |done..|].
    { intros w Hw. rewrite <-Evs in Hw. destruct (Hall w Hw) as [[d Hd] Hm]. specialize (Hv1 w). rewrite Hd in Hv1. destruct (M1 w) as [d1|] eqn:Ed1; [|done]. split; [by eexists|].
      intros d' [= <-]. eapply varies_measured; [done|]. by apply Hm. }
    assert (Hsound : forall w d, M w = Some d -> sound d) by (intros w d Hd; by apply (rp_part _ _ _ _ Hs) in Hd as (_ & ? & _)).
    assert (Hhd : exists w, M w = Some (hd old before)) by (destruct before as [|b bs]; [by exists v|]; inversion Hbe as [|w ? ws ? Hw]; subst; by exists w). destruct Hhd as [wh Hwh].
    destruct (seen_alike W (c_dim c) delayed sel before old after before1 old1 after1 ds0 ds range range1) as [Hal ->]; try done.
    - intros w Hw. eapply sound_dims; [|done]. by eapply Hsound.
    - by eapply (un_layout _ _ _ Hu).
    - assert (Hin : v ∈ vs) by (rewrite Evs; apply elem_of_app; right; left). by apply (Hall v).
    - eapply Forall2_impl; [done|apply varies_alike].
    - by apply varies_alike.
    - eapply Forall2_impl; [done|apply varies_alike].
    - exists ds. rewrite Evs, E. split; [done|]. split; [done|]. by apply (sa_proper _ _ _ _ _ _ _ _ Hsee).
  Qed.
  Lemma varied_set M1 v old l : varied M1 -> M v = Some old -> fits old l -> (forall n, n ∈ dkeys l -> W n) -> varied (set_part M1 v (assign_all old l)).
  Proof using.
    intros H Hv Hf HW w. unfold set_part. destruct (decide (w = v)) as [->|N]; [|apply H]. rewrite Hv. by apply varies_assign.
  Qed.
  (** The callback gives the same for the data read before and now. *)
  Definition steady (s1 : store) (v : list Z) : Prop :=
    forall ds0 ds range, let info := if cb_info f then Some (c_dim c, range) else None in
      exec (load_overlap c delayed (Z.of_nat depth) parts sel (part_dir c v)) s0 = (Ok (ds0, range), s0) ->
      exec (load_overlap c delayed (Z.of_nat depth) parts sel (part_dir c v)) s1 = (Ok (ds, range), s1) -> proper ds0 -> proper ds -> alike W ds0 ds ->
      cb_call f ds info = cb_call f ds0 info /\
      forall l n r, cb_call f ds0 info = Ok l -> (n, r) ∈ l -> value ds r = value ds0 r /\ forall ds', proper ds' -> alike W ds0 ds' -> value ds' r = value ds0 r.
  Lemma blind_steady s1 v : blind f -> steady s1 v.
  Proof using. intros Hb ds0 ds range info _ _ H0 H1 Ha. split; [by apply Hb|]. intros l n r Hl Hn. split; [destruct (Hb ds0 ds info H0 H1 Ha) as [_ H]; by eapply H|]. intros ds' Hp Ha'. destruct (Hb ds0 ds' info H0 Hp Ha') as [_ H]. by eapply H. Qed.
  Lemma known_steady v : (forall ds i l n r, cb_call f ds i = Ok l -> (n, r) ∈ l -> exists d, r = Known d) -> steady s0 v.
  Proof using. intros Hk ds0 ds range info E0 E1 _ _ _. rewrite E0 in E1. injection E1 as <-. split; [done|]. intros l n r Hl Hn. destruct (Hk _ _ _ _ _ Hl Hn) as [d ->]. done. Qed.
  Lemma part_alone M1 s1 v before old after : steady s1 v -> represents c M1 I s1 -> uniform c M1 I -> varied M1 -> around M depth vs v before old after -> M1 v = M v ->
    works_around (c_dim c) delayed sel trim f before old after ->
    exists s' l, exec (one (part_dir c v)) s1 = (Ok tt, s') /\ fits old l /\ (forall n, n ∈ dkeys l -> W n) /\ represents c (set_part M1 v (assign_all old l)) I s' /\
      made c s0 f delayed sel trim depth vs v before old after l.
  Proof using Hr Hs Hu Him Hvs Hall Hsane.
    intros Hblind Hs1 Hu1 Hv1 Har E1 Hw. pose proof Har as (pre & post & Evs & Hv & Hbe & Haf). rewrite Hv in E1.
    destruct (rp_part _ _ _ _ Hs _ _ Hv) as (_ & Hso & _).
    destruct (load_overlap_ok e c Hr M I s0 Hs Hu delayed sel depth pre v post old before after Him) as (ds0 & range & E0 & Hsee0); [by rewrite <-Evs| |done..|].
    { intros w Hw'. apply Hall. by rewrite Evs. } rewrite <-Evs in E0.
    assert (Hhd : exists w, M w = Some (hd old before)) by (destruct before as [|b bs]; [by exists v|]; inversion Hbe as [|w ? ws ? Hw']; subst; by exists w). destruct Hhd as [wh Hwh].
    assert (Hlay0 : same_layout (c_dim c) (hd old before) old) by (by eapply (un_layout _ _ _ Hu)).
    pose proof (sa_proper _ _ _ _ _ _ _ _ Hsee0) as Hp0.
    destruct (load_alone M1 s1 v before old after ds0 range Hs1 Hu1 Hv1 Har Hsee0) as (ds & Eld & Hal & Hp1).
    unfold update_overlap. set (load := load_overlap c delayed (Z.of_nat depth) parts sel (part_dir c v)) in *. rewrite exec_bind, Eld.
    set (info := if cb_info f then Some (c_dim c, range) else None).
    assert (Ecw : call_with f ds (c_dim c, range) = cb_call f ds info) by (unfold call_with, info; by destruct (cb_info f)). rewrite Ecw.
    destruct (Hblind ds0 ds range E0 Eld Hp0 Hp1 Hal) as [Ecall Hvals]. change (cb_call f ds info = cb_call f ds0 info) in Ecall. rewrite Ecall. destruct (Hw ds0 range Hsee0) as (l0 & Ecb & Hl0). change (cb_call f ds0 info = Ok l0) in Ecb. rewrite Ecb. cbn [call_dict rbind]. rewrite exec_bind. cbn [exec].
    set (todo := dict_of l0). set (body := fun nr : str * result => _).
    assert (Hin0 : forall nr, nr ∈ todo -> nr ∈ l0) by (intros [n r] Hnr; apply dict_of_elem, elem_dget; [apply dict_of_NoDup|done]).
    assert (HW : forall m, m ∈ dkeys todo -> W m) by (intros m Hm'; exists ds0, info, l0; split; [done|by apply dict_of_keys]).
    (* the value of an array *)
    assert (Hev : forall nr l s2, nr ∈ todo -> fits old l -> (forall m, m ∈ dkeys l -> m ∈ dkeys todo) -> represents c (set_part M1 v (assign_all old l)) I s2 ->
        exec (evaluate (let! di <- load; pret di.1) delayed ds nr.2) s2 = (value ds0 nr.2, s2) /\ forall x, value ds0 nr.2 = Ok x -> vd_wf x).
    { intros [n r] l s2 Hnr Hf Hm Hs2. cbn [snd]. split; [|intros x Hx; exact (Hsane ds0 info l0 n r Hp0 Ecb (Hin0 _ Hnr) ds0 x Hp0 Hx)].
      destruct (Hvals l0 n r Ecb (Hin0 _ Hnr)) as [Hone' Hone].
      destruct r as [d|g]; cbn [evaluate]; [done|].
      destruct (load_alone _ s2 v before old after ds0 range Hs2) as (ds2 & E2 & Hal2 & Hp2); [by apply uniform_assign|apply varied_set; auto|done|done|]. fold load in E2.
      match goal with |- exec (if _ then ?X else ?Y) _ = _ => assert (Hboth : forall b : bool, exec (if b then X else Y) s2 = (value ds0 (Lazy g), s2)); [intros b|by apply Hboth] end.
      destruct b.
      - rewrite exec_bind, exec_bind, E2. cbn [exec pret fst]. f_equal. exact (Hone ds2 Hp2 Hal2).
      - cbn [exec]. f_equal. exact Hone'. }
    (* the array that is written *)
    assert (Hbody : forall nr, nr ∈ todo -> exists v0 y, dget (d_vars old) nr.1 = Some v0 /\ v_shape v0 <> [] /\ vd_shape y = v_shape v0 /\ vd_wf y /\ written c trim ds0 range old nr y /\
       forall l s2, fits old l -> (forall m, m ∈ dkeys l -> m ∈ dkeys todo) -> represents c (set_part M1 v (assign_all old l)) I s2 ->
         exists array, exec array s2 = (Ok y, s2) /\ exec (body nr) s2 = exec (update_zarr_array (part_dir c v ++ [nr.1]) array) s2).
    { intros [n r] Hnr. destruct (Hl0 n r (Hin0 _ Hnr)) as (v0 & x & Ev0 & Hne & Ex & Hsh). cbn [fst] in *.
      assert (Hwf : vd_wf x) by exact (Hsane ds0 info l0 n r Hp0 Ecb (Hin0 _ Hnr) ds0 x Hp0 Ex).
      unfold body, written. clear body. destruct trim.
      - destruct Hsh as (Hdim & w0 & Ew0 & Hsh). destruct (trim_shape _ _ _ _ _ _ _ _ n w0 v0 Hsee0 Hlay0 (sound_dims _ Hso) Ew0 Ev0 Hdim) as (Ed & Hlen & ax & Hax & Hrg & Hins).
        destruct (alike_get W ds0 ds n w0 Hal Ew0) as (w & Ew & Eqw & _). assert (Edw : v_dims w = v_dims w0) by (rewrite Eqw; done).
        assert (Hnd : NoDup (v_dims w)) by (rewrite Edw, Ed; eapply sound_dims; [exact Hso|]; eapply vals_elem; by apply dget_elem).
        destruct (trim_works w (c_dim c) ax range x) as (key & y & Ek & Ey & Hy); [done|by rewrite Edw|by rewrite Edw, Hsh|done|by rewrite Hsh|].
        exists v0, y. split; [done|]. split; [done|]. split; [rewrite Hy, Hsh; exact Hins|]. split; [by destruct (trim_ok w (c_dim c) range key x y Hnd Ek Hwf Ey) as (_ & _ & _ & ?)|].
        split; [exists x; split; [done|]; exists v0, key; split; [done|]; split; [|done]; unfold get_slices in *; by rewrite <-Ed, <-Edw|].
        intros l s2 Hf Hm Hs2. destruct (Hev (n, r) l s2 Hnr Hf Hm Hs2) as [E _]. cbn [snd fst] in *.
        exists (let! x0 <- evaluate (let! di <- load; pret di.1) delayed ds r; Ret (vd_index key x0)). split; [rewrite exec_bind, E, Ex; cbn [exec]; by rewrite Ey|].
        rewrite exec_bind. unfold get_var. rewrite Ew. cbn [exec]. rewrite exec_bind, Ek. done.
      - exists v0, x. do 4 (split; [done|]). split; [by exists x|]. intros l s2 Hf Hm Hs2. destruct (Hev (n, r) l s2 Hnr Hf Hm Hs2) as [E _]. cbn [snd fst] in *. eexists. split; [|done]. by rewrite E, Ex. }
    destruct (update_loop e c Hr M1 I v old (dkeys todo) body (written c trim ds0 range old) Hso todo [] s1) as (r & s' & xs & E & Hf & Hs' & _ & k & Hxs & Hk).
    { cbn [app dkeys map]. apply dict_of_NoDup. }
    { done. }
    { done. }
    { rewrite assign_nil. by apply (set_same e). }
    { intros nr Hnr l s2 Hf Hm Hs2. right. destruct (Hbody nr Hnr) as (v0 & y & _ & _ & _ & Hwf & Hwr & H). destruct (H l s2 Hf Hm Hs2) as (array & Ea & Eb). exists array, (Ok y). split; [done|]. split; [done|].
      intros x [= <-]. done. }
    cbn [app] in *.
    assert (Hdk : forall n, n ∈ dkeys xs -> n ∈ dkeys todo).
    { intros n Hn. apply elem_of_list_In, in_map_iff in Hn as ([n' a] & <- & Hin). apply elem_of_list_In in Hin. apply elem_of_list_lookup in Hin as [i Hi'].
      destruct (Forall2_lookup_r _ _ _ _ _ Hxs Hi') as ([n2 r2] & Hl2 & E2 & _). cbn in E2. subst n2. apply elem_of_list_lookup_2 in Hl2.
      apply elem_of_take in Hl2 as (j & Hj & _). apply elem_of_list_lookup_2 in Hj. apply elem_of_list_In, in_map_iff. exists (n', r2). split; [done|]. by apply elem_of_list_In. }
    destruct r as [[]|ex].
    - exists s', xs. split; [exact E|]. split; [done|]. split; [intros n Hn; by apply HW, Hdk|]. split; [done|]. exists ds0, range, l0. split; [done|]. split; [done|]. split; [done|].
      rewrite Hk, take_ge in Hxs by done. eapply Forall2_impl; [exact Hxs|]. cbv beta. intros nr na (En & v0 & x & H1 & H2 & H3 & H4 & _). split; [done|]. by exists v0, x.
    - exfalso. destruct Hk as (nr & l & s2 & Hnr & Hfl & Hml & Hs2 & Ebad). destruct (Hbody nr Hnr) as (v0 & y & Ev0 & Hne & Hsh & Hwf & _ & H).
      destruct (H l s2 Hfl (fun m Hm => proj1 (Hml m Hm)) Hs2) as (array & Ea & Eb).
      destruct (update_variable e c Hr M1 I s2 v old l nr.1 array (Ok y) Hs2 Hso Hfl) as (r' & s3 & E3 & _ & Hok); [by intros [_ ?]%Hml|done|by intros x [= <-]|].
      rewrite Eb, E3 in Ebad. cbn in Ebad. by rewrite (Hok v0 y) in Ebad.
  Qed.
  Lemma parts_alone b : blind f -> NoDup b -> (forall v, v ∈ b -> v ∈ vs /\ forall before old after, around M depth vs v before old after -> works_around (c_dim c) delayed sel trim f before old after) ->
    forall M1 s1, represents c M1 I s1 -> uniform c M1 I -> varied M1 -> (forall v, v ∈ b -> M1 v = M v) -> exists s', exec (pfor (map (part_dir c) b) one) s1 = (Ok tt, s').
  Proof using Hr Hs Hu Him Hvs Hall Hsane.
    intros Hblind. induction b as [|v b IH]; intros Hnd Hb M1 s1 Hs1 Hu1 Hv1 Hsame; [by exists s1|]. inversion Hnd as [|? ? Hvb Hnd']; subst.
    destruct (Hb v ltac:(left)) as [Hv Hw]. destruct (around_exists c M sel depth vs Hall v Hv) as (before & old & after & Har).
    destruct (part_alone M1 s1 v before old after (blind_steady s1 v Hblind) Hs1 Hu1 Hv1 Har (Hsame v ltac:(left)) (Hw _ _ _ Har)) as (s' & l & E & Hf & HW & Hs' & _).
    assert (Hold : M v = Some old) by (destruct Har as (? & ? & _ & ? & _); done).
    destruct (IH Hnd' (fun w Hin => Hb w (elem_of_list_further _ _ _ Hin)) _ s' Hs') as [s2 E2].
    - apply uniform_assign; [done| |done]. rewrite Hsame by left. done.
    - by apply varied_set.
    - intros w Hin. unfold set_part. rewrite decide_False by (intros ->; done). apply Hsame. by right.
    - exists s2. unfold pfor in *. cbn [map pseq]. rewrite exec_bind, exec_bind, E. rewrite exec_bind in E2. rewrite exec_bind.
      destruct (exec (pseq (map one (map (part_dir c) b))) s') as [[x|] s3]; [|done]. exact E2.
  Qed.
End alone.
