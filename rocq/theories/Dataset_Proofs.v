From Verif Require Import Py Dict NdArray_Model NdArray_Spec NdArray_Proofs Dataset_Model Dataset_Spec.

(** ** Dimensions *)
Lemma update_dims_var_ok vd : forall dims sh dims', update_dims_var dims vd sh = Ok dims' ->
  (forall d n, dget dims d = Some n -> dget dims' d = Some n) /\
  (forall k d, vd !! k = Some d -> exists n, sh !! k = Some n /\ dget dims' d = Some n) /\
  (forall d n, dget dims' d = Some n -> dget dims d = Some n \/ exists k, vd !! k = Some d /\ sh !! k = Some n).
Proof.
  induction vd as [|d0 vd IH]; intros dims sh dims' H; cbn in H.
  - injection H as <-. split_and!; [done| |by left]. intros k d Hk. by rewrite lookup_nil in Hk.
  - destruct sh as [|n0 sh]; [done|]. destruct (dget dims d0) as [m|] eqn:E.
    + destruct (Nat.eqb_spec m n0) as [->|]; [|done]. apply IH in H as (H1 & H2 & H3).
      split_and!; [done| |].
      * intros [|k] d Hk; cbn in *; [injection Hk as <-; eauto|eauto].
      * intros d n Hd. apply H3 in Hd as [Hd|(k & Hk & Hs)]; [by left|]. right. by exists (S k).
    + apply IH in H as (H1 & H2 & H3). split_and!.
      * intros d n Hd. apply H1. rewrite dget_dset_ne by congruence. done.
      * intros [|k] d Hk; cbn in *; [injection Hk as <-|eauto]. exists n0. split; [done|]. apply H1, dget_dset_eq.
      * intros d n Hd. apply H3 in Hd as [Hd|(k & Hk & Hs)]; [|right; by exists (S k)].
        rewrite dget_dset in Hd. destruct (decide (d = d0)) as [->|]; [|by left].
        injection Hd as <-. right. by exists 0.
Qed.

Lemma update_dims_var_total (sz : str -> option nat) vd : forall dims sh,
  (forall d n, dget dims d = Some n -> sz d = Some n) ->
  (forall k d, vd !! k = Some d -> exists n, sh !! k = Some n /\ sz d = Some n) ->
  exists dims', update_dims_var dims vd sh = Ok dims' /\ (forall d n, dget dims' d = Some n -> sz d = Some n).
Proof.
  induction vd as [|d0 vd IH]; intros dims sh H1 H2; cbn; [eauto|].
  destruct (H2 0 d0 eq_refl) as (n0 & Hn & Hs). destruct sh as [|n sh]; [done|]. cbn in Hn. injection Hn as ->.
  assert (H2' : forall k d, vd !! k = Some d -> exists n, sh !! k = Some n /\ sz d = Some n).
  { intros k d Hk. apply (H2 (S k) d Hk). }
  destruct (dget dims d0) as [m|] eqn:E.
  - apply H1 in E. assert (m = n0) as -> by congruence. rewrite Nat.eqb_refl. by apply IH.
  - apply IH; [|done]. intros d n. rewrite dget_dset. destruct (decide (d = d0)) as [->|]; [congruence|apply H1].
Qed.

Lemma update_dimensions_ok vs : forall dims delayed dims' delayed',
  update_dimensions dims delayed vs = Ok (dims', delayed') ->
  (forall d n, dget dims d = Some n -> dget dims' d = Some n) /\
  (forall v, v ∈ vs -> sized dims' v /\ delayed' = Some (v_delayed v)) /\
  (forall b, delayed = Some b -> delayed' = Some b) /\
  (vs = [] -> delayed' = delayed).
Proof.
  induction vs as [|v vs IH]; intros dims delayed dims' delayed' H; cbn in H.
  - injection H as <- <-. split_and!; [done|by intros v ?%elem_of_nil|done|done].
  - destruct delayed as [b|].
    + destruct (Bool.eqb b (v_delayed v)) eqn:Eb; [|done]. apply eqb_prop in Eb.
      destruct (update_dims_var dims (v_dims v) (v_shape v)) as [dims1|] eqn:E1; [|done]. cbn [rbind] in H.
      apply update_dims_var_ok in E1 as (H1 & H2 & _). apply IH in H as (H3 & H4 & H5 & _).
      split_and!; [naive_solver| |done|done].
      intros w [->|Hw]%elem_of_cons; [|by apply H4].
      split; [|rewrite <-Eb; by apply H5]. intros k d Hk. destruct (H2 k d Hk) as (n & ? & ?). eauto.
    + destruct (update_dims_var dims (v_dims v) (v_shape v)) as [dims1|] eqn:E1; [|done]. cbn [rbind] in H.
      apply update_dims_var_ok in E1 as (H1 & H2 & _). apply IH in H as (H3 & H4 & H5 & _).
      split_and!; [naive_solver| |done|done].
      intros w [->|Hw]%elem_of_cons; [|by apply H4].
      split; [|by apply H5]. intros k d Hk. destruct (H2 k d Hk) as (n & ? & ?). eauto.
Qed.

Lemma update_dimensions_total (sz : str -> option nat) b vs : forall dims delayed,
  (forall d n, dget dims d = Some n -> sz d = Some n) ->
  (forall v, v ∈ vs -> v_delayed v = b /\ forall k d, v_dims v !! k = Some d -> exists n, v_shape v !! k = Some n /\ sz d = Some n) ->
  delayed = None \/ delayed = Some b ->
  exists dims', update_dimensions dims delayed vs = Ok (dims', if decide (vs = []) then delayed else Some b) /\
    (forall d n, dget dims' d = Some n -> sz d = Some n).
Proof.
  induction vs as [|v vs IH]; intros dims delayed H1 H2 Hd; cbn; [eauto|].
  destruct (H2 v) as [Hb Hv]; [by left|].
  destruct (update_dims_var_total sz (v_dims v) dims (v_shape v) H1 Hv) as (dims1 & E1 & H3).
  destruct (IH dims1 (Some b) H3 (fun w Hw => H2 w (ltac:(by right))) (or_intror eq_refl)) as (dims' & E & H4).
  assert (E' : update_dimensions dims1 (Some b) vs = Ok (dims', Some b)).
  { rewrite E. by destruct (decide _). }
  exists dims'. split; [|done].
  destruct Hd as [->| ->]; [|rewrite Hb, eqb_reflx]; rewrite E1; cbn [rbind]; [rewrite Hb|]; by rewrite E'.
Qed.

Lemma new_dataset_ok vs attrs block chunks delayed ds :
  new_dataset vs attrs block chunks delayed = Ok ds ->
  d_vars ds = dict_of (map (fun v => (v_name v, v)) vs) /\
  d_attrs ds = attrs /\ d_chunks ds = dict_of chunks /\ d_block ds = block_or_default block /\
  (forall b, delayed = Some b -> d_delayed ds = b) /\ consistent ds.
Proof.
  unfold new_dataset. set (vars := dict_of _).
  destruct (update_dimensions [] delayed (dvals vars)) as [[dims dl]|] eqn:E; [|done]. cbn. intros [= <-]. cbn.
  apply update_dimensions_ok in E as (_ & H1 & H2 & _). split_and!; try done.
  - intros b Hb. by rewrite (H2 b Hb).
  - intros name v Hv. cbn in Hv.
    assert (Hin : v ∈ dvals vars) by (apply elem_dvals; exists name; by apply dget_elem).
    destruct (H1 v Hin) as [Hs Hd]. cbn. rewrite Hd. split_and!; [|done|done].
    subst vars. apply dict_of_elem in Hv. change (map ?f ?l) with (f <$> l) in Hv.
    apply elem_of_list_fmap in Hv as (w & [= -> ->] & _). done.
Qed.

Lemma names_nodup vs : NoDup (map v_name vs) -> dict_of (map (fun v => (v_name v, v)) vs) = map (fun v => (v_name v, v)) vs.
Proof. intros H. apply dict_of_id. by rewrite map_map. Qed.

Lemma new_dataset_total (sz : str -> option nat) b vs attrs block chunks delayed :
  NoDup (map v_name vs) -> NoDup (map fst chunks) -> block <> 0%Z ->
  (forall v, v ∈ vs -> v_delayed v = b /\ forall k d, v_dims v !! k = Some d -> exists n, v_shape v !! k = Some n /\ sz d = Some n) ->
  delayed = Some b \/ (delayed = None /\ (vs = [] -> b = true)) ->
  exists ds, new_dataset vs attrs (Some block) chunks delayed = Ok ds /\
    d_vars ds = map (fun v => (v_name v, v)) vs /\ d_attrs ds = attrs /\ d_chunks ds = chunks /\
    d_block ds = block /\ d_delayed ds = b /\ consistent ds /\ (forall d n, dget (d_dims ds) d = Some n -> sz d = Some n).
Proof.
  intros Hn Hc Hb Hv Hd.
  assert (Hvals : dvals (map (fun v => (v_name v, v)) vs) = vs).
  { unfold dvals. rewrite map_map. cbn. apply map_id. }
  destruct (update_dimensions_total sz b vs [] delayed) as (dims & E & Hsz); [done|done|tauto|].
  assert (Enew : new_dataset vs attrs (Some block) chunks delayed =
     Ok (Dataset dims (map (fun v => (v_name v, v)) vs) attrs chunks block b)).
  { unfold new_dataset. rewrite names_nodup by done. rewrite Hvals, E. cbn [rbind fst snd].
    rewrite dict_of_id by done. unfold block_or_default. rewrite (proj2 (Z.eqb_neq _ _)) by done.
    destruct (decide (vs = [])) as [->|]; [|done]. destruct Hd as [->|[-> Hb']]; [done|]. by rewrite Hb'. }
  eexists. split; [exact Enew|]. cbn. split_and!; try done.
  by apply new_dataset_ok in Enew as (_ & _ & _ & _ & _ & H).
Qed.

(** ** Positions *)
Lemma positions_bound n ix ps : positions n ix = Ok ps -> Forall (fun j => j < n) ps.
Proof.
  destruct ix as [a b|l]; cbn.
  - destruct (slice_bounds n a b) as [x y] eqn:E. intros [= <-].
    apply Forall_forall. intros j Hj%elem_of_seq. unfold slice_bounds in E. injection E as <- <-.
    assert (Hc : forall z, clip n z <= n) by (intros z; unfold clip; destruct (Z.ltb_spec z 0); lia).
    destruct b as [b|]; [pose proof (Hc b)|]; lia.
  - intros H%traverse_inv. clear -H. induction H as [|x y l l' Hx _ IH]; constructor; [|done].
    destruct (Z.leb_spec (- Z.of_nat n) x); [|done]. destruct (Z.ltb_spec x (Z.of_nat n)); [|done].
    cbn in Hx. injection Hx as <-. destruct (Z.ltb_spec x 0); lia.
Qed.
Lemma positions_all n : positions n (ISlice None None) = Ok (seq 0 n).
Proof. cbn. by rewrite Nat.sub_0_r. Qed.
Lemma positions_slice n a b : a <= b <= n ->
  positions n (ISlice (Some (Z.of_nat a)) (Some (Z.of_nat b))) = Ok (seq a (b - a)).
Proof.
  intros H. cbn. unfold clip. rewrite !(proj2 (Z.ltb_ge _ _)) by lia.
  repeat f_equal; lia.
Qed.
Lemma positions_list n l : Forall (fun j => j < n) l -> positions n (IList (map Z.of_nat l)) = Ok l.
Proof.
  intros H. cbn. apply traverse_inv. induction H as [|x l Hx _ IH]; cbn; constructor; [|done].
  rewrite (proj2 (Z.leb_le _ _)) by lia. rewrite (proj2 (Z.ltb_lt _ _)) by lia. cbn.
  rewrite (proj2 (Z.ltb_ge _ _)) by lia. by rewrite Nat2Z.id.
Qed.

Lemma pick_rows ax a ps : Forall (fun j => j < nth ax (a_shape a) 0) ps -> pick ps (rows ax a) = map (row ax a) ps.
Proof.
  intros H. unfold pick. induction H as [|j ps Hj _ IH]; [done|]. cbn.
  rewrite rows_lookup by done. cbn. by f_equal.
Qed.
Lemma pick_seq {A} (l : list A) : pick (seq 0 (length l)) l = l.
Proof.
  unfold pick. assert (H : forall pre, omap (fun i => (pre ++ l) !! i) (seq (length pre) (length l)) = l).
  { induction l as [|x l IH]; intros pre; [done|]. cbn.
    rewrite lookup_app_r, Nat.sub_diag by lia. cbn. f_equal.
    specialize (IH (pre ++ [x])). rewrite <-app_assoc, app_length in IH. cbn in IH.
    by rewrite Nat.add_1_r in IH. }
  apply (H []).
Qed.
Lemma pick_app {A} (ps qs : list nat) (l : list A) : pick (ps ++ qs) l = pick ps l ++ pick qs l.
Proof. unfold pick. apply omap_app. Qed.

Lemma take_axis_all ax a : arr_wf a -> ax < length (a_shape a) -> take_axis ax (seq 0 (nth ax (a_shape a) 0)) a = a.
Proof.
  intros Hw Hl. apply (rows_inj ax).
  - apply take_axis_wf.
  - done.
  - rewrite take_axis_shape. by rewrite insert_length.
  - rewrite take_axis_shape, seq_length. by apply insert_nth_id.
  - rewrite rows_take; [done|done|]. apply Forall_forall. intros j Hj%elem_of_seq. lia.
Qed.

(** ** Dimensions of a variable *)
Lemma index_of_Some x l i : index_of x l = Some i <-> list_find (fun d => d = x) l = Some (i, x).
Proof.
  revert i. induction l as [|y l IH]; intros i; cbn; [done|].
  destruct (decide (x = y)) as [->|Hne].
  - rewrite decide_True by done. split; congruence.
  - rewrite decide_False by congruence. destruct (index_of x l) as [j|] eqn:E; cbn.
    + rewrite (proj1 (IH j) eq_refl). cbn. split; intros [= <-]; done.
    + split; [done|]. intros H. destruct (list_find _ l) as [[j z]|] eqn:E'; [|done].
      apply list_find_Some in E' as H'. destruct H' as (_ & -> & _).
      destruct (IH j) as [_ Hj]. by specialize (Hj eq_refl).
Qed.
Lemma index_of_None x l : index_of x l = None <-> x ∉ l.
Proof.
  induction l as [|y l IH]; cbn; [split; [intros _; apply not_elem_of_nil|done]|].
  rewrite not_elem_of_cons. destruct (decide (x = y)) as [->|]; [split; [done|intros []; done]|].
  rewrite <-IH. destruct (index_of x l); cbn; split; try done; by intros [].
Qed.
Lemma index_of_lookup x l i : index_of x l = Some i -> l !! i = Some x.
Proof. intros H%index_of_Some. apply list_find_Some in H. tauto. Qed.
Lemma index_of_nodup x l i : NoDup l -> l !! i = Some x -> index_of x l = Some i.
Proof.
  intros Hnd Hi. destruct (index_of x l) as [j|] eqn:E.
  - apply index_of_lookup in E. f_equal. by apply (NoDup_lookup _ _ _ _ Hnd E).
  - apply index_of_None in E. by apply elem_of_list_lookup_2 in Hi.
Qed.
Lemma records_index v dim : records v dim =
  match index_of dim (v_dims v) with Some ax => Some (rows ax (v_array v)) | None => None end.
Proof.
  unfold records. destruct (index_of dim (v_dims v)) as [ax|] eqn:E.
  - apply index_of_Some in E. by rewrite E.
  - apply index_of_None in E. destruct (list_find _ _) as [[i x]|] eqn:E'; [|done].
    apply list_find_Some in E' as (H & -> & _). by apply elem_of_list_lookup_2 in H.
Qed.

(** ** isel on one variable *)
Definition key_for (dim : str) (ix : indexer) (d : str) : indexer :=
  if decide (d = dim) then ix else ISlice None None.

Lemma index_axes_notin dim ix dims : forall k a, arr_wf a -> k + length dims <= length (a_shape a) ->
  dim ∉ dims -> index_axes k (map (key_for dim ix) dims) a = Ok a.
Proof.
  induction dims as [|d dims IH]; intros k a Hw Hl Hn; cbn [map index_axes length] in *; [done|].
  apply not_elem_of_cons in Hn as [Hd Hn].
  rewrite (proj2 (Nat.leb_gt _ _)) by lia. unfold key_for at 1. rewrite decide_False by done.
  rewrite positions_all. cbn [rbind]. rewrite take_axis_all by (done || lia). apply IH; [done|lia|done].
Qed.
Lemma index_axes_at dim ix ps dims : forall k ax a, arr_wf a -> k + length dims <= length (a_shape a) ->
  NoDup dims -> dims !! ax = Some dim -> positions (nth (k + ax) (a_shape a) 0) ix = Ok ps ->
  index_axes k (map (key_for dim ix) dims) a = Ok (take_axis (k + ax) ps a).
Proof.
  induction dims as [|d dims IH]; intros k ax a Hw Hl Hnd Hax Hp; cbn [map index_axes length] in *; [done|].
  apply NoDup_cons in Hnd as [Hn Hnd]. rewrite (proj2 (Nat.leb_gt _ _)) by lia.
  destruct ax as [|ax]; cbn in Hax.
  - injection Hax as ->. unfold key_for at 1. rewrite decide_True by done. rewrite Nat.add_0_r in *.
    rewrite Hp. cbn [rbind]. apply index_axes_notin; [apply take_axis_wf| |done].
    rewrite take_axis_shape, insert_length. lia.
  - assert (d <> dim) by (intros ->; apply Hn; by apply elem_of_list_lookup_2 in Hax).
    unfold key_for at 1. rewrite decide_False by done.
    rewrite positions_all. cbn [rbind]. rewrite take_axis_all by (done || lia).
    replace (k + S ax) with (S k + ax) in * by lia. apply IH; [done|lia|done|done|done].
Qed.
Lemma index_axes_at_raise dim ix e dims : forall k ax a, arr_wf a -> k + length dims <= length (a_shape a) ->
  NoDup dims -> dims !! ax = Some dim -> positions (nth (k + ax) (a_shape a) 0) ix = Raise e ->
  index_axes k (map (key_for dim ix) dims) a = Raise e.
Proof.
  induction dims as [|d dims IH]; intros k ax a Hw Hl Hnd Hax Hp; cbn [map index_axes length] in *; [done|].
  apply NoDup_cons in Hnd as [Hn Hnd]. rewrite (proj2 (Nat.leb_gt _ _)) by lia.
  destruct ax as [|ax]; cbn in Hax.
  - injection Hax as ->. unfold key_for at 1. rewrite decide_True by done. rewrite Nat.add_0_r in *.
    by rewrite Hp.
  - assert (d <> dim) by (intros ->; apply Hn; by apply elem_of_list_lookup_2 in Hax).
    unfold key_for at 1. rewrite decide_False by done.
    rewrite positions_all. cbn [rbind]. rewrite take_axis_all by (done || lia).
    replace (k + S ax) with (S k + ax) in * by lia. apply (IH _ ax); [done|lia|done..].
Qed.

Lemma sized_rank dims v : sized dims v -> length (v_dims v) <= length (v_shape v).
Proof.
  intros H. destruct (decide (length (v_dims v) = 0)) as [->|Hn]; [lia|].
  destruct (lookup_lt_is_Some_2 (v_dims v) (length (v_dims v) - 1)) as [d Hd]; [lia|].
  destruct (H _ _ Hd) as (n & Hs & _). apply lookup_lt_Some in Hs. lia.
Qed.
Lemma sized_at dims v ax dim n : sized dims v -> v_dims v !! ax = Some dim -> dget dims dim = Some n ->
  ax < length (v_shape v) /\ nth ax (v_shape v) 0 = n.
Proof.
  intros H Hax Hn. destruct (H _ _ Hax) as (m & Hs & Hm). split; [by apply lookup_lt_Some in Hs|].
  rewrite (nth_lookup_Some _ _ _ _ Hs). congruence.
Qed.

(** The variable obtained by selecting the positions [ps] along [dim]. *)
Definition var_take (dim : str) (ps : list nat) (v : variable) : variable :=
  with_array v (match index_of dim (v_dims v) with
                | Some ax => take_axis ax ps (v_array v) | None => v_array v end).

Lemma with_array_id v : with_array v (v_array v) = v.
Proof. by destruct v. Qed.

Lemma var_isel_ok dims dim n ix ps v : sized dims v -> arr_wf (v_array v) -> NoDup (v_dims v) ->
  dget dims dim = Some n -> positions n ix = Ok ps ->
  index_axes 0 (map (key_for dim ix) (v_dims v)) (v_array v) = Ok (v_array (var_take dim ps v)).
Proof.
  intros Hs Hw Hnd Hn Hp. pose proof (sized_rank _ _ Hs) as Hr. unfold v_shape in Hr.
  unfold var_take. cbn [with_array v_array]. destruct (index_of dim (v_dims v)) as [ax|] eqn:E.
  - apply index_of_lookup in E. destruct (sized_at _ _ _ _ _ Hs E Hn) as [Hl Hnth].
    apply (index_axes_at dim ix ps (v_dims v) 0 ax); [done|cbn; lia|done|done|]. cbn. unfold v_shape in Hnth. by rewrite Hnth.
  - apply index_of_None in E. apply index_axes_notin; [done|cbn; lia|done].
Qed.

Lemma var_take_records dims dim n ps v : sized dims v -> dget dims dim = Some n ->
  Forall (fun j => j < n) ps -> records (var_take dim ps v) dim = option_map (pick ps) (records v dim).
Proof.
  intros Hs Hn Hps. rewrite !records_index. cbn [var_take with_array v_dims v_array].
  destruct (index_of dim (v_dims v)) as [ax|] eqn:E; [|done]. cbn [option_map]. f_equal.
  apply index_of_lookup in E. destruct (sized_at _ _ _ _ _ Hs E Hn) as [Hl Hnth]. unfold v_shape in *.
  rewrite rows_take; [|done|by rewrite Hnth]. symmetry. apply pick_rows. by rewrite Hnth.
Qed.
Lemma var_take_same dim ps v : NoDup (v_dims v) -> same_but_records dim v (var_take dim ps v).
Proof.
  intros Hnd. unfold same_but_records, var_take. cbn [with_array v_array v_shape]. unfold v_shape. cbn [with_array v_array].
  split_and!.
  - done.
  - destruct (index_of dim (v_dims v)); [by rewrite take_axis_shape, insert_length|done].
  - intros k Hk. destruct (index_of dim (v_dims v)) as [ax|] eqn:E; [|done].
    apply index_of_lookup in E. rewrite take_axis_shape. apply list_lookup_insert_ne. intros ->. done.
  - intros Hn. apply index_of_None in Hn. rewrite Hn. apply with_array_id.
Qed.
Lemma var_take_shape dims dim n ps v : sized dims v -> dget dims dim = Some n -> NoDup (v_dims v) ->
  sized (dset dims dim (length ps)) (var_take dim ps v).
Proof.
  intros Hs Hn Hnd k d Hk. cbn [var_take with_array v_dims] in Hk. destruct (Hs k d Hk) as (m & Hm & Hd).
  unfold v_shape, var_take. cbn [with_array v_array]. rewrite dget_dset.
  destruct (decide (d = dim)) as [->|Hne].
  - rewrite (index_of_nodup _ _ _ Hnd Hk). exists (length ps). split; [|done].
    rewrite take_axis_shape. apply list_lookup_insert. by apply lookup_lt_Some in Hm.
  - exists m. split; [|done]. destruct (index_of dim (v_dims v)) as [ax|] eqn:E; [|done].
    apply index_of_lookup in E. rewrite take_axis_shape. rewrite list_lookup_insert_ne; [done|]. intros ->. congruence.
Qed.
Lemma var_take_wf dim ps v : arr_wf (v_array v) -> arr_wf (v_array (var_take dim ps v)).
Proof. intros H. unfold var_take. cbn. destruct (index_of _ _); [apply take_axis_wf|done]. Qed.

(** ** Datasets *)
Lemma proper_get ds nv : proper ds -> nv ∈ d_vars ds -> dget (d_vars ds) nv.1 = Some nv.2.
Proof. intros H Hin. apply elem_dget; [apply H|by destruct nv]. Qed.
Lemma proper_sized ds v : proper ds -> v ∈ dvals (d_vars ds) -> sized (d_dims ds) v /\ v_delayed v = d_delayed ds /\ arr_wf (v_array v).
Proof.
  intros H Hv. assert (Hw := proper_arrays _ H _ Hv). apply elem_dvals in Hv as [k Hk].
  apply (elem_dget _ _ _ (proper_names _ H)) in Hk. apply (proper_consistent _ H) in Hk. tauto.
Qed.
Lemma proper_names_eq ds : proper ds -> map v_name (dvals (d_vars ds)) = dkeys (d_vars ds).
Proof.
  intros H. unfold dvals, dkeys. rewrite map_map. apply map_ext_in. intros [k v] Hin%elem_of_list_In.
  apply (proper_get _ _ H) in Hin. cbn in *. by apply (proper_consistent _ H) in Hin as [? _].
Qed.
Lemma proper_vars ds : proper ds -> map (fun v => (v_name v, v)) (dvals (d_vars ds)) = d_vars ds.
Proof.
  intros H. unfold dvals. rewrite map_map. rewrite <-(map_id (d_vars ds)) at 2. apply map_ext_in.
  intros [k v] Hin%elem_of_list_In. apply (proper_get _ _ H) in Hin. cbn in *.
  apply (proper_consistent _ H) in Hin as [-> _]. done.
Qed.

Lemma map_names (f : variable -> variable) vs : (forall v, v_name (f v) = v_name v) -> map v_name (map f vs) = map v_name vs.
Proof. intros H. rewrite map_map. by apply map_ext. Qed.

Lemma isel_ok ds dim n ix ps : proper ds -> no_repeat ds ->
  dget (d_dims ds) dim = Some n -> positions n ix = Ok ps ->
  exists ds', ds_isel ds [(dim, ix)] = Ok ds' /\
    d_vars ds' = map (fun nv => (nv.1, var_take dim ps nv.2)) (d_vars ds) /\
    d_attrs ds' = d_attrs ds /\ d_chunks ds' = d_chunks ds /\ d_block ds' = d_block ds /\
    d_delayed ds' = d_delayed ds /\ proper ds' /\ no_repeat ds' /\
    (dim ∈ mjoin (map v_dims (dvals (d_vars ds))) -> dget (d_dims ds') dim = Some (length ps)) /\
    (forall d m, d <> dim -> dget (d_dims ds') d = Some m -> dget (d_dims ds) d = Some m).
Proof.
  intros Hp Hnr Hn Hps. unfold ds_isel. cbn [dkeys map forallb fst].
  rewrite (proj2 (dmem_true _ _)) by (apply dget_is_Some; eauto). cbn [andb negb].
  set (vs := dvals (d_vars ds)).
  rewrite (traverse_Ok _ (var_take dim ps)).
  2:{ intros v Hv. destruct (proper_sized _ _ Hp Hv) as (Hs & _ & Hw).
      replace (map _ (v_dims v)) with (map (key_for dim ix) (v_dims v)).
      - rewrite (var_isel_ok _ _ _ _ _ _ Hs Hw (Hnr _ Hv) Hn Hps). done.
      - apply map_ext. intros d. unfold key_for. cbn [dget]. by destruct (decide (d = dim)). }
  cbn [rbind].
  destruct (new_dataset_total (fun d => dget (dset (d_dims ds) dim (length ps)) d) (d_delayed ds)
     (map (var_take dim ps) vs) (d_attrs ds) (d_block ds) (d_chunks ds) (Some (d_delayed ds)))
    as (ds' & E & E1 & E2 & E3 & E4 & E5 & E6 & E7).
  - rewrite map_names by done. subst vs. rewrite proper_names_eq by done. apply Hp.
  - apply Hp.
  - apply Hp.
  - intros v' Hv'. apply elem_of_list_In, in_map_iff in Hv' as (v & <- & Hv%elem_of_list_In).
    destruct (proper_sized _ _ Hp Hv) as (Hs & Hd & _). split; [done|].
    apply (var_take_shape _ _ _ _ _ Hs Hn (Hnr _ Hv)).
  - by left.
  - exists ds'. split; [exact E|].
    assert (Ev : d_vars ds' = map (fun nv => (nv.1, var_take dim ps nv.2)) (d_vars ds)).
    { rewrite E1. rewrite <-(proper_vars _ Hp). by rewrite !map_map. }
    assert (Evals : dvals (d_vars ds') = map (var_take dim ps) vs).
    { rewrite Ev. unfold vs, dvals. by rewrite !map_map. }
    assert (Hpr : proper ds').
    { split.
      - rewrite Ev. unfold dkeys. rewrite map_map. apply Hp.
      - rewrite E3. apply Hp.
      - rewrite E4. apply Hp.
      - rewrite Evals. intros v' Hv'. apply elem_of_list_In, in_map_iff in Hv' as (v & <- & Hv%elem_of_list_In).
        apply var_take_wf. by apply (proper_sized _ _ Hp Hv).
      - done. }
    split_and!; try done.
    + intros v'. rewrite Evals. intros Hv'. apply elem_of_list_In, in_map_iff in Hv' as (v & <- & Hv%elem_of_list_In).
      exact (Hnr v Hv).
    + intros Hin. apply elem_of_list_join in Hin as (dims & Hd & Hin). apply elem_of_list_In, in_map_iff in Hin as (v & <- & Hv%elem_of_list_In).
      apply elem_of_list_lookup_1 in Hd as [k Hk].
      assert (Hv' : var_take dim ps v ∈ dvals (d_vars ds')).
      { rewrite Evals. apply elem_of_list_In, in_map_iff. exists v. split; [done|by apply elem_of_list_In]. }
      destruct (proper_sized _ _ Hpr Hv') as (Hs & _ & _).
      destruct (Hs k dim Hk) as (m & Hm & Hg). rewrite Hg. apply E7 in Hg. rewrite dget_dset_eq in Hg. congruence.
    + intros d m Hd Hg. apply E7 in Hg. by rewrite dget_dset_ne in Hg.
Qed.
