(** * The files of a view *)
From Verif Require Import Py Dict NdArray_Model NdArray_Spec NdArray_Proofs Dataset_Model Dataset_Spec Dataset_Proofs Meta_Model PartPath_Model PartPath_Proofs
  FS_Model FS_Proofs Pool_Model Pool_Proofs Storage_Model Storage_Spec Storage_Chunks Storage_Proofs Storage_Change
  Listing_Model Listing_Spec Listing_Proofs Collection_Model Collection_Spec Collection_Proofs Collection_State Collection_Select Update_Model View_Model View_Spec.

(** The files [t] are those of the array of the variable [v]; outside the array,
    the fill value is read. *)
Record keeps (t : store) (v : variable) : Prop := {
  kp_array : exists cs, chunked (v_shape v) cs /\ t !! [ZARRAY] = Some (CMeta (MArray (zarr_for v cs))) /\
    forall idx, length idx = length (v_shape v) ->
      read_item (zarr_for v cs) t idx = Ok (if decide (valid (v_shape v) idx) then get (v_array v) idx else blank v);
  kp_attrs : t !! [ZATTRS] = Some (CMeta (MAttrs (v_attrs v) (Some (v_dims v))));
  kp_wf : arr_wf (v_array v);
  kp_rank : length (v_dims v) = length (v_shape v);
}.

(** The array that holds the axis. *)
Definition sum_var (v : venv) (w : view) (dtype : str) (a : arr) : variable :=
  Var CHECKSUM false a dtype [c_dim (w_ref w)] [(CHECKSUM_ATTR, ve_digest v a)] (ve_compressor v) (Some (Num 0)) [].

Record keeps_part (v : venv) (w : view) (t : store) (p : vpart) : Prop := {
  kt_names : forall q x, t !! q = Some x -> exists n f, q = n :: f /\ (n = CHECKSUM \/ n ∈ dkeys (md_vars (w_meta w)));
  kt_axis : length (a_shape (vp_axis p)) = 1 /\ exists dtype, keeps (sub [CHECKSUM] t) (sum_var v w dtype (vp_axis p));
  kt_nodup : NoDup (dkeys (vp_vars p));
  kt_same : forall n, n ∈ dkeys (vp_vars p) <-> n ∈ dkeys (md_vars (w_meta w));
  kt_vars : forall n a, dget (vp_vars p) n = Some a -> exists mv, dget (md_vars (w_meta w)) n = Some mv /\ fits mv a /\ keeps (sub [n] t) a;
  kt_sizes : forall n a k, dget (vp_vars p) n = Some a -> v_dims a !! k = Some (c_dim (w_ref w)) -> v_shape a !! k = Some (length (a_flat (vp_axis p)));
}.

Definition vdir (w : view) (values : list Z) : path := w_dir w ++ key_dirs (c_part (w_ref w)) values.
Record holds_view (v : venv) (w : view) (V : list Z -> option vpart) (s : store) : Prop := {
  hw_files : forall q x, s !! (w_dir w ++ q) = Some x ->
    q = [VIEW_CONFIG] \/ exists values f, is_Some (V values) /\ q = key_dirs (c_part (w_ref w)) values ++ f;
  hw_part : forall values p, V values = Some p ->
    length values = length (p_keys (c_part (w_ref w))) /\ keeps_part v w (sub (vdir w values) s) p;
}.

(** The variables of a view: distinct, under their names, with the dimensions of
    a variable of the reference, one of them being that of the axis. *)
Record viewable (v : venv) (w : view) : Prop := {
  vw_regular : regular (ve_env v) (w_ref w);
  vw_path : plain_path (w_dir w);
  vw_apart : apart (w_dir w) (c_dir (w_ref w));
  vw_guess : forall shape, chunked shape (ve_guess v shape);
  vw_nodup : NoDup (dkeys (md_vars (w_meta w)));
  vw_vars : forall n mv, dget (md_vars (w_meta w)) n = Some mv ->
    mv_name mv = n /\ n <> CHECKSUM /\ plain_name n /\ NoDup (mv_dims mv) /\ c_dim (w_ref w) ∈ mv_dims mv /\
    n ∉ dkeys (md_vars (c_meta (w_ref w))) /\
    exists n' mv', dget (md_vars (c_meta (w_ref w))) n' = Some mv' /\ mv_dims mv' = mv_dims mv;
  vw_ref : NoDup (dkeys (md_vars (c_meta (w_ref w)))) /\ forall n mv, dget (md_vars (c_meta (w_ref w))) n = Some mv -> mv_name mv = n;
}.
(** No two axes at hand have the same digest. *)
Definition no_collision (v : venv) (w : view) (M : list Z -> option dataset) (V : list Z -> option vpart) : Prop :=
  forall values ds p a, M values = Some ds -> V values = Some p -> axis_is (w_ref w) ds a -> ve_digest v a = ve_digest v (vp_axis p) -> a = vp_axis p.

(** ** One array *)
Lemma blank_fill v cs : default (Num 0) (z_fill (zarr_for v cs)) = blank v.
Proof. done. Qed.
Lemma read_item_chunk z t idx : t !! [chunk_key (chunk_of (z_chunks z) idx)] = None -> read_item z t idx = Ok (default (Num 0) (z_fill z)).
Proof. intros E. unfold read_item. by rewrite E. Qed.
Lemma keeps_read t v : keeps t v -> exists cs, chunked (v_shape v) cs /\ t !! [ZARRAY] = Some (CMeta (MArray (zarr_for v cs))) /\ read_array (zarr_for v cs) t = Ok (v_array v).
Proof.
  intros [(cs & Hc & Hz & Hr) _ Hw _]. exists cs. split_and!; [done..|]. unfold read_array.
  rewrite (traverse_Ok _ (get (v_array v))); [cbn [rbind]; f_equal; by apply tabulate_get|].
  intros idx Hi. apply indices_valid in Hi. change (valid (v_shape v) idx) in Hi. rewrite Hr by (by apply valid_length). by rewrite decide_True.
Qed.

(** A new array. *)
Definition new_tree (v : variable) (cs : list nat) : store :=
  <[[ZATTRS] := CMeta (MAttrs (v_attrs v) (Some (v_dims v)))]> (<[[ZARRAY] := CMeta (MArray (zarr_for v cs))]> ∅).
Lemma chunk_key_meta ci n : n ∈ [ZARRAY; ZGROUP; ZATTRS; ZMETADATA] -> chunk_key ci <> n.
Proof. intros Hn E. by eapply chunk_key_not_meta. Qed.
Lemma keeps_new v cs : arr_wf (v_array v) -> length (v_dims v) = length (v_shape v) -> chunked (v_shape v) cs ->
  (forall x, x ∈ a_flat (v_array v) -> x = blank v) -> keeps (new_tree v cs) v.
Proof.
  intros Hw Hk Hc Hb. unfold new_tree. split; [|by rewrite lookup_insert|done|done]. exists cs. split_and!; [done|by rewrite lookup_insert_ne, lookup_insert|].
  intros idx Hi. rewrite read_item_chunk.
  - rewrite blank_fill. f_equal. destruct (decide _) as [V|]; [|done]. symmetry. apply Hb. by apply get_elem.
  - rewrite !lookup_insert_ne; [apply lookup_empty|..]; intros [= E]; symmetry in E; revert E; apply chunk_key_meta; set_solver.
Qed.

(** [replaced p f s]: the files below [p] go through [f]. *)
Definition replaced_at (p : path) (f : store -> store) (s : store) : store := graft p (f (sub p s)) (prune p s).
Lemma replaced_lookup p f s q : replaced_at p f s !! q = match strip p q with Some r => f (sub p s) !! r | None => s !! q end.
Proof. apply graft_lookup_case. Qed.
Lemma replaced_in p f s r : replaced_at p f s !! (p ++ r) = f (sub p s) !! r.
Proof. by rewrite replaced_lookup, strip_app. Qed.
Lemma replaced_out p f s q : ~ under p q -> replaced_at p f s !! q = s !! q.
Proof. intros H. rewrite replaced_lookup. by apply strip_None in H as ->. Qed.
Lemma sub_replaced p f s : sub p (replaced_at p f s) = f (sub p s).
Proof. apply map_eq. intros r. by rewrite sub_lookup, replaced_in. Qed.
Lemma replaced_id p s : replaced_at p id s = s.
Proof. apply graft_sub_prune. Qed.
Lemma replaced_insert p r x s : <[p ++ r := x]> s = replaced_at p (<[r := x]>) s.
Proof.
  apply map_eq. intros q. rewrite replaced_lookup. destruct (strip p q) as [t|] eqn:E.
  - apply strip_Some in E as ->. destruct (decide (r = t)) as [->|N]; [by rewrite !lookup_insert|].
    rewrite !lookup_insert_ne, sub_lookup; [done|done|]. intros E. by apply app_inv_head in E.
  - apply strip_None in E. rewrite lookup_insert_ne; [done|]. intros <-. apply E, under_app.
Qed.
Lemma replaced_graft p t s : graft p t s = replaced_at p (fun u => t ∪ u) s.
Proof.
  apply map_eq. intros q. rewrite replaced_lookup, graft_lookup. destruct (strip p q) as [r|] eqn:E; [|done].
  apply strip_Some in E as ->. rewrite lookup_union, sub_lookup. destruct (t !! r) as [x|], (s !! (p ++ r)) as [y|]; done.
Qed.
Lemma replaced_prune p s : prune p s = replaced_at p (fun _ => ∅) s.
Proof. apply prune_graft_empty. Qed.
Lemma replaced_comp p f g s : replaced_at p g (replaced_at p f s) = replaced_at p (fun t => g (f t)) s.
Proof.
  apply map_eq. intros q. rewrite !replaced_lookup, sub_replaced. by destruct (strip p q) as [r|] eqn:E.
Qed.
Lemma replaced_ext p f g s : f (sub p s) = g (sub p s) -> replaced_at p f s = replaced_at p g s.
Proof. intros E. unfold replaced_at. by rewrite E. Qed.
Lemma replaced_below p r f s : replaced_at (p ++ r) f s = replaced_at p (replaced_at r f) s.
Proof.
  apply map_eq. intros q. rewrite !replaced_lookup. destruct (strip p q) as [t|] eqn:E.
  - apply strip_Some in E as ->. rewrite strip_app_l, replaced_lookup, sub_sub. destruct (strip r t); [done|]. by rewrite sub_lookup.
  - destruct (strip (p ++ r) q) as [t|] eqn:E'; [|done]. apply strip_Some in E' as ->. apply strip_None in E. destruct E. rewrite <-app_assoc. apply under_app.
Qed.

(** Writing all the values. *)
Lemma keeps_set t v cs a : chunked (v_shape v) cs -> t !! [ZARRAY] = Some (CMeta (MArray (zarr_for v cs))) ->
  (forall idx, length idx = length (v_shape v) -> ~ valid (v_shape v) idx -> read_item (zarr_for v cs) t idx = Ok (blank v)) ->
  t !! [ZATTRS] = Some (CMeta (MAttrs (v_attrs v) (Some (v_dims v)))) -> length (v_dims v) = length (v_shape v) ->
  arr_wf a -> a_shape a = v_shape v -> keeps (chunk_tree (zarr_for v cs) false a ∪ t) (with_array v a).
Proof.
  intros Hc Hz Hout Hat Hk Hw Hsh.
  assert (Hno : forall n, n ∈ [ZARRAY; ZGROUP; ZATTRS; ZMETADATA] -> (chunk_tree (zarr_for v cs) false a ∪ t) !! [n] = t !! [n]).
  { intros n Hn. rewrite lookup_union, chunk_tree_meta by done. by destruct (t !! [n]). }
  assert (Hcw : chunked (z_shape (zarr_for v cs)) (z_chunks (zarr_for v cs))) by done.
  split.
  - exists cs. assert (v_shape (with_array v a) = v_shape v) as Es by (cbn; done). rewrite Es. split_and!; [done| |].
    + rewrite Hno by set_solver. rewrite Hz. unfold zarr_for. by rewrite Es.
    + intros idx Hi. change (blank (with_array v a)) with (blank v). change (v_array (with_array v a)) with a.
      set (ci := chunk_of cs idx).
      destruct (decide (valid (grid (v_shape v) cs) ci)) as [Vg|Ng].
      * unfold read_item. change (z_chunks (zarr_for (with_array v a) cs)) with cs. fold ci.
        assert (Ec : (chunk_tree (zarr_for v cs) false a ∪ t) !! [chunk_key ci] = Some (CChunk (chunk_at a cs ci))).
        { apply lookup_union_Some_l. by rewrite chunk_tree_at. }
        rewrite Ec. cbv zeta. f_equal. unfold inside. assert (Ea : a_shape (chunk_at a cs ci) = chunk_shape (v_shape v) cs ci) by (cbn; by rewrite Hsh).
        rewrite Ea.
        destruct (decide (valid (v_shape v) idx)) as [Vi|Ni].
        -- destruct (chunk_position _ _ _ Hc Vi) as (_ & V2 & _). rewrite bool_decide_eq_true_2 by exact V2. rewrite <-Hsh in Hc, Vi. by apply get_chunk.
        -- rewrite bool_decide_eq_false_2; [done|]. intros V2. apply Ni. clear -Hc Hi V2. subst ci.
           destruct Hc as [L H]. revert idx Hi V2 L. generalize (v_shape v) as sh. induction H as [|c cs Hc H IH]; intros [|n sh] [|i idx] Hi V2 L; try done.
           cbn in V2. inversion V2 as [|? ? ? ? Ho V2']; subst. constructor; [|apply IH; [cbn in Hi; lia|exact V2'|cbn in L; lia]].
           pose proof (Nat.div_mod i c ltac:(lia)). pose proof (Nat.mod_upper_bound i c ltac:(lia)). nia.
      * assert (Ni : ~ valid (v_shape v) idx) by (intros Vi; by destruct (chunk_position _ _ _ Hc Vi) as (V1 & _)).
        rewrite decide_False by done. rewrite <-(Hout idx Hi Ni). unfold read_item. change (z_chunks (zarr_for (with_array v a) cs)) with cs. change (z_chunks (zarr_for v cs)) with cs. fold ci.
        assert (Ec : (chunk_tree (zarr_for v cs) false a ∪ t) !! [chunk_key ci] = t !! [chunk_key ci]); [|by rewrite Ec].
        rewrite lookup_union. destruct (chunk_tree (zarr_for v cs) false a !! [chunk_key ci]) as [x|] eqn:E; [|by destruct (t !! [chunk_key ci])].
        apply chunk_tree_Some in E as (cj & Vj & Ek & _). injection Ek as Ek. apply chunk_key_inj in Ek; [rewrite <-Ek in Vj; by destruct (Ng Vj)|].
        apply valid_length in Vj. rewrite Vj, grid_length by done. unfold ci, chunk_of. rewrite zip_with_length. change (z_shape (zarr_for v cs)) with (v_shape v). destruct Hc as [L _]. lia.
  - rewrite Hno by set_solver. done.
  - done.
  - change (length (v_dims v) = length (a_shape a)). by rewrite Hk, Hsh.
Qed.
Lemma keeps_outside t v : keeps t v -> exists cs, chunked (v_shape v) cs /\ t !! [ZARRAY] = Some (CMeta (MArray (zarr_for v cs))) /\
  (forall idx, length idx = length (v_shape v) -> ~ valid (v_shape v) idx -> read_item (zarr_for v cs) t idx = Ok (blank v)).
Proof. intros [(cs & Hc & Hz & Hr) _ _ _]. exists cs. split_and!; [done..|]. intros idx Hi Ni. by rewrite Hr, decide_False. Qed.

(** Changing the attributes. *)
Lemma keeps_attrs t v attrs : keeps t v -> keeps (<[[ZATTRS] := CMeta (MAttrs attrs (Some (v_dims v)))]> t) (with_attrs v attrs).
Proof.
  intros [(cs & Hc & Hz & Hr) Hat Hw Hk]. split; [|by rewrite lookup_insert|done|done]. exists cs. split_and!; [done|by rewrite lookup_insert_ne|].
  intros idx Hi. change (blank (with_attrs v attrs)) with (blank v). rewrite <-Hr by done. unfold read_item.
  rewrite lookup_insert_ne; [done|]. intros [= E]. symmetry in E. revert E. apply chunk_key_meta. set_solver.
Qed.

(** A larger shape. *)
Definition grow (k n : nat) (v : variable) : arr :=
  tabulate (<[k := n]> (v_shape v)) (fun idx => if decide (valid (v_shape v) idx) then get (v_array v) idx else blank v).
Lemma keeps_grow t v k n cs : keeps t v -> t !! [ZARRAY] = Some (CMeta (MArray (zarr_for v cs))) -> (forall m, v_shape v !! k = Some m -> m <= n) ->
  keeps (<[[ZARRAY] := CMeta (MArray (zarr_for (with_array v (grow k n v)) cs))]> t) (with_array v (grow k n v)).
Proof.
  intros [(cs' & Hc & Hz & Hr) Hat Hw Hk] Hz' Hn. rewrite Hz in Hz'. injection Hz' as Hz'. subst cs'.
  split; [|by rewrite lookup_insert_ne|apply tabulate_wf|cbn; by rewrite insert_length].
  exists cs. assert (Es : v_shape (with_array v (grow k n v)) = <[k := n]> (v_shape v)) by done. rewrite Es. split_and!.
  - destruct Hc as [L H]. split; [by rewrite insert_length|done].
  - by rewrite lookup_insert.
  - intros idx Hi. rewrite insert_length in Hi.
    transitivity (read_item (zarr_for v cs) t idx).
    { unfold read_item. rewrite lookup_insert_ne; [done|]. intros [= E]. symmetry in E. revert E. apply chunk_key_meta. set_solver. }
    rewrite Hr by done. f_equal. change (blank (with_array v (grow k n v))) with (blank v). change (v_array (with_array v (grow k n v))) with (grow k n v).
    assert (Hsub : valid (v_shape v) idx -> valid (<[k := n]> (v_shape v)) idx).
    { intros Vi. unfold valid in *. apply Forall2_lookup. intros i. destruct (decide (i = k)) as [->|N].
      - rewrite Forall2_lookup in Vi. specialize (Vi k). destruct (v_shape v !! k) as [m|] eqn:Em.
        + rewrite list_lookup_insert by (by eapply lookup_lt_Some). inversion Vi as [x y Hx|]; subst. constructor. specialize (Hn m eq_refl). lia.
        + rewrite list_insert_ge by (by apply lookup_ge_None). by rewrite Em.
      - rewrite list_lookup_insert_ne by done. by apply Forall2_lookup. }
    destruct (decide (valid (<[k := n]> (v_shape v)) idx)) as [Vn|Nn].
    + unfold grow. by rewrite get_tabulate.
    + rewrite decide_False; [done|]. intros Vi. by apply Nn, Hsub.
Qed.
