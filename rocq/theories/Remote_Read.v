(** * Reading a group whose consolidated metadata are there and whose chunks are not *)
From Verif Require Import Py Dict NdArray_Model NdArray_Spec NdArray_Proofs Dataset_Model Dataset_Spec Dataset_Proofs Meta_Model Meta_Spec PartPath_Model PartPath_Proofs
  FS_Model FS_Proofs Pool_Model Pool_Proofs Storage_Model Storage_Chunks Storage_Spec Storage_Proofs.

Lemma traverse_ext_in {A B} (f g : A -> res B) l : (forall x, x ∈ l -> f x = g x) -> traverse f l = traverse g l.
Proof. induction l as [|x l IH]; intros H; cbn; [done|]. rewrite (H x) by left. rewrite IH; [done|]. intros y Hy. apply H. by right. Qed.
Lemma read_group_agree (t t' : store) delayed sel : t !! [ZMETADATA] = t' !! [ZMETADATA] -> (forall n ci, t !! [n; chunk_key ci] = t' !! [n; chunk_key ci]) ->
  read_group t delayed sel = read_group t' delayed sel.
Proof.
  intros Hm Hc. unfold read_group, read_cons. rewrite Hm. destruct (t' !! [ZMETADATA]) as [[]|]; cbn [rbind]; try done. destruct (bool_decide _); cbn [rbind]; [|done].
  f_equal. apply traverse_ext_in. intros n _. unfold open_zarr_array. destruct (array_meta m n) as [z|]; cbn [rbind]; [|done].
  assert (read_array z (sub [n] t) = read_array z (sub [n] t')) as ->; [|done]. unfold read_array. f_equal. apply traverse_ext_in. intros idx _. unfold read_item.
  rewrite !sub_lookup. cbn [app]. by rewrite Hc.
Qed.

Definition blank (v : variable) : variable :=
  Var (v_name v) (v_delayed v) (tabulate (v_shape v) (fun _ => default (Num 0) (v_fill v))) (v_dtype v) (v_dims v) (v_attrs v) (v_compressor v) (v_fill v) (v_filters v).
Definition bare (ds : dataset) : store :=
  <[[ZMETADATA] := CCons (metas (body_tree ds))]> (base.filter (fun qc : path * content => is_zarr_key qc.1 = true) (body_tree ds)).
Lemma bare_zarr ds q : is_zarr_key q = true -> bare ds !! q = body_tree ds !! q.
Proof.
  intros H. unfold bare. rewrite lookup_insert_ne by (intros <-; by vm_compute in H). destruct (body_tree ds !! q) as [x|] eqn:E.
  - by apply map_filter_lookup_Some.
  - apply map_filter_lookup_None. by left.
Qed.
Lemma bare_other ds q : is_zarr_key q = false -> q <> [ZMETADATA] -> bare ds !! q = None.
Proof. intros H N. unfold bare. rewrite lookup_insert_ne by done. apply map_filter_lookup_None. right. intros x _ E. cbn in E. congruence. Qed.
Lemma bare_metas ds : metas (bare ds) = metas (body_tree ds).
Proof. apply map_eq. intros q. rewrite !metas_lookup. destruct (is_zarr_key q) eqn:E; [|done]. by rewrite bare_zarr. Qed.
Definition blank_vars (vars : list (str * variable)) : list (str * variable) := map (fun nv => (nv.1, blank (stored nv.2))) vars.
Lemma dget_blank vars n : dget (blank_vars vars) n = option_map (fun v => blank (stored v)) (dget vars n).
Proof. induction vars as [|[m v] vars IH]; cbn; [done|]. by destruct (decide (n = m)). Qed.
Lemma keys_blank vars : dkeys (blank_vars vars) = dkeys vars.
Proof. unfold dkeys, blank_vars. by rewrite map_map. Qed.

Lemma read_array_blank z (t : store) : (forall ci, t !! [chunk_key ci] = None) -> read_array z t = Ok (tabulate (z_shape z) (fun _ => default (Num 0) (z_fill z))).
Proof.
  intros H. unfold read_array. rewrite (traverse_Ok _ (fun _ => default (Num 0) (z_fill z))); [done|]. intros idx _. unfold read_item. by rewrite H.
Qed.

Lemma bare_holds ds : storable ds -> holds_group (bare ds) (dict_of (d_attrs ds)) (blank_vars (d_vars ds)).
Proof.
  intros Hs. pose proof (holds_group_tree ds Hs) as H. pose proof (storable_proper _ Hs) as Hp.
  assert (Hg : forall q, is_zarr_key q = true -> bare ds !! q = group_tree ds !! q).
  { intros q Hq. rewrite bare_zarr by done. unfold group_tree. rewrite lookup_insert_ne; [done|]. intros <-. by vm_compute in Hq. }
  split.
  - unfold bare at 1. rewrite lookup_insert. by rewrite bare_metas.
  - intros q x Hx Hq. rewrite bare_zarr in Hx by done. by apply (body_tree_clean ds Hp q).
  - rewrite Hg by done. apply H.
  - rewrite Hg by done. apply H.
  - rewrite keys_blank. apply Hp.
  - intros n v'. rewrite dget_blank. destruct (dget (d_vars ds) n) as [v|] eqn:E; [|done]. intros [= <-].
    destruct (hg_vars _ _ _ H n (stored v)) as (H1 & H2 & [(cs & Hcs & E1 & _) E3]); [by rewrite dget_stored, E|]. split; [exact H1|]. split; [exact H2|]. split.
    + exists cs. split; [exact Hcs|]. rewrite sub_lookup in E1 |- *. split; [by rewrite Hg|]. rewrite read_array_blank; [done|].
      intros ci. rewrite sub_lookup. apply bare_other; [apply (is_zarr_chunk [n])|done].
    + rewrite sub_lookup in E3 |- *. by rewrite Hg.
  - intros n x Hx. rewrite Hg in Hx by done. rewrite keys_blank. pose proof (hg_only _ _ _ H n x Hx) as Hn. by rewrite keys_stored in Hn.
Qed.

(** Every value is the fill value. *)
Lemma read_bare ds (t : store) delayed : storable ds -> consistent ds -> t !! [ZMETADATA] = group_tree ds !! [ZMETADATA] -> (forall n ci, t !! [n; chunk_key ci] = None) ->
  exists ds', read_group t delayed None = Ok ds' /\ (forall n, n ∈ dkeys (d_vars ds') <-> n ∈ dkeys (d_vars ds)) /\
    forall n v', dget (d_vars ds') n = Some v' -> exists v, dget (d_vars ds) n = Some v /\ v_dims v' = v_dims v /\ v_shape v' = v_shape v /\ v_dtype v' = v_dtype v /\
      v_fill v' = v_fill v /\ Forall (fun x => x = default (Num 0) (v_fill v)) (a_flat (v_array v')).
Proof.
  intros Hs Hco Hm Hc. rewrite (read_group_agree t (bare ds)).
  2:{ rewrite Hm. unfold group_tree, bare. by rewrite !lookup_insert. }
  2:{ intros n ci. rewrite Hc. symmetry. apply bare_other; [apply (is_zarr_chunk [n])|done]. }
  destruct (read_group_ok (bare ds) _ _ delayed None (dget (d_dims ds)) (bare_holds ds Hs)) as (ds' & E & H1 & H2 & H3 & _ & _ & H4).
  - intros n v'. rewrite dget_blank. destruct (dget (d_vars ds) n) as [v|] eqn:E; [|done]. intros [= <-] k d Hk. destruct (proj2 (proj2 (Hco n v E)) k d Hk) as (m & ? & ?). by exists m.
  - intros n v'. rewrite dget_blank. destruct (dget (d_vars ds) n) as [v|] eqn:E; [|done]. intros [= <-]. apply tabulate_wf.
  - exists ds'. split; [exact E|]. split.
    + intros n. rewrite <-!dget_is_Some. split.
      * intros [v' Ev]. apply H4 in Ev as (_ & v0 & Ev0 & _). rewrite dget_blank in Ev0. destruct (dget (d_vars ds) n); [by eexists|done].
      * intros [v Ev]. exists (with_delayed (blank (stored v)) delayed). apply H4. split; [done|]. exists (blank (stored v)). split; [|done]. by rewrite dget_blank, Ev.
    + intros n v' Ev. apply H4 in Ev as (_ & v0 & Ev0 & ->). rewrite dget_blank in Ev0. destruct (dget (d_vars ds) n) as [v|]; [|done]. injection Ev0 as <-.
      exists v. split; [done|]. do 4 (split; [done|]). cbn. apply Forall_forall. intros x Hx. apply elem_of_list_In, in_map_iff in Hx as (? & <- & _). done.
Qed.
