(** * The synchronisation of one partition of a view *)
From Verif Require Import Py Dict NdArray_Model NdArray_Spec NdArray_Proofs Dataset_Model Dataset_Spec Dataset_Proofs Meta_Model PartPath_Model PartPath_Proofs
  FS_Model FS_Proofs Pool_Model Pool_Proofs Storage_Model Storage_Spec Storage_Chunks Storage_Proofs Storage_Change
  Listing_Model Listing_Spec Listing_Proofs Collection_Model Collection_Spec Collection_Proofs Collection_State Collection_Select Update_Model View_Model View_Spec View_State.

(** Nothing changes but below [d]. *)
Definition same_out (d : path) (s s1 : store) : Prop := forall q, ~ under d q -> s1 !! q = s !! q.
Lemma same_out_refl d s : same_out d s s.
Proof. done. Qed.
Lemma same_out_trans d s s1 s2 : same_out d s s1 -> same_out d s1 s2 -> same_out d s s2.
Proof. intros H1 H2 q Hq. rewrite H2 by done. by apply H1. Qed.
Lemma same_out_up d d' s s1 : under d d' -> same_out d' s s1 -> same_out d s s1.
Proof. intros U H q Hq. apply H. intros U'. apply Hq. by eapply under_trans. Qed.
Lemma same_out_sub d d' s s1 : apart d d' -> same_out d s s1 -> sub d' s1 = sub d' s.
Proof. intros A H. apply map_eq. intros q. rewrite !sub_lookup. apply H. intros U. apply (A _ U), under_app. Qed.
Lemma same_out_write d r (x : content) (s : store) : same_out d s (<[d ++ r := x]> s).
Proof. intros q Hq. rewrite lookup_insert_ne; [done|]. intros <-. apply Hq, under_app. Qed.
Lemma same_out_graft d (t s : store) : same_out d s (graft d t s).
Proof. intros q Hq. by apply graft_lookup_out. Qed.
Lemma same_out_prune d (s : store) : same_out d s (prune d s).
Proof. intros q Hq. by rewrite prune_lookup, decide_False. Qed.
Lemma sub_write d r (x : content) (s : store) : sub d (<[d ++ r := x]> s) = <[r := x]> (sub d s).
Proof. by rewrite replaced_insert, sub_replaced. Qed.
Lemma sub_graft_same d (t s : store) : sub d (graft d t s) = t ∪ sub d s.
Proof. by rewrite replaced_graft, sub_replaced. Qed.
Lemma sub_prune_same d (s : store) : sub d (prune d s) = ∅.
Proof. by rewrite replaced_prune, sub_replaced. Qed.
Lemma sub_nothing d (s : store) : nothing_at d s -> sub d s = ∅.
Proof. intros H. apply map_eq. intros q. rewrite sub_lookup, lookup_empty. apply H, under_app. Qed.
Lemma name_apart d n m : n <> m -> apart (d ++ [n]) (d ++ [m]).
Proof. intros N. by apply (apart_app d n m [] []). Qed.

(** A loop over distinct sub-directories. *)
Lemma exec_each {A : Type} (d : path) (name : A -> str) (f : A -> program unit) (P : A -> store -> Prop) l s :
  NoDup (map name l) ->
  (forall x s', x ∈ l -> sub (d ++ [name x]) s' = sub (d ++ [name x]) s ->
    exists s1, exec (f x) s' = (Ok tt, s1) /\ same_out (d ++ [name x]) s' s1 /\ P x (sub (d ++ [name x]) s1)) ->
  exists s1, exec (pfor l f) s = (Ok tt, s1) /\ (forall x, x ∈ l -> P x (sub (d ++ [name x]) s1)) /\
    (forall q, (forall x, x ∈ l -> ~ under (d ++ [name x]) q) -> s1 !! q = s !! q).
Proof.
  intros Hn H. unfold pfor.
  assert (G : exists s1 r, exec (pseq (map f l)) s = (Ok r, s1) /\ (forall x, x ∈ l -> P x (sub (d ++ [name x]) s1)) /\
    (forall q, (forall x, x ∈ l -> ~ under (d ++ [name x]) q) -> s1 !! q = s !! q)).
  { revert s Hn H. induction l as [|x l IH]; intros s Hn H.
    - exists s, []. split_and!; [done| |done]. intros x Hx. by apply elem_of_nil in Hx.
    - inversion Hn as [|? ? Nx Hn']; subst. destruct (H x s) as (s1 & E1 & O1 & P1); [left|done|].
      assert (Hother : forall y, y ∈ l -> name x <> name y).
      { intros y Hy E. apply Nx. rewrite E. apply elem_of_list_In, in_map_iff. exists y. split; [done|]. by apply elem_of_list_In. }
      destruct (IH s1 Hn') as (s2 & r & E2 & P2 & O2).
      { intros y s' Hy Es. apply H; [by right|]. rewrite Es. apply (same_out_sub (d ++ [name x])); [|done]. by apply name_apart, Hother. }
      exists s2, (tt :: r). split_and!.
      + cbn [map pseq]. rewrite exec_bind, E1. cbv iota beta. rewrite exec_bind, E2. done.
      + intros y Hy. apply elem_of_cons in Hy as [->|Hy]; [|by apply P2].
        replace (sub (d ++ [name x]) s2) with (sub (d ++ [name x]) s1); [done|]. apply map_eq. intros q. rewrite !sub_lookup. symmetry. apply O2.
        intros y Hy U. eapply (name_apart d (name x) (name y)); [by apply Hother|apply under_app|exact U].
      + intros q Hq. rewrite O2; [apply O1, Hq; left|]. intros y Hy. apply Hq. by right. }
  destruct G as (s1 & r & E & P1 & O1). exists s1. split_and!; [|done|done]. rewrite exec_bind, E. done.
Qed.

Lemma exec_open_array p s z : s !! (p ++ [ZARRAY]) = Some (CMeta (MArray z)) -> exec (open_array p) s = (Ok z, s).
Proof. intros E. unfold open_array. rewrite exec_bind, exec_read_file. by rewrite E. Qed.
Lemma exec_array_attrs p s a d : s !! (p ++ [ZATTRS]) = Some (CMeta (MAttrs a d)) -> exec (array_attrs p) s = (Ok (a, d), s).
Proof. intros E. unfold array_attrs. rewrite exec_bind, exec_read_file. by rewrite E. Qed.

Definition summed (x : variable) (a : arr) (dg : str) : variable := with_attrs (with_array x a) (dset (v_attrs x) CHECKSUM_ATTR dg).
Lemma exec_checksum_rest p z ax s x cs : keeps (sub p s) x -> sub p s !! [ZARRAY] = Some (CMeta (MArray (zarr_for x cs))) -> z = zarr_for x cs ->
  v_shape x = a_shape (ar_array ax) -> arr_wf (ar_array ax) ->
  exists s1, exec (let! _ <- set_array p z (ar_array ax);
                   let! at_ <- array_attrs p;
                   write_file (p ++ [ZATTRS]) (CMeta (MAttrs (dset at_.1 CHECKSUM_ATTR (ar_digest ax)) at_.2))) s = (Ok tt, s1) /\
    same_out p s s1 /\ keeps (sub p s1) (summed x (ar_array ax) (ar_digest ax)).
Proof.
  intros Hk Hz -> Hs Hw. destruct (keeps_outside _ _ Hk) as (cs' & Hc & Hz' & Hout). rewrite Hz in Hz'. injection Hz' as Hz'. subst cs'.
  assert (Hc' : chunked (z_shape (zarr_for x cs)) (z_chunks (zarr_for x cs))) by done.
  unfold set_array. rewrite bool_decide_eq_true_2 by done. rewrite exec_bind, exec_write_chunks by done. cbv iota beta.
  set (s1 := graft p (chunk_tree (zarr_for x cs) false (ar_array ax)) s).
  assert (K1 : keeps (sub p s1) (with_array x (ar_array ax))).
  { unfold s1. rewrite sub_graft_same. apply keeps_set; try done; apply Hk. }
  rewrite exec_bind, (exec_array_attrs p s1 (v_attrs x) (Some (v_dims x))); [|rewrite <-sub_lookup; apply (kp_attrs _ _ K1)]. cbv iota beta. rewrite exec_write.
  eexists. split; [done|]. split.
  - eapply same_out_trans; [apply same_out_graft|apply same_out_write].
  - cbn [fst snd]. rewrite sub_write. apply (keeps_attrs _ _ (dset (v_attrs x) CHECKSUM_ATTR (ar_digest ax)) K1).
Qed.

Section sync.
  Context (v : venv) (w : view) (Hw : viewable v w).
  Local Notation c := (w_ref w).
  Local Notation dim := (c_dim (w_ref w)).

  Lemma exec_checksum_new d ax s : nothing_at (d ++ [CHECKSUM]) s -> arr_wf (ar_array ax) -> length (a_shape (ar_array ax)) = 1 -> ar_dim ax = dim ->
    ar_digest ax = ve_digest v (ar_array ax) ->
    exists s1, exec (write_checksum_array v d ax) s = (Ok tt, s1) /\ same_out (d ++ [CHECKSUM]) s s1 /\
      keeps (sub (d ++ [CHECKSUM]) s1) (sum_var v w (ar_dtype ax) (ar_array ax)).
  Proof using Hw.
    intros Hn Ha Hr Hd Hg. unfold write_checksum_array. cbv zeta. set (p := d ++ [CHECKSUM]) in *. rewrite exec_bind, exec_exists.
    rewrite (proj1 (nothing_empty p s) Hn). cbn [negb]. cbv iota. set (sh := a_shape (ar_array ax)).
    set (x := Var CHECKSUM false (full sh (Num 0)) (ar_dtype ax) [dim] [] (ve_compressor v) (Some (Num 0)) []).
    rewrite exec_bind. rewrite exec_bind, exec_write. cbv iota beta. rewrite exec_bind, exec_write. cbn [exec pret]. rewrite Hd.
    match goal with |- context [exec _ ?u] => set (s1 := u) end.
    assert (Es : sub p s1 = new_tree x (ve_guess v sh)).
    { unfold s1. rewrite !sub_write, (sub_nothing p s Hn). done. }
    assert (K : keeps (sub p s1) x).
    { rewrite Es. apply keeps_new; [apply tabulate_wf|change (1 = length sh); by rewrite <-Hr|apply (vw_guess _ _ Hw)|]. intros y Hy. cbn in Hy. unfold full in Hy. cbn in Hy.
      apply elem_of_list_In, in_map_iff in Hy as (i & <- & _). done. }
    destruct (exec_checksum_rest p (zarr_for x (ve_guess v sh)) ax s1 x (ve_guess v sh) K) as (s2 & E2 & O2 & K2); try done.
    { rewrite Es. unfold new_tree. by rewrite lookup_insert_ne, lookup_insert. }
    exists s2. split; [exact E2|]. split.
    - eapply same_out_trans; [|exact O2]. eapply same_out_trans; apply same_out_write.
    - unfold summed in K2. rewrite Hg in K2. exact K2.
  Qed.
  Lemma exec_checksum_old d ax s dt a0 a : keeps (sub (d ++ [CHECKSUM]) s) (with_array (sum_var v w dt a0) a) -> a_shape a = a_shape (ar_array ax) -> arr_wf (ar_array ax) ->
    ar_digest ax = ve_digest v (ar_array ax) ->
    exists s1, exec (write_checksum_array v d ax) s = (Ok tt, s1) /\ same_out (d ++ [CHECKSUM]) s s1 /\
      keeps (sub (d ++ [CHECKSUM]) s1) (sum_var v w dt (ar_array ax)).
  Proof.
    intros K Hs Ha Hg. unfold write_checksum_array. cbv zeta. set (p := d ++ [CHECKSUM]) in *. rewrite exec_bind, exec_exists. set (x := with_array (sum_var v w dt a0) a) in *.
    destruct (kp_array _ _ K) as (cs & Hc & Hz & _).
    assert (empty_at p s = false) as ->.
    { apply empty_at_false. exists (p ++ [ZARRAY]), (CMeta (MArray (zarr_for x cs))). split; [apply under_app|]. by rewrite <-sub_lookup. }
    cbn [negb]. cbv iota. rewrite exec_bind, (exec_open_array p s _ ltac:(rewrite <-sub_lookup; exact Hz)). cbv iota beta.
    destruct (exec_checksum_rest p (zarr_for x cs) ax s x cs K) as (s2 & E2 & O2 & K2); try done.
    exists s2. split; [exact E2|]. split; [done|]. unfold summed in K2. rewrite Hg in K2. cbn in K2. exact K2.
  Qed.

  (** *** What is read of the reference *)
  Context (ds : dataset) (Hds : sound ds) (Hmo : made_of c ds).
  Lemma ds_var n x : dget (d_vars ds) n = Some x -> v_name x = n /\ arr_wf (v_array x) /\ length (v_dims x) = length (v_shape x) /\ sized (d_dims ds) x.
  Proof using Hds.
    intros E. destruct Hds as [Hs _]. pose proof (storable_proper _ Hs) as Hp. assert (x ∈ dvals (d_vars ds)) by (eapply vals_elem; by apply dget_elem).
    destruct (proper_consistent _ Hp _ _ E) as (H1 & _ & H3). split_and!; [done|by apply Hp|by apply Hs|done].
  Qed.
  Definition shape_of (mv : mvar) : list nat := map (fun d => default 0 (dget (d_dims ds) d)) (mv_dims mv).
  Lemma sized_shape x : length (v_dims x) = length (v_shape x) -> sized (d_dims ds) x -> v_shape x = map (fun d => default 0 (dget (d_dims ds) d)) (v_dims x).
  Proof.
    intros L H. apply list_eq_same_length with (length (v_shape x)); [by rewrite map_length|done|].
    intros i a b Hi Ha Hb. change (map ?f ?l) with (f <$> l) in Hb. rewrite list_lookup_fmap in Hb. destruct (v_dims x !! i) as [d|] eqn:Ed; [|done].
    injection Hb as <-. destruct (H _ _ Ed) as (m & E1 & E2). rewrite E2. cbn. congruence.
  Qed.
  Lemma group_meta t n x : holds_dataset t ds -> dget (d_vars ds) n = Some x ->
    exists cs, chunked (v_shape x) cs /\ array_meta (metas t) n = Ok (zarr_for x cs) /\ read_array (zarr_for x cs) (sub [n] t) = Ok (v_array x) /\
      (attrs_of (metas t) [n; ZATTRS]).2 = Some (v_dims x).
  Proof.
    intros [_ H] E. assert (Es : dget (stored_vars (d_vars ds)) n = Some (stored x)) by (by rewrite dget_stored, E).
    destruct (hg_vars _ _ _ H _ _ Es) as (_ & _ & [(cs & Hc & E1 & E2) E3]). rewrite sub_lookup in E1, E3. cbn [app] in E1, E3.
    exists cs. split; [done|]. unfold array_meta, attrs_of. rewrite !metas_at by done. rewrite E1, E3. done.
  Qed.
  Lemma tree_axis t : holds_dataset t ds -> exists x, dget (d_vars ds) (c_axis c) = Some x /\ v_dims x = [dim] /\
    axis_reference v w (t, metas t) = Ok (AxisRef (v_array x) (v_dtype x) dim (ve_digest v (v_array x))).
  Proof using Hmo.
    intros H. destruct (mo_axis _ _ Hmo) as (x & Ex & Ed). exists x. split_and!; [done..|].
    destruct (group_meta t _ _ H Ex) as (cs & _ & E1 & E2 & E3). unfold axis_reference. cbn [fst snd]. rewrite E1. cbn [rbind]. rewrite E2. cbn [rbind].
    by rewrite E3, Ed.
  Qed.

  (** *** New arrays *)
  Definition blank_var (mv : mvar) (shape : list nat) : variable :=
    Var (mv_name mv) false (full shape (default (Num 0) (mv_fill mv))) (mv_dtype mv) (mv_dims mv) (ddel (dict_of (mv_attrs mv)) DIMENSIONS)
      (mv_compressor mv) (mv_fill mv) (mv_filters mv).
  Lemma blank_items mv shape x : x ∈ a_flat (v_array (blank_var mv shape)) -> x = blank (blank_var mv shape).
  Proof. intros Hy. cbn in Hy. apply elem_of_list_In, in_map_iff in Hy as (i & <- & _). done. Qed.
  Lemma exec_create t q mv tn x s : holds_dataset t ds -> dget (d_vars ds) tn = Some x -> v_dims x = mv_dims mv ->
    exists s1, exec (create_zarr_array w tn mv (q, (t, metas t))) s = (Ok tt, s1) /\ same_out ((w_dir w ++ q) ++ [mv_name mv]) s s1 /\
      keeps (sub ((w_dir w ++ q) ++ [mv_name mv]) s1) (blank_var mv (shape_of mv)).
  Proof using Hds.
    intros Ht Ex Ed. destruct (group_meta t _ _ Ht Ex) as (cs & Hc & E1 & _). destruct (ds_var _ _ Ex) as (_ & _ & Hk & Hz).
    pose proof (sized_shape x Hk Hz) as Hsh. rewrite Ed in Hsh. fold (shape_of mv) in Hsh.
    unfold create_zarr_array. cbn [fst snd]. rewrite E1. rewrite exec_bind. cbn [exec]. cbv zeta. change (z_shape (zarr_for x cs)) with (v_shape x). change (z_chunks (zarr_for x cs)) with cs.
    rewrite exec_bind, exec_rmtree. cbv iota beta. set (p := (w_dir w ++ q) ++ [mv_name mv]).
    replace ((w_dir w ++ q) ++ [mv_name mv; ZARRAY]) with (p ++ [ZARRAY]) by (unfold p; by rewrite <-!app_assoc).
    unfold write_zattrs. replace ((w_dir w ++ q) ++ [mv_name mv; ZATTRS]) with (p ++ [ZATTRS]) by (unfold p; by rewrite <-!app_assoc).
    rewrite exec_bind, exec_write. cbv iota beta. rewrite exec_write. eexists. split; [done|]. split.
    - eapply same_out_trans; [apply same_out_prune|]. eapply same_out_trans; apply same_out_write.
    - rewrite !sub_write, sub_prune_same. rewrite Hsh. set (cs' := zip_with _ cs (shape_of mv)).
      apply (keeps_new (blank_var mv (shape_of mv)) cs'); [apply tabulate_wf|change (length (mv_dims mv) = length (shape_of mv)); unfold shape_of; by rewrite map_length| |apply blank_items].
      change (v_shape (blank_var mv (shape_of mv))) with (shape_of mv). destruct Hc as [L Hc]. rewrite Hsh in L. split; [unfold cs'; rewrite zip_with_length; lia|].
      apply Forall_forall. intros k Hin. unfold cs' in Hin. apply elem_of_lookup_zip_with in Hin as (i & a & b & -> & _). lia.
  Qed.
  Lemma find_template_ref mv : (exists n' mv', dget (md_vars (c_meta c)) n' = Some mv' /\ mv_dims mv' = mv_dims mv) -> dim ∈ mv_dims mv ->
    exists tm x, md_search_same_dimensions_as (c_meta c) mv = Ok tm /\ dget (d_vars ds) (mv_name tm) = Some x /\ v_dims x = mv_dims mv.
  Proof using Hmo Hw.
    intros (n' & mv' & E & Ed) Hd. unfold md_search_same_dimensions_as. destruct (vw_ref _ _ Hw) as [Hnd Hnm].
    destruct (List.find _ _) as [tm|] eqn:Ef.
    - apply find_some in Ef as [Hin Hf]. apply bool_decide_eq_true in Hf. apply in_map_iff in Hin as ([n mv2] & <- & Hin). cbn [snd] in *.
      apply elem_of_list_In, elem_dget in Hin; [|done]. destruct (mo_all _ _ Hmo n mv2 Hin) as (x & Ex & Edx); [by rewrite Hf|].
      exists mv2, x. rewrite (Hnm _ _ Hin). split_and!; [done..|]. congruence.
    - exfalso. pose proof (find_none _ _ Ef mv') as Hx. cbv beta in Hx. rewrite bool_decide_eq_true_2 in Hx by done. assert (true = false); [|done]. apply Hx.
      apply in_map_iff. exists (n', mv'). split; [done|]. by apply elem_of_list_In, dget_elem.
  Qed.

  Definition new_part (a : arr) : vpart := VPart a (map (fun nm => (nm.1, blank_var nm.2 (shape_of nm.2))) (md_vars (w_meta w))).
  Lemma dget_new_part a n : dget (vp_vars (new_part a)) n = option_map (fun mv => blank_var mv (shape_of mv)) (dget (md_vars (w_meta w)) n).
  Proof. cbn. induction (md_vars (w_meta w)) as [|[m mv] l IH]; [done|]. cbn. by destruct (decide (n = m)). Qed.
  Lemma keys_new_part a : dkeys (vp_vars (new_part a)) = dkeys (md_vars (w_meta w)).
  Proof. cbn. unfold dkeys. by rewrite map_map. Qed.
  Lemma view_var n mv : dget (md_vars (w_meta w)) n = Some mv -> mv_name mv = n /\ n <> CHECKSUM /\ plain_name n /\ NoDup (mv_dims mv) /\ dim ∈ mv_dims mv.
  Proof using Hw. intros E. destruct (vw_vars _ _ Hw _ _ E) as (? & ? & ? & ? & ? & _). done. Qed.
  Lemma view_names : map mv_name (dvals (md_vars (w_meta w))) = dkeys (md_vars (w_meta w)).
  Proof using Hw.
    unfold dvals, dkeys. rewrite map_map. apply map_ext_in. intros [n mv] Hin. cbn. apply elem_of_list_In, elem_dget in Hin; [|apply Hw]. by apply view_var.
  Qed.
  Lemma view_vals mv : mv ∈ dvals (md_vars (w_meta w)) -> dget (md_vars (w_meta w)) (mv_name mv) = Some mv.
  Proof using Hw.
    intros Hin. apply elem_dvals in Hin as [n Hin]. apply elem_dget in Hin; [|apply Hw]. by destruct (view_var _ _ Hin) as (-> & _).
  Qed.
  Lemma dims_sized mv : dim ∈ mv_dims mv -> (exists n' mv', dget (md_vars (c_meta c)) n' = Some mv' /\ mv_dims mv' = mv_dims mv) ->
    Forall2 (fun d k => dget (d_dims ds) d = Some k) (mv_dims mv) (shape_of mv).
  Proof using Hds Hmo Hw.
    intros Hd Ht. destruct (find_template_ref mv Ht Hd) as (tm & x & _ & Ex & Edx). destruct (ds_var _ _ Ex) as (_ & _ & Hk & Hz).
    unfold shape_of. rewrite <-Edx in *. rewrite Forall2_fmap_r. apply Forall_Forall2_diag, Forall_forall. intros d Hin.
    apply elem_of_list_lookup in Hin as [i Hi]. destruct (Hz _ _ Hi) as (m & _ & E). assert (Eq : forall o : option nat, o = Some m -> o = Some (default 0 o)) by (by intros ? ->). by apply Eq.
  Qed.
  Lemma axis_size x : dget (d_vars ds) (c_axis c) = Some x -> v_dims x = [dim] ->
    exists n, a_shape (v_array x) = [n] /\ length (a_flat (v_array x)) = n /\ dget (d_dims ds) dim = Some n.
  Proof using Hds.
    intros Ex Ed. destruct (ds_var _ _ Ex) as (_ & Ha & Hk & Hz). destruct (Hz 0 dim) as (n & E1 & E2); [by rewrite Ed|]. rewrite Ed in Hk.
    unfold v_shape in *. destruct (a_shape (v_array x)) as [|m [|]] eqn:Es; try done. injection E1 as ->. exists n. split_and!; [done| |done].
    unfold arr_wf in Ha. rewrite Ha, Es. cbn. lia.
  Qed.
  Lemma new_part_renewed x : dget (d_vars ds) (c_axis c) = Some x -> renewed w ds (new_part (v_array x)).
  Proof using Hds Hmo Hw.
    intros Ex. split.
    - by exists x.
    - intros n. by rewrite keys_new_part.
    - intros n mv a Hmv Ha. rewrite dget_new_part, Hmv in Ha. injection Ha as <-. destruct (vw_vars _ _ Hw _ _ Hmv) as (_ & _ & _ & _ & Hd & _ & Ht).
      split; [done|]. split; [by apply dims_sized|]. intros y Hy. by apply blank_items.
  Qed.

  (** *** A new partition *)
  Lemma exec_open_group q s t : sub (c_dir c ++ q) s = t -> holds_dataset t ds -> exec (open_group w q) s = (Ok (t, metas t), s).
  Proof.
    intros Et [_ H]. unfold open_group. rewrite exec_bind, exec_get_tree, Et. cbv iota beta. rewrite exec_bind. cbn [exec].
    by rewrite (group_read_cons _ _ _ H).
  Qed.
  Lemma exec_sync_partition q s : nothing_at (w_dir w ++ q) s -> holds_dataset (sub (c_dir c ++ q) s) ds ->
    exists s1 p, exec (sync_partition v w q) s = (Ok tt, s1) /\ same_out (w_dir w ++ q) s s1 /\ keeps_part v w (sub (w_dir w ++ q) s1) p /\ renewed w ds p.
  Proof using Hds Hmo Hw.
    intros Hn Ht. set (t := sub (c_dir c ++ q) s) in *. destruct (tree_axis t Ht) as (x & Ex & Edx & Eax). set (d := w_dir w ++ q) in *.
    destruct (axis_size x Ex Edx) as (n & Hn1 & Hn2 & Hn3). destruct (ds_var _ _ Ex) as (_ & Ha & _ & _).
    unfold sync_partition. rewrite exec_bind, (exec_open_group q s t eq_refl Ht). cbv iota beta. rewrite exec_catch.
    destruct (exec_each d mv_name (fun var => let! template <- Ret (md_search_same_dimensions_as (c_meta c) var); create_zarr_array w (mv_name template) var (q, (t, metas t)))
      (fun mv u => keeps u (blank_var mv (shape_of mv))) (dvals (md_vars (w_meta w))) s) as (s1 & E1 & P1 & O1).
    { rewrite view_names. apply Hw. }
    { intros mv s' Hin _. apply view_vals in Hin. destruct (vw_vars _ _ Hw _ _ Hin) as (_ & _ & _ & _ & Hd & _ & Htm).
      destruct (find_template_ref mv Htm Hd) as (tm & y & Etm & Ey & Edy). rewrite exec_bind. cbn [exec]. rewrite Etm. by apply exec_create with y. }
    rewrite exec_bind, E1. cbv iota beta. rewrite exec_bind, Eax. cbn [exec].
    assert (Hn' : nothing_at (d ++ [CHECKSUM]) s1).
    { intros y Hy. rewrite O1; [apply Hn; by eapply under_snoc|]. intros mv Hin U. apply view_vals in Hin. destruct (view_var _ _ Hin) as (_ & N & _).
      by eapply (name_apart d (mv_name mv) CHECKSUM). }
    destruct (exec_checksum_new d (AxisRef (v_array x) (v_dtype x) dim (ve_digest v (v_array x))) s1 Hn') as (s2 & E2 & O2 & K2); try done.
    { cbn. by rewrite Hn1. }
    change (w_dir w ++ q) with d. rewrite E2. cbv iota beta. exists s2, (new_part (v_array x)). split; [done|].
    assert (O1' : same_out d s s1).
    { intros y Hy. apply O1. intros mv Hin U. apply Hy. by eapply under_snoc. }
    split; [eapply same_out_trans; [exact O1'|]; eapply same_out_up; [|exact O2]; apply under_app|].
    split; [|by apply new_part_renewed]. cbn [ar_array ar_dtype] in K2.
    assert (Hsub : forall m mv, dget (md_vars (w_meta w)) m = Some mv -> keeps (sub (d ++ [m]) s2) (blank_var mv (shape_of mv))).
    { intros m mv Hmv. destruct (view_var _ _ Hmv) as (Em & N & _). rewrite (same_out_sub (d ++ [CHECKSUM]) (d ++ [m]) s1 s2); [|apply name_apart; congruence|done].
      subst m. apply (P1 mv). apply elem_dvals. exists (mv_name mv). by apply dget_elem. }
    split.
    - intros y f E. rewrite sub_lookup in E. destruct y as [|m y].
      + exfalso. rewrite app_nil_r in E.
        assert (Nd : forall k, ~ under (d ++ [k]) d) by (intros k (z & Ez); apply (f_equal length) in Ez; rewrite !app_length in Ez; cbn in Ez; lia).
        rewrite O2, O1, (Hn d (under_refl d)) in E by (try intros; apply Nd). done.
      + exists m, y. split; [done|]. destruct (decide (m = CHECKSUM)) as [->|N]; [by left|right].
        destruct (decide (m ∈ dkeys (md_vars (w_meta w)))) as [|Nm]; [done|]. exfalso.
        rewrite O2 in E.
        2: { intros U. eapply (name_apart d CHECKSUM m); [congruence|exact U|]. exists y. by rewrite <-app_assoc. }
        rewrite O1 in E; [rewrite (Hn (d ++ m :: y)) in E; [done|apply under_app]|].
        intros mv Hin U. apply view_vals in Hin. eapply (name_apart d (mv_name mv) m); [|exact U|exists y; by rewrite <-app_assoc].
        intros Em. apply Nm, dget_is_Some. rewrite <-Em. by eexists.
    - cbn [vp_axis new_part]. split; [by rewrite Hn1|]. exists (v_dtype x). by rewrite sub_sub.
    - rewrite keys_new_part. apply Hw.
    - intros m. by rewrite keys_new_part.
    - intros m a Hm. rewrite dget_new_part in Hm. destruct (dget (md_vars (w_meta w)) m) as [mv|] eqn:Emv; [|done]. injection Hm as <-.
      exists mv. split_and!; [done|done|]. rewrite sub_sub. by apply Hsub.
    - intros m a k Hm Hk. rewrite dget_new_part in Hm. destruct (dget (md_vars (w_meta w)) m) as [mv|] eqn:Emv; [|done]. injection Hm as <-.
      cbn in Hk. change (v_shape (blank_var mv (shape_of mv))) with (shape_of mv). unfold shape_of. change (map ?f ?l) with (f <$> l). rewrite list_lookup_fmap, Hk. cbn. by rewrite Hn3, Hn2.
  Qed.

  (** *** A partition that got longer *)
  Definition extended (n : nat) (x : variable) : variable := with_array x (grow (default 0 (index_of dim (v_dims x))) n x).
  Lemma exec_extend_array n d s x k : keeps (sub d s) x -> index_of dim (v_dims x) = Some k -> (forall m, v_shape x !! k = Some m -> m <= n) ->
    exists s1, exec (extend_array dim n d) s = (Ok tt, s1) /\ same_out d s s1 /\ keeps (sub d s1) (extended n x).
  Proof.
    intros K Ek Hm. destruct (kp_array _ _ K) as (cs & Hc & Hz & _). unfold extend_array.
    rewrite exec_bind, (exec_open_array d s _ ltac:(rewrite <-sub_lookup; exact Hz)). cbv iota beta.
    rewrite exec_bind, (exec_array_attrs d s _ _ ltac:(rewrite <-sub_lookup; exact (kp_attrs _ _ K))). cbv iota beta. cbn [snd]. rewrite Ek.
    change (z_shape (zarr_for x cs)) with (v_shape x).
    assert (Hk : k < length (v_shape x)) by (rewrite <-(kp_rank _ _ K); eapply lookup_lt_Some; by apply index_of_lookup).
    destruct (k <? length (v_shape x)) eqn:El; [|apply Nat.ltb_ge in El; lia]. rewrite exec_write. eexists. split; [done|]. split; [apply same_out_write|].
    rewrite sub_write. unfold extended. rewrite Ek. cbn [default from_option id]. by apply (keeps_grow _ x k n cs).
  Qed.
  Definition longer (a : arr) (p : vpart) : vpart := VPart a (map (fun nx => (nx.1, extended (length (a_flat a)) nx.2)) (vp_vars p)).
  Lemma dget_longer a p n : dget (vp_vars (longer a p)) n = option_map (extended (length (a_flat a))) (dget (vp_vars p) n).
  Proof. cbn. induction (vp_vars p) as [|[m x] l IH]; [done|]. cbn. by destruct (decide (n = m)). Qed.
  Lemma keys_longer a p : dkeys (vp_vars (longer a p)) = dkeys (vp_vars p).
  Proof. cbn. unfold dkeys. by rewrite map_map. Qed.
  Lemma part_var t p n x : keeps_part v w t p -> dget (vp_vars p) n = Some x ->
    n <> CHECKSUM /\ NoDup (v_dims x) /\ exists k, index_of dim (v_dims x) = Some k /\ v_dims x !! k = Some dim /\ v_shape x !! k = Some (length (a_flat (vp_axis p))).
  Proof using Hw.
    intros K E. destruct (kt_vars _ _ _ _ K _ _ E) as (mv & Emv & Hf & Kx). destruct (view_var _ _ Emv) as (_ & N & _ & Nd & Hd).
    destruct Hf as (_ & _ & Edm & _). rewrite <-Edm in *. split_and!; [done..|]. destruct (index_of dim (v_dims x)) as [k|] eqn:Ek; [|by apply index_of_None in Ek].
    pose proof (index_of_lookup _ _ _ Ek) as El. exists k. split_and!; [done..|]. by eapply kt_sizes.
  Qed.
  Lemma extended_prolonged n x k : length (v_dims x) = length (v_shape x) -> NoDup (v_dims x) -> index_of dim (v_dims x) = Some k -> prolonged dim n x (extended n x).
  Proof.
    intros Hk Nd Ek. unfold prolonged, extended. rewrite Ek. cbn [default from_option id]. split_and!.
    - done.
    - apply tabulate_wf.
    - cbn. by rewrite insert_length.
    - intros i d Hi. change (v_shape (with_array x (grow k n x))) with (<[k := n]> (v_shape x)). pose proof (index_of_lookup _ _ _ Ek) as El.
      destruct (decide (d = dim)) as [->|N].
      + assert (i = k) as -> by (by eapply NoDup_lookup). rewrite list_lookup_insert; [done|]. rewrite <-Hk. by eapply lookup_lt_Some.
      + rewrite list_lookup_insert_ne; [done|]. intros ->. congruence.
    - intros idx Vi. change (v_array (with_array x (grow k n x))) with (grow k n x). unfold grow. by rewrite get_tabulate.
  Qed.
  Lemma is_extended_begins a b : is_extended a b = true <-> begins a b.
  Proof.
    unfold is_extended, begins. rewrite andb_true_iff, Nat.ltb_lt. split; intros [L H]; (split; [done|]).
    - rewrite forallb_forall in H. intros i x Hx. destruct (lookup_lt_is_Some_2 (a_flat b) i) as [y Hy]; [apply lookup_lt_Some in Hx; lia|].
      assert (Hp : py_eq x y = true).
      { apply (H (x, y)). apply elem_of_list_In. apply elem_of_list_lookup. exists i. apply lookup_zip_with_Some. eauto. }
      destruct x as [z|], y as [z'|]; try done. cbn in Hp. apply Z.eqb_eq in Hp as ->. by exists z'.
    - apply forallb_forall. intros [x y] Hin. apply elem_of_list_In, elem_of_list_lookup in Hin as [i Hi]. apply lookup_zip_with_Some in Hi as (x' & y' & E & Hx & Hy).
      injection E as -> ->. destruct (H _ _ Hx) as (z & -> & Hz). rewrite Hz in Hy. injection Hy as <-. cbn. apply Z.eqb_refl.
  Qed.
  Lemma exec_extend_partition d s p x : keeps_part v w (sub d s) p -> dget (d_vars ds) (c_axis c) = Some x -> v_dims x = [dim] ->
    length (a_flat (vp_axis p)) <= length (a_flat (v_array x)) ->
    exists s1 p', exec (extend_partition v d (AxisRef (v_array x) (v_dtype x) dim (ve_digest v (v_array x)))) s = (Ok tt, s1) /\ same_out d s s1 /\
      keeps_part v w (sub d s1) p' /\ stretched w ds p p'.
  Proof using Hds Hw.
    intros K Ex Ed Hlen. destruct (axis_size x Ex Ed) as (n & Hn1 & Hn2 & Hn3). destruct (ds_var _ _ Ex) as (_ & Ha & _ & _).
    destruct (kt_axis _ _ _ _ K) as (Har & dt & Ks). rewrite sub_sub in Ks.
    assert (Hax : exists m, a_shape (vp_axis p) = [m] /\ length (a_flat (vp_axis p)) = m).
    { pose proof (kp_wf _ _ Ks) as W. cbn in W. unfold arr_wf in W. destruct (a_shape (vp_axis p)) as [|m [|]]; try done. exists m. split; [done|]. rewrite W. cbn. lia. }
    destruct Hax as (m & Hm1 & Hm2).
    unfold extend_partition. cbn [ar_array ar_dim]. rewrite Hn1. rewrite exec_catch, exec_bind, exec_get_tree. cbv iota beta. set (l := children _ _ _).
    assert (Hl : forall k, k ∈ l <-> k = CHECKSUM \/ k ∈ dkeys (md_vars (w_meta w))).
    { intros k. unfold l. rewrite (children_elem _ (rg_order _ _ (vw_regular _ _ Hw))). cbn [app]. split.
      - intros (f & y & E). destruct (kt_names _ _ _ _ K _ _ E) as (k' & f' & [= -> ->] & H). done.
      - intros [->|Hk].
        + exists [ZARRAY]. destruct (kp_array _ _ Ks) as (cs & _ & Hz & _). rewrite sub_lookup, <-app_assoc in Hz. cbn [app] in Hz. eexists. by rewrite sub_lookup.
        + apply (kt_same _ _ _ _ K), dget_is_Some in Hk as [y Hy]. destruct (kt_vars _ _ _ _ K _ _ Hy) as (mv & _ & _ & Ky).
          destruct (kp_array _ _ Ky) as (cs & _ & Hz & _). rewrite sub_lookup in Hz. cbn [app] in Hz. by exists [ZARRAY], (CMeta (MArray (zarr_for y cs))). }
    set (old := sum_var v w dt (vp_axis p)).
    destruct (exec_each d id (fun name => extend_array dim n (d ++ [name])) (fun name u => (name = CHECKSUM -> keeps u (extended n old)) /\
       forall y, dget (vp_vars p) name = Some y -> keeps u (extended n y)) l s) as (s1 & E1 & P1 & O1).
    { rewrite map_id. apply children_nodup, (rg_order _ _ (vw_regular _ _ Hw)). }
    { unfold id. intros k s' Hk Es. apply Hl in Hk as [->|Hk].
      - destruct (exec_extend_array n (d ++ [CHECKSUM]) s' old 0) as (s1 & E1 & O1 & K1).
        + by rewrite Es.
        + cbn. by rewrite decide_True.
        + intros m'. unfold old. cbn. unfold v_shape. cbn. rewrite Hm1. intros [= <-]. lia.
        + exists s1. split_and!; [done..| |]; [done|]. intros y Hy. by destruct (part_var _ _ _ _ K Hy).
      - apply (kt_same _ _ _ _ K), dget_is_Some in Hk as [y Hy]. destruct (kt_vars _ _ _ _ K _ _ Hy) as (mv & _ & _ & Ky). rewrite sub_sub in Ky.
        destruct (part_var _ _ _ _ K Hy) as (N & _ & i & Ei & _ & Esz).
        destruct (exec_extend_array n (d ++ [k]) s' y i) as (s1 & E1 & O1 & K1); [by rewrite Es|done| |].
        + intros m'. rewrite Esz. intros [= <-]. lia.
        + exists s1. split_and!; [done..| |]; [done|]. intros y' Hy'. congruence. }
    unfold id in P1, O1. rewrite exec_bind, E1. cbv iota beta.
    destruct (P1 CHECKSUM) as [K1 _]; [apply Hl; by left|]. specialize (K1 eq_refl).
    destruct (exec_checksum_old d (AxisRef (v_array x) (v_dtype x) dim (ve_digest v (v_array x))) s1 dt (vp_axis p) _ K1) as (s2 & E2 & O2 & K2); try done.
    { cbn [ar_array]. rewrite Hn1. unfold grow, old. cbn. rewrite decide_True by done. cbn. unfold v_shape. cbn. by rewrite Hm1. }
    rewrite E2. cbv iota beta. cbn [ar_array] in K2.
    assert (O1' : same_out d s s1).
    { intros y Hy. apply O1. intros k _ U. apply Hy. by eapply under_snoc. }
    exists s2, (longer (v_array x) p). split; [done|]. split; [eapply same_out_trans; [exact O1'|]; eapply same_out_up; [|exact O2]; apply under_app|].
    assert (Hsub : forall k y, dget (vp_vars p) k = Some y -> keeps (sub (d ++ [k]) s2) (extended n y)).
    { intros k y Hy. destruct (part_var _ _ _ _ K Hy) as (N & _). rewrite (same_out_sub (d ++ [CHECKSUM]) (d ++ [k]) s1 s2); [|by apply name_apart, not_eq_sym|done].
      apply P1; [|done]. apply Hl. right. apply (kt_same _ _ _ _ K), dget_is_Some. by eexists. }
    split; [split|split].
    - intros y f E. rewrite sub_lookup in E.
      destruct y as [|k g].
      + exfalso. rewrite app_nil_r in E.
        assert (Nd : forall k, ~ under (d ++ [k]) d) by (intros k (z & Ez); apply (f_equal length) in Ez; rewrite !app_length in Ez; cbn in Ez; lia).
        rewrite O2, O1 in E by (try intros; apply Nd). destruct (kt_names _ _ _ _ K [] f) as (k & g & Ek & _); [|done]. by rewrite sub_lookup, app_nil_r.
      + exists k, g. split; [done|]. apply Hl. destruct (decide (k ∈ l)) as [|Nk]; [done|]. exfalso.
        assert (k <> CHECKSUM) by (intros ->; apply Nk, Hl; by left).
        rewrite O2 in E.
        2: { intros U. eapply (name_apart d CHECKSUM k); [congruence|exact U|]. exists g. by rewrite <-app_assoc. }
        rewrite O1 in E.
        2: { intros k' Hk' U. eapply (name_apart d k' k); [congruence|exact U|]. exists g. by rewrite <-app_assoc. }
        destruct (kt_names _ _ _ _ K (k :: g) f) as (k' & g' & [= -> ->] & Hk'); [by rewrite sub_lookup|]. by apply Nk, Hl.
    - cbn [vp_axis longer]. split; [by rewrite Hn1|]. exists dt. by rewrite sub_sub.
    - rewrite keys_longer. apply K.
    - intros k. rewrite keys_longer. apply K.
    - intros k y Hy. rewrite dget_longer in Hy. destruct (dget (vp_vars p) k) as [y0|] eqn:Ey; [|done]. injection Hy as <-.
      destruct (kt_vars _ _ _ _ K _ _ Ey) as (mv & Emv & Hf & _). exists mv. rewrite sub_sub, Hn2. split_and!; [done|done|by apply Hsub].
    - intros k y i Hy Hi. rewrite dget_longer in Hy. destruct (dget (vp_vars p) k) as [y0|] eqn:Ey; [|done]. injection Hy as <-.
      destruct (part_var _ _ _ _ K Ey) as (_ & Nd & k0 & Ek0 & _). destruct (kt_vars _ _ _ _ K _ _ Ey) as (mv & _ & _ & Ky).
      destruct (extended_prolonged (length (a_flat (v_array x))) y0 k0 (kp_rank _ _ Ky) Nd Ek0) as (_ & _ & _ & Hsh & _).
      rewrite (Hsh i dim); [|done]. by rewrite decide_True.
    - by exists x.
    - cbn [vp_vars longer vp_axis]. rewrite Forall2_fmap_r. apply Forall_Forall2_diag, Forall_forall. intros [k y] Hin. cbn. split; [done|].
      apply elem_dget in Hin; [|apply K]. destruct (part_var _ _ _ _ K Hin) as (_ & Nd & k0 & Ek0 & _). destruct (kt_vars _ _ _ _ K _ _ Hin) as (mv & _ & _ & Ky).
      by apply (extended_prolonged _ _ k0); [apply (kp_rank _ _ Ky)|..].
  Qed.

  (** *** [_sync] *)
  Definition before_sync (d : path) (s : store) (old : option vpart) : Prop :=
    match old with
    | None => nothing_at d s
    | Some p => keeps_part v w (sub d s) p /\ forall a, axis_is c ds a -> ve_digest v a = ve_digest v (vp_axis p) -> a = vp_axis p
    end.
  Lemma axis_is_iff x a : dget (d_vars ds) (c_axis c) = Some x -> axis_is c ds a <-> v_array x = a.
  Proof. intros Ex. split; [intros (y & Ey & <-); congruence|]. intros <-. by exists x. Qed.
  Lemma exec_sync_one q s old : before_sync (w_dir w ++ q) s old -> holds_dataset (sub (c_dir c ++ q) s) ds ->
    exists s1 p (done : bool), exec (sync_one v w false q) s = (Ok (if done then Some q else None), s1) /\
      exec (sync_one v w true q) s = (Ok (if done then Some q else None : option path), s) /\
      same_out (w_dir w ++ q) s s1 /\ keeps_part v w (sub (w_dir w ++ q) s1) p /\ synchronised w ds old p done /\ (done = false -> s1 = s).
  Proof using Hds Hmo Hw.
    intros Hold Ht. set (d := w_dir w ++ q) in *. destruct old as [p|].
    - destruct Hold as [K Hinj]. destruct (kt_axis _ _ _ _ K) as (Har & dt & Ks). rewrite sub_sub in Ks.
      destruct (keeps_read _ _ Ks) as (cs & _ & Hz & Hread). pose proof Hz as Hz'. rewrite sub_lookup, <-app_assoc in Hz'. 
      assert (empty_at d s = false) as Hne.
      { apply empty_at_false. exists (d ++ [CHECKSUM] ++ [ZARRAY]). eexists. split; [apply under_app|]. exact Hz'. }
      destruct (tree_axis _ Ht) as (x & Ex & Edx & Eax).
      assert (Hcommon : forall dry : bool, exec (sync_one v w dry q) s =
          (if decide (ve_digest v (v_array x) = ve_digest v (vp_axis p)) then (Ok (None : option path), s) else
           exec (let! _ <- (if dry then pret tt else if is_extended (vp_axis p) (v_array x) then extend_partition v d (AxisRef (v_array x) (v_dtype x) dim (ve_digest v (v_array x)))
                            else let! _ <- rm d; sync_partition v w q); pret (Some q)) s)).
      { intros dry. unfold sync_one. cbv zeta. fold d. rewrite exec_bind, exec_exists, Hne. cbn [negb]. cbv iota.
        rewrite exec_bind, (exec_open_array (d ++ [CHECKSUM]) s _ ltac:(rewrite <-sub_lookup; exact Hz)). cbv iota beta.
        rewrite exec_bind, (exec_open_group q s _ eq_refl Ht). cbv iota beta. rewrite exec_bind, Eax. cbn [exec].
        rewrite exec_bind, (exec_array_attrs (d ++ [CHECKSUM]) s _ _ ltac:(rewrite <-sub_lookup; exact (kp_attrs _ _ Ks))). cbv iota beta. cbn [fst].
        change (dget (v_attrs (sum_var v w dt (vp_axis p))) CHECKSUM_ATTR) with (Some (ve_digest v (vp_axis p))). cbv iota beta. cbn [ar_digest].
        destruct (decide (ve_digest v (v_array x) = ve_digest v (vp_axis p))) as [Eq|Nq]; [by rewrite bool_decide_eq_true_2|].
        rewrite bool_decide_eq_false_2 by done. rewrite exec_bind, exec_get_tree. cbv iota beta. rewrite exec_bind. cbn [exec]. rewrite Hread. done. }
      destruct (decide (ve_digest v (v_array x) = ve_digest v (vp_axis p))) as [Eq|Nq].
      + exists s, p, false. rewrite !Hcommon. split_and!; try done. cbn. left. split_and!; [|done..]. apply (axis_is_iff x); [done|]. apply Hinj; [|done]. by exists x.
      + assert (Hna : ~ axis_is c ds (vp_axis p)) by (intros Hx; apply (axis_is_iff x) in Hx; [congruence|done]).
        rewrite (Hcommon true). rewrite (Hcommon false). cbv iota.
        destruct (is_extended (vp_axis p) (v_array x)) eqn:Eext.
        * apply is_extended_begins in Eext. destruct (exec_extend_partition d s p x K Ex Edx) as (s1 & p' & E1 & O1 & K1 & S1); [destruct Eext; lia|].
          exists s1, p', true. split_and!; [rewrite exec_bind, E1; done|done..| |done]. cbn. right. split_and!; [done..|]. exists (v_array x). split; [by exists x|]. by left.
        * assert (Hnb : ~ begins (vp_axis p) (v_array x)) by (intros Hb; apply is_extended_begins in Hb; congruence).
          destruct (exec_sync_partition q (prune d s)) as (s1 & p' & E1 & O1 & K1 & R1).
          { intros y Hy. by rewrite prune_lookup, decide_True. }
          { rewrite (same_out_sub d (c_dir c ++ q) s (prune d s)); [done| |apply same_out_prune].
            eapply apart_under; [apply (vw_apart _ _ Hw)|apply under_app..]. }
          exists s1, p', true. split_and!; [| |eapply same_out_trans; [apply same_out_prune|exact O1]|done| |done].
          -- rewrite exec_bind, exec_bind, exec_rm, Hne. cbv iota beta. rewrite E1. done.
          -- done.
          -- cbn. right. split_and!; [done..|]. exists (v_array x). split; [by exists x|]. by right.
    - unfold sync_one. cbv zeta. fold d. rewrite !exec_bind, exec_exists. cbn in Hold. rewrite (proj1 (nothing_empty d s) Hold). cbn [negb]. cbv iota.
      destruct (exec_sync_partition q s Hold Ht) as (s1 & p' & E1 & O1 & K1 & R1).
      exists s1, p', true. rewrite exec_bind, E1. split_and!; done.
  Qed.
End sync.
