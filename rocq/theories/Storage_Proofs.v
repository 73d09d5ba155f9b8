(** * Writing and reading Zarr groups *)
From Verif Require Import Py Dict NdArray_Model NdArray_Spec NdArray_Proofs Dataset_Model Dataset_Spec Dataset_Proofs Meta_Model PartPath_Model
  FS_Model FS_Proofs Pool_Model Pool_Proofs Storage_Model Storage_Chunks Storage_Spec.

(** ** Trees *)
Lemma sub_sub (p q : path) (s : store) : sub q (sub p s) = sub (p ++ q) s.
Proof. apply map_eq. intros r. by rewrite !sub_lookup, app_assoc. Qed.
Lemma sub_prune (p : path) (s : store) : sub p (prune p s) = ∅.
Proof. apply map_eq. intros r. rewrite sub_lookup, prune_lookup, decide_True by apply under_app. by rewrite lookup_empty. Qed.
Lemma sub_graft (p : path) (t s : store) : sub p (graft p t s) = t ∪ sub p s.
Proof.
  apply map_eq. intros r. rewrite sub_lookup, graft_lookup, strip_app, lookup_union, sub_lookup.
  by destruct (t !! r), (s !! (p ++ r)).
Qed.
Lemma sub_graft_prune (p : path) (t s : store) : sub p (graft p t (prune p s)) = t.
Proof. rewrite sub_graft, sub_prune. apply (right_id_L ∅ _). Qed.
Lemma graft_lookup_under (p q : path) (t s : store) : graft p t (prune p s) !! (p ++ q) = t !! q.
Proof.
  rewrite graft_lookup, strip_app, prune_lookup, decide_True by apply under_app. by destruct (t !! q).
Qed.
Lemma graft_lookup_out (p q : path) (t s : store) : ~ under p q -> graft p t s !! q = s !! q.
Proof. intros N. apply strip_None in N. by rewrite graft_lookup, N. Qed.
Lemma graft_lookup_case (p q : path) (t s : store) : graft p t (prune p s) !! q = match strip p q with Some r => t !! r | None => s !! q end.
Proof.
  destruct (strip p q) as [r|] eqn:E.
  - apply strip_Some in E as ->. apply graft_lookup_under.
  - apply strip_None in E. rewrite graft_lookup_out by done. by rewrite prune_lookup, decide_False.
Qed.
Lemma graft_insert (p q : path) c (t s : store) : <[p ++ q := c]> (graft p t s) = graft p (<[q := c]> t) s.
Proof.
  apply map_eq. intros r. destruct (decide (p ++ q = r)) as [<-|N].
  - by rewrite lookup_insert, graft_lookup, strip_app, lookup_insert.
  - rewrite lookup_insert_ne by done. rewrite !graft_lookup. destruct (strip p r) as [r'|] eqn:E; [|done].
    rewrite lookup_insert_ne; [done|]. apply strip_Some in E. by intros ->.
Qed.
Lemma graft_graft (p : path) (t u s : store) : graft p t (graft p u s) = graft p (t ∪ u) s.
Proof.
  apply map_eq. intros r. rewrite !graft_lookup. destruct (strip p r) as [r'|]; [|done]. rewrite lookup_union.
  by destruct (t !! r'), (u !! r').
Qed.
Lemma prune_graft_empty (p : path) (s : store) : prune p s = graft p ∅ (prune p s).
Proof. apply map_eq. intros q. rewrite graft_lookup. by destruct (strip p q); rewrite ?lookup_empty. Qed.
Lemma prune_graft (p : path) (t s : store) : prune p (graft p t s) = prune p s.
Proof. apply map_eq. intros q. rewrite !prune_lookup. destruct (decide _); [done|]. by apply graft_lookup_out. Qed.
Lemma graft_sub_prune (p : path) (s : store) : graft p (sub p s) (prune p s) = s.
Proof.
  apply map_eq. intros q. rewrite graft_lookup_case. destruct (strip p q) as [r|] eqn:E; [|done]. apply strip_Some in E as ->. apply sub_lookup.
Qed.
Lemma sub_apart (p q : path) (s s' : store) : (forall r, ~ under p r -> s' !! r = s !! r) -> apart p q -> sub q s' = sub q s.
Proof. intros H A. apply map_eq. intros r. rewrite !sub_lookup. apply H. intros U. by apply (A (q ++ r)); [|apply under_app]. Qed.

(** ** One variable *)
Definition zarr_for (v : variable) (cs : list nat) : zarray :=
  ZArr (v_shape v) cs (v_dtype v) (v_compressor v) (v_fill v) (v_filters v).
Definition var_tree (chunks : list (str * nat)) (v : variable) : store :=
  <[[ZATTRS] := CMeta (zattrs_of (v_attrs v) (v_dims v))]> (chunk_tree (zarray_of chunks v) true (v_array v) ∪ {[ [ZARRAY] := CMeta (MArray (zarray_of chunks v)) ]}).

Lemma zarray_of_chunked chunks v : length (v_dims v) = length (v_shape v) -> chunked (z_shape (zarray_of chunks v)) (z_chunks (zarray_of chunks v)).
Proof.
  intros L. split; cbn; [rewrite zip_with_length; lia|]. apply Forall_forall. intros c Hc. apply elem_of_lookup_zip_with in Hc as (i & x & y & -> & _ & _).
  unfold chunk_len. lia.
Qed.
Lemma exec_write_variable d chunks n v s : v_name v = n -> length (v_dims v) = length (v_shape v) ->
  exec (write_zarr_variable d chunks (n, v)) s = (Ok tt, graft (d ++ [n]) (var_tree chunks v) (prune (d ++ [n]) s)).
Proof.
  intros Hn L. unfold write_zarr_variable, to_zarr, write_zattrs. cbn [fst snd]. rewrite Hn, exec_catch, !exec_bind.
  rewrite exec_rmtree. cbv iota. rewrite exec_bind, exec_write. cbv iota. rewrite exec_write_chunks by (by apply zarray_of_chunked).
  cbv iota. rewrite exec_write. cbv iota. do 2 f_equal.
  rewrite (prune_graft_empty (d ++ [n])) at 1. unfold var_tree.
  change [n; ZARRAY] with ([n] ++ [ZARRAY]). change [n; ZATTRS] with ([n] ++ [ZATTRS]). rewrite !app_assoc.
  by rewrite !graft_insert, graft_graft, insert_union_l.
Qed.
Lemma silent_write_chunks d z skip a : silent (write_chunks d z skip a).
Proof. apply silent_pfor. intros ci _. cbv zeta. case_match; [by eexists|apply silent_write]. Qed.
Lemma within_write_chunks (R W : path -> Prop) d z skip a : (forall q, under d q -> W q) -> within R W (write_chunks d z skip a).
Proof. intros H. apply within_pfor. intros ci _. cbv zeta. case_match; [done|]. apply within_write, H, under_app. Qed.
Lemma within_write_variable (R W : path -> Prop) d chunks n v : v_name v = n -> (forall q, under (d ++ [n]) q -> W q) ->
  within R W (write_zarr_variable d chunks (n, v)).
Proof.
  intros Hn H. unfold write_zarr_variable, to_zarr, write_zattrs. cbn [fst snd]. rewrite Hn. apply within_catch_silent.
  - repeat apply silent_bind; intros; try apply silent_bind; intros; auto using silent_rmtree, silent_write, silent_write_chunks.
  - assert (forall x, W (d ++ [n; x])) as Hx by (intros x; apply H; exists [x]; by rewrite <-app_assoc).
    apply within_bind; [|intros; by apply within_write]. apply within_bind; [by apply within_rmtree|]. intros _.
    apply within_bind; [by apply within_write|]. intros _. by apply within_write_chunks.
Qed.

(** ** All the variables *)
Lemma vals_elem (ds : dataset) n v : (n, v) ∈ d_vars ds -> v ∈ dvals (d_vars ds).
Proof. intros H. apply elem_of_list_In, in_map_iff. exists (n, v). split; [done|]. by apply elem_of_list_In. Qed.
Lemma storable_elem ds n v : storable ds -> (n, v) ∈ d_vars ds ->
  v_name v = n /\ length (v_dims v) = length (v_shape v) /\ arr_wf (v_array v) /\ plain_name n.
Proof.
  intros [Hp Hr Hn] H. pose proof (vals_elem _ _ _ H) as Hv. split_and!; auto.
  - apply elem_dget in H; [|apply Hp]. by destruct (proper_consistent _ Hp _ _ H).
  - by apply Hp.
  - apply Hn. unfold dkeys. apply elem_of_list_In, in_map_iff. exists (n, v). split; [done|]. by apply elem_of_list_In.
Qed.

Definition vars_tree (chunks : list (str * nat)) (vars : list (str * variable)) : store :=
  foldr (fun nv t => graft [nv.1] (var_tree chunks nv.2) t) ∅ vars.
Lemma vars_tree_lookup chunks vars q : NoDup (dkeys vars) -> vars_tree chunks vars !! q =
  match q with [] => None | n :: r => match dget vars n with Some v => var_tree chunks v !! r | None => None end end.
Proof.
  induction vars as [|[n v] vars IH]; intros Hd; [destruct q; cbn; by rewrite lookup_empty|].
  unfold dkeys in *. cbn [map fst] in Hd. apply NoDup_cons in Hd as [Hn Hd]. cbn [vars_tree foldr fst snd]. fold (vars_tree chunks vars).
  rewrite graft_lookup, IH by done. destruct q as [|m r]; [done|]. cbn [strip dget]. destruct (decide (n = m)) as [<-|N].
  - rewrite decide_True by done. destruct (var_tree chunks v !! r); [done|]. by rewrite (proj2 (dget_None _ _)).
  - by rewrite decide_False by (by intros ->).
Qed.

Definition writers (d : path) (ds : dataset) : list (program unit) := map (write_zarr_variable d (d_chunks ds)) (d_vars ds).
Definition var_region (d : path) (ds : dataset) (i : nat) (q : path) : Prop :=
  match d_vars ds !! i with Some (n, _) => under (d ++ [n]) q | None => False end.
Global Instance var_region_dec d ds i q : Decision (var_region d ds i q).
Proof. unfold var_region. destruct (d_vars ds !! i) as [[n v]|]; apply _. Defined.
Lemma writers_independent d ds : storable ds -> independent (writers d ds) (fun _ _ => False) (var_region d ds).
Proof.
  intros Hs. unfold writers. split.
  - intros i p E. change (map ?f ?l) with (f <$> l) in E. rewrite list_lookup_fmap in E. destruct (d_vars ds !! i) as [[n v]|] eqn:Ei; [|done].
    injection E as <-. destruct (storable_elem ds n v Hs) as (Hn & _); [by eapply elem_of_list_lookup_2|].
    apply within_write_variable; [done|]. intros q U. unfold var_region. by rewrite Ei.
  - intros i j p p' E E' N q Hq [?|Hq']; [done|]. unfold var_region in *.
    destruct (d_vars ds !! i) as [[n v]|] eqn:Ei; [|done]. destruct (d_vars ds !! j) as [[n' v']|] eqn:Ej; [|done].
    assert (n <> n') as Hne.
    { intros ->. apply N. eapply NoDup_lookup; [apply Hs| |].
      - unfold dkeys. change (map ?f ?l) with (f <$> l). by rewrite list_lookup_fmap, Ei.
      - unfold dkeys. change (map ?f ?l) with (f <$> l). by rewrite list_lookup_fmap, Ej. }
    by apply (apart_app d n n' [] [] Hne q).
Qed.

Lemma exec_all_writers d ds s : storable ds ->
  (exec_all (writers d ds) s).1 = map (fun _ => Ok tt) (d_vars ds) /\
  forall q, (exec_all (writers d ds) s).2 !! q =
    match strip d q with
    | Some (n :: r) => match dget (d_vars ds) n with Some v => var_tree (d_chunks ds) v !! r | None => s !! q end
    | _ => s !! q
    end.
Proof.
  intros Hs. unfold writers.
  assert (Hv : forall n v, (n, v) ∈ d_vars ds -> v_name v = n /\ length (v_dims v) = length (v_shape v)).
  { intros n v H. destruct (storable_elem ds n v Hs H) as (? & ? & _). done. }
  pose proof (proper_names _ (storable_proper _ Hs)) as Hd.
  revert s. induction (d_vars ds) as [|[n v] l IH]; intros s; [split; [done|]; intros q; cbn; by destruct (strip d q) as [[|]|]|].
  cbn [map exec_all]. destruct (Hv n v) as [Hn L]; [by left|]. rewrite exec_write_variable by done.
  unfold dkeys in Hd. cbn in Hd. apply NoDup_cons in Hd as [Hn' Hd].
  destruct (IH (fun n' v' H => Hv n' v' (elem_of_list_further _ _ _ H)) Hd (graft (d ++ [n]) (var_tree (d_chunks ds) v) (prune (d ++ [n]) s))) as [E1 E2].
  destruct (exec_all (map (write_zarr_variable d (d_chunks ds)) l) _) as [rs s']. cbn [fst snd] in *. subst rs. split; [done|].
  intros q. rewrite E2, graft_lookup_case. cbn [dget]. destruct (strip d q) as [[|m r]|] eqn:E.
  - apply strip_Some in E as ->. rewrite app_nil_r. rewrite (proj2 (strip_None _ _)); [done|]. intros (t & Et).
    rewrite <-(app_nil_r d) in Et at 1. rewrite <-app_assoc in Et. by apply app_inv_head in Et.
  - apply strip_Some in E as ->. destruct (decide (m = n)) as [->|N].
    + rewrite (proj2 (dget_None _ _)) by done. replace (d ++ n :: r) with ((d ++ [n]) ++ r) by (by rewrite <-app_assoc). by rewrite strip_app.
    + destruct (dget l m); [done|]. rewrite (proj2 (strip_None _ _)); [done|]. intros (t & Et). rewrite <-app_assoc in Et. apply app_inv_head in Et.
      by injection Et.
  - rewrite (proj2 (strip_None _ _)); [done|]. intros (t & ->). rewrite <-app_assoc, strip_app in E. done.
Qed.

(** ** A whole group *)
Definition metas (t : store) : fs zmeta := omap meta_of (filter (fun qc => is_zarr_key qc.1 = true) t).
Definition clean (t : store) : Prop := forall q c, t !! q = Some c -> is_zarr_key q = true -> is_Some (meta_of c).
Lemma collect_clean t : clean t -> collect_meta t = Ok (metas t).
Proof.
  intros H. unfold collect_meta. fold (metas t). destruct (forallb _ _) eqn:E; [done|]. exfalso.
  apply not_true_iff_false in E. apply E. apply forallb_forall. intros [q c] Hin. apply bool_decide_eq_true.
  apply elem_of_list_In, elem_of_map_to_list, map_filter_lookup_Some in Hin as [Hq Hk]. by eapply H.
Qed.
Lemma metas_lookup t q : metas t !! q = if is_zarr_key q then match t !! q with Some c => meta_of c | None => None end else None.
Proof.
  unfold metas. rewrite lookup_omap, map_filter_lookup. destruct (t !! q) as [c|]; cbn; [|by destruct (is_zarr_key q)].
  destruct (is_zarr_key q); [by rewrite option_guard_True|by rewrite option_guard_False].
Qed.

Lemma metas_at t q : is_zarr_key q = true -> metas t !! q = match t !! q with Some c => meta_of c | None => None end.
Proof. intros E. by rewrite metas_lookup, E. Qed.

Definition body_tree (ds : dataset) : store :=
  <[[ZGROUP] := CMeta MGroup]> (<[[ZATTRS] := CMeta (MAttrs (dict_of (d_attrs ds)) None)]> (vars_tree (d_chunks ds) (d_vars ds))).
Definition group_tree (ds : dataset) : store := <[[ZMETADATA] := CCons (metas (body_tree ds))]> (body_tree ds).

Lemma var_tree_cases chunks v q c : var_tree chunks v !! q = Some c ->
  (q = [ZATTRS] /\ c = CMeta (zattrs_of (v_attrs v) (v_dims v))) \/
  (q = [ZARRAY] /\ c = CMeta (MArray (zarray_of chunks v))) \/
  exists ci a, q = [chunk_key ci] /\ c = CChunk a.
Proof.
  unfold var_tree. rewrite lookup_insert_Some, lookup_union_Some_raw, lookup_singleton_Some.
  intros [[<- <-]|[N [H|[_ [<- <-]]]]]; [by left| |right; by left].
  apply chunk_tree_Some in H as (ci & _ & -> & ->). right. right. by eexists _, _.
Qed.
Lemma chunk_tree_meta z skip a n : n ∈ [ZARRAY; ZGROUP; ZATTRS; ZMETADATA] -> chunk_tree z skip a !! [n] = None.
Proof.
  intros Hn. destruct (chunk_tree z skip a !! [n]) eqn:E; [|done]. apply chunk_tree_Some in E as (ci & _ & E & _).
  injection E as E. symmetry in E. by apply chunk_key_not_meta in E.
Qed.
Lemma var_tree_zarray chunks v : var_tree chunks v !! [ZARRAY] = Some (CMeta (MArray (zarray_of chunks v))).
Proof.
  unfold var_tree. rewrite lookup_insert_ne by done. rewrite lookup_union_r by (apply chunk_tree_meta; by left). apply lookup_singleton.
Qed.
Lemma var_tree_zattrs chunks v : var_tree chunks v !! [ZATTRS] = Some (CMeta (zattrs_of (v_attrs v) (v_dims v))).
Proof. apply lookup_insert. Qed.
Lemma var_tree_chunk chunks v ci : var_tree chunks v !! [chunk_key ci] = chunk_tree (zarray_of chunks v) true (v_array v) !! [chunk_key ci].
Proof.
  unfold var_tree. rewrite lookup_insert_ne; [|intros E; injection E as E; symmetry in E; apply chunk_key_not_meta in E; [done|set_solver]].
  rewrite lookup_union_l; [done|]. apply lookup_singleton_ne. intros E; injection E as E; symmetry in E; apply chunk_key_not_meta in E; [done|set_solver].
Qed.
Lemma is_zarr_chunk p ci : is_zarr_key (p ++ [chunk_key ci]) = false.
Proof.
  unfold is_zarr_key. rewrite last_snoc. destruct (memb _ _) eqn:E; [|done]. unfold memb in E. apply bool_decide_eq_true in E. exfalso.
  eapply (chunk_key_not_meta ci); [|done]. set_solver.
Qed.
Lemma vars_tree_clean chunks vars : NoDup (dkeys vars) -> clean (vars_tree chunks vars).
Proof.
  intros Hd q c. rewrite vars_tree_lookup by done. destruct q as [|n r]; [done|]. destruct (dget vars n) as [v|]; [|done].
  intros H K. apply var_tree_cases in H as [[-> ->]|[[-> ->]|(ci & a & -> & ->)]]; [by eexists..|].
  pose proof (is_zarr_chunk [n] ci) as K'. cbn [app] in K'. congruence.
Qed.
Lemma body_tree_clean ds : proper ds -> clean (body_tree ds).
Proof.
  intros Hp q c. unfold body_tree. rewrite !lookup_insert_Some. intros [[<- <-]|[N [[<- <-]|[N' H]]]]; [by eexists..|].
  eapply vars_tree_clean; [apply Hp|done].
Qed.

(** Writing in a directory where there is no file but .zgroup. *)
Definition fresh_at (d : path) (s : store) : Prop := forall q c, s !! (d ++ q) = Some c -> q = [ZGROUP].
Lemma exec_write_meta d ds s : proper ds ->
  (forall q, q <> [ZGROUP] -> s !! (d ++ q) = vars_tree (d_chunks ds) (d_vars ds) !! q) ->
  vars_tree (d_chunks ds) (d_vars ds) !! [ZATTRS] = None -> vars_tree (d_chunks ds) (d_vars ds) !! [ZMETADATA] = None ->
  exec (write_meta d (d_attrs ds)) s = (Ok tt, graft d (group_tree ds) (prune d s)).
Proof.
  intros Hp Hs Ha Hm. unfold write_meta. rewrite exec_bind, exec_write. cbv iota. rewrite exec_bind, exec_write. cbv iota.
  unfold consolidate. rewrite exec_bind, exec_get_tree. cbv iota.
  assert (E : sub d (<[d ++ [ZGROUP] := CMeta MGroup]> (<[d ++ [ZATTRS] := CMeta (MAttrs (dict_of (d_attrs ds)) None)]> s)) = body_tree ds).
  { apply map_eq. intros q. rewrite sub_lookup. unfold body_tree.
    destruct (decide (q = [ZGROUP])) as [->|N1]; [by rewrite !lookup_insert|].
    rewrite !(lookup_insert_ne _ _ q) by done. rewrite (lookup_insert_ne _ (d ++ [ZGROUP])) by (intros E; by apply app_inv_head in E).
    destruct (decide (q = [ZATTRS])) as [->|N2]; [by rewrite !lookup_insert|].
    rewrite !(lookup_insert_ne _ _ q) by done. rewrite (lookup_insert_ne _ (d ++ [ZATTRS])) by (intros E; by apply app_inv_head in E). by apply Hs. }
  rewrite E, exec_bind, collect_clean by (by apply body_tree_clean). cbn [exec]. rewrite exec_bind, exec_write. cbv iota.
  rewrite bool_decide_eq_true_2 by (rewrite metas_lookup; cbn; unfold body_tree; rewrite lookup_insert; by eexists).
  cbn [exec pret]. f_equal. apply map_eq. intros q. rewrite graft_lookup_case.
  destruct (strip d q) as [r|] eqn:Es.
  - apply strip_Some in Es as ->. unfold group_tree. destruct (decide (r = [ZMETADATA])) as [->|N]; [by rewrite !lookup_insert|].
    rewrite (lookup_insert_ne _ (d ++ [ZMETADATA])) by (intros E'; by apply app_inv_head in E').
    rewrite (lookup_insert_ne _ [ZMETADATA]) by done. by rewrite <-E, sub_lookup.
  - apply strip_None in Es. assert (forall x, d ++ x <> q) as Nx by (intros x <-; destruct Es; apply under_app).
    by rewrite !lookup_insert_ne by done.
Qed.
Lemma plain_vars ds n : storable ds -> n ∈ [ZARRAY; ZATTRS; ZGROUP; ZMETADATA] -> dget (d_vars ds) n = None.
Proof. intros Hs Hn. apply dget_None. intros H. by apply (storable_plain _ Hs) in H. Qed.
Definition write_vars (d : path) (ds : dataset) (sched : option schedule) : program (list unit) :=
  match sched with
  | Some sched => execute_transaction CTorn sched (writers d ds)
  | None => let! _ <- require_group d; pseq (writers d ds)
  end.
Lemma exec_write_vars d ds sched s : storable ds -> fresh_at d s ->
  exists s', exec (write_vars d ds sched) s = (Ok (map (fun _ => tt) (d_vars ds)), s') /\
    (forall q, q <> [ZGROUP] -> s' !! (d ++ q) = vars_tree (d_chunks ds) (d_vars ds) !! q) /\ prune d s' = prune d s.
Proof.
  intros Hs Hf. unfold write_vars.
  assert (L : forall u : store, (forall q, q <> d ++ [ZGROUP] -> u !! q = s !! q) ->
    (forall q, q <> [ZGROUP] -> (exec_all (writers d ds) u).2 !! (d ++ q) = vars_tree (d_chunks ds) (d_vars ds) !! q) /\
    prune d (exec_all (writers d ds) u).2 = prune d s).
  { intros u Hu. destruct (exec_all_writers d ds u Hs) as [_ E]. split.
    - intros q N. rewrite E, strip_app, vars_tree_lookup by apply Hs. rewrite Hu by (intros E'; by apply app_inv_head in E').
      assert (s !! (d ++ q) = None) as -> by (destruct (s !! (d ++ q)) eqn:E'; [by apply Hf in E'|done]).
      destruct q as [|n r]; [done|]. by destruct (dget (d_vars ds) n).
    - apply map_eq. intros q. rewrite !prune_lookup. destruct (decide (under d q)) as [|N]; [done|].
      rewrite E. pose proof N as N'. apply strip_None in N'. rewrite N'. apply Hu. intros ->. apply N, under_app. }
  destruct sched as [sched|].
  - exists (exec_all (writers d ds) s).2. split; [|by apply L].
    rewrite (exec_transaction CTorn sched _ _ _ s (var_region_dec d ds) (writers_independent d ds Hs)).
    destruct (exec_all_writers d ds s Hs) as [-> _]. f_equal. apply first_error_Ok. by rewrite map_map.
  - assert (exists u : store, exec (require_group d) s = (Ok tt, u) /\ (forall q, q <> d ++ [ZGROUP] -> u !! q = s !! q)) as (u & E & Hu).
    { unfold require_group. rewrite exec_bind, exec_read_file. cbv iota. destruct (bool_decide _); [by exists s|]. rewrite exec_write.
      eexists. split; [done|]. intros q N. by rewrite lookup_insert_ne. }
    exists (exec_all (writers d ds) u).2. split; [|by apply L]. rewrite exec_bind, E. cbv iota.
    destruct (exec_all_writers d ds u Hs) as [E1 _]. revert E1. generalize (writers d ds) (d_vars ds). clear. intros ps l. revert l u.
    induction ps as [|p ps IH]; intros [|x l] u; cbn [exec_all map pseq]; try done.
    + destruct (exec p u) as [r u1], (exec_all ps u1). done.
    + rewrite exec_bind. destruct (exec p u) as [r u1]. destruct (exec_all ps u1) as [rs u2] eqn:Eu. cbn [fst snd]. intros [= -> E].
      rewrite exec_bind. rewrite (IH l u1) by (by rewrite Eu). by rewrite Eu.
Qed.
Lemma write_group_eq d ds sched : write_zarr_group d ds sched = (let! _ <- write_vars d ds sched; write_meta d (d_attrs ds)).
Proof. by destruct sched. Qed.
Lemma no_meta_vars ds n : storable ds -> n ∈ [ZARRAY; ZATTRS; ZGROUP; ZMETADATA] -> vars_tree (d_chunks ds) (d_vars ds) !! [n] = None.
Proof. intros Hs Hn. rewrite vars_tree_lookup by apply Hs. by rewrite plain_vars. Qed.
Lemma exec_write_group d ds sched s : storable ds -> fresh_at d s ->
  exec (write_zarr_group d ds sched) s = (Ok tt, graft d (group_tree ds) (prune d s)).
Proof.
  intros Hs Hf. rewrite write_group_eq, exec_bind. destruct (exec_write_vars d ds sched s Hs Hf) as (s' & -> & H1 & H2). cbv iota.
  rewrite exec_write_meta; [by rewrite H2|apply Hs|done|..]; apply no_meta_vars; set_solver.
Qed.

(** ** What a crash leaves *)
Lemma within_write_vars (R W : path -> Prop) d ds sched : storable ds -> (forall q, under d q -> R q \/ W q) ->
  (forall q, under d q -> q <> d ++ [ZMETADATA] -> W q) -> within R W (write_vars d ds sched).
Proof.
  intros Hs HR HW.
  assert (H : forall p : program unit, p ∈ writers d ds -> within R W p).
  { intros p Hp. apply elem_of_list_In, in_map_iff in Hp as ([n v] & <- & Hin). apply elem_of_list_In in Hin.
    destruct (storable_elem ds n v Hs Hin) as (Hn & _ & _ & Hpl). apply within_write_variable; [done|]. intros q (t & ->). apply HW.
    - exists (n :: t). by rewrite <-app_assoc.
    - rewrite <-app_assoc. intros E. apply app_inv_head in E. injection E as -> _. apply Hpl. set_solver. }
  destruct sched as [sched|]; cbn [write_vars]; [by apply within_transaction|].
  apply within_bind; [|intros _; by apply within_pseq]. unfold require_group.
  apply within_bind; [apply within_read_file; intros q U; apply HR; eapply under_trans; [apply under_app|done]|].
  intros g. destruct (bool_decide _); [done|]. apply within_write, HW; [apply under_app|]. intros E. by apply app_inv_head in E.
Qed.
Lemma within_write_group (R W : path -> Prop) d ds sched : storable ds -> (forall q, under d q -> W q) -> within R W (write_zarr_group d ds sched).
Proof.
  intros Hs HW. assert (forall x, W (d ++ x)) as Hx by (intros x; apply HW, under_app). rewrite write_group_eq. apply within_bind; [by apply within_write_vars; auto|].
  intros _. unfold write_meta, consolidate. apply within_bind; [by apply within_write|]. intros _. apply within_bind; [by apply within_write|]. intros _.
  apply within_bind; [apply within_get_tree; auto|]. intros t. apply within_bind; [done|]. intros m. apply within_bind; [by apply within_write|]. intros _.
  by destruct (bool_decide _).
Qed.
(** At every point of the writing: the consolidated metadata do not exist yet,
    or are being written, everything else being complete, or all is done. *)
Definition group_progress (d : path) (ds : dataset) (u : store) : Prop :=
  u !! (d ++ [ZMETADATA]) = None \/ sub d u = <[[ZMETADATA] := CTorn]> (body_tree ds) \/ sub d u = group_tree ds.
Lemma always_write_group d ds sched s : storable ds -> fresh_at d s -> always CTorn (group_progress d ds) (write_zarr_group d ds sched) s.
Proof.
  intros Hs Hf. rewrite write_group_eq. assert (Hz : s !! (d ++ [ZMETADATA]) = None) by (destruct (s !! (d ++ [ZMETADATA])) eqn:E; [by apply Hf in E|done]).
  apply always_bind.
  - eapply always_impl; [|apply (always_region CTorn (fun _ => True) (fun q => q <> d ++ [ZMETADATA]))].
    + intros u Hu. left. rewrite Hu; [done|]. tauto.
    + apply within_write_vars; [done|by auto|done].
  - intros l s' E. destruct (exec_write_vars d ds sched s Hs Hf) as (s'' & E' & H1 & H2). rewrite E in E'. injection E' as _ <-.
    assert (N : forall x y, x <> y -> d ++ [x] <> d ++ [y]) by (intros x y Nx Ex; apply app_inv_head in Ex; congruence).
    pose proof (exec_write_meta d ds s' (storable_proper _ Hs) H1 (no_meta_vars ds ZATTRS Hs ltac:(set_solver)) (no_meta_vars ds ZMETADATA Hs ltac:(set_solver))) as Em.
    unfold write_meta in *. rewrite exec_bind, exec_write in Em. cbv iota in Em. rewrite exec_bind, exec_write in Em. cbv iota in Em.
    assert (Hn : s' !! (d ++ [ZMETADATA]) = None) by (rewrite H1 by done; apply no_meta_vars; set_solver).
    set (s1 := <[d ++ [ZATTRS] := _]> s') in *. assert (Hn1 : s1 !! (d ++ [ZMETADATA]) = None) by (unfold s1; rewrite lookup_insert_ne; [done|by apply N]).
    set (s2 := <[d ++ [ZGROUP] := _]> s1) in *. assert (Hn2 : s2 !! (d ++ [ZMETADATA]) = None) by (unfold s2; rewrite lookup_insert_ne; [done|by apply N]).
    cbn [pbind write_file pret always mid exec_op fst snd]. unfold group_progress at 1 2.
    split; [by left|]. split; [left; rewrite lookup_insert_ne; [done|by apply N]|]. fold s1.
    split; [by left|]. split; [left; rewrite lookup_insert_ne; [done|by apply N]|]. fold s2.
    unfold consolidate in Em |- *. rewrite exec_bind, exec_get_tree in Em. cbv iota in Em. cbn [pbind get_tree pret always mid exec_op fst snd].
    split; [by left|]. split; [done|].
    destruct (collect_meta (sub d s2)) as [m|e]; [|done]. cbn [pbind pret] in Em |- *.
    cbn [pbind write_file pret always mid exec_op fst snd exec] in Em |- *. split; [by left|].
    assert (bool_decide (is_Some (m !! [ZGROUP])) = true /\ sub d (<[d ++ [ZMETADATA] := CCons m]> s2) = group_tree ds) as [Eb Ec].
    { destruct (bool_decide _); cbn [exec pret praise] in Em; [|done]. split; [done|]. injection Em as ->. apply sub_graft_prune. }
    rewrite Eb. cbn [pret always]. split; [|split; [by right; right|done]].
    right. left. apply map_eq. intros q. rewrite sub_lookup. pose proof (f_equal (lookup q) Ec) as Eq. rewrite sub_lookup in Eq.
    unfold group_tree in Eq. destruct (decide (q = [ZMETADATA])) as [->|Nq]; [by rewrite !lookup_insert|].
    rewrite (lookup_insert_ne _ [ZMETADATA]) in Eq |- * by done.
    rewrite (lookup_insert_ne _ (d ++ [ZMETADATA])) in Eq |- * by (intros E'; by apply app_inv_head in E'). done.
Qed.

(** ** Reading *)
(** The files [t] are a group with the attributes [attrs] and the variables
    [vars]. *)
Record holds_var (t : store) (v : variable) : Prop := {
  hv_array : exists cs, chunked (v_shape v) cs /\ t !! [ZARRAY] = Some (CMeta (MArray (zarr_for v cs))) /\ read_array (zarr_for v cs) t = Ok (v_array v);
  hv_attrs : t !! [ZATTRS] = Some (CMeta (MAttrs (v_attrs v) (Some (v_dims v))));
}.
Record holds_group (t : store) (attrs : list attribute) (vars : list (str * variable)) : Prop := {
  hg_cons : t !! [ZMETADATA] = Some (CCons (metas t));
  hg_clean : clean t;
  hg_group : t !! [ZGROUP] = Some (CMeta MGroup);
  hg_attrs : t !! [ZATTRS] = Some (CMeta (MAttrs attrs None));
  hg_names : NoDup (dkeys vars);
  hg_vars : forall n v, dget vars n = Some v -> v_name v = n /\ plain_name n /\ holds_var (sub [n] t) v;
  hg_only : forall n c, t !! [n; ZARRAY] = Some c -> n ∈ dkeys vars;
}.

Lemma read_array_var chunks v t : arr_wf (v_array v) -> length (v_dims v) = length (v_shape v) ->
  (forall ci, t !! [chunk_key ci] = var_tree chunks v !! [chunk_key ci]) -> read_array (zarray_of chunks v) t = Ok (v_array v).
Proof.
  intros Hw L H. apply (read_array_ok _ true); [done|done|by apply zarray_of_chunked|]. intros ci _. by rewrite H, var_tree_chunk.
Qed.
Lemma holds_var_tree chunks v : arr_wf (v_array v) -> length (v_dims v) = length (v_shape v) -> holds_var (var_tree chunks v) (stored v).
Proof.
  intros Hw L. split.
  - exists (zip_with (chunk_len chunks) (v_dims v) (v_shape v)). split_and!.
    + apply (zarray_of_chunked chunks v L).
    + apply var_tree_zarray.
    + by apply (read_array_var chunks v).
  - apply var_tree_zattrs.
Qed.
Lemma sub_group_var ds n v : storable ds -> dget (d_vars ds) n = Some v -> sub [n] (group_tree ds) = var_tree (d_chunks ds) v.
Proof.
  intros Hs E. assert (Hn : plain_name n) by (apply (storable_plain _ Hs); apply dget_is_Some; by eexists).
  apply map_eq. intros q. rewrite sub_lookup. unfold group_tree, body_tree. cbn [app].
  assert (forall x, x ∈ [ZARRAY; ZATTRS; ZGROUP; ZMETADATA] -> [x] <> n :: q) as Nx by (intros x Hx Ex; injection Ex as -> _; by apply Hn).
  rewrite !lookup_insert_ne by (apply Nx; set_solver). rewrite vars_tree_lookup by apply Hs. by rewrite E.
Qed.
Lemma metas_insert_cons t c : metas (<[[ZMETADATA] := CCons c]> t) = metas t.
Proof.
  apply map_eq. intros q. rewrite !metas_lookup. destruct (decide (q = [ZMETADATA])) as [->|N]; [done|]. by rewrite lookup_insert_ne.
Qed.
Lemma clean_insert t q c : clean t -> (is_zarr_key q = true -> is_Some (meta_of c)) -> clean (<[q := c]> t).
Proof. intros H Hc q' c'. rewrite lookup_insert_Some. intros [[<- <-]|[_ E]]; [done|]. by apply (H q'). Qed.

Definition stored_vars (vars : list (str * variable)) : list (str * variable) := map (fun nv => (nv.1, stored nv.2)) vars.
Lemma dget_stored vars n : dget (stored_vars vars) n = option_map stored (dget vars n).
Proof. induction vars as [|[m v] vars IH]; cbn; [done|]. by destruct (decide (n = m)). Qed.
Lemma keys_stored vars : dkeys (stored_vars vars) = dkeys vars.
Proof. unfold dkeys, stored_vars. by rewrite map_map. Qed.

Lemma holds_group_tree ds : storable ds -> holds_group (group_tree ds) (dict_of (d_attrs ds)) (stored_vars (d_vars ds)).
Proof.
  intros Hs. pose proof (storable_proper _ Hs) as Hp. split.
  - unfold group_tree. by rewrite lookup_insert, metas_insert_cons.
  - apply clean_insert; [by apply body_tree_clean|done].
  - unfold group_tree, body_tree. rewrite lookup_insert_ne by done. by rewrite lookup_insert.
  - unfold group_tree, body_tree. rewrite !lookup_insert_ne by done. by rewrite lookup_insert.
  - rewrite keys_stored. apply Hp.
  - intros n v'. rewrite dget_stored. destruct (dget (d_vars ds) n) as [v|] eqn:E; [|done]. intros [= <-].
    destruct (storable_elem ds n v Hs) as (H1 & H2 & H3 & H4); [by apply dget_elem|]. split_and!; [done..|].
    rewrite (sub_group_var ds n v) by done. by apply holds_var_tree.
  - intros n c. unfold group_tree, body_tree. rewrite !lookup_insert_ne by done. rewrite vars_tree_lookup by apply Hp.
    destruct (dget (d_vars ds) n) as [v|] eqn:E; [|done]. intros _. rewrite keys_stored. apply dget_is_Some. by eexists.
Qed.

Lemma array_names_elem m n : n ∈ array_names m <-> is_Some (m !! [n; ZARRAY]).
Proof.
  unfold array_names. rewrite elem_of_list_omap. split.
  - intros ([q z] & H & E). apply elem_of_map_to_list in H. cbn in E. unfold array_name in E.
    destruct q as [|a [|b [|]]]; try done. destruct (decide (b = ZARRAY)) as [->|]; [|done]. injection E as ->. by eexists.
  - intros [z E]. exists ([n; ZARRAY], z). split; [by apply elem_of_map_to_list|]. cbn. by rewrite decide_True.
Qed.
Lemma array_names_nodup m : NoDup (array_names m).
Proof.
  unfold array_names. pose proof (NoDup_fst_map_to_list m) as H. induction (map_to_list m) as [|[q z] l IH]; cbn in *; [constructor|].
  apply NoDup_cons in H as [H1 H2]. destruct (array_name q) as [n|] eqn:E; [|by apply IH]. cbn. apply NoDup_cons. split; [|by apply IH].
  intros Hin. apply elem_of_list_omap in Hin as ([q' z'] & Hin & E'). apply H1. apply elem_of_list_fmap. exists (q', z'). split; [|done].
  cbn in E'. unfold array_name in *. destruct q as [|a [|b [|]]]; try done. destruct (decide (b = ZARRAY)) as [->|]; [|done].
  destruct q' as [|a' [|b' [|]]]; try done. destruct (decide (b' = ZARRAY)) as [->|]; [|done].
  injection E as ->. injection E' as ->. done.
Qed.
Lemma group_names t attrs vars n : holds_group t attrs vars -> n ∈ array_names (metas t) <-> n ∈ dkeys vars.
Proof.
  intros H. rewrite array_names_elem, metas_at by done. split.
  - intros [z E]. destruct (t !! [n; ZARRAY]) eqn:E'; [|done]. by eapply hg_only.
  - intros Hn. apply dget_is_Some in Hn as [v Ev]. destruct (hg_vars _ _ _ H _ _ Ev) as (_ & _ & [(cs & _ & E & _) _]).
    rewrite sub_lookup in E. cbn [app] in E. rewrite E. by eexists.
Qed.
Lemma open_array_ok t attrs vars delayed n v : holds_group t attrs vars -> dget vars n = Some v ->
  open_zarr_array (metas t) t delayed n = Ok (with_delayed v delayed).
Proof.
  intros H E. destruct (hg_vars _ _ _ H _ _ E) as (Hn & _ & [(cs & _ & E1 & E2) E3]). rewrite sub_lookup in E1, E3. cbn [app] in E1, E3.
  unfold open_zarr_array, array_meta, attrs_of. rewrite !metas_at by done. rewrite E1, E3. cbn [meta_of rbind]. rewrite E2. cbn.
  unfold with_delayed. by rewrite Hn.
Qed.
Lemma group_read_cons t attrs vars : holds_group t attrs vars -> read_cons t = Ok (metas t).
Proof.
  intros H. unfold read_cons. rewrite (hg_cons _ _ _ H). rewrite bool_decide_eq_true_2; [done|]. rewrite metas_at by done.
  rewrite (hg_group _ _ _ H). by eexists.
Qed.

Definition agree_sizes (sz : str -> option nat) (vars : list (str * variable)) : Prop :=
  forall n v, dget vars n = Some v -> forall k d, v_dims v !! k = Some d -> exists m, v_shape v !! k = Some m /\ sz d = Some m.
Lemma read_group_ok t attrs vars delayed sel sz : holds_group t attrs vars -> agree_sizes sz vars ->
  (forall n v, dget vars n = Some v -> arr_wf (v_array v)) ->
  exists ds, read_group t delayed sel = Ok ds /\ proper ds /\ d_attrs ds = attrs /\ d_delayed ds = delayed /\ d_chunks ds = [] /\
    (forall d m, dget (d_dims ds) d = Some m -> sz d = Some m) /\
    forall n v, dget (d_vars ds) n = Some v <-> wanted sel n /\ exists v0, dget vars n = Some v0 /\ v = with_delayed v0 delayed.
Proof.
  intros H Hz Hw. unfold read_group. rewrite (group_read_cons _ _ _ H). cbn [rbind].
  set (names := match sel with None => _ | Some _ => _ end).
  assert (Hnd : NoDup names).
  { subst names. destruct sel; [|apply array_names_nodup]. rewrite NoDup_ListNoDup. apply List.NoDup_filter. apply NoDup_ListNoDup, array_names_nodup. }
  assert (Hin : forall n, n ∈ names <-> wanted sel n /\ n ∈ dkeys vars).
  { intros n. rewrite <-(group_names _ _ _ n H). subst names. destruct sel as [l|]; cbn; [|tauto].
    rewrite elem_of_list_In, List.filter_In, <-elem_of_list_In. unfold memb. rewrite bool_decide_eq_true. tauto. }
  clearbody names.
  set (g := fun n => match dget vars n with Some v => with_delayed v delayed | None => Var [] delayed (Arr [] []) [] [] [] None None [] end).
  rewrite (traverse_Ok _ g).
  2: { intros n Hn. apply Hin in Hn as [_ Hn]. apply dget_is_Some in Hn as [v Ev]. rewrite (open_array_ok t attrs vars delayed n v) by done. subst g. cbn. by rewrite Ev. }
  cbn [rbind]. unfold attrs_of. rewrite metas_at by done. rewrite (hg_attrs _ _ _ H). cbn [meta_of fst].
  assert (Hg : forall n, n ∈ names -> exists v, dget vars n = Some v /\ g n = with_delayed v delayed /\ v_name (g n) = n).
  { intros n Hn. apply Hin in Hn as [_ Hn]. apply dget_is_Some in Hn as [v Ev]. exists v. subst g. cbn. rewrite Ev.
    destruct (hg_vars _ _ _ H _ _ Ev) as (Hv & _). done. }
  assert (Hmn : map v_name (map g names) = names).
  { rewrite map_map. rewrite <-(map_id names) at 2. apply map_ext_in. intros n Hn. apply elem_of_list_In in Hn. by destruct (Hg n Hn) as (? & _ & _ & ?). }
  destruct (new_dataset_total sz delayed (map g names) attrs BLOCK_SIZE_LIMIT [] (Some delayed)) as (ds & E & E1 & E2 & E3 & E4 & E5 & E6 & E7).
  - by rewrite Hmn.
  - constructor.
  - done.
  - intros v Hv. apply elem_of_list_In, in_map_iff in Hv as (n & <- & Hn). apply elem_of_list_In in Hn. destruct (Hg n Hn) as (v & Ev & -> & _).
    split; [done|]. exact (Hz n v Ev).
  - by left.
  - exists ds. split; [exact E|]. assert (Ek : dkeys (d_vars ds) = names) by (rewrite E1; unfold dkeys; rewrite map_map; exact Hmn).
    split; [|split_and!; try done].
    + split; [by rewrite Ek|rewrite E3; constructor|by rewrite E4| |done].
      intros v Hv. rewrite E1 in Hv. unfold dvals in Hv. rewrite map_map in Hv. cbn in Hv. rewrite map_id in Hv.
      apply elem_of_list_In, in_map_iff in Hv as (n & <- & Hn). apply elem_of_list_In in Hn. destruct (Hg n Hn) as (v & Ev & -> & _). cbn. by apply (Hw n).
    + intros n v. split.
      * intros Ev. apply dget_elem in Ev. rewrite E1 in Ev. apply elem_of_list_In, in_map_iff in Ev as (v' & [= <- ->] & Hv).
        apply in_map_iff in Hv as (n & <- & Hn). apply elem_of_list_In in Hn. destruct (Hg n Hn) as (v & Ev & -> & E'). cbn in E'. cbn. rewrite E'.
        split; [by apply Hin|]. by exists v.
      * intros (Hsel & v0 & Ev & ->). apply elem_dget; [by rewrite Ek|].
        assert (Hn : n ∈ names) by (apply Hin; split; [done|]; apply dget_is_Some; by eexists).
        destruct (Hg n Hn) as (v & Ev' & Eg & E'). rewrite Ev in Ev'. injection Ev' as <-.
        rewrite E1. apply elem_of_list_In, in_map_iff. exists (g n). split; [by rewrite E', Eg|]. apply in_map_iff. exists n. split; [done|]. by apply elem_of_list_In.
Qed.
Lemma agree_stored ds : consistent ds -> agree_sizes (dget (d_dims ds)) (stored_vars (d_vars ds)).
Proof.
  intros Hc n v'. rewrite dget_stored. destruct (dget (d_vars ds) n) as [v|] eqn:E; [|done]. intros [= <-]. apply (proj2 (proj2 (Hc n v E))).
Qed.
Lemma read_group_tree ds delayed sel : storable ds -> exists ds', read_group (group_tree ds) delayed sel = Ok ds' /\ reads_as delayed sel ds ds'.
Proof.
  intros Hs. destruct (read_group_ok (group_tree ds) _ _ delayed sel (dget (d_dims ds)) (holds_group_tree ds Hs)) as (ds' & E & H1 & H2 & H3 & _ & _ & H4).
  - apply agree_stored, Hs.
  - intros n v'. rewrite dget_stored. destruct (dget (d_vars ds) n) as [v|] eqn:E; [|done]. intros [= <-]. cbn.
    apply (proper_arrays _ (storable_proper _ Hs)). eapply vals_elem. by apply dget_elem.
  - exists ds'. split; [done|]. split; [|done..]. intros n v. rewrite H4. split; intros (Hw & v0 & E0 & ->); (split; [done|]).
    + rewrite dget_stored in E0. destruct (dget (d_vars ds) n) as [v1|]; [|done]. injection E0 as <-. by exists v1.
    + exists (stored v0). by rewrite dget_stored, E0.
Qed.
