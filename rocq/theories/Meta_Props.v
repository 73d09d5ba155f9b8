(** * Metadata: configuration round trip (C17), selections (C47) *)
From Verif Require Import Py Order Dict NdArray_Model Dataset_Model Dataset_Spec Meta_Model Meta_Spec.

(** ** Lemmas *)
Lemma attr_lt_order : strict_order attr_lt.
Proof. apply pair_lt_order; apply str_lt_order. Qed.
Lemma sort_attrs_perm l : sort_attrs l ≡ₚ l.
Proof. apply sorted_by_perm. Qed.
Lemma sort_attrs_iff l m : sort_attrs l = sort_attrs m <-> l ≡ₚ m.
Proof.
  split.
  - intros E. by rewrite <-(sort_attrs_perm l), E, sort_attrs_perm.
  - intros E. by apply (sorted_by_unique _ attr_lt_order).
Qed.
Lemma sort_attrs_idem l : sort_attrs (sort_attrs l) = sort_attrs l.
Proof. apply sort_attrs_iff, sort_attrs_perm. Qed.

Lemma encode_fill_inj f g : encode_fill_value f = encode_fill_value g -> f = g.
Proof. by destruct f as [[|]|], g as [[|]|]; cbn; intros [=]; subst. Qed.
Lemma decode_encode_fill f : decode_fill_value (encode_fill_value f) = Ok f.
Proof. by destruct f as [[|]|]. Qed.

Lemma mv_config_iff v w : mv_get_config v = mv_get_config w <-> same_variable v w.
Proof.
  unfold mv_get_config. split.
  - intros [= E1 E2 E3 E4 E5 E6 E7]. split; try done; [by apply sort_attrs_iff|by apply encode_fill_inj].
  - intros [E1 E2 E3 E4 E5 E6 E7]. apply sort_attrs_iff in E4. congruence.
Qed.
Lemma mv_round_trip v : exists w, mv_from_config (mv_get_config v) = Ok w /\ same_variable v w /\ mv_attrs w = sort_attrs (mv_attrs v).
Proof.
  unfold mv_from_config, mv_get_config. cbn. rewrite decode_encode_fill. cbn. eexists. split; [done|].
  split; [|done]. split; cbn; try done. by rewrite sort_attrs_perm.
Qed.

Definition sorted_vars (m : mdataset) : list (str * mvar) := sorted_by str_lt fst (md_vars m).
Lemma sorted_vars_perm m : sorted_vars m ≡ₚ md_vars m.
Proof. apply sorted_by_perm. Qed.
Lemma nodup_fst_inj {V} (d : list (str * V)) x y : NoDup (dkeys d) -> x ∈ d -> y ∈ d -> x.1 = y.1 -> x = y.
Proof.
  intros Nd Hx Hy E. destruct x as [k v], y as [k' v']. cbn in E. subst k'.
  pose proof (elem_dget _ _ _ Nd Hx). pose proof (elem_dget _ _ _ Nd Hy). congruence.
Qed.
Lemma sorted_vars_keys m : NoDup (dkeys (md_vars m)) -> NoDup (dkeys (sorted_vars m)).
Proof. intros H. unfold dkeys in *. by rewrite (sorted_vars_perm m). Qed.
Lemma dget_perm {V} (d e : list (str * V)) k : NoDup (dkeys d) -> d ≡ₚ e -> dget d k = dget e k.
Proof.
  intros Nd E. assert (Ne : NoDup (dkeys e)) by (unfold dkeys in *; by rewrite <-E).
  destruct (dget d k) as [v|] eqn:Ed.
  - apply dget_elem in Ed. rewrite E in Ed. symmetry. by apply elem_dget.
  - apply dget_None in Ed. symmetry. apply dget_None. unfold dkeys in *. by rewrite <-E.
Qed.
(** Sorted dictionaries with the same keys have the same list of keys. *)
Lemma sorted_keys {V} (d : list (str * V)) : NoDup (dkeys d) -> map fst (sorted_by str_lt fst d) = sorted_by str_lt id (dkeys d).
Proof.
  intros Nd. apply (sorted_unique_by str_lt str_lt_order id).
  - pose proof (sorted_by_sorted str_lt str_lt_order fst d) as H. induction H as [|x l Hl IH Hx]; cbn; constructor; [done|].
    apply Forall_forall. intros k Hk. apply elem_of_list_fmap in Hk as (y & -> & Hy). by eapply Forall_forall in Hx.
  - by apply sorted_by_sorted, str_lt_order.
  - rewrite sorted_by_perm. symmetry. apply sorted_by_perm.
  - by intros.
Qed.

Lemma traverse_configs (l : list (str * mvar)) : exists ws, traverse mv_from_config (map (fun nv => mv_get_config nv.2) l) = Ok ws /\
  Forall2 (fun nv w => same_variable nv.2 w) l ws.
Proof.
  induction l as [|[k v] l (ws & E & F)]; [by exists []|].
  destruct (mv_round_trip v) as (w & E' & S & _). exists (w :: ws). cbn [map traverse snd]. rewrite E'. cbn [rbind]. rewrite E.
  split; [done|]. by constructor.
Qed.

Lemma block_or_default_id z : z <> 0%Z -> block_or_default (Some z) = z.
Proof. intros H. cbn. destruct (z =? 0)%Z eqn:E; [by apply Z.eqb_eq in E|done]. Qed.

Lemma forall2_dget (l : list (str * mvar)) (ws : list mvar) :
  NoDup (dkeys l) -> (forall k v, (k, v) ∈ l -> mv_name v = k) -> Forall2 (fun nv w => same_variable nv.2 w) l ws ->
  dict_of (map (fun v => (mv_name v, v)) ws) = map (fun v => (mv_name v, v)) ws /\
  dkeys (map (fun v => (mv_name v, v)) ws) = dkeys l /\
  (forall k v w, dget l k = Some v -> dget (map (fun v => (mv_name v, v)) ws) k = Some w -> same_variable v w).
Proof.
  intros Nd Hn F.
  assert (Hk : dkeys (map (fun v => (mv_name v, v)) ws) = dkeys l).
  { unfold dkeys. rewrite map_map. cbn. clear Nd. induction F as [|[k v] w l ws S F IH]; [done|]. cbn.
    f_equal; [|apply IH; intros; apply Hn; by right]. rewrite <-(sv_name _ _ S). cbn. apply Hn. by left. }
  split_and!; [|done|].
  - apply dict_of_id. unfold dkeys in *. by rewrite Hk.
  - clear Nd. revert Hn. induction F as [|[k' v'] w' l ws S F IH]; intros Hn k v w; [done|]. cbn in Hk |- *.
    injection Hk as E1 E2. rewrite E1. destruct (decide (k = k')); [intros [= ->] [= ->]; done|].
    apply IH; [done|]. intros; apply Hn; by right.
Qed.

(** ** C17 *)
(** Metadata are well formed whatever they are built from, and stay so. *)
Theorem C17_well_formed :
  (forall dims vars attrs chunks block, well_formed (mk_mdataset dims vars attrs chunks block)) /\
  (forall m v m', well_formed m -> md_add_variable m v = Ok m' -> well_formed m') /\
  (forall m name, well_formed m -> well_formed (md_del_variable m name)).
Proof.
  split_and!.
  - intros. split; cbn.
    + apply dict_of_NoDup.
    + intros k v H%dict_of_elem. apply elem_of_list_In, in_map_iff in H as (w & [= <- <-] & _). done.
    + destruct block as [z|]; cbn; [|done]. destruct (z =? 0)%Z eqn:E; [done|]. by apply Z.eqb_neq in E.
  - intros m v m' [H1 H2 H3] E. unfold md_add_variable in E. destruct (dmem _ _); [done|].
    destruct (negb _); [done|]. injection E as <-. split; cbn; [by apply dset_NoDup| |done].
    intros k w. rewrite dget_dset. destruct (decide _); [by intros [= ->]; subst|apply H2].
  - intros m name [H1 H2 H3]. split; cbn; [by apply ddel_NoDup| |done].
    intros k w. destruct (decide (k = name)) as [->|]; [by rewrite dget_ddel_eq|rewrite dget_ddel_ne; [apply H2|done]].
Qed.

(** The configuration written for metadata reads back as the same metadata. *)
Theorem C17_round_trip m : well_formed m ->
  exists m', md_from_config (md_get_config m) = Ok m' /\ same_metadata m m' /\ md_get_config m' = md_get_config m.
Proof.
  intros [Nd Hn Hb]. unfold md_from_config, md_get_config. cbn.
  fold (sorted_vars m). destruct (traverse_configs (sorted_vars m)) as (ws & E & F). rewrite E. cbn [rbind].
  eexists. split; [done|].
  assert (Nd' := sorted_vars_keys _ Nd).
  assert (Hn' : forall k v, (k, v) ∈ sorted_vars m -> mv_name v = k).
  { intros k v H. apply Hn. apply elem_dget; [done|]. by rewrite <-sorted_vars_perm. }
  destruct (forall2_dget _ _ Nd' Hn' F) as (D & K & G).
  unfold mk_mdataset. rewrite D.
  assert (S : same_metadata m (MDataset (md_dims m) (map (λ v : mvar, (mv_name v, v)) ws) (sort_attrs (md_attrs m)) (md_chunks m)
     (block_or_default (Some (md_block m))))).
  { split; cbn [md_dims md_attrs md_chunks md_block md_vars]; [done|by rewrite sort_attrs_perm|done|by rewrite block_or_default_id| |].
    - intros k. rewrite K. unfold dkeys. by rewrite (sorted_vars_perm m).
    - intros k v w H1 H2. apply (G k); [|done]. rewrite <-H1. symmetry. apply dget_perm; [done|]. symmetry. apply sorted_vars_perm. }
  split; [done|]. cbn [md_dims md_attrs md_chunks md_block md_vars]. f_equal.
  - apply sort_attrs_idem.
  - rewrite sorted_by_id; [|apply str_lt_order| |].
    + rewrite map_map. cbn. clear -F. induction F as [|x w l ws S F IH]; [done|]. cbn. f_equal; [|done].
      symmetry. by apply mv_config_iff.
    + pose proof (sorted_by_sorted str_lt str_lt_order fst (md_vars m)) as Hs. fold (sorted_vars m) in Hs.
      clear -Hs K. revert ws K. induction Hs as [|x l Hl IH Hx]; intros [|w ws] K; try done; cbn; constructor.
      * apply IH. cbn in K. by injection K.
      * cbn in K. injection K as K1 K2. apply Forall_forall. intros y Hy. unfold key_le. cbn. rewrite K1.
        assert (Hy' : y.1 ∈ dkeys l). { unfold dkeys. rewrite <-K2. apply elem_of_list_In, in_map. by apply elem_of_list_In. }
        unfold dkeys in Hy'. apply elem_of_list_In, in_map_iff in Hy' as (z & <- & Hz%elem_of_list_In).
        by eapply Forall_forall in Hx.
    + intros x y. apply nodup_fst_inj. by rewrite K.
  - by rewrite block_or_default_id.
Qed.

(** [==] holds exactly between the same metadata. *)
Theorem C17_equality m n : well_formed m -> well_formed n -> md_eq m n = true <-> same_metadata m n.
Proof.
  intros Wm Wn. unfold md_eq. rewrite bool_decide_eq_true. unfold md_get_config. split.
  - intros [= E1 E2 E3 E4 E5].
    fold (sorted_vars m) in E3. fold (sorted_vars n) in E3.
    assert (Hk : dkeys (sorted_vars m) = dkeys (sorted_vars n)).
    { assert (forall q, well_formed q -> dkeys (sorted_vars q) = map vc_name (map (fun nv => mv_get_config nv.2) (sorted_vars q))) as Hq.
      { intros q Wq. rewrite map_map. unfold dkeys. apply map_ext_in. intros [k v] H. cbn. symmetry. apply (wf_names _ Wq).
        apply elem_dget; [apply Wq|]. rewrite <-sorted_vars_perm. by apply elem_of_list_In. }
      rewrite !Hq by done. by rewrite E3. }
    split; [done|by apply sort_attrs_iff|done|done| |].
    + intros k. assert (Hp : forall q, k ∈ dkeys (md_vars q) <-> k ∈ dkeys (sorted_vars q)).
      { intros q. unfold dkeys. by rewrite (sorted_vars_perm q). }
      by rewrite !Hp, Hk.
    + intros k v w H1 H2.
      rewrite (dget_perm _ (sorted_vars m)) in H1 by first [apply Wm|symmetry; apply sorted_vars_perm].
      rewrite (dget_perm _ (sorted_vars n)) in H2 by first [apply Wn|symmetry; apply sorted_vars_perm].
      apply mv_config_iff. clear -E3 Hk H1 H2. revert E3 Hk H1 H2. generalize (sorted_vars m), (sorted_vars n), mv_get_config.
      intros l l' f. revert l'. induction l as [|[a x] l IH]; intros [|[b y] l']; try done. cbn. intros [= E3 E3'] [= -> E4].
      destruct (decide (k = b)); [by intros [= ->] [= ->]|by apply IH].
  - intros [H1 H2 H3 H4 H5 H6]. f_equal; try congruence; [by apply sort_attrs_iff|].
    assert (Hkeys : map fst (sorted_vars m) = map fst (sorted_vars n)).
    { unfold sorted_vars. rewrite !sorted_keys by (apply Wm || apply Wn). apply (sorted_by_unique _ str_lt_order); [|by intros].
      apply NoDup_Permutation; [apply Wm|apply Wn|done]. }
    fold (sorted_vars m) (sorted_vars n).
    assert (Hv : forall k v w, (k, v) ∈ sorted_vars m -> (k, w) ∈ sorted_vars n -> mv_get_config v = mv_get_config w).
    { intros k v w Hv Hw. apply mv_config_iff. rewrite sorted_vars_perm in Hv, Hw.
      apply (H6 k); apply elem_dget; try done; [apply Wm|apply Wn]. }
    revert Hkeys Hv. generalize (sorted_vars m), (sorted_vars n). intros l.
    induction l as [|[a x] l IH]; intros [|[b y] l']; try done. cbn. intros [= -> E] Hv. f_equal.
    + apply (Hv b); by left.
    + apply IH; [done|]. intros k v w Hv1 Hv2. apply (Hv k); by right.
Qed.

(** A configuration written before chunks and block limits existed. *)
Theorem C17_older c m : dc_chunks c = None -> dc_block c = None -> md_from_config c = Ok m ->
  md_chunks m = [] /\ md_block m = 134217728%Z /\ md_dims m = dc_dims c /\ md_attrs m = dc_attrs c.
Proof. unfold md_from_config. intros -> ->. destruct (traverse _ _); cbn; [|done]. by intros [= <-]. Qed.

(** A fill value that is not one is refused. *)
Theorem C17_bad_fill c s : vc_fill c = Some (JStr s) -> s <> lit "NaN" -> mv_from_config c = Raise ValueError.
Proof. unfold mv_from_config. intros -> H. cbn. by rewrite decide_False. Qed.

(** The metadata of a dataset describe it. *)
Theorem C17_of_dataset ds : (forall k v, dget (d_vars ds) k = Some v -> v_name v = k) -> NoDup (dkeys (d_vars ds)) -> d_block ds <> 0%Z ->
  md_dims (ds_metadata ds) = dkeys (d_dims ds) /\ md_attrs (ds_metadata ds) = d_attrs ds /\
  md_chunks (ds_metadata ds) = d_chunks ds /\ md_block (ds_metadata ds) = d_block ds /\
  (forall k, dget (md_vars (ds_metadata ds)) k =
     match dget (d_vars ds) k with
     | Some v => Some (MVar k (v_dtype v) (v_dims v) (v_attrs v) (v_compressor v) (v_fill v) (v_filters v))
     | None => None
     end).
Proof.
  intros Hn Nd Hb. split_and!; [done..|by apply block_or_default_id|]. intros k. unfold ds_metadata, mk_mdataset. cbn [md_vars].
  rewrite map_map.
  assert (E : map (fun v => (mv_name (v_metadata v), v_metadata v)) (dvals (d_vars ds)) = map (fun nv => (nv.1, v_metadata nv.2)) (d_vars ds)).
  { unfold dvals. rewrite map_map. apply map_ext_in. intros [k' v] H. cbn. f_equal. apply Hn, elem_dget; [done|by apply elem_of_list_In]. }
  rewrite E. rewrite dict_of_id by (rewrite map_map; exact Nd).
  assert (Hn' : forall k v, (k, v) ∈ d_vars ds -> v_name v = k) by (intros; apply Hn, elem_dget; done).
  clear -Hn'. induction (d_vars ds) as [|[a x] l IH]; [done|]. cbn. destruct (decide (k = a)) as [->|].
  - f_equal. unfold v_metadata. f_equal. apply Hn'. by left.
  - apply IH. intros; apply Hn'. by right.
Qed.

(** [fill_attrs] gives a dataset and its variables the attributes of the
    metadata, and a variable unknown to them is a KeyError. *)
Theorem C17_fill_attrs ds m :
  (forall k, k ∈ dkeys (d_vars ds) -> k ∈ dkeys (md_vars m)) ->
  exists ds', ds_fill_attrs ds m = Ok ds' /\ d_attrs ds' = md_attrs m /\ d_dims ds' = d_dims ds /\
    d_chunks ds' = d_chunks ds /\ d_block ds' = d_block ds /\ dkeys (d_vars ds') = dkeys (d_vars ds) /\
    (forall k v mv, dget (d_vars ds) k = Some v -> dget (md_vars m) k = Some mv -> dget (d_vars ds') k = Some (with_attrs v (mv_attrs mv))).
Proof.
  intros H. unfold ds_fill_attrs.
  assert (T : exists vars, traverse (fun nv : str * variable => match dget (md_vars m) nv.1 with
    | Some mv => Ok (nv.1, with_attrs nv.2 (mv_attrs mv)) | None => Raise KeyError end) (d_vars ds) = Ok vars /\ dkeys vars = dkeys (d_vars ds) /\
    (forall k v mv, dget (d_vars ds) k = Some v -> dget (md_vars m) k = Some mv -> dget vars k = Some (with_attrs v (mv_attrs mv)))).
  { induction (d_vars ds) as [|[a x] l IH]; [by exists []|]. destruct IH as (vars & E & K & G); [intros k Hk; apply H; by right|].
    assert (Ha : a ∈ dkeys (md_vars m)) by (apply H; by left). apply dget_is_Some in Ha as [mv Hmv].
    exists ((a, with_attrs x (mv_attrs mv)) :: vars). cbn [traverse fst snd]. rewrite Hmv. cbn [rbind]. rewrite E. cbn [rbind].
    split_and!; [done|unfold dkeys in *; cbn; by rewrite K|]. intros k v mv'. cbn. destruct (decide (k = a)) as [->|]; [|apply G].
    intros [= ->]. rewrite Hmv. by intros [= ->]. }
  destruct T as (vars & -> & K & G). cbn [rbind]. eexists. by split_and!.
Qed.
Theorem C17_fill_attrs_unknown ds m k : k ∈ dkeys (d_vars ds) -> k ∉ dkeys (md_vars m) -> ds_fill_attrs ds m = Raise KeyError.
Proof.
  intros H1 H2. unfold ds_fill_attrs. apply dget_None in H2.
  assert (T : traverse (fun nv : str * variable => match dget (md_vars m) nv.1 with
    | Some mv => Ok (nv.1, with_attrs nv.2 (mv_attrs mv)) | None => Raise KeyError end) (d_vars ds) = Raise KeyError); [|by rewrite T].
  induction (d_vars ds) as [|[a x] l IH]; [by apply elem_of_nil in H1|]. cbn [traverse fst snd].
  apply elem_of_cons in H1 as [->|H1]; cbn [fst] in *; [by rewrite H2|].
  destruct (dget (md_vars m) a); [|done]. cbn [rbind]. by rewrite IH.
Qed.

(** ** C47 *)
Theorem C47_select_variables m keep drop : NoDup (dkeys (md_vars m)) ->
  NoDup (md_select_variables m keep drop) /\
  (forall n, n ∈ md_select_variables m keep drop <->
     n ∈ dkeys (md_vars m) /\ (forall l, keep = Some l -> n ∈ l) /\ (forall l, drop = Some l -> n ∉ l)).
Proof.
  intros Nd. assert (Nf : forall (f : str -> bool) l, NoDup l -> NoDup (List.filter f l)).
  { intros f l H. apply NoDup_ListNoDup. apply List.NoDup_filter. by apply NoDup_ListNoDup. }
  assert (Ef : forall (f : str -> bool) l n, n ∈ List.filter f l <-> n ∈ l /\ f n = true).
  { intros. rewrite !elem_of_list_In. apply List.filter_In. }
  unfold md_select_variables. split; [destruct keep, drop; auto|]. intros n.
  destruct keep as [kl|], drop as [dl|]; rewrite ?Ef, ?negb_true_iff; unfold memb; rewrite ?bool_decide_eq_true, ?bool_decide_eq_false; naive_solver.
Qed.
Theorem C47_select_by_dims m dims predicate : NoDup (dkeys (md_vars m)) -> forall n, n ∈ md_select_variables_by_dims m dims predicate <->
  exists v, dget (md_vars m) n = Some v /\
    (predicate = true <-> (dims = [] /\ mv_dims v = []) \/ exists d, d ∈ dims /\ d ∈ mv_dims v).
Proof.
  intros Nd n. unfold md_select_variables_by_dims. rewrite elem_of_list_In, in_map_iff.
  assert (Hc : forall v, dims_condition dims predicate (mv_dims v) = true <->
    (predicate = true <-> (dims = [] /\ mv_dims v = []) \/ exists d, d ∈ dims /\ d ∈ mv_dims v)).
  { intros v. unfold dims_condition. destruct dims as [|d0 dims'].
    - rewrite eqb_true_iff. destruct (mv_dims v) eqn:E; cbn; destruct predicate; split; try done; intros H; [by split; [left|]|..].
      + exfalso. assert (false = true); [|done]. apply H. by left.
      + by destruct H as [H _]; destruct (H eq_refl) as [[_ [=]]|(d & Hd & _)]; apply elem_of_nil in Hd.
      + split; [done|]. intros [[_ [=]]|(d & Hd & _)]; by apply elem_of_nil in Hd.
    - rewrite eqb_true_iff. destruct (existsb _ _) eqn:E.
      + apply existsb_exists in E as (d & Hd & Hm). unfold memb in Hm. apply bool_decide_eq_true in Hm.
        apply elem_of_list_In in Hd. split; [intros <-; split; [right; by exists d|done]|]. intros H. symmetry. apply H. right. by exists d.
      + split.
        * intros <-. split; [done|]. intros [[? _]|(d & Hd & Hd')]; [done|]. exfalso.
          assert (existsb (fun d => memb d (d0 :: dims')) (mv_dims v) = true); [|congruence].
          apply existsb_exists. exists d. split; [by apply elem_of_list_In|]. by apply bool_decide_eq_true.
        * intros H. destruct predicate; [|done]. exfalso. destruct (proj1 H eq_refl) as [[? _]|(d & Hd & Hd')]; [done|].
          assert (existsb (fun d => memb d (d0 :: dims')) (mv_dims v) = true); [|congruence].
          apply existsb_exists. exists d. split; [by apply elem_of_list_In|]. by apply bool_decide_eq_true. }
  split.
  - intros ([k v] & <- & [H1 H2]%List.filter_In). exists v. split; [apply elem_dget; [done|by apply elem_of_list_In]|by apply Hc].
  - intros (v & H1 & H2). exists (n, v). split; [done|]. apply List.filter_In. split; [by apply elem_of_list_In, dget_elem|by apply Hc].
Qed.
Theorem C47_missing m other : NoDup (dkeys (md_vars m)) ->
  ((exists n, n ∈ dkeys (md_vars other) /\ n ∉ dkeys (md_vars m)) -> md_missing_variables m other = Raise ValueError) /\
  ((forall n, n ∈ dkeys (md_vars other) -> n ∈ dkeys (md_vars m)) ->
    exists l, md_missing_variables m other = Ok l /\ NoDup l /\ (forall n, n ∈ l <-> n ∈ dkeys (md_vars m) /\ n ∉ dkeys (md_vars other))).
Proof.
  intros Nd. unfold md_missing_variables. split.
  - intros (n & H1 & H2). destruct (forallb _ _) eqn:E; [|done]. exfalso. rewrite forallb_forall in E.
    apply elem_of_list_In in H1. specialize (E _ H1). by apply bool_decide_eq_true in E.
  - intros H. replace (forallb _ _) with true.
    + eexists. split; [done|]. split; [apply NoDup_ListNoDup, List.NoDup_filter; by apply NoDup_ListNoDup|].
      intros n. rewrite !elem_of_list_In, List.filter_In, <-!elem_of_list_In, negb_true_iff. unfold memb. by rewrite bool_decide_eq_false.
    + symmetry. apply forallb_forall. intros n Hn. apply bool_decide_eq_true, H. by apply elem_of_list_In.
Qed.
(** The variable found has the dimensions asked for and is the first one. *)
Theorem C47_same_dimensions m v :
  match md_search_same_dimensions_as m v with
  | Ok w => exists before after, dvals (md_vars m) = before ++ w :: after /\ mv_dims w = mv_dims v /\ forall u, u ∈ before -> mv_dims u <> mv_dims v
  | Raise e => e = ValueError /\ forall u, u ∈ dvals (md_vars m) -> mv_dims u <> mv_dims v
  end.
Proof.
  unfold md_search_same_dimensions_as. induction (dvals (md_vars m)) as [|w l IH]; cbn.
  - split; [done|]. intros u H. by apply elem_of_nil in H.
  - case_bool_decide as Ew.
    + exists [], l. split_and!; [done..|]. intros u H. by apply elem_of_nil in H.
    + destruct (find _ l) as [w'|]; [destruct IH as (b & a & E1 & E2 & E3); exists (w :: b), a; rewrite E1; split_and!; [done..|]|split; [done|]];
        intros u Hu; apply elem_of_cons in Hu as [->|Hu]; try done; naive_solver.
Qed.
(** Adding a variable to the metadata; deleting it again. *)
Theorem C47_add_variable m v :
  (mv_name v ∈ dkeys (md_vars m) -> md_add_variable m v = Raise ValueError) /\
  ((exists d, d ∈ mv_dims v /\ d ∉ md_dims m) -> md_add_variable m v = Raise ValueError) /\
  (mv_name v ∉ dkeys (md_vars m) -> (forall d, d ∈ mv_dims v -> d ∈ md_dims m) ->
   exists m', md_add_variable m v = Ok m' /\ md_vars m' = md_vars m ++ [(mv_name v, v)] /\ md_dims m' = md_dims m /\ md_attrs m' = md_attrs m /\
     md_chunks m' = md_chunks m /\ md_block m' = md_block m /\ md_del_variable m' (mv_name v) = m).
Proof.
  unfold md_add_variable. split_and!.
  - intros H. apply dmem_true in H. by rewrite H.
  - intros (d & H1 & H2). destruct (dmem _ _); [done|]. destruct (forallb _ _) eqn:E; [|done]. exfalso.
    rewrite forallb_forall in E. apply elem_of_list_In in H1. specialize (E _ H1). by apply bool_decide_eq_true in E.
  - intros H1 H2. rewrite (proj2 (dmem_false _ _) H1). replace (forallb _ _) with true.
    + cbn. eexists. split; [done|]. cbn. rewrite dset_new by done. split_and!; [done..|]. unfold md_del_variable. cbn.
      rewrite <-dset_new by done. rewrite ddel_dset_new by done. by destruct m.
    + symmetry. apply forallb_forall. intros n Hn. apply bool_decide_eq_true, H2. by apply elem_of_list_In.
Qed.
(** What the collection inserts: the same variable without attributes. *)
Theorem C47_set_for_insertion v : same_variable (MVar (mv_name v) (mv_dtype v) (mv_dims v) [] (mv_compressor v) (mv_fill v) (mv_filters v)) (mv_set_for_insertion v).
Proof. by split. Qed.

(** ** A case: metadata with two variables, given out of order *)
Definition sample_meta : mdataset :=
  mk_mdataset [lit "num"; lit "x"]
    [MVar (lit "var") (lit "<f8") [lit "num"; lit "x"] [(lit "units", lit "m"); (lit "long_name", lit "height")] (Some (lit "zlib")) (Some NaN) [];
     MVar (lit "time") (lit "<M8[s]") [lit "num"] [] None (Some (Num 7)) [lit "delta"]]
    [(lit "title", lit "t"); (lit "author", lit "a")] [(lit "num", 10)] None.
Example C17_case : match md_from_config (md_get_config sample_meta) with
  | Ok m' => md_eq sample_meta m' = true /\ dkeys (md_vars m') = [lit "time"; lit "var"] /\ md_block m' = 134217728%Z
  | Raise _ => False
  end /\
  rmap mv_name (md_search_same_dimensions_as sample_meta (MVar (lit "z") (lit "i") [lit "num"] [] None None [])) = Ok (lit "time") /\
  md_select_variables_by_dims sample_meta [lit "x"] true = [lit "var"] /\
  md_select_variables sample_meta (Some [lit "time"; lit "var"]) (Some [lit "var"]) = [lit "time"].
Proof. vm_compute. by split_and!. Qed.
Lemma sample_meta_well_formed : well_formed sample_meta.
Proof. apply C17_well_formed. Qed.

Print Assumptions C17_well_formed.
Print Assumptions C17_round_trip.
Print Assumptions C17_equality.
Print Assumptions C17_older.
Print Assumptions C17_bad_fill.
Print Assumptions C17_of_dataset.
Print Assumptions C17_fill_attrs.
Print Assumptions C17_fill_attrs_unknown.
Print Assumptions C47_select_variables.
Print Assumptions C47_select_by_dims.
Print Assumptions C47_missing.
Print Assumptions C47_same_dimensions.
Print Assumptions C47_add_variable.
Print Assumptions C47_set_for_insertion.
