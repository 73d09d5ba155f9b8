(** * C06, C07: listing and selecting the partitions *)
From Verif Require Import Py Dict Order PartPath_Model PartPath_Proofs PartPath_Props Split_Spec Split_Proofs NdArray_Model NdArray_Proofs
  FS_Model FS_Proofs Listing_Model Listing_Spec Listing_Proofs Listing_Expr.

(** ** C06 *)

(** Whatever the content of the file system and the order in which it lists
    directories, [partitions()] either yields exactly the entries that count as
    partitions, each once, in the numeric order of their keys; or raises
    ValueError because the name of one of them is not one of a partition. *)
Theorem C06_listing {C} (order : list str -> list str) (p : partitioning) (d : path) (t : fs C) :
  (forall l, order l ≡ₚ l) -> tree t -> p_keys p <> [] ->
  match partitions order p d None None NoFilter t with
  | Ok l => NoDup l /\ (forall q, q ∈ l <-> listed (p_len p) t d q) /\
      exists ks, Forall2 (fun q k => p_parse p (path_str q) = Ok k) l ks /\
        forall i j a b, i < j -> ks !! i = Some a -> ks !! j = Some b -> row_lt (map snd a) (map snd b) \/ a = b
  | Raise e => e = ValueError /\ exists q, listed (p_len p) t d q /\ p_parse p (path_str q) = Raise ValueError
  end.
Proof.
  intros Ho Ht Hk. unfold partitions.
  assert (Hf : forall l : list path, filter_res (fun item => if bool_decide (Some item = None) then Ok false
      else is_selected p NoFilter (str_remove (path_str d) (path_str item))) l = Ok l).
  { induction l as [|x l IH]; [done|]. cbn [filter_res]. rewrite IH. done. }
  assert (Htr : tree_root (p_len p) t d) by (intros a _; by apply tree_tree_to).
  unfold list_partitions. set (l := list_root order (p_len p) t d).
  assert (Hl : forall q, q ∈ l <-> listed (p_len p) t d q) by (intros q; by apply list_root_elem).
  assert (Hn : NoDup l) by (by apply list_root_nodup).
  destruct (traverse _ l) as [keyed|e] eqn:E; cbn [rbind].
  - rewrite Hf. apply keyed_spec in E as [E1 E2].
    set (s := sorted_by scheme_lt fst keyed).
    assert (Hperm : map snd s ≡ₚ l) by (rewrite <-E1; apply (fmap_Permutation snd), sorted_by_perm).
    split_and!; [by rewrite Hperm|intros q; by rewrite Hperm|].
    exists (map fst s). split.
    + assert (E3 : Forall (fun kq => p_parse p (path_str kq.2) = Ok kq.1) s) by (unfold s; by rewrite sorted_by_perm).
      clear -E3. induction E3; constructor; done.
    + assert (Hs : StronglySorted (key_le scheme_lt fst) s) by apply sorted_by_sorted, scheme_order.
      intros i j a b Hij Ha Hb. change (map fst s) with (fst <$> s) in Ha, Hb.
      rewrite list_lookup_fmap in Ha, Hb.
      destruct (s !! i) as [x|] eqn:Ex; [|done]. destruct (s !! j) as [y|] eqn:Ey; [|done].
      cbn in Ha, Hb. injection Ha as <-. injection Hb as <-.
      assert (Hle : key_le scheme_lt fst x y) by (by apply (proj1 (StronglySorted_lookup _ _) Hs i j)).
      assert (E3 : Forall (fun kq => p_parse p (path_str kq.2) = Ok kq.1) s) by (unfold s; by rewrite sorted_by_perm).
      rewrite Forall_lookup in E3. pose proof (E3 _ _ Ex) as Px. pose proof (E3 _ _ Ey) as Py.
      destruct (C03_parse_sound _ _ _ Hk Px) as [Fx _], (C03_parse_sound _ _ _ Hk Py) as [Fy _].
      unfold key_le in Hle. destruct (scheme_lt x.1 y.1) eqn:El.
      * left. by apply (scheme_lt_rows (p_keys p)) in El.
      * right. by apply (so_total _ scheme_order).
  - clear Hn Hf. assert (Hq : exists q, q ∈ l /\ p_parse p (path_str q) = Raise e).
    { clear -E. induction l as [|q l IH]; [done|]. cbn in E.
      destruct (p_parse p (path_str q)) as [k|e'] eqn:Eq; cbn in E.
      - destruct (traverse _ l) eqn:El; [done|]. cbn in E. injection E as ->.
        destruct (IH eq_refl) as (q' & ? & ?). exists q'. split; [by right|done].
      - injection E as ->. exists q. split; [by left|done]. }
    destruct Hq as (q & Hq & He).
    assert (e = ValueError) as ->.
    { unfold p_parse in He. destruct (search _ _) as [g|]; [|by injection He].
      clear -He. induction g as [|kv g IH]; [done|]. cbn in He.
      destruct (int_of kv.2) as [v|e'] eqn:Ei.
      - cbn in He. destruct (traverse _ g); [done|]. cbn in He. injection He as ->. by apply IH.
      - cbn in He. injection He as ->. unfold int_of in Ei.
        repeat (case_match; try done; cbn [rmap] in * ); congruence. }
    split; [done|]. exists q. split; [by apply Hl|done].
Qed.
Print Assumptions C06_listing.

(** In a well-formed collection directory, every partition directory is listed,
    once, in increasing order of the keys, and the result does not depend on the
    order in which the file system lists directories. *)
Theorem C06_partitions {C} (p : partitioning) (d : path) (t : fs C) :
  plain_keys p -> plain_path d -> laid_out p d t ->
  exists vss : list (list Z),
    (forall order, (forall l, order l ≡ₚ l) ->
       partitions order p d None None NoFilter t = Ok (map (fun v => d ++ key_dirs p v) vss)) /\
    (forall i j a b, i < j -> vss !! i = Some a -> vss !! j = Some b -> row_lt a b) /\
    (forall v, v ∈ vss <-> length v = length (p_keys p) /\ directory t (d ++ key_dirs p v)).
Proof.
  intros Hp Hd Ht.
  destruct (list_partitions_laid_out id ltac:(done) p d t Hp Hd Ht) as (vss & E & Hs & Hv).
  exists vss. split_and!; [|by apply StronglySorted_lookup|done].
  intros order Ho. destruct (list_partitions_laid_out order Ho p d t Hp Hd Ht) as (vss' & E' & Hs' & Hv').
  assert (vss' = vss) as ->.
  { apply (sorted_rows_unique (length (p_keys p))); [done..|by intros v [? _]%Hv'|]. intros v. by rewrite Hv, Hv'. }
  unfold partitions. rewrite E'. cbn [rbind].
  clear. induction (map (fun v => d ++ key_dirs p v) vss) as [|x l IH]; [done|]. cbn [filter_res]. by rewrite IH.
Qed.
Print Assumptions C06_partitions.

(** The keys of a directory are read back from its path. *)
Theorem C06_keys (p : partitioning) (d : path) (v : list Z) :
  plain_keys p -> plain_path d -> length v = length (p_keys p) ->
  p_parse p (path_str (d ++ key_dirs p v)) = Ok (zip (p_keys p) v) /\
  forall w, length w = length (p_keys p) -> key_dirs p v = key_dirs p w -> v = w.
Proof. intros. split; [by apply parse_key_dirs|]. intros w Hw E. by apply (key_dirs_inj p). Qed.
Print Assumptions C06_keys.

(** With [relative], the directory of the collection is taken off each path, and
    the keys can be read in what is left. *)
Theorem C06_strings (p : partitioning) (d : path) (vss : list (list Z)) :
  plain_keys p -> (forall v, v ∈ vss -> length v = length (p_keys p)) ->
  let items := map (fun v => d ++ key_dirs p v) vss in
  partition_strings d false items = map (fun s => path_str d ++ lit "/" ++ s) (partition_strings d true items) /\
  Forall2 (fun v s => p_parse p s = Ok (zip (p_keys p) v)) vss (partition_strings d true items).
Proof.
  intros Hp Hl. pose proof (plain_some _ Hp) as Hk. cbn zeta. unfold partition_strings. rewrite !map_map.
  assert (Hne : forall v, v ∈ vss -> key_dirs p v <> []).
  { intros v Hv E. apply Hk, length_zero_iff_nil. rewrite <-(key_dirs_length p v (Hl v Hv)). by rewrite E. }
  split.
  - apply map_ext_in. intros v Hv. apply elem_of_list_In in Hv. rewrite path_str_app, drop_app_le, drop_all, app_nil_l by done.
    by rewrite (path_str_join (key_dirs p v)) by (by apply Hne).
  - clear Hne. induction vss as [|v vss IH]; [constructor|]. cbn [map]. constructor; [|apply IH; intros; apply Hl; by right].
    rewrite drop_app_le, drop_all, app_nil_l by done. exact (C03_parse_join p [] v Hk (plain_no_eq _ Hp) (fun H => not_elem_of_nil _ H) (Hl v (elem_of_list_here _ _))).
Qed.
Print Assumptions C06_strings.

Definition C06_p : partitioning := Sequence [lit "cycle"; lit "pass"] [lit "int64"; lit "int64"].
Definition C06_d : path := [lit "data"; lit "c"].
Definition C06_t : fs nat :=
  list_to_map [(C06_d ++ [lit ".zcollection"], 0);
               (C06_d ++ [lit "cycle=10"; lit "pass=2"; lit ".zgroup"], 1);
               (C06_d ++ [lit "cycle=9"; lit "pass=11"; lit ".zgroup"], 1);
               (C06_d ++ [lit "cycle=9"; lit "pass=11"; lit "v"; lit "0"], 2);
               (C06_d ++ [lit "cycle=9"; lit "pass=2"; lit ".zgroup"], 1);
               (C06_d ++ [lit ".immutable"; lit ".zgroup"], 1)].
Example C06_example :
  plain_keys C06_p /\ plain_path C06_d /\ laid_out C06_p C06_d C06_t /\
  partitions (@rev str) C06_p C06_d None None NoFilter C06_t =
    Ok (map (fun v => C06_d ++ key_dirs C06_p v) [[9; 2]; [9; 11]; [10; 2]]%Z).
Proof.
  split_and!.
  - split; [done|done| |].
    + repeat constructor; cbn; try (by intros [? [=]]); apply (bool_decide_unpack _); by vm_compute.
    + apply (bool_decide_unpack _). by vm_compute.
  - repeat constructor; apply (bool_decide_unpack _); by vm_compute.
  - intros q c Hq. apply elem_of_list_to_map_2 in Hq.
    repeat (apply elem_of_cons in Hq as [Hq|Hq]); [..|by apply elem_of_nil in Hq];
      apply (f_equal fst) in Hq; cbn [fst] in Hq; apply (inj (C06_d ++.)) in Hq; subst q.
    + right. left. by do 2 eexists; split; [|eexists].
    + right. right. by exists [10; 2]%Z; do 2 eexists.
    + right. right. by exists [9; 11]%Z; do 2 eexists.
    + right. right. by exists [9; 11]%Z; do 2 eexists.
    + right. right. by exists [9; 2]%Z; do 2 eexists.
    + right. left. by do 2 eexists; split; [|eexists].
  - vm_compute; reflexivity.
Qed.

(** A directory of the root whose name is not one of a partition, such as the
    temporary directory left by an interrupted merge, makes the call fail. *)
Theorem C06_foreign_directory_refuted :
  let t : fs nat := <[C06_d ++ [lit "0a1b"; lit ".zgroup"] := 1]> C06_t in
  partitions id C06_p C06_d None None NoFilter t = Raise ValueError.
Proof. vm_compute; reflexivity. Qed.
Print Assumptions C06_foreign_directory_refuted.

(** ** C07 *)

(** The keys of a partition as a function of their names. *)
Definition keys_of (p : partitioning) (v : list Z) : str -> option Z := dget (zip (p_keys p) v).

(** The base directory, seen as a string, does not start a key directory. *)
Definition base_apart (p : partitioning) (d : path) : Prop :=
  d <> [] /\ forall k, k ∈ p_keys p -> ~ exists s, lit "/" ++ k = path_str d ++ s.

Lemma base_apart_strip p d : base_apart p d -> forall k, k ∈ p_keys p -> strip_prefix (path_str d) (lit "/" ++ k) = None.
Proof.
  intros [_ H] k Hk. destruct (strip_prefix _ _) as [s|] eqn:E; [|done].
  apply strip_prefix_spec in E. exfalso. apply (H k Hk). by exists s.
Qed.

(** What [partitions] does of a list of partitions, whatever the filter. *)
Lemma select_partitions {C} order (p : partitioning) (d : path) (f : filter) (t : fs C) vss :
  plain_keys p -> plain_path d -> base_apart p d ->
  Forall (fun v => length v = length (p_keys p)) vss ->
  list_partitions order p t d = Ok (map (fun v => d ++ key_dirs p v) vss) ->
  partitions order p d None None f t =
  filter_res (fun item => is_selected p f (str_remove (path_str d) (path_str item))) (map (fun v => d ++ key_dirs p v) vss).
Proof. intros Hp Hd Hb Hv E. unfold partitions. by rewrite E. Qed.

Lemma parse_relative p d v : plain_keys p -> plain_path d -> base_apart p d -> length v = length (p_keys p) ->
  p_parse p (str_remove (path_str d) (path_str (d ++ key_dirs p v))) = Ok (zip (p_keys p) v) /\
  dict_of (zip (p_keys p) v) = zip (p_keys p) v.
Proof.
  intros Hp Hd Hb Hv. rewrite str_remove_base; [|done|done|apply Hb|by apply base_apart_strip].
  split; [apply (parse_key_dirs p [] v); [done|constructor|done]|].
  apply dict_of_id. change (map fst (zip (p_keys p) v)) with ((zip (p_keys p) v).*1).
  rewrite fst_zip by lia. apply (plain_nodup _ Hp).
Qed.

Lemma select_keeps p d (f : filter) (P : list Z -> Prop) vss :
  Forall (fun v => length v = length (p_keys p)) vss ->
  (forall v, v ∈ vss -> exists b, is_selected p f (str_remove (path_str d) (path_str (d ++ key_dirs p v))) = Ok b /\ (b = true <-> P v)) ->
  exists l', filter_res (fun item => is_selected p f (str_remove (path_str d) (path_str item))) (map (fun v => d ++ key_dirs p v) vss)
    = Ok (map (fun v => d ++ key_dirs p v) l') /\ keeps P vss l'.
Proof.
  intros Hv H.
  destruct (filter_res_keeps (fun v => is_selected p f (str_remove (path_str d) (path_str (d ++ key_dirs p v)))) P vss H) as (l' & Hl & Hk).
  exists l'. split; [|done]. clear -Hl. revert l' Hl. induction vss as [|v vss IH]; intros l' Hl; cbn in *.
  - by injection Hl as <-.
  - destruct (is_selected _ _ _) as [b|]; [|done]. cbn in *.
    destruct (filter_res _ vss) as [r|]; [|done]. cbn in Hl. injection Hl as <-. rewrite (IH r eq_refl). cbn.
    by destruct b.
Qed.

(** With a filter, [partitions] yields, among the partitions it yields without
    filter and in the same order, those whose keys satisfy the filter: an
    expression that says [P], or a function that answers according to [P]. *)
Theorem C07_filter {C} order (p : partitioning) (d : path) (t : fs C) :
  (forall l, order l ≡ₚ l) -> plain_keys p -> plain_path d -> base_apart p d -> laid_out p d t ->
  lit "range" ∉ p_keys p ->
  exists vss, partitions order p d None None NoFilter t = Ok (map (fun v => d ++ key_dirs p v) vss) /\
    (forall e (P : list Z -> Prop), (forall v, v ∈ vss -> means (keys_of p v) e (P v)) ->
       exists l', partitions order p d None None (FExpr e) t = Ok (map (fun v => d ++ key_dirs p v) l') /\ keeps P vss l') /\
    (forall g (P : list Z -> Prop), (forall v, v ∈ vss -> exists b, g (zip (p_keys p) v) = Ok b /\ (b = true <-> P v)) ->
       exists l', partitions order p d None None (FFun g) t = Ok (map (fun v => d ++ key_dirs p v) l') /\ keeps P vss l').
Proof.
  intros Ho Hp Hd Hb Ht Hr.
  destruct (list_partitions_laid_out order Ho p d t Hp Hd Ht) as (vss & E & _ & Hv).
  assert (Hlen : Forall (fun v => length v = length (p_keys p)) vss) by (apply Forall_forall; intros v ?%Hv; tauto).
  exists vss. split_and!.
  - rewrite (select_partitions order p d NoFilter t vss) by done.
    clear. induction (map (fun v => d ++ key_dirs p v) vss) as [|x l IH]; [done|]. cbn [filter_res]. by rewrite IH.
  - intros e P Hm. rewrite (select_partitions order p d (FExpr e) t vss) by done.
    apply select_keeps; [done|]. intros v Hin. rewrite Forall_forall in Hlen.
    destruct (parse_relative p d v Hp Hd Hb (Hlen v Hin)) as [E1 E2]. cbn [is_selected]. rewrite E1. cbn [rbind]. rewrite E2.
    destruct (call_means (zip (p_keys p) v) e (P v)) as (w & Hw & Hi).
    + apply dget_None. unfold dkeys. change (map fst (zip (p_keys p) v)) with ((zip (p_keys p) v).*1).
      rewrite fst_zip by (rewrite (Hlen v Hin); lia). done.
    + by apply Hm.
    + rewrite Hw. cbn. by exists (truth w).
  - intros g P Hg. rewrite (select_partitions order p d (FFun g) t vss) by done.
    apply select_keeps; [done|]. intros v Hin. rewrite Forall_forall in Hlen.
    destruct (parse_relative p d v Hp Hd Hb (Hlen v Hin)) as [E1 E2]. cbn [is_selected]. rewrite E1. cbn [rbind]. rewrite E2.
    by apply Hg.
Qed.
Print Assumptions C07_filter.

(** A name in the expression that is neither a key nor [range] raises
    NameError, wherever it stands; and the value of the expression only depends
    on the keys it names. *)
Theorem C07_names {C} order (p : partitioning) (d : path) (t : fs C) (e : expr) (n : str) :
  (forall l, order l ≡ₚ l) -> plain_keys p -> plain_path d -> base_apart p d -> laid_out p d t ->
  n ∈ co_names e -> n <> lit "range" -> n ∉ p_keys p ->
  partitions order p d None None NoFilter t <> Ok [] ->
  partitions order p d None None (FExpr e) t = Raise NameError.
Proof.
  intros Ho Hp Hd Hb Ht Hn Hr Hk Hne.
  destruct (list_partitions_laid_out order Ho p d t Hp Hd Ht) as (vss & E & _ & Hv).
  assert (Hlen : Forall (fun v => length v = length (p_keys p)) vss) by (apply Forall_forall; intros v ?%Hv; tauto).
  rewrite (select_partitions order p d (FExpr e) t vss) by done.
  apply filter_res_raise.
  - intros x Hx. apply elem_of_list_In, in_map_iff in Hx as (v & <- & Hin). apply elem_of_list_In in Hin.
    rewrite Forall_forall in Hlen.
    destruct (parse_relative p d v Hp Hd Hb (Hlen v Hin)) as [E1 E2]. cbn [is_selected]. rewrite E1. cbn [rbind]. rewrite E2.
    rewrite locals_missing; [done|]. intros H. rewrite Forall_forall in H. destruct (H n Hn) as [?|H']; [done|].
    apply Hk. unfold dkeys in H'. change (map fst (zip (p_keys p) v)) with ((zip (p_keys p) v).*1) in H'.
    by rewrite fst_zip in H' by (rewrite (Hlen v Hin); lia).
  - intros El. apply Hne. rewrite (select_partitions order p d NoFilter t vss) by done. by rewrite El.
Qed.
Print Assumptions C07_names.

Theorem C07_only_names (e : expr) (k1 k2 : list (str * Z)) :
  (forall n, n ∈ co_names e -> n <> lit "range" -> dget k1 n = dget k2 n) ->
  call_expression e k1 = call_expression e k2.
Proof. apply call_agree. Qed.
Print Assumptions C07_only_names.

(** A call with a list of partitions ([cache]) filters that list instead of the
    file system. *)
Theorem C07_cache {C} order (p : partitioning) (d : path) (f : filter) (t t' : fs C) l :
  partitions order p d None None NoFilter t = Ok l ->
  partitions order p d None (Some l) f t' = partitions order p d None None f t.
Proof.
  unfold partitions. destruct (list_partitions order p t d) as [items|]; [|done]. cbn [rbind]. intros H.
  assert (l = items) as ->; [|done].
  assert (Ok l = Ok items) as [= ->]; [|done]. rewrite <-H. clear.
  induction items as [|x items IH]; [done|]. cbn [filter_res]. by rewrite IH.
Qed.
Print Assumptions C07_cache.

(** The filter "cycle == 9 and pass in range(1, 12, 2)". *)
Definition C07_e : expr :=
  EAnd (ECmp Eq (EName (lit "cycle")) (EInt 9))
       (EIn (EName (lit "pass")) (ECall (EName (lit "range")) [EInt 1; EInt 12; EInt 2])).
Example C07_example :
  base_apart C06_p C06_d /\ lit "range" ∉ p_keys C06_p /\
  (forall a b, means (keys_of C06_p [a; b]) C07_e (a = 9%Z /\ in_range b 1 12 2)) /\
  partitions id C06_p C06_d None None (FExpr C07_e) C06_t = Ok [C06_d ++ key_dirs C06_p [9; 11]%Z] /\
  partitions id C06_p C06_d None None (FExpr (EOr (EBool true) (EName (lit "day")))) C06_t = Raise NameError.
Proof.
  split_and!.
  - split; [done|]. intros k Hk [s E].
    repeat (apply elem_of_cons in Hk as [->|Hk]); [..|by apply elem_of_nil in Hk]; by vm_compute in E.
  - apply (bool_decide_unpack _). by vm_compute.
  - intros a b. unfold C07_e. constructor.
    + change (a = 9%Z) with (compares Eq a 9). by apply m_cmp.
    + apply (m_in _ _ b [EInt 1; EInt 12; EInt 2] [1; 12; 2]%Z (1, 12, 2)%Z); [done|by repeat constructor|by constructor].
  - vm_compute; reflexivity.
  - vm_compute; reflexivity.
Qed.

(** Without [base_apart]: the base directory is removed again inside the name of
    the key, which cannot be parsed any more. *)
Theorem C07_base_directory_refuted :
  let p := Sequence [lit "cycle"] [lit "int64"] in
  let d := [lit "c"] in
  let t : fs nat := <[d ++ [lit "cycle=1"; lit ".zgroup"] := 1]> ∅ in
  partitions id p d None None NoFilter t = Ok [d ++ key_dirs p [1%Z]] /\
  partitions id p d None None (FExpr (ECmp Eq (EName (lit "cycle")) (EInt 1))) t = Raise ValueError.
Proof. split; vm_compute; reflexivity. Qed.
Print Assumptions C07_base_directory_refuted.
