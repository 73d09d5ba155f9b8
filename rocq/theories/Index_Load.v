(** * Loading with an indexer (C34) *)
From Verif Require Import Py Dict Order NdArray_Model NdArray_Spec NdArray_Proofs Dataset_Model Dataset_Spec Dataset_Proofs Dataset_Concat Dataset_Main Dataset_Props Dataset_Props2 Meta_Model PartPath_Model PartPath_Proofs
  Split_Spec FS_Model FS_Proofs Storage_Model Storage_Spec Storage_Proofs Listing_Model Listing_Spec Listing_Proofs Listing_Expr Listing_Props
  Collection_Model Collection_Spec Collection_State Collection_Select Collection_Load Update_Model Update_Spec Index_Model Index_Spec Index_Proofs.

(** ** A part of a group that is read *)
Lemma take_stored dim ps v delayed : var_take dim ps (with_delayed (stored v) delayed) = with_delayed (stored (var_take dim ps v)) delayed.
Proof. done. Qed.
Lemma take_get dim ps (l : list (str * variable)) n : dget (map (fun nv => (nv.1, var_take dim ps nv.2)) l) n = option_map (var_take dim ps) (dget l n).
Proof. induction l as [|[k u] l IH]; [done|]. cbn. by destruct (decide (n = k)). Qed.
Lemma take_keys dim ps (l : list (str * variable)) : dkeys (map (fun nv => (nv.1, var_take dim ps nv.2)) l) = dkeys l.
Proof. unfold dkeys. rewrite map_map. by apply map_ext. Qed.
Lemma take_shape dim ps v k : NoDup (v_dims v) -> v_dims v !! k <> Some dim -> v_shape (var_take dim ps v) !! k = v_shape v !! k.
Proof. intros Hn Hk. destruct (var_take_same dim ps v Hn) as (_ & _ & H & _). by apply H. Qed.

Section part_of.
  Context (dim : str) (ix : indexer) (ps : list nat) (d : dataset) (n : nat).
  Context (Hso : sound d) (Hm : dget (d_dims d) dim = Some n) (Hps : positions n ix = Ok ps).

  Lemma isel_sound : exists d', ds_isel d [(dim, ix)] = Ok d' /\ sound d' /\ reduced dim d ps d' /\
    d_vars d' = map (fun nv => (nv.1, var_take dim ps nv.2)) (d_vars d).
  Proof using All.
    destruct Hso as [Hs Hn]. pose proof (storable_proper _ Hs) as Hp. destruct (isel_ok _ _ _ _ _ Hp Hn Hm Hps) as (d' & E & Ev & _ & _ & _ & _ & Hp' & Hn' & _).
    destruct (C14_isel _ _ _ _ _ Hp Hn Hm Hps) as (d'' & E' & _ & Hrel). assert (d'' = d') as -> by congruence. exists d'. split_and!; try done.
    split; [|done]. split; [done| |].
    - intros v Hv. rewrite Ev in Hv. apply elem_dvals in Hv as [k Hk]. apply elem_of_list_In, in_map_iff in Hk as ([k' w] & [= <- <-] & Hin). apply elem_of_list_In in Hin.
      assert (Hw : w ∈ dvals (d_vars d)) by (apply elem_dvals; by exists k'). cbn [fst snd]. destruct (var_take_same dim ps w (Hn w Hw)) as (_ & Hl & _). rewrite Hl. change (v_dims (var_take dim ps w)) with (v_dims w).
      by apply (storable_rank _ Hs).
    - intros k. rewrite Ev, take_keys. apply (storable_plain _ Hs).
  Qed.

  (** Reading commutes with the selection. *)
  Lemma isel_opens delayed sel o d' : opens delayed sel d o -> measured dim sel d -> ds_isel d [(dim, ix)] = Ok d' ->
    exists o', ds_isel o [(dim, ix)] = Ok o' /\ opens delayed sel d' o'.
  Proof using All.
    intros Ho (name & v & Hw & Ev & Hin) Ed. pose proof Ho as (Hrd & Hinv & Hdim). destruct isel_sound as (d2 & E2 & Hs2 & _ & Ev2). assert (d2 = d') as -> by congruence.
    pose proof (storable_proper _ (sound_storable _ Hso)) as Hpd. pose proof (reads_proper _ _ _ _ Hrd) as Hpo.
    assert (Hmo : dget (d_dims o) dim = Some n).
    { assert (Eo : dget (d_vars o) name = Some (with_delayed (stored v) delayed)) by (apply (reads_vars _ _ _ _ Hrd); split; [done|by exists v]).
      apply elem_of_list_lookup in Hin as [k Hk].
      destruct (proper_consistent _ Hpo _ _ Eo) as (_ & _ & Hs1). destruct (proper_consistent _ Hpd _ _ Ev) as (_ & _ & Hs0).
      destruct (Hs1 k dim Hk) as (m1 & A1 & B1). destruct (Hs0 k dim Hk) as (m0 & A0 & B0). change (v_shape (with_delayed (stored v) delayed)) with (v_shape v) in *. congruence. }
    destruct (isel_ok o dim n ix ps Hpo (opens_no_repeat _ _ _ _ Hso Ho) Hmo Hps) as (o' & Eo' & Evo & Eat & _ & _ & Edl & Hpo' & Hno' & _ & Hdo).
    exists o'. split; [done|]. split; [split|split].
    - intros m w. rewrite Evo, take_get, Ev2. setoid_rewrite take_get. destruct (dget (d_vars o) m) as [w0|] eqn:Ew; cbn.
      + apply (reads_vars _ _ _ _ Hrd) in Ew as (Hwa & v0 & E0 & ->). rewrite E0. cbn. rewrite take_stored. split; [intros [= <-]; split; [done|]; eexists; done|].
        intros (_ & v1 & [= <-] & ->). done.
      + split; [done|]. intros (Hwa & v1 & E1 & ->). destruct (dget (d_vars d) m) as [v0|] eqn:E0; [|done]. exfalso.
        assert (dget (d_vars o) m = Some (with_delayed (stored v0) delayed)); [|congruence]. apply (reads_vars _ _ _ _ Hrd). split; [done|]. by exists v0.
    - rewrite Eat, (reads_attrs _ _ _ _ Hrd). destruct (isel_ok d dim n ix ps Hpd (sound_dims _ Hso) Hm Hps) as (d3 & E3 & _ & Ea3 & _). assert (d3 = d') as -> by congruence. by rewrite Ea3.
    - by rewrite Edl, (reads_delayed _ _ _ _ Hrd).
    - done.
    - unfold ds_isel in Eo'. destruct (negb _); [done|]. destruct (traverse _ _); [|done]. cbn [rbind] in Eo'. by apply new_dataset_invariant in Eo'.
    - (* the dimensions of what is read are those of variables of the part *)
      intros d0 m Hd0. destruct (decide (d0 = dim)) as [->|Hne].
      + apply elem_of_list_lookup in Hin as [k Hk]. exists name, (var_take dim ps v), k. rewrite Ev2, take_get, Ev. split_and!; [done|done|].
        assert (Eo : dget (d_vars o) name = Some (with_delayed (stored v) delayed)) by (apply (reads_vars _ _ _ _ Hrd); split; [done|by exists v]).
        assert (Eon : dget (d_vars o') name = Some (with_delayed (stored (var_take dim ps v)) delayed)) by (by rewrite Evo, take_get, Eo).
        destruct (proper_consistent _ Hpo' _ _ Eon) as (_ & _ & Hs1). destruct (Hs1 k dim Hk) as (m1 & A1 & B1).
        change (v_shape (with_delayed (stored (var_take dim ps v)) delayed)) with (v_shape (var_take dim ps v)) in *. congruence.
      + apply (Hdo d0 m Hne) in Hd0. apply Hdim in Hd0 as (n0 & v0 & k0 & E0 & Hk0 & Hs0). exists n0, (var_take dim ps v0), k0.
        rewrite Ev2, take_get, E0. split_and!; [done|done|]. rewrite take_shape; [done| |congruence].
        apply (sound_dims _ Hso). apply elem_dvals. exists n0. by apply dget_elem.
  Qed.
End part_of.

Lemma positions_range n (a b : Z) : (0 <= a)%Z -> (0 <= b)%Z ->
  positions n (ISlice (Some a) (Some b)) = Ok (base.filter (fun i => (a <= Z.of_nat i < b)%Z) (seq 0 n)).
Proof.
  intros Ha Hb. destruct (Z_of_nat_complete a Ha) as [a' ->]. destruct (Z_of_nat_complete b Hb) as [b' ->]. clear Ha Hb. rename a' into a, b' into b.
  cbn. unfold clip. rewrite !(proj2 (Z.ltb_ge _ _)) by lia. f_equal.
  assert (H : forall k, base.filter (fun i => (Z.of_nat a <= Z.of_nat i < Z.of_nat b)%Z) (seq k n) = seq (Nat.max a k) (Nat.min b (k + n) - Nat.max a k)).
  { induction n as [|n IH]; intros k; cbn [seq].
    - replace (Nat.min b (k + 0) - Nat.max a k) with 0 by lia. done.
    - rewrite filter_cons, IH. destruct (decide (Z.of_nat a <= Z.of_nat k < Z.of_nat b)%Z) as [Hk|Hk].
      + replace (Nat.max a k) with k by lia. replace (Nat.min b (k + S n) - k) with (S (Nat.min b (S k + n) - S k)) by lia. cbn [seq]. f_equal. replace (Nat.max a (S k)) with (S k) by lia. done.
      + destruct (decide (Z.of_nat b <= Z.of_nat k)%Z) as [Hb|Hb].
        * replace (Nat.min b (S k + n) - Nat.max a (S k)) with 0 by lia. replace (Nat.min b (k + S n) - Nat.max a k) with 0 by lia. done.
        * replace (Nat.max a (S k)) with (Nat.max a k) by lia. f_equal. lia. }
  rewrite (H 0). replace (Nat.max a 0) with a by lia. cbn [plus]. destruct (decide (a <= n)) as [Hl|Hl].
  - f_equal; lia.
  - match goal with |- seq _ ?x = seq _ ?y => replace x with 0 by lia; replace y with 0 by lia end. done.
Qed.

(** ** The keys of an indexer *)
Lemma sorted_keys_elem l k : k ∈ sorted_keys l <-> k ∈ l.
Proof. unfold sorted_keys. by rewrite sorted_by_perm, elem_of_remove_dups. Qed.
Lemma sorted_keys_rows ks l : (forall k, k ∈ l -> exists v, k = zip ks v /\ length v = length ks) ->
  exists vs, sorted_keys l = map (zip ks) vs /\ StronglySorted row_lt vs /\ (forall v, v ∈ vs -> length v = length ks) /\ forall v, length v = length ks -> v ∈ vs <-> zip ks v ∈ l.
Proof.
  intros Hl. exists (map (map snd) (sorted_keys l)).
  assert (Hz : forall k, k ∈ sorted_keys l -> zip ks (map snd k) = k /\ length (map snd k) = length ks).
  { intros k Hk. apply sorted_keys_elem, Hl in Hk as (v & -> & Hv). change (map snd (zip ks v)) with ((zip ks v).*2). rewrite snd_zip by lia. done. }
  split_and!.
  - rewrite map_map. rewrite <-(map_id (sorted_keys l)) at 1. apply map_ext_in. intros k Hk%elem_of_list_In. symmetry. by apply Hz.
  - assert (Hs : StronglySorted (key_le scheme_lt id) (sorted_keys l)) by (apply sorted_by_sorted, scheme_order).
    assert (Hn : NoDup (sorted_keys l)) by (unfold sorted_keys; rewrite sorted_by_perm; apply NoDup_remove_dups).
    revert Hz Hn. induction Hs as [|k l' Hs IH Hf]; intros Hz Hn; [constructor|]. cbn [map]. apply NoDup_cons in Hn as [Hn1 Hn2]. constructor; [apply IH; [intros; apply Hz; by right|done]|].
    apply Forall_forall. intros w Hw. apply elem_of_list_In, in_map_iff in Hw as (k' & <- & Hk'). apply elem_of_list_In in Hk'.
    rewrite Forall_forall in Hf. specialize (Hf k' Hk'). unfold key_le in Hf. cbn [id] in Hf.
    destruct (scheme_lt k k') eqn:E.
    + destruct (Hz k ltac:(left)) as [Z1 L1]. destruct (Hz k' ltac:(by right)) as [Z2 L2].
      apply (scheme_lt_rows ks) in E; [done| |].
      * rewrite <-Z1. change (map fst ?x) with (x.*1). rewrite fst_zip by lia. done.
      * rewrite <-Z2. change (map fst ?x) with (x.*1). rewrite fst_zip by lia. done.
    + exfalso. apply Hn1. by rewrite (so_total _ scheme_order _ _ E Hf).
  - intros v Hv. apply elem_of_list_In, in_map_iff in Hv as (k & <- & Hk). apply elem_of_list_In in Hk. by apply Hz.
  - intros v Hv. rewrite elem_of_list_In, in_map_iff. split.
    + intros (k & <- & Hk). apply elem_of_list_In in Hk. destruct (Hz k Hk) as [-> _]. by apply sorted_keys_elem.
    + intros Hk. exists (zip ks v). change (map snd ?x) with (x.*2). rewrite snd_zip by lia. split; [done|]. apply elem_of_list_In. by apply sorted_keys_elem.
Qed.

Lemma traverse_map_ok {A B C} (f : B -> res C) (g : A -> B) (h : A -> C) l : (forall x, x ∈ l -> f (g x) = Ok (h x)) -> traverse f (map g l) = Ok (map h l).
Proof. induction l as [|x l IH]; intros H; [done|]. cbn. rewrite H by left. cbn [rbind]. rewrite IH; [done|]. intros; apply H; by right. Qed.

Section load_indexer.
  Context (e : env) (c : collection) (Hr : regular e c) (M : list Z -> option dataset) (I : option dataset) (s : store).
  Context (Hs : represents c M I s) (Hu : uniform c M I) (Hfi : filterable c).
  Local Notation keys := (p_keys (c_part c)).
  Local Notation dim := (c_dim c).

  Lemma select_cached f (P : list Z -> Prop) vss : (forall v, v ∈ vss -> length v = length keys) -> (forall v, v ∈ vss -> says (c_part c) f v (P v)) ->
    exists g, partitions (e_order e) (c_part c) (c_dir c) (immutable_path c) (Some (map (part_dir c) vss)) f (∅ : store) = Ok (map (part_dir c) (List.filter g vss)) /\
      forall v, v ∈ vss -> g v = true <-> P v.
  Proof using Hr Hfi.
    intros Hlen HP. destruct Hfi as [Hb Hrg]. unfold partitions. cbn [rbind].
    assert (Hsel : forall v, v ∈ vss -> exists b, is_selected (c_part c) f (str_remove (path_str (c_dir c)) (path_str (c_dir c ++ key_dirs (c_part c) v))) = Ok b /\ (b = true <-> P v)).
    { intros v Hin. destruct (parse_relative (c_part c) (c_dir c) v (rg_keys _ _ Hr) (rg_path _ _ Hr) Hb (Hlen v Hin)) as [E1 E2].
      pose proof (HP v Hin) as Hsay. unfold says in Hsay. destruct f as [|x|g]; cbn [is_selected].
      - exists true. split; [done|]. by split.
      - rewrite E1. cbn [rbind]. rewrite E2. destruct (call_means (zip keys v) x (P v)) as (w & Hw & Hi).
        + apply dget_None. unfold dkeys. change (map fst (zip keys v)) with ((zip keys v).*1).
          rewrite fst_zip by (rewrite (Hlen v Hin); lia). done.
        + done.
        + rewrite Hw. cbn. by exists (truth w).
      - rewrite E1. cbn [rbind]. rewrite E2. done. }
    assert (Hne : forall v, v ∈ vss -> Some (part_dir c v) <> immutable_path c).
    { intros v Hin. apply Hlen in Hin as Hl. unfold immutable_path. destruct (c_immutable c); [|done]. intros [= Ei]. unfold part_dir in Ei.
      apply app_inv_head in Ei. destruct (key_head e c Hr v Hl) as (a & r & Ea & Ha & _). rewrite Ea in Ei. injection Ei as -> _. done. }
    set (g := fun v => match is_selected (c_part c) f (str_remove (path_str (c_dir c)) (path_str (part_dir c v))) with Ok b => b | Raise _ => false end).
    exists g. split.
    - clear HP Hlen. induction vss as [|v l IH]; [done|]. cbn [map filter_res List.filter].
      rewrite (bool_decide_eq_false_2 (Some (part_dir c v) = immutable_path c)) by (apply Hne; left).
      destruct (Hsel v ltac:(left)) as (b & Eb & _). change (c_dir c ++ key_dirs (c_part c) v) with (part_dir c v) in Eb.
      assert (g v = b) as -> by (unfold g; by rewrite Eb). rewrite Eb. cbn [rbind].
      rewrite IH; [|intros; apply Hsel; by right|intros; apply Hne; by right]. cbn [rbind]. by destruct b.
    - intros v Hv. destruct (Hsel v Hv) as (b & Eb & Hb'). change (c_dir c ++ key_dirs (c_part c) v) with (part_dir c v) in Eb. unfold g. by rewrite Eb.
  Qed.


  (** The slices of one partition. *)
  Lemma load_apply_ok delayed sel v old slices : M v = Some old -> measured dim sel old -> (forall sl, sl ∈ slices -> (0 <= sl.1 /\ 0 <= sl.2)%Z) ->
    exists os ps, exec (load_and_apply_indexer c delayed sel (zip keys v, slices)) s = (Ok os, s) /\ Forall2 (opens delayed sel) ps os /\
      Forall2 (fun sl p => extracts dim old sl p) slices ps /\ Forall (fun p => sound p /\ exists qs, d_vars p = map (fun nv => (nv.1, var_take dim qs nv.2)) (d_vars old)) ps.
  Proof using Hs.
    intros Hv Hme Hsl. destruct (rp_part _ _ _ _ Hs _ _ Hv) as (_ & Hso & Hh). destruct (open_opens _ s old delayed sel Hso Hh) as (o & E & Ho).
    unfold load_and_apply_indexer. cbn [fst snd]. change (c_dir c ++ map (p_dir (c_part c)) (zip keys v)) with (part_dir c v). setoid_rewrite exec_bind. rewrite E. cbn [exec].
    assert (exists n, dget (d_dims old) dim = Some n) as [n Hn].
    { destruct Hme as (nm & w & _ & Ew & Hin). apply elem_of_list_lookup in Hin as [k Hk]. destruct (proper_consistent _ (storable_proper _ (sound_storable _ Hso)) _ _ Ew) as (_ & _ & Hc).
      destruct (Hc k dim Hk) as (m & _ & Hm). by exists m. }
    induction slices as [|sl slices IH]; [exists [], []; split; [done|split; [constructor|split; constructor]]|].
    destruct IH as (os & ps & Et & Hop & Hex & Hall); [intros; apply Hsl; by right|]. injection Et as Et.
    destruct (Hsl sl ltac:(left)) as [Ha Hb]. pose proof (positions_range n sl.1 sl.2 Ha Hb) as Hp.
    destruct (isel_sound dim _ _ old n Hso Hn Hp) as (p & Ep & Hsp & Hred & Evp).
    destruct (isel_opens dim _ _ old n Hso Hn Hp delayed sel o p Ho Hme Ep) as (o' & Eo & Ho').
    exists (o' :: os), (p :: ps). split_and!; [|by constructor| |].
    - cbn [traverse]. rewrite Eo. cbn [rbind]. rewrite Et. done.
    - constructor; [|done]. exists n. split; [done|]. exact Hred.
    - constructor; [|done]. split; [done|]. by eexists.
  Qed.
  Lemma part_layout v1 v2 a b p q ps qs : M v1 = Some a -> M v2 = Some b -> d_vars p = map (fun nv => (nv.1, var_take dim ps nv.2)) (d_vars a) ->
    d_vars q = map (fun nv => (nv.1, var_take dim qs nv.2)) (d_vars b) -> same_layout dim p q.
  Proof using Hs Hu.
    intros Ha Hb Ep Eq. destruct (un_layout _ _ _ Hu _ _ _ _ Ha Hb) as [H1 H2].
    assert (Hnd : forall v d n w, M v = Some d -> dget (d_vars d) n = Some w -> NoDup (v_dims w)).
    { intros v d n w Hd Ew. destruct (rp_part _ _ _ _ Hs _ _ Hd) as (_ & Hso & _). apply (sound_dims _ Hso), elem_dvals. exists n. by apply dget_elem. }
    split.
    - intros n. rewrite Ep, Eq, !take_keys. apply H1.
    - intros n w1 w2. rewrite Ep, Eq, !take_get. destruct (dget (d_vars a) n) as [u1|] eqn:E1; [|done]. destruct (dget (d_vars b) n) as [u2|] eqn:E2; [|done].
      cbn. intros [= <-] [= <-]. destruct (H2 n u1 u2 E1 E2) as (A & B & C).
      pose proof (Hnd _ _ _ _ Ha E1) as N1. pose proof (Hnd _ _ _ _ Hb E2) as N2.
      destruct (var_take_same dim ps u1 N1) as (_ & L1 & K1 & _). destruct (var_take_same dim qs u2 N2) as (_ & L2 & K2 & _).
      split_and!; [exact A|congruence|]. intros k Hk. change (v_dims (var_take dim ps u1)) with (v_dims u1) in Hk. rewrite K1 by done. rewrite K2 by (by rewrite A). by apply C.
  Qed.

  Lemma load_indexer_plan delayed sel f (P : list Z -> Prop) (indexer : list (scheme * (Z * Z))) :
    (forall k sl, (k, sl) ∈ indexer -> exists v, k = zip keys v /\ length v = length keys) ->
    (forall v sl, (zip keys v, sl) ∈ indexer -> length v = length keys -> says (c_part c) f v (P v)) ->
    exists vs, StronglySorted row_lt vs /\ (forall v, v ∈ vs <-> length v = length keys /\ P v /\ exists sl, (zip keys v, sl) ∈ indexer) /\
      exec (load_indexer e c delayed f indexer sel) s =
      exec (match map (fun v => (zip keys v, slices_for indexer (zip keys v))) vs with
        | [] => pret None
        | _ => let! arrays <- pseq (map (load_and_apply_indexer c delayed sel) (map (fun v => (zip keys v, slices_for indexer (zip keys v))) vs));
               let! i <- load_immutable c delayed sel; let! ds <- Ret (assemble c (concat arrays) i); pret (Some ds) end) s.
  Proof using Hr Hfi.
    intros Hix HP.
    destruct (sorted_keys_rows keys (map fst indexer)) as (vs0 & E0 & S0 & L0 & V0).
    { intros k Hk. apply elem_of_list_In, in_map_iff in Hk as ([k' sl] & <- & Hin). apply elem_of_list_In in Hin. exact (Hix _ _ Hin). }
    assert (V0' : forall v, v ∈ vs0 <-> length v = length keys /\ exists sl, (zip keys v, sl) ∈ indexer).
    { intros v. split.
      - intros Hv. pose proof (L0 v Hv) as Hl. apply (V0 v Hl) in Hv. apply elem_of_list_In, in_map_iff in Hv as ([k sl] & Ek & Hin). cbn in Ek. subst k. apply elem_of_list_In in Hin.
        split; [done|by exists sl].
      - intros [Hv [sl Hin]]. apply (V0 v Hv). apply elem_of_list_In, in_map_iff. exists (zip keys v, sl). split; [done|by apply elem_of_list_In]. }
    destruct (select_cached f P vs0 L0) as (g & Epart & Hg); [intros v Hv; apply V0' in Hv as [? [sl ?]]; by apply (HP v sl)|].
    set (vs := List.filter g vs0) in *.
    assert (Hvs : forall v, v ∈ vs <-> length v = length keys /\ P v /\ exists sl, (zip keys v, sl) ∈ indexer).
    { intros v. unfold vs. rewrite filter_elem_pred. split.
      - intros [Hv Hgv]. pose proof Hv as Hv0. apply V0' in Hv as [H1 H2]. split; [done|]. split; [by apply Hg|done].
      - intros (H1 & H2 & H3). assert (Hv : v ∈ vs0) by (apply V0'; done). split; [done|]. by apply Hg. }
    assert (Sv : StronglySorted row_lt vs) by (by apply sorted_filter).
    assert (Lv : forall v, v ∈ vs -> length v = length keys) by (intros v Hv; by apply Hvs in Hv as [? _]).
    assert (Earg : build_indexer_args c indexer (map (part_dir c) vs) = Ok (map (fun v => (zip keys v, slices_for indexer (zip keys v))) vs)).
    { unfold build_indexer_args. rewrite (traverse_map_ok (fun q => p_parse (c_part c) (path_str q)) (part_dir c) (zip keys) vs).
      2: { intros v Hv. unfold part_dir. by apply (parse_key_dirs _ _ _ (rg_keys _ _ Hr) (rg_path _ _ Hr)), Lv. }
      cbn [rbind]. f_equal.
      destruct (sorted_keys_rows keys (List.filter (fun k => memb k (map (zip keys) vs)) (map fst indexer))) as (vs1 & E1 & S1 & L1 & V1).
      { intros k Hk. apply filter_elem_pred in Hk as [_ Hk]. unfold memb in Hk. apply bool_decide_eq_true in Hk. apply elem_of_list_In, in_map_iff in Hk as (v & <- & Hv). apply elem_of_list_In in Hv.
        exists v. split; [done|by apply Lv]. }
      rewrite E1, map_map.
      assert (Evs : vs1 = vs).
      { apply (sorted_rows_unique (length keys)); [done|done|done|]. intros v. split.
        - intros Hv. pose proof (L1 v Hv) as Hl. apply (V1 v Hl) in Hv. apply filter_elem_pred in Hv as [_ Hv]. unfold memb in Hv. apply bool_decide_eq_true in Hv.
          apply elem_of_list_In, in_map_iff in Hv as (w & Ew & Hw). apply elem_of_list_In in Hw. assert (v = w) as ->; [|done].
          rewrite <-(snd_zip keys v), <-(snd_zip keys w), Ew by (rewrite ?(Lv w Hw), ?Hl; lia). done.
        - intros Hv. apply (V1 v (Lv v Hv)). apply filter_elem_pred. split.
          + apply Hvs in Hv as (_ & _ & sl & Hin). apply elem_of_list_In, in_map_iff. exists (zip keys v, sl). split; [done|by apply elem_of_list_In].
          + unfold memb. apply bool_decide_eq_true, elem_of_list_In, in_map_iff. exists v. split; [done|by apply elem_of_list_In]. }
      rewrite Evs. apply map_ext. intros v. f_equal. unfold slices_for. f_equal. clear.
      induction indexer as [|i l IH]; [done|]. cbn [List.filter]. rewrite filter_cons. destruct (decide (i.1 = zip keys v)) as [Ei|Ei].
      - rewrite bool_decide_true by done. by rewrite IH.
      - rewrite bool_decide_false by done. by rewrite IH. }
    assert (Elist : list_partitions_from_indexer c indexer = map (part_dir c) vs0).
    { unfold list_partitions_from_indexer. rewrite E0, map_map. done. }
    exists vs. split; [done|]. split; [done|].
    unfold load_indexer. rewrite exec_bind. cbn [exec]. rewrite Elist, Epart. rewrite exec_bind. cbn [exec]. rewrite Earg. done.
  Qed.

  Lemma load_indexer_ok delayed sel f (P : list Z -> Prop) (indexer : list (scheme * (Z * Z))) :
    (forall k sl, (k, sl) ∈ indexer -> (0 <= sl.1 /\ 0 <= sl.2)%Z /\ exists v, k = zip keys v /\ is_Some (M v)) ->
    (forall v, is_Some (M v) -> says (c_part c) f v (P v)) -> (forall v old, M v = Some old -> P v -> measured dim sel old) ->
    exists vs r, StronglySorted row_lt vs /\ (forall v, v ∈ vs <-> is_Some (M v) /\ P v /\ exists sl, (zip keys v, sl) ∈ indexer) /\
      exec (load_indexer e c delayed f indexer sel) s = (Ok r, s) /\
      match r with
      | None => vs = []
      | Some out => vs <> [] /\ exists pieces, Forall2 (fun v ps => exists old, M v = Some old /\ Forall2 (extracts dim old) (slices_for indexer (zip keys v)) ps) vs pieces /\
          gathered c delayed sel (concat pieces) (if c_immutable c then I else None) out
      end.
  Proof using All.
    intros Hix HP Hme.
    assert (HML : forall v, is_Some (M v) -> length v = length keys) by (intros v [d Hd]; by destruct (rp_part _ _ _ _ Hs _ _ Hd) as (? & _)).
    destruct (load_indexer_plan delayed sel f P indexer) as (vs & Sv & Hvs0 & Hexec).
    { intros k sl Hin. destruct (Hix _ _ Hin) as (_ & v & -> & Hv). exists v. split; [done|by apply HML]. }
    { intros v sl Hin Hl. destruct (Hix _ _ Hin) as (_ & v' & Ez & Hv'). assert (v = v') as ->; [|by apply HP].
      rewrite <-(snd_zip keys v), <-(snd_zip keys v'), Ez by (rewrite ?(HML v' Hv'), ?Hl; lia). done. }
    assert (Hvs : forall v, v ∈ vs <-> is_Some (M v) /\ P v /\ exists sl, (zip keys v, sl) ∈ indexer).
    { intros v. rewrite Hvs0. split; intros (H1 & H2 & sl & Hin); (split; [|split; [done|by exists sl]]); [|by apply HML].
      destruct (Hix _ _ Hin) as (_ & v' & Ez & Hv'). assert (v = v') as ->; [|done].
      rewrite <-(snd_zip keys v), <-(snd_zip keys v'), Ez by (rewrite ?(HML v' Hv'), ?H1; lia). done. }
    assert (Lv : forall v, v ∈ vs -> length v = length keys) by (intros v Hv; apply HML; by apply Hvs in Hv as [? _]).
    assert (Hex : forall r, exec (match map (fun v => (zip keys v, slices_for indexer (zip keys v))) vs with
        | [] => pret None
        | _ => let! arrays <- pseq (map (load_and_apply_indexer c delayed sel) (map (fun v => (zip keys v, slices_for indexer (zip keys v))) vs));
               let! i <- load_immutable c delayed sel; let! ds <- Ret (assemble c (concat arrays) i); pret (Some ds) end) s = r -> exec (load_indexer e c delayed f indexer sel) s = r).
    { intros r <-. exact Hexec. }
    exists vs. destruct (decide (vs = [])) as [Ev|Ev].
    { exists None. split_and!; [done|done| |done]. apply Hex. rewrite Ev. done. }
    assert (Hload : exists oss pss, Forall2 (fun p x => exec p s = (Ok x, s)) (map (load_and_apply_indexer c delayed sel) (map (fun v => (zip keys v, slices_for indexer (zip keys v))) vs)) oss /\
      Forall2 (Forall2 (opens delayed sel)) pss oss /\
      Forall2 (fun v ps => exists old, M v = Some old /\ Forall2 (extracts dim old) (slices_for indexer (zip keys v)) ps /\ (slices_for indexer (zip keys v) <> []) /\
         Forall (fun p => sound p /\ exists qs, d_vars p = map (fun nv => (nv.1, var_take dim qs nv.2)) (d_vars old)) ps) vs pss).
    { assert (Hin : forall v, v ∈ vs -> is_Some (M v) /\ P v /\ exists sl, (zip keys v, sl) ∈ indexer) by (intros v; apply Hvs). clear -Hin Hix Hme Hs.
      induction vs as [|v vs IH]; [exists [], []; split_and!; constructor|]. destruct IH as (oss & pss & H1 & H2 & H3); [intros; apply Hin; by right|].
      destruct (Hin v ltac:(left)) as ([old Hv] & HPv & sl0 & Hsl0).
      destruct (load_apply_ok delayed sel v old (slices_for indexer (zip keys v)) Hv (Hme v old Hv HPv)) as (os & ps & E & Hop & Hx & Hall).
      { intros sl Hsl. unfold slices_for in Hsl. apply elem_of_list_In, in_map_iff in Hsl as ([k sl'] & <- & Hsl). apply elem_of_list_In, elem_of_list_filter in Hsl as [_ Hsl]. by apply Hix in Hsl as [? _]. }
      exists (os :: oss), (ps :: pss). split_and!; [by constructor|by constructor|]. constructor; [|done]. exists old. split_and!; [done|done| |done].
      intros Hn. assert (Hc : sl0 ∈ slices_for indexer (zip keys v)); [|rewrite Hn in Hc; by apply elem_of_nil in Hc].
      unfold slices_for. apply elem_of_list_In, in_map_iff. exists (zip keys v, sl0). split; [done|]. by apply elem_of_list_In, elem_of_list_filter. }
    destruct Hload as (oss & pss & Hos & Hop & Hpi).
    assert (Hopc : Forall2 (opens delayed sel) (concat pss) (concat oss)) by (clear -Hop; induction Hop; cbn; [constructor|by apply Forall2_app]).
    assert (Hall : forall p, p ∈ concat pss -> sound p /\ exists v old qs, M v = Some old /\ d_vars p = map (fun nv => (nv.1, var_take dim qs nv.2)) (d_vars old)).
    { intros p Hp. apply elem_of_list_In, in_concat in Hp as (ps & Hps & Hp). apply elem_of_list_In in Hps, Hp. apply elem_of_list_lookup in Hps as [i Hi].
      destruct (Forall2_lookup_r _ _ _ _ _ Hpi Hi) as (v & _ & old & Hv & _ & _ & Ha). rewrite Forall_forall in Ha. destruct (Ha p Hp) as [Hsp [qs Hq]]. split; [done|]. by exists v, old, qs. }
    assert (Hli : exists oi, exec (load_immutable c delayed sel) s = (Ok oi, s) /\
       match (if c_immutable c then I else None), oi with
       | None, None => True | Some i, Some oi => sound i /\ opens delayed sel i oi | _, _ => False end).
    { unfold load_immutable, immutable_path. destruct (c_immutable c) eqn:Ec; [|by exists None].
      destruct (un_immutable _ _ _ Hu Ec) as [i Hi].
      { destruct vs as [|v vs']; [done|]. exists v. apply (Hvs v). left. }
      destruct (rp_immutable _ _ _ _ Hs _ Hi) as [Hsi Hh]. destruct (open_opens _ s i delayed sel Hsi Hh) as (o & E & Ho).
      exists (Some o). rewrite Hi. split; [|done]. rewrite exec_bind, E. done. }
    destruct Hli as (oi & Eli & Hoi).
    destruct (concat pss) as [|p ps] eqn:Ec.
    { exfalso. destruct Hpi as [|v ps vs' pss' Hfirst _]; [done|]. destruct Hfirst as (old & _ & Hx & Hne & _). cbn in Ec. apply app_eq_nil in Ec as [-> _]. by inversion Hx. }
    destruct (concat oss) as [|o os'] eqn:Eoss; [by inversion Hopc|]. symmetry in Eoss. inversion Hopc as [|? ? ? ? Ho Hos']; subst.
    destruct (Hall p ltac:(left)) as (Hsp & vp & oldp & qp & Hvp & Eqp).
    destruct (assemble_gathers c delayed sel p ps (if c_immutable c then I else None) o os' oi) as (out & Ea & Hga).
    - apply Forall_forall. intros q Hq. by apply Hall.
    - apply Forall_forall. intros q Hq. destruct (Hall q ltac:(by right)) as (_ & vq & oldq & qq & Hvq & Eqq). by apply (part_layout vp vq oldp oldq p q qp qq).
    - by constructor.
    - intros n. rewrite Eqp, take_keys. by apply (un_declared _ _ _ Hu vp).
    - destruct (if c_immutable c then I else None) as [i|] eqn:Ei, oi as [oi|]; try done.
      assert (EI : I = Some i) by (by destruct (c_immutable c)). destruct Hoi as [Hsi Hoi]. split_and!; [done|done| | |].
      + intros n1 w1 n2 w2 E1 E2. rewrite Eqp, take_get in E1. destruct (dget (d_vars oldp) n1) as [u1|] eqn:Eu; [|done]. injection E1 as <-.
        destruct (un_fixed _ _ _ Hu vp oldp i Hvp EI n1 u1 n2 w2 Eu E2) as [D1 D2]. split; [done|]. intros k k' d Hk Hk'.
        rewrite take_shape; [by apply (D2 k k' d)| |].
        * destruct (rp_part _ _ _ _ Hs _ _ Hvp) as (_ & Hso & _). apply (sound_dims _ Hso), elem_dvals. exists n1. by apply dget_elem.
        * intros Hd. change (v_dims (var_take dim qp u1)) with (v_dims u1) in Hk. rewrite Hk in Hd. injection Hd as ->. apply (un_fixed_dims _ _ _ Hu i n2 w2 EI E2). by eapply elem_of_list_lookup_2.
      + intros n v. by apply (un_fixed_dims _ _ _ Hu).
      + intros n. by apply (un_fixed_declared _ _ _ Hu).
    - exists (Some out). split; [done|]. split; [done|]. split.
      + apply Hex. destruct (map (fun v => (zip keys v, slices_for indexer (zip keys v))) vs) as [|a0 l0] eqn:Ev0; [by apply map_eq_nil in Ev0|]. rewrite exec_bind.
        rewrite (exec_pseq_pure _ s oss) by exact Hos. rewrite exec_bind, Eli, exec_bind. cbn [exec]. rewrite <-Eoss, Ea. done.
      + split; [done|]. exists pss. split; [|by rewrite Ec].
        eapply Forall2_impl; [exact Hpi|]. intros v ps' (old & H1 & H2 & _). by exists old.
  Qed.
End load_indexer.
