(** * The splitting of a dataset in partitions *)
From Verif Require Import Py Dict NdArray_Model NdArray_Proofs Dataset_Model Dataset_Spec Meta_Model Calendar_Model Calendar_Spec Calendar_Proofs Calendar_Fields PartPath_Model PartPath_Dates Split_Model Split_Spec Split_Proofs Split_Main Split_Props FS_Model Pool_Model Storage_Model Storage_Spec Listing_Model Listing_Spec Collection_Model Collection_Spec.

(** ** The order of dates and the order of their fields *)

Lemma fields_lt s1 s2 f1 f2 : has_fields s1 f1 -> has_fields s2 f2 -> row_lt f1 f2 -> (s1 < s2)%Z.
Proof.
  intros (y1 & m1 & d1 & h1 & i1 & c1 & -> & E1 & A1 & B1 & D1 & S1) (y2 & m2 & d2 & h2 & i2 & c2 & -> & E2 & A2 & B2 & D2 & S2) H.
  rewrite !row_lt_cons in H.
  destruct (Z.lt_trichotomy (s1 / 86400) (s2 / 86400)) as [Hl|[He|Hg]].
  - pose proof (Z.mod_pos_bound s1 86400). pose proof (Z.mod_pos_bound s2 86400).
    pose proof (Z.div_mod s1 86400). pose proof (Z.div_mod s2 86400). lia.
  - rewrite He, E2 in E1. injection E1 as -> -> ->.
    destruct H as [?|[_ H]]; [lia|]. destruct H as [?|[_ H]]; [lia|]. destruct H as [?|[_ H]]; [lia|].
    destruct H as [?|[-> H]]; [lia|]. destruct H as [?|[-> H]]; [lia|]. destruct H as [?|[-> H]]; [lia|].
    by apply row_lt_nil_l in H.
  - apply civil_mono in Hg. rewrite E1, E2 in Hg. exfalso. unfold date_lt in Hg.
    destruct H as [?|[? H]]; [lia|]. destruct H as [?|[? H]]; [lia|]. destruct H as [?|[? H]]; lia.
Qed.
Lemma row_lt_take k a b : row_lt (take k a) (take k b) -> row_lt a b.
Proof.
  intros (p & x & y & s & t & E1 & E2 & H).
  exists p, x, y, (s ++ drop k a), (t ++ drop k b). rewrite !app_comm_cons, !app_assoc, <-E1, <-E2, !take_drop. done.
Qed.
Lemma trunc_lt_fields r s1 s2 f1 f2 : has_fields s1 f1 -> has_fields s2 f2 ->
  (trunc_seconds r s1 < trunc_seconds r s2)%Z <-> row_lt (take (dres_index r + 1) f1) (take (dres_index r + 1) f2).
Proof.
  intros H1 H2. pose proof (trunc_seconds_fields r _ _ _ _ H1 H2) as Heq.
  assert (Hlen : length (take (dres_index r + 1) f1) = length (take (dres_index r + 1) f2)).
  { rewrite !take_length. destruct H1 as (? & ? & ? & ? & ? & ? & -> & _), H2 as (? & ? & ? & ? & ? & ? & -> & _). done. }
  split.
  - intros Hlt. destruct (row_lt_total _ _ Hlen) as [?|[He|Hg]]; [done| |].
    + apply Heq in He. lia.
    + apply row_lt_take in Hg. pose proof (fields_lt _ _ _ _ H2 H1 Hg).
      pose proof (trunc_seconds_le r s2 s1). lia.
  - intros Hlt. pose proof (fields_lt _ _ _ _ H1 H2 (row_lt_take _ _ _ Hlt)).
    pose proof (trunc_seconds_le r s1 s2). assert (trunc_seconds r s1 <> trunc_seconds r s2); [|lia].
    intros E. apply Heq in E. rewrite E in Hlt. by apply row_lt_irrefl in Hlt.
Qed.
Lemma fields_length s f : has_fields s f -> length f = 6.
Proof. by intros (? & ? & ? & ? & ? & ? & -> & _). Qed.

(** ** Splitting *)

(** [kparts] announces, for slices that cover the records in order, the key of
    the first record of the slice; the keys increase. *)
Record keyed_slices (rows : list (list Z)) (kparts : list (list Z * (nat * nat))) : Prop := {
  ks_cover : concat (map (fun p => seq p.2.1 (p.2.2 - p.2.1)) kparts) = seq 0 (length rows);
  ks_some : Forall (fun p => p.2.1 < p.2.2) kparts;
  ks_first : Forall (fun p => rows !! p.2.1 = Some p.1) kparts;
  ks_increase : keys_increase row_lt kparts;
  ks_files : files_every_record_once rows kparts <-> never_decreases row_lt rows;
}.

Lemma ints_of_spec a : forall col, ints_of a = Ok col <-> a_flat a = map Num col.
Proof.
  unfold ints_of. intros col. split.
  - intros H. apply traverse_inv in H. induction H as [|v z l l' Hv H IH]; [done|]. cbn. rewrite IH.
    destruct v; [by injection Hv as ->|done].
  - intros ->. induction col as [|z col IH]; [done|]. cbn. cbn in IH. by rewrite IH.
Qed.
Lemma files_first {K} (rows : list K) kparts : files_every_record_once rows kparts ->
  Forall (fun p => rows !! p.2.1 = Some p.1) kparts.
Proof.
  intros (_ & H1 & H2). rewrite Forall_forall in *. intros p Hp. apply H2; [done|]. pose proof (H1 p Hp). lia.
Qed.
Lemma is_rows_length cols rows : is_rows cols rows -> forall r, r ∈ rows -> length r = length cols.
Proof. intros H r [i Hi]%elem_of_list_lookup. symmetry. eapply Forall2_length, H, Hi. Qed.

Lemma named_dirs names dt (kparts : list (list Z * (nat * nat))) :
  map (fun ks : scheme * (nat * nat) => (seq_partition ks.1, ks.2)) (named names kparts) =
  map (fun ks => (key_dirs (Sequence names dt) ks.1, ks.2)) kparts.
Proof. unfold named. rewrite map_map. apply map_ext. done. Qed.

Lemma get_vars_ok ds names cols n : Forall2 (fun n' col => length col = n /\
    exists v, dget (d_vars ds) n' = Some v /\ a_flat (v_array v) = map Num col) names cols ->
  exists vs, traverse (get_var ds) names = Ok vs /\ traverse (fun v => ints_of (v_array v)) vs = Ok cols /\
    Forall2 (fun n v => dget (d_vars ds) n = Some v) names vs.
Proof.
  induction 1 as [|n' col names cols (Hl & v & Hv & Hf) H (vs & IH1 & IH2 & IH3)]; [by exists []|].
  exists (v :: vs). split_and!; [| |by constructor].
  - cbn. unfold get_var at 1. rewrite Hv. cbn. by rewrite IH1.
  - cbn. apply ints_of_spec in Hf. rewrite Hf. cbn. by rewrite IH2.
Qed.

Lemma split_sequence_sound names dt ds rows parts : NoDup names -> record_keys (Sequence names dt) ds rows ->
  (Z.of_nat (length rows) < 2^63)%Z -> split_keys (Sequence names dt) ds = Ok parts ->
  exists kparts, parts = map (fun ks => (key_dirs (Sequence names dt) ks.1, ks.2)) kparts /\ keyed_slices rows kparts /\
    (d_delayed ds = true -> rows <> [] /\ never_decreases row_lt rows).
Proof.
  intros Hnd (cols & Hrows & Hcols) Hsize. destruct (get_vars_ok _ _ _ _ Hcols) as (vs & H1 & H2 & H3).
  unfold split_keys. cbn [p_variables]. rewrite H1. cbn [rbind]. rewrite H2. cbn [rbind].
  assert (Hlen : length names = length cols) by (by eapply Forall2_length).
  assert (Hz1 : map fst (zip names cols) = names) by (apply (fst_zip names cols); lia).
  assert (Hz2 : map snd (zip names cols) = cols) by (apply (snd_zip names cols); lia).
  rewrite dict_of_id by (unfold dkeys; by rewrite Hz1).
  destruct (promotes_to_integer (map v_dtype vs)).
  2:{ destruct (sequence_split _ _ _) eqn:E; [|done]. exfalso.
      destruct (decide (names = [])) as [->|Hne].
      { by rewrite (proj1 (C01_sequence_rejects _ _ _) eq_refl) in E. }
      assert (zip names cols <> []) as Hne' by (intros E'; apply Hne; by rewrite <-Hz1, E').
      erewrite (proj2 (proj2 (C01_sequence_rejects _ false _)) (length rows)) in E; [done|done|].
      rewrite Hz2. clear - Hcols. induction Hcols as [|? ? ? ? [? _]]; by constructor. }
  destruct (sequence_split _ _ _) as [sparts|] eqn:E; [|done]. cbn [rbind]. intros [= <-].
  assert (Hall : Forall (fun c => length c = length rows) (map snd (zip names cols))).
  { rewrite Hz2. clear - Hcols. induction Hcols as [|? ? ? ? [? _]]; by constructor. }
  assert (Hne : zip names cols <> []).
  { intros E'. rewrite E' in E. by rewrite (proj1 (C01_sequence_rejects _ _ _) eq_refl) in E. }
  assert (Hr' : is_rows (map snd (zip names cols)) rows) by (by rewrite Hz2).
  destruct (d_delayed ds).
  - pose proof (C01_sequence_lazy (zip names cols) (length rows) rows Hne Hall ltac:(lia) eq_refl Hr') as H.
    rewrite E in H. destruct H as (Hpos & Hs & kparts & -> & Hf & Hi). rewrite Hz1. exists kparts.
    split_and!; [by apply named_dirs| |].
    + constructor; [by destruct Hf as (? & ? & ?)..|by apply files_first|done|done].
    + intros _. split; [|done]. destruct rows; [cbn in Hpos; lia|done].
  - destruct (decide (length rows = 0)) as [Hz|Hz].
    { destruct rows as [|]; [|done]. exists [].
      assert (sparts = []) as ->.
      { unfold sequence_split in E. case_match; [done|]. cbn [negb] in E.
        assert (match map snd (zip names cols) with [] => 0 | c :: _ => length c end = 0) as Hz'.
        { destruct (map snd (zip names cols)) as [|c l]; [done|]. by inversion Hall. }
        rewrite Hz' in E. cbn in E. by injection E as <-. }
      split_and!; [done| |done]. constructor; [done|constructor|constructor| |].
      - intros i j a b _ Ha. done.
      - split; intros _; [intros i j a b _ Ha; done|]. split_and!; [done|constructor|constructor]. }
    destruct (C02_sequence_eager (zip names cols) (length rows) rows sparts Hne Hall Hsize eq_refl ltac:(lia) Hr' E)
      as (kparts & -> & H4 & H5 & H6 & H7 & H8).
    rewrite Hz1. exists kparts. split_and!; [by apply named_dirs|by constructor|done].
Qed.

Lemma key_dirs_date names dt r f :
  take (dres_index r + 1) (zip_with (fun u v => u ++ lit "=" ++ show_02d v) UNITS f) =
  key_dirs (Date names dt r) (take (dres_index r + 1) f).
Proof.
  unfold key_dirs. cbn [p_keys p_dir]. generalize (dres_index r + 1). generalize UNITS.
  intros us n. revert us f. induction n as [|n IH]; intros us f; [by rewrite !take_0|].
  destruct us as [|u us]; [reflexivity|]. destruct f as [|v f]; [reflexivity|].
  cbn [zip_with take]. change (zip (u :: take n us) (v :: take n f)) with ((u, v) :: zip (take n us) (take n f)).
  cbn [map]. f_equal. apply IH.
Qed.

(** Slices of the records by count are slices by fields. *)
Lemma dates_sound names dt r tps ticks rows cparts parts :
  Forall2 (fun t row => exists y f, has_fields (t / tps) (y :: f) /\ (1 <= y <= 9999)%Z /\ row = take (dres_index r + 1) (y :: f)) ticks rows ->
  concat (map (fun p => seq p.2.1 (p.2.2 - p.2.1)) cparts) = seq 0 (length ticks) ->
  Forall (fun p => p.2.1 < p.2.2) cparts ->
  Forall (fun p => map (trunc tps r) ticks !! p.2.1 = Some p.1) cparts ->
  keys_increase Z.lt cparts ->
  (files_every_record_once (map (trunc tps r) ticks) cparts <-> never_decreases Z.lt (map (trunc tps r) ticks)) ->
  traverse (fun cs : Z * (nat * nat) => do dirs <- date_partition r cs.1; Ok (dirs, cs.2)) cparts = Ok parts ->
  exists kparts, parts = map (fun ks => (key_dirs (Date names dt r) ks.1, ks.2)) kparts /\ keyed_slices rows kparts /\
    (never_decreases Z.lt (map (trunc tps r) ticks) <-> never_decreases row_lt rows).
Proof.
  intros Hrows Hcov Hsome Hfirst Hinc Hfiles Htr.
  set (kparts := map (fun p : Z * (nat * nat) => (default [] (rows !! p.2.1), p.2)) cparts).
  assert (Hat : forall i t row, ticks !! i = Some t -> rows !! i = Some row ->
    exists y f, has_fields (t / tps) (y :: f) /\ (1 <= y <= 9999)%Z /\ row = take (dres_index r + 1) (y :: f)).
  { intros i t row Ht Hr. by eapply (Forall2_lookup_lr _ _ _ i t row Hrows). }
  assert (Hlen : length ticks = length rows) by (by eapply Forall2_length).
  assert (Hrow : forall i, i < length ticks -> exists t row, ticks !! i = Some t /\ rows !! i = Some row).
  { intros i Hi. destruct (lookup_lt_is_Some_2 ticks i) as [t Ht]; [done|].
    destruct (lookup_lt_is_Some_2 rows i) as [row Hr]; [lia|]. by exists t, row. }
  assert (Hlt : forall i j t t' row row', ticks !! i = Some t -> rows !! i = Some row -> ticks !! j = Some t' -> rows !! j = Some row' ->
    ((trunc tps r t < trunc tps r t')%Z <-> row_lt row row') /\ (trunc tps r t = trunc tps r t' <-> row = row')).
  { intros i j t t' row row' Ht Hr Ht' Hr'. destruct (Hat _ _ _ Ht Hr) as (y & f & Hf & _ & ->).
    destruct (Hat _ _ _ Ht' Hr') as (y' & f' & Hf' & _ & ->). split.
    - by apply trunc_lt_fields.
    - by apply trunc_seconds_fields. }
  assert (Hpart : forall c a b, (c, (a, b)) ∈ cparts -> exists t row, ticks !! a = Some t /\ rows !! a = Some row /\ c = trunc tps r t).
  { intros c a b Hin. rewrite Forall_forall in Hfirst. specialize (Hfirst _ Hin). cbn in Hfirst.
    change (map (trunc tps r) ticks) with (trunc tps r <$> ticks) in Hfirst.
    rewrite list_lookup_fmap in Hfirst. destruct (ticks !! a) as [t|] eqn:Ht; [|done]. injection Hfirst as <-.
    destruct (Hrow a) as (t' & row & Ht' & Hr); [by eapply lookup_lt_Some|]. exists t, row. done. }
  assert (Hnd : never_decreases Z.lt (map (trunc tps r) ticks) <-> never_decreases row_lt rows).
  { split; intros H i j a b Hij Ha Hb.
    - destruct (Hrow i) as (t & row & Ht & Hr); [apply lookup_lt_Some in Ha; lia|]. rewrite Hr in Ha. injection Ha as <-.
      destruct (Hrow j) as (t' & row' & Ht' & Hr'); [apply lookup_lt_Some in Hb; lia|]. rewrite Hr' in Hb. injection Hb as <-.
      destruct (Hlt i j t t' row row') as [H1 H2]; try done. rewrite <-H1, <-H2. apply (H i j); [done| |].
      all: change (map (trunc tps r) ticks) with (trunc tps r <$> ticks); by rewrite list_lookup_fmap, ?Ht, ?Ht'.
    - change (map (trunc tps r) ticks) with (trunc tps r <$> ticks) in Ha, Hb. rewrite list_lookup_fmap in Ha, Hb.
      destruct (ticks !! i) as [t|] eqn:Ht; [|done]. destruct (ticks !! j) as [t'|] eqn:Ht'; [|done].
      injection Ha as <-. injection Hb as <-.
      destruct (Hrow i) as (? & row & E & Hr); [by eapply lookup_lt_Some|]. rewrite Ht in E. injection E as <-.
      destruct (Hrow j) as (? & row' & E & Hr'); [by eapply lookup_lt_Some|]. rewrite Ht' in E. injection E as <-.
      destruct (Hlt i j t t' row row') as [H1 H2]; try done. rewrite H1, H2. by apply (H i j). }
  assert (Hin : forall c s, (c, s) ∈ cparts -> exists row, rows !! s.1 = Some row /\ (default [] (rows !! s.1), s) = (row, s) /\
     forall i row', s.1 <= i < s.2 -> rows !! i = Some row' -> (map (trunc tps r) ticks !! i = Some c <-> row' = row)).
  { intros c [a b] Hin. destruct (Hpart _ _ _ Hin) as (t & row & Ht & Hr & ->). exists row. cbn. rewrite Hr. split_and!; try done.
    intros i row' Hi Hr'. destruct (Hrow i) as (t' & ? & Ht' & E); [apply lookup_lt_Some in Hr'; lia|].
    change (map (trunc tps r) ticks) with (trunc tps r <$> ticks). rewrite list_lookup_fmap, Ht'. cbn.
    rewrite (inj_iff Some). by apply (Hlt i a). }
  exists kparts. split; [|split; [|done]].
  - unfold kparts. rewrite map_map. apply traverse_inv in Htr.
    assert (Forall (fun cs : Z * (nat * nat) => date_partition r cs.1 = Ok (key_dirs (Date names dt r) (default [] (rows !! cs.2.1)))) cparts) as Hd.
    { apply Forall_forall. intros [c [a b]] Hin'. destruct (Hpart _ _ _ Hin') as (t & row & Ht & Hr & ->).
      destruct (Hat _ _ _ Ht Hr) as (y & f & Hf & Hy & ->). cbn [fst snd]. rewrite Hr. cbn [default].
      unfold trunc. rewrite (date_partition_spec r _ y f) by done. by rewrite (key_dirs_date names dt). }
    clear - Htr Hd. induction Htr as [|cs part cparts parts H Htr IH]; [done|].
    apply Forall_cons in Hd as [Hd1 Hd2]. rewrite Hd1 in H. injection H as <-. rewrite IH by done. reflexivity.
  - assert (Hc' : concat (map (fun p : list Z * (nat * nat) => seq p.2.1 (p.2.2 - p.2.1)) kparts) = seq 0 (length rows)).
    { unfold kparts. rewrite map_map. cbn. by rewrite Hcov, Hlen. }
    assert (Hs' : Forall (fun p : list Z * (nat * nat) => p.2.1 < p.2.2) kparts).
    { unfold kparts. apply Forall_fmap. eapply Forall_impl; [exact Hsome|]. done. }
    assert (Hf' : Forall (fun p : list Z * (nat * nat) => rows !! p.2.1 = Some p.1) kparts).
    { unfold kparts. apply Forall_fmap, Forall_forall. intros [c s] Hi. cbn. destruct (Hin _ _ Hi) as (row & Hr & _). by rewrite Hr. }
    constructor; try done.
    + intros i j p q Hij Hp Hq. unfold kparts in Hp, Hq. change (map ?f cparts) with (f <$> cparts) in Hp, Hq.
      rewrite list_lookup_fmap in Hp, Hq.
      destruct (cparts !! i) as [[c [a b]]|] eqn:Hci; [|done]. destruct (cparts !! j) as [[c' [a' b']]|] eqn:Hcj; [|done].
      injection Hp as <-. injection Hq as <-. cbn [fst snd].
      destruct (Hpart c a b) as (t & row & Ht & Hr & ->); [by eapply elem_of_list_lookup_2|].
      destruct (Hpart c' a' b') as (t' & row' & Ht' & Hr' & ->); [by eapply elem_of_list_lookup_2|].
      rewrite Hr, Hr'. cbn. apply (Hlt a a' t t'); try done. exact (Hinc _ _ _ _ Hij Hci Hcj).
    + rewrite <-Hnd, <-Hfiles. unfold files_every_record_once. rewrite map_length, Hcov, Hc'.
      assert (Forall (fun p : Z * (nat * nat) => forall i, p.2.1 <= i < p.2.2 -> map (trunc tps r) ticks !! i = Some p.1) cparts <->
              Forall (fun p : list Z * (nat * nat) => forall i, p.2.1 <= i < p.2.2 -> rows !! i = Some p.1) kparts) as ->; [|by intuition].
      unfold kparts. change (map ?f cparts) with (f <$> cparts) at 1. rewrite Forall_fmap, !Forall_forall.
      assert (Hb : forall c s i, (c, s) ∈ cparts -> s.1 <= i < s.2 -> i < length ticks).
      { intros c s i Hi Hs. assert (i ∈ concat (map (fun p : Z * (nat * nat) => seq p.2.1 (p.2.2 - p.2.1)) cparts)) as Hx.
        { apply elem_of_list_In, in_concat. exists (seq s.1 (s.2 - s.1)). split; [|apply in_seq; lia].
          apply in_map_iff. exists (c, s). split; [done|]. by apply elem_of_list_In. }
        rewrite Hcov in Hx. apply elem_of_seq in Hx. lia. }
      split; intros H [c s] Hi i Hs; cbn [fst snd] in *.
      * destruct (Hin _ _ Hi) as (row & Hr & _ & Heq). cbn [compose]. rewrite Hr. cbn.
        destruct (Hrow i) as (? & row' & _ & Hr'); [by eapply Hb|]. rewrite Hr'. f_equal. apply (Heq i row' Hs Hr'). by apply (H _ Hi).
      * destruct (Hin _ _ Hi) as (row & Hr & _ & Heq).
        destruct (Hrow i) as (? & row' & _ & Hr'); [by eapply Hb|]. apply (Heq i row' Hs Hr').
        specialize (H _ Hi i Hs). cbn in H. rewrite Hr, Hr' in H. cbn in H. congruence.
Qed.

Lemma split_date_sound names dt r ds rows parts : record_keys (Date names dt r) ds rows ->
  (Z.of_nat (length rows) < 2^63)%Z -> split_keys (Date names dt r) ds = Ok parts ->
  exists kparts, parts = map (fun ks => (key_dirs (Date names dt r) ks.1, ks.2)) kparts /\ keyed_slices rows kparts /\
    (d_delayed ds = true -> rows <> [] /\ never_decreases row_lt rows).
Proof.
  intros (n & v & tps & ticks & -> & Hv & Htps & Hflat & Hrows) Hsize.
  assert (Hlen : length ticks = length rows) by (by eapply Forall2_length).
  unfold split_keys. cbn [p_variables traverse]. unfold get_var. rewrite Hv. cbn [rbind]. rewrite Htps.
  apply ints_of_spec in Hflat. rewrite Hflat. cbn [rbind].
  destruct (date_split _ _ _ _) as [cparts|] eqn:E; [|done]. cbn [rbind]. intros Htr.
  destruct (d_delayed ds).
  - pose proof (C01_date_lazy tps r ticks ltac:(lia)) as H. cbv zeta in H. rewrite E in H.
    destruct H as (Hne & Hs & Hf & Hi). pose proof Hf as (H1 & H2 & H3).
    destruct (dates_sound [n] dt r tps ticks rows cparts parts) as (kparts & ? & ? & Hnd); try done.
    { by rewrite map_length in H1. }
    { rewrite Forall_forall in H2, H3 |- *. intros p Hp. apply H3; [done|]. specialize (H2 p Hp). lia. }
    exists kparts. split_and!; try done. intros _. split; [|by apply Hnd]. intros ->. by destruct ticks.
  - destruct (decide (ticks = [])) as [->|Hne].
    { destruct rows; [|done]. cbn in E. injection E as <-. cbn in Htr. injection Htr as <-. exists [].
      split_and!; [done| |done]. constructor; [done|constructor|constructor| |].
      - intros i j a b _ Ha. done.
      - split; intros _; [intros i j a b _ Ha; done|]. split_and!; [done|constructor|constructor]. }
    destruct (C02_date_eager (trunc tps r) ticks cparts) as (H1 & H2 & H3 & H4 & H5); try done; [lia|].
    destruct (dates_sound [n] dt r tps ticks rows cparts parts) as (kparts & ? & ? & Hnd); try done.
    by exists kparts.
Qed.

(** What a successful split means, for the partitions and for the records. *)
Lemma split_sound p ds rows parts : plain_keys p -> record_keys p ds rows ->
  (Z.of_nat (length rows) < 2^63)%Z -> split_dataset p ds = Ok parts ->
  exists kparts, parts = map (fun ks => (key_dirs p ks.1, ks.2)) kparts /\ keyed_slices rows kparts /\
    (d_delayed ds = true -> rows <> [] /\ never_decreases row_lt rows).
Proof.
  intros Hp Hk Hs. unfold split_dataset. destruct (traverse _ _) as [|]; [|done]. cbn [rbind].
  destruct p as [names dt|names dt r].
  - apply split_sequence_sound; try done. by apply plain_nodup in Hp.
  - by apply split_date_sound.
Qed.

Lemma dates_order r tps ticks rows :
  Forall2 (fun t row => exists y f, has_fields (t / tps) (y :: f) /\ (1 <= y <= 9999)%Z /\ row = take (dres_index r + 1) (y :: f)) ticks rows ->
  never_decreases row_lt rows -> never_decreases Z.lt (map (trunc tps r) ticks).
Proof.
  intros Hrows H i j a b Hij Ha Hb. change (map (trunc tps r) ticks) with (trunc tps r <$> ticks) in Ha, Hb. rewrite list_lookup_fmap in Ha, Hb.
  destruct (ticks !! i) as [t|] eqn:Ht; [|done]. destruct (ticks !! j) as [t'|] eqn:Ht'; [|done].
  injection Ha as <-. injection Hb as <-.
  destruct (Forall2_lookup_l _ _ _ _ _ Hrows Ht) as (row & Hr & y & f & Hf & _ & Er).
  destruct (Forall2_lookup_l _ _ _ _ _ Hrows Ht') as (row' & Hr' & y' & f' & Hf' & _ & Er').
  destruct (H i j row row' Hij Hr Hr') as [Hlt|Heq]; subst row row'.
  - left. by apply (trunc_lt_fields r _ _ _ _ Hf Hf').
  - right. by apply (trunc_seconds_fields r _ _ _ _ Hf Hf').
Qed.

Lemma promotes_integers l : promotes_to_integer l = true <-> integers l.
Proof.
  unfold promotes_to_integer, integers, memb. rewrite andb_true_iff, forallb_forall, negb_true_iff, andb_false_iff, Forall_forall.
  assert (Hd : forall t, t ∈ DATA_TYPES <-> t ∈ SIGNED \/ t ∈ UNSIGNED) by (intros t; change DATA_TYPES with (SIGNED ++ UNSIGNED); apply elem_of_app).
  assert (Hx : existsb (fun t => bool_decide (t ∈ SIGNED)) l = false <-> ~ exists t, t ∈ l /\ t ∈ SIGNED).
  { rewrite <-not_true_iff_false, existsb_exists. setoid_rewrite bool_decide_eq_true. by setoid_rewrite <-elem_of_list_In. }
  change [lit "int8"; lit "int16"; lit "int32"; lit "int64"] with SIGNED. rewrite Hx, bool_decide_eq_false. split.
  - intros [H1 H2]. split; [|intros [Hu Hs]; by destruct H2].
    intros t Ht. apply Hd. apply (bool_decide_eq_true (t ∈ DATA_TYPES)), H1. by apply elem_of_list_In.
  - intros [H1 H2]. split; [intros t Ht; apply bool_decide_eq_true, Hd, H1; by apply elem_of_list_In|].
    destruct (decide (lit "uint64" ∈ l)); [right; intros Hs; by apply H2|by left].
Qed.

(** A dataset whose keys are integers or dates, in order, is split. *)
Lemma split_total p ds rows : plain_keys p -> record_keys p ds rows ->
  (Z.of_nat (length rows) < 2^63)%Z -> rows <> [] -> never_decreases row_lt rows ->
  (forall n v, n ∈ p_variables p -> dget (d_vars ds) n = Some v -> length (v_shape v) = 1) ->
  (match p with Sequence names _ => forall vs, Forall2 (fun n v => dget (d_vars ds) n = Some v) names vs -> promotes_to_integer (map v_dtype vs) = true | _ => True end) ->
  exists parts, split_dataset p ds = Ok parts.
Proof.
  intros Hp Hk Hsize Hne Hsorted H1d Hint. unfold split_dataset.
  assert (Hvars : forall n, n ∈ p_variables p -> exists v, dget (d_vars ds) n = Some v).
  { destruct p as [names dt|names dt r].
    - destruct Hk as (cols & _ & H). intros n [i Hi]%elem_of_list_lookup.
      destruct (Forall2_lookup_l _ _ _ _ _ H Hi) as (c & _ & _ & v & Hv & _). by exists v.
    - destruct Hk as (n & v & ? & ? & -> & Hv & _). intros n' Hn'. apply elem_of_list_singleton in Hn' as ->. by exists v. }
  rewrite (traverse_Ok _ (fun _ => tt)).
  2:{ intros n Hn. destruct (Hvars n Hn) as [v Hv]. unfold get_var. rewrite Hv. cbn [rbind]. by rewrite (H1d n v Hn Hv). }
  cbn [rbind]. destruct p as [names dt|names dt r].
  - destruct Hk as (cols & Hrows & Hcols). destruct (get_vars_ok _ _ _ _ Hcols) as (vs & H1 & H2 & H3).
    unfold split_keys. cbn [p_variables]. rewrite H1. cbn [rbind]. rewrite H2. cbn [rbind].
    assert (Hlen : length names = length cols) by (by eapply Forall2_length).
    assert (Hz1 : map fst (zip names cols) = names) by (apply (fst_zip names cols); lia).
    assert (Hz2 : map snd (zip names cols) = cols) by (apply (snd_zip names cols); lia).
    rewrite dict_of_id by (unfold dkeys; rewrite Hz1; by apply plain_nodup in Hp).
    rewrite (Hint vs H3).
    assert (Hne' : zip names cols <> []).
    { intros E'. apply (plain_some _ Hp). cbn. by rewrite <-Hz1, E'. }
    assert (Hall : Forall (fun c => length c = length rows) (map snd (zip names cols))).
    { rewrite Hz2. clear - Hcols. induction Hcols as [|? ? ? ? [? _]]; by constructor. }
    destruct (C02_sequence_sorted (zip names cols) (length rows) rows) as [Heq Hok]; try done.
    { destruct rows; [done|]. cbn. lia. }
    { by rewrite Hz2. }
    destruct (d_delayed ds); rewrite ?Heq.
    all: destruct (sequence_split (zip names cols) true true) as [ps|]; [|done]; cbn [rbind]; by eexists.
  - destruct Hk as (n & v & tps & ticks & -> & Hv & Htps & Hflat & Hrows).
    assert (Hlen : length ticks = length rows) by (by eapply Forall2_length).
    unfold split_keys. cbn [p_variables traverse]. unfold get_var. rewrite Hv. cbn [rbind]. rewrite Htps.
    apply ints_of_spec in Hflat. rewrite Hflat. cbn [rbind].
    assert (Htn : ticks <> []) by (intros ->; by destruct rows).
    destruct (C02_date_sorted (trunc tps r) ticks) as [Heq Hok]; [lia|done|by eapply dates_order|].
    pose proof (C01_date_lazy tps r ticks ltac:(lia)) as H. cbv zeta in H.
    assert (exists cparts, date_split (trunc tps r) ticks true (d_delayed ds) = Ok cparts /\
      Forall (fun p => map (trunc tps r) ticks !! p.2.1 = Some p.1) cparts) as (cparts & -> & Hfirst).
    { destruct (d_delayed ds); rewrite ?Heq.
      all: destruct (date_split (trunc tps r) ticks true true) as [cp|]; [|done]; exists cp; split; [done|];
        destruct H as (_ & _ & (_ & H2 & H3) & _); rewrite Forall_forall in H2, H3 |- *; intros q Hq; apply H3; [done|];
        specialize (H2 q Hq); lia. }
    cbn [rbind]. clear - Hfirst Hrows. induction Hfirst as [|[c s] cparts Hc _ IH]; [by exists []|].
    destruct IH as [parts IH]. cbn [fst snd] in Hc. change (map (trunc tps r) ticks) with (trunc tps r <$> ticks) in Hc.
    rewrite list_lookup_fmap in Hc. destruct (ticks !! s.1) as [t|] eqn:Ht; [|done]. injection Hc as <-.
    destruct (Forall2_lookup_l _ _ _ _ _ Hrows Ht) as (row & _ & y & f & Hf & Hy & _).
    cbn [traverse fst snd]. unfold trunc. rewrite (date_partition_spec r _ y f) by done. cbn [rbind]. rewrite IH. cbn [rbind]. by eexists.
Qed.
