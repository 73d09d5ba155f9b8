(** * Properties C01 and C02: every record is filed once, under its own key *)
From Verif Require Import Py Split_Model Split_Spec Split_Proofs Split_Main.
From Verif Require Import Calendar_Model Calendar_Spec Calendar_Proofs Calendar_Fields.

(** ** C01, Sequence partitioning of a lazy dataset.
    [variables] are the partitioning variables with their columns, [rows] the
    keys of the records. The split succeeds iff there is a record and the keys
    never decrease; then each record is in exactly one slice, announced under
    its own key, and the announced keys strictly increase. *)
Theorem C01_sequence_lazy (variables : list (str * list Z)) (n : nat) (rows : list (list Z)) :
  variables <> [] -> Forall (fun c => length c = n) (map snd variables) ->
  (Z.of_nat n < 2^64)%Z -> length rows = n -> is_rows (map snd variables) rows ->
  match sequence_split variables true true with
  | Ok parts => n > 0 /\ never_decreases row_lt rows /\
      exists kparts, parts = named (map fst variables) kparts /\
        files_every_record_once rows kparts /\ keys_increase row_lt kparts
  | Raise e => (e = IndexError /\ n = 0) \/ (e = ValueError /\ n > 0 /\ ~ never_decreases row_lt rows)
  end.
Proof.
  intros Hv Hc Hb Hl Hr.
  destruct (sequence_split variables true true) as [parts|e] eqn:E.
  - destruct (seq_lazy_inv variables n rows Hv Hc Hl Hr parts Hb E) as [Hne Hs].
    rewrite (seq_lazy_ok variables n rows Hv Hc Hl Hr Hb Hne Hs) in E.
    split_and!; [destruct rows; [done|cbn in Hl; lia]|done|].
    exists (lazy_parts rows). split_and!; [congruence|apply pairs_heads_tile|].
    by apply (heads_keys_increase row_lt row_lt_trans).
  - destruct (seq_lazy_raise variables n rows Hv Hc Hl Hr Hb) as [H1 H2].
    destruct (decide (rows = [])) as [->|Hne].
    + left. rewrite H1 in E by done. split; [congruence|by rewrite <-Hl].
    + right. assert (Hns : ~ never_decreases row_lt rows).
      { intros Hs. by rewrite (seq_lazy_ok variables n rows Hv Hc Hl Hr Hb Hne Hs) in E. }
      rewrite (H2 Hne Hns) in E. split_and!; [congruence|destruct rows; [done|cbn in Hl; lia]|done].
Qed.
Print Assumptions C01_sequence_lazy.

(** A variable that is not an integer, or columns of different sizes, are
    rejected, whichever the representation of the dataset. *)
Theorem C01_sequence_rejects (variables : list (str * list Z)) (integer delayed : bool) :
  (variables = [] -> sequence_split variables integer delayed = Raise ValueError) /\
  (forall i j c d, map snd variables !! i = Some c -> map snd variables !! j = Some d ->
     length c <> length d -> sequence_split variables integer delayed = Raise ValueError) /\
  (forall n, variables <> [] -> Forall (fun c => length c = n) (map snd variables) ->
     sequence_split variables false delayed = Raise TypeError).
Proof.
  split_and!.
  - by intros ->.
  - intros i j c d Hc Hd Hcd. unfold sequence_split.
    set (m := match map snd variables with [] => 0 | c :: _ => length c end).
    assert (Hf : forallb (fun c => length c =? m) (map snd variables) = false).
    { apply not_true_is_false. intros H. rewrite forallb_forall in H.
      apply elem_of_list_lookup_2, elem_of_list_In, H, Nat.eqb_eq in Hc.
      apply elem_of_list_lookup_2, elem_of_list_In, H, Nat.eqb_eq in Hd. lia. }
    rewrite Hf, orb_true_r. done.
  - intros n Hv Hn. unfold sequence_split.
    assert (E : match map snd variables with [] => 0 | c :: _ => length c end = n).
    { destruct variables as [|[k c] vs]; [done|]. cbn in *. by inversion Hn. }
    rewrite E.
    assert (Hb : forallb (fun c => length c =? n) (map snd variables) = true).
    { apply forallb_forall. intros c Hc. rewrite Forall_forall in Hn.
      apply Nat.eqb_eq, Hn. by apply elem_of_list_In. }
    rewrite Hb. destruct variables; done.
Qed.
Print Assumptions C01_sequence_rejects.

(** ** C01, Date partitioning of a lazy dataset, [tps] ticks per second. The
    key of a record is the number of its calendar unit (see C05). *)
Theorem C01_date_lazy (tps : Z) (r : dres) (values : list Z) :
  (Z.of_nat (length values) < 2^64)%Z ->
  let keys := map (trunc tps r) values in
  match date_split (trunc tps r) values true true with
  | Ok parts => values <> [] /\ never_decreases Z.lt keys /\
      files_every_record_once keys parts /\ keys_increase Z.lt parts
  | Raise e => (e = IndexError /\ values = []) \/ (e = ValueError /\ values <> [] /\ ~ never_decreases Z.lt keys)
  end.
Proof.
  intros Hb keys. destruct (date_lazy_inv (trunc tps r) values) as [H1 H2].
  destruct (decide (values = [])) as [->|Hne]; [rewrite H1 by done; by left|].
  destruct (all_nondecreasing keys) eqn:E.
  - apply nondec_never in E. rewrite (date_lazy_ok (trunc tps r) values Hb Hne E).
    split_and!; [done|done|apply pairs_heads_tile|].
    by apply (heads_keys_increase Z.lt Z.lt_trans).
  - assert (Hns : ~ never_decreases Z.lt keys).
    { intros H%nondec_never. congruence. }
    rewrite (H2 Hne Hns). by right.
Qed.
Print Assumptions C01_date_lazy.

(** Time-sorted records are always accepted. *)
Theorem C01_date_sorted_accepted (tps : Z) (r : dres) (values : list Z) :
  (Z.of_nat (length values) < 2^64)%Z -> (0 < tps)%Z -> values <> [] ->
  (forall i j a b, i < j -> values !! i = Some a -> values !! j = Some b -> (a <= b)%Z) ->
  exists parts, date_split (trunc tps r) values true true = Ok parts /\
    files_every_record_once (map (trunc tps r) values) parts.
Proof.
  intros Hb Ht Hne Hs. exists (lazy_parts (map (trunc tps r) values)).
  split; [|apply pairs_heads_tile]. apply date_lazy_ok; [done|done|].
  intros i j a b Hij Ha Hb'. change (map ?f ?l) with (f <$> l) in Ha, Hb'.
  rewrite list_lookup_fmap in Ha, Hb'.
  destruct (values !! i) as [va|] eqn:Ea; [|done]. destruct (values !! j) as [vb|] eqn:Eb; [|done].
  cbn in Ha, Hb'. injection Ha as <-. injection Hb' as <-.
  pose proof (trunc_le tps r va vb Ht (Hs _ _ _ _ Hij Ea Eb)). lia.
Qed.
Print Assumptions C01_date_sorted_accepted.

(** A variable that is not a date is rejected. *)
Theorem C01_date_rejects (trunc : Z -> Z) (values : list Z) (delayed : bool) :
  date_split trunc values false delayed = Raise TypeError.
Proof. done. Qed.
Print Assumptions C01_date_rejects.

Example C01_example :
  let vars := [(lit "cycle", [1;1;1;2;2]%Z); (lit "pass", [1;1;2;1;1]%Z)] in
  sequence_split vars true true =
  Ok [([(lit "cycle", 1%Z); (lit "pass", 1%Z)], (0, 2));
      ([(lit "cycle", 1%Z); (lit "pass", 2%Z)], (2, 3));
      ([(lit "cycle", 2%Z); (lit "pass", 1%Z)], (3, 5))] /\
  Forall (fun c => length c = 5) (map snd vars) /\
  is_rows (map snd vars) [[1;1]; [1;1]; [1;2]; [2;1]; [2;1]]%Z.
Proof.
  cbn zeta. split_and!; [vm_compute; reflexivity|repeat constructor|].
  intros i r H. do 5 (destruct i as [|i]; [injection H as <-; repeat constructor|]). done.
Qed.

Example C01_date_example :
  date_split (trunc 1 RM) [0; 86400; 2678399; 2678400; 2678401]%Z true true
  = Ok [(0%Z, (0, 3)); (1%Z, (3, 5))].
Proof. vm_compute. reflexivity. Qed.

(** ** C02. On keys that never decrease, an eager dataset is split exactly as
    the lazy one. *)
Theorem C02_sequence_sorted (variables : list (str * list Z)) (n : nat) (rows : list (list Z)) :
  variables <> [] -> Forall (fun c => length c = n) (map snd variables) ->
  (Z.of_nat n < 2^63)%Z -> length rows = n -> n > 0 -> is_rows (map snd variables) rows ->
  never_decreases row_lt rows ->
  sequence_split variables true false = sequence_split variables true true /\
  is_ok (sequence_split variables true true) = true.
Proof.
  intros Hv Hc Hb Hl Hn Hr Hs.
  rewrite (seq_eager_ok variables n rows Hv Hc Hl Hr Hb Hs).
  rewrite (seq_lazy_ok variables n rows Hv Hc Hl Hr ltac:(lia)); [done| |done].
  intros ->. cbn in Hl. lia.
Qed.
Print Assumptions C02_sequence_sorted.

Theorem C02_date_sorted (trunc : Z -> Z) (values : list Z) :
  (Z.of_nat (length values) < 2^63)%Z -> values <> [] -> never_decreases Z.lt (map trunc values) ->
  date_split trunc values true false = date_split trunc values true true /\
  is_ok (date_split trunc values true true) = true.
Proof.
  intros Hb Hne Hs.
  rewrite (date_eager_ok trunc values Hb Hs), (date_lazy_ok trunc values ltac:(lia) Hne Hs). done.
Qed.
Print Assumptions C02_date_sorted.

(** Whatever the keys, an eager split that succeeds loses no record: the
    slices tile the dataset, and the first record of each slice has the
    announced key. It files every record under its own key exactly when the
    keys never decrease. *)
Theorem C02_sequence_eager (variables : list (str * list Z)) (n : nat) (rows : list (list Z)) parts :
  variables <> [] -> Forall (fun c => length c = n) (map snd variables) ->
  (Z.of_nat n < 2^63)%Z -> length rows = n -> n > 0 -> is_rows (map snd variables) rows ->
  sequence_split variables true false = Ok parts ->
  exists kparts, parts = named (map fst variables) kparts /\
    concat (map (fun p => seq p.2.1 (p.2.2 - p.2.1)) kparts) = seq 0 n /\
    Forall (fun p => p.2.1 < p.2.2) kparts /\
    Forall (fun p => rows !! p.2.1 = Some p.1) kparts /\
    keys_increase row_lt kparts /\
    (files_every_record_once rows kparts <-> never_decreases row_lt rows).
Proof.
  intros Hv Hc Hb Hl Hn Hr E.
  assert (Hne : rows <> []) by (intros ->; cbn in Hl; lia).
  destruct (seq_eager_any variables n rows Hv Hc Hl Hr parts Hb Hne E)
    as (kp & -> & H1 & H2 & H3 & H4 & H5).
  exists kp. split_and!; try done.
  - intros i j p q Hij Hp Hq. rewrite StronglySorted_lookup in H4.
    apply (H4 i j); [done| |]; change (map fst kp) with (fst <$> kp); rewrite list_lookup_fmap, ?Hp, ?Hq; done.
  - split; [intros H; by eapply tile_sorted|]. intros Hs. rewrite (H5 Hs). apply pairs_heads_tile.
Qed.
Print Assumptions C02_sequence_eager.

Theorem C02_date_eager (trunc : Z -> Z) (values : list Z) parts :
  (Z.of_nat (length values) < 2^63)%Z -> values <> [] ->
  date_split trunc values true false = Ok parts ->
  concat (map (fun p => seq p.2.1 (p.2.2 - p.2.1)) parts) = seq 0 (length values) /\
  Forall (fun p => p.2.1 < p.2.2) parts /\
  Forall (fun p => map trunc values !! p.2.1 = Some p.1) parts /\
  keys_increase Z.lt parts /\
  (files_every_record_once (map trunc values) parts <-> never_decreases Z.lt (map trunc values)).
Proof.
  intros Hb Hne E.
  destruct (date_eager_any trunc values parts Hb Hne E) as (H1 & H2 & H3 & H4).
  split_and!; try done.
  - intros i j p q Hij Hp Hq. rewrite StronglySorted_lookup in H4.
    apply (H4 i j); [done| |]; change (map fst parts) with (fst <$> parts); rewrite list_lookup_fmap, ?Hp, ?Hq; done.
  - split; [intros H; by eapply tile_sorted|]. intros Hs.
    rewrite (date_eager_ok trunc values Hb Hs) in E. injection E as <-. apply pairs_heads_tile.
Qed.
Print Assumptions C02_date_eager.

(** C02 as stated is false: an eager dataset whose keys are 1, 2, 1 is accepted
    and its third record is filed in the partition of key 2, while the lazy
    dataset is rejected. The same happens with dates. *)
Theorem C02_eager_misfiles_refuted :
  sequence_split [(lit "a", [1; 2; 1]%Z)] true false =
    Ok [([(lit "a", 1%Z)], (0, 1)); ([(lit "a", 2%Z)], (1, 3))] /\
  sequence_split [(lit "a", [1; 2; 1]%Z)] true true = Raise ValueError /\
  date_split (trunc 1 RD) [0; 86400; 0]%Z true false = Ok [(0%Z, (0, 1)); (1%Z, (1, 3))] /\
  date_split (trunc 1 RD) [0; 86400; 0]%Z true true = Raise ValueError.
Proof. split_and!; vm_compute; reflexivity. Qed.
Print Assumptions C02_eager_misfiles_refuted.

(** On a dataset without records, the eager split announces no partition and
    the lazy split raises IndexError. *)
Theorem C02_empty (trunc : Z -> Z) (name : str) :
  sequence_split [(name, [])] true false = Ok [] /\
  sequence_split [(name, [])] true true = Raise IndexError /\
  date_split trunc [] true false = Ok [] /\
  date_split trunc [] true true = Raise IndexError.
Proof. done. Qed.
Print Assumptions C02_empty.

Example C02_example :
  let vars := [(lit "cycle", [1;1;1;2;2]%Z); (lit "pass", [1;1;2;1;1]%Z)] in
  sequence_split vars true false =
  Ok [([(lit "cycle", 1%Z); (lit "pass", 1%Z)], (0, 2));
      ([(lit "cycle", 1%Z); (lit "pass", 2%Z)], (2, 3));
      ([(lit "cycle", 2%Z); (lit "pass", 1%Z)], (3, 5))].
Proof. vm_compute. reflexivity. Qed.
