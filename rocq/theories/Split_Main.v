(** * Main lemmas on the splitting of datasets *)
From Verif Require Import Py Split_Model Split_Spec Split_Proofs.

(** ** Tiling by increasing positions *)
Section tile.
  Context {A : Type}.

  Lemma pairs_tile (hs : list (A * nat)) n s x :
    StronglySorted lt (map snd ((x, s) :: hs)) ->
    Forall (fun p => p < n) (map snd ((x, s) :: hs)) ->
    concat (map (fun p => seq p.2.1 (p.2.2 - p.2.1)) (pairs ((x, s) :: hs) n)) = seq s (n - s) /\
    Forall (fun p => p.2.1 < p.2.2 /\ p.2.2 <= n) (pairs ((x, s) :: hs) n).
  Proof.
    revert x s. induction hs as [|[y t] hs IH]; intros x s Hs Hn.
    - cbn [pairs map concat fst snd]. rewrite app_nil_r. split; [done|].
      inversion Hn; subst. constructor; [cbn in *; lia|constructor].
    - inversion Hs as [|?? Hs' Hf]; subst. inversion Hn as [|?? Hn1 Hn']; subst.
      destruct (IH y t Hs' Hn') as [H1 H2].
      change (pairs ((x, s) :: (y, t) :: hs) n) with ((x, (s, t)) :: pairs ((y, t) :: hs) n).
      cbn [map concat fst snd]. cbn [map fst snd] in H1. rewrite H1.
      inversion Hf as [|?? Hst _]; subst. inversion Hn' as [|?? Hn2 _]; subst. cbn [snd] in *.
      split.
      + replace (n - s) with ((t - s) + (n - t)) by lia. rewrite seq_app.
        do 2 f_equal. lia.
      + constructor; [cbn; lia|done].
  Qed.
End tile.

(** ** The eager path on any keys *)
Section eager_any.
  Context {A : Type} `{EqDecision A} (lt : A -> A -> Prop) (leb : A -> A -> bool) (P : A -> Prop).
  Context (ltrans : forall a b c, lt a b -> lt b c -> lt a c).
  Context (lirrefl : forall a, ~ lt a a).
  Context (leb_lt : forall a b, lt a b -> leb a b = true /\ leb b a = false).
  Context (leb_refl : forall a, leb a a = true).
  Context (total : forall a b, P a -> P b -> lt a b \/ a = b \/ lt b a).

  Lemma usort_insert_elem x l z : P x -> Forall P l ->
    z ∈ usort_insert leb x l <-> z = x \/ z ∈ l.
  Proof using ltrans lirrefl leb_lt leb_refl total.
    intros Hx Hl. induction Hl as [|y l Hy Hl IH]; cbn [usort_insert]; [set_solver|].
    destruct (leb x y) eqn:E1.
    - destruct (leb y x) eqn:E2; [|set_solver].
      destruct (total x y Hx Hy) as [Hlt|[->|Hlt]]; [| set_solver |];
        apply leb_lt in Hlt as [? ?]; congruence.
    - rewrite !elem_of_cons, IH. tauto.
  Qed.
  Lemma usort_insert_P x l : P x -> Forall P l -> Forall P (usort_insert leb x l).
  Proof using.
    intros Hx Hl. induction Hl as [|y l Hy Hl IH]; cbn [usort_insert]; [by constructor|].
    destruct (leb x y), (leb y x); repeat constructor; done.
  Qed.
  Lemma usort_insert_sorted x l : P x -> Forall P l ->
    StronglySorted lt l -> StronglySorted lt (usort_insert leb x l).
  Proof using ltrans lirrefl leb_lt leb_refl total.
    intros Hx Hl. induction Hl as [|y l Hy Hl IH]; intros Hs; cbn [usort_insert];
      [repeat constructor|].
    inversion Hs as [|?? Hs' Hf]; subst.
    destruct (total x y Hx Hy) as [Hlt|[->|Hlt]].
    - pose proof (leb_lt _ _ Hlt) as [-> ->]. constructor; [done|]. constructor; [done|].
      eapply Forall_impl; [exact Hf|]. cbn. eauto.
    - by rewrite leb_refl.
    - pose proof (leb_lt _ _ Hlt) as [_ ->]. constructor; [auto|].
      apply Forall_forall. intros z Hz.
      apply usort_insert_elem in Hz as [->|Hz]; [done| |done|done].
      rewrite Forall_forall in Hf. auto.
  Qed.
  Lemma usort_P l : Forall P l -> Forall P (usort leb l).
  Proof using. induction 1; [constructor|]. by apply usort_insert_P. Qed.
  Lemma usort_elem l z : Forall P l -> z ∈ usort leb l <-> z ∈ l.
  Proof using ltrans lirrefl leb_lt leb_refl total.
    induction 1 as [|x l Hx Hl IH]; [done|].
    change (usort leb (x :: l)) with (usort_insert leb x (usort leb l)).
    rewrite usort_insert_elem, IH by (try apply usort_P; done). set_solver.
  Qed.
  Lemma usort_sorted l : Forall P l -> StronglySorted lt (usort leb l).
  Proof using ltrans lirrefl leb_lt leb_refl total.
    induction 1 as [|x l Hx Hl IH]; [constructor|].
    change (usort leb (x :: l)) with (usort_insert leb x (usort leb l)).
    apply usort_insert_sorted; [done|by apply usort_P|done].
  Qed.

  Lemma first_index_lookup (z : A) (l : list A) : z ∈ l -> l !! first_index z l = Some z.
  Proof using.
    induction l as [|y l IH]; intros Hz; [by apply elem_of_nil in Hz|].
    cbn [first_index]. destruct (decide (z = y)) as [->|]; [done|].
    cbn. apply IH. apply elem_of_cons in Hz as [?|?]; done.
  Qed.

  (** Whatever the keys, an accepted eager split tiles the records; the first
      record of each slice has the announced key; announced keys increase. *)
  Lemma eager_any keys index indices :
    Forall P keys -> keys <> [] ->
    unique_and_check_monotony leb keys = Ok (index, indices) ->
    ix_bound indices = (2^63)%Z /\
    let parts := slices_of index (ix_vals indices ++ [length keys]) in
    concat (map (fun p => seq p.2.1 (p.2.2 - p.2.1)) parts) = seq 0 (length keys) /\
    Forall (fun p => p.2.1 < p.2.2 /\ p.2.2 <= length keys) parts /\
    Forall (fun p => keys !! p.2.1 = Some p.1) parts /\
    StronglySorted lt (map fst parts) .
  Proof using ltrans lirrefl leb_lt leb_refl total.
    intros HP Hne. unfold unique_and_check_monotony, np_unique.
    set (pos := map (fun x => first_index x keys) (usort leb keys)).
    destruct (all_increasing pos) eqn:Einc; cbn [negb]; [|done].
    intros [= <- <-]. cbn [ix_bound ix_vals]. split; [done|].
    set (hs := map (fun x => (x, first_index x keys)) (usort leb keys)).
    assert (Hf : usort leb keys = map fst hs).
    { unfold hs. rewrite map_map. cbn. by rewrite map_id. }
    assert (Hsn : pos = map snd hs).
    { unfold hs. by rewrite map_map. }
    assert (Hsl : slices_of (usort leb keys) (pos ++ [length keys]) = pairs hs (length keys)).
    { rewrite Hf, Hsn. apply slices_of_pairs. }
    rewrite Hsl. clear Hsl.
    apply all_increasing_spec in Einc. rewrite Hsn in Einc.
    assert (Hlook : Forall (fun h => keys !! h.2 = Some h.1) hs).
    { unfold hs. apply Forall_forall. intros [x s] Hx.
      apply elem_of_list_fmap in Hx as (x' & [= -> ->] & Hx). cbn.
      apply first_index_lookup. by apply (usort_elem keys _ HP). }
    assert (Hlt : Forall (fun p => p < length keys) (map snd hs)).
    { apply Forall_map. eapply Forall_impl; [exact Hlook|]. intros [x s] H. cbn in *.
      by eapply lookup_lt_Some. }
    assert (H0 : 0 ∈ map snd hs).
    { destruct keys as [|k keys]; [done|].
      rewrite <-Hsn. unfold pos. apply elem_of_list_fmap. exists k. split.
      - cbn [first_index]. by rewrite decide_True.
      - apply usort_elem; [done|]. set_solver. }
    assert (Hs0 : exists x hs', hs = (x, 0) :: hs').
    { destruct hs as [|[x s] hs']; [by apply elem_of_nil in H0|].
      exists x, hs'. cbn [map snd] in H0, Einc. apply elem_of_cons in H0 as [<-|H0]; [done|].
      inversion Einc as [|?? _ Hfa]; subst. rewrite Forall_forall in Hfa.
      apply Hfa in H0. lia. }
    cbv zeta. rewrite pairs_fst, <-Hf.
    destruct Hs0 as (x & hs' & Ehs). rewrite Ehs in Einc, Hlt, Hlook |- *.
    destruct (pairs_tile hs' (length keys) 0 x Einc Hlt) as [H1 H2].
    rewrite Nat.sub_0_r in H1. split_and!; [done|done| |by apply usort_sorted].
    clear -Hlook. revert Hlook. generalize ((x, 0) :: hs') as l.
    intros l Hl. induction Hl as [|[y t] l Hy Hl IH]; [constructor|].
    cbn [pairs]. constructor; [done|]. exact IH.
  Qed.
End eager_any.

(** Slices that tile and files under increasing keys: the keys never
    decrease. *)
Lemma tile_sorted {K} (lt : K -> K -> Prop) (keys : list K) parts :
  files_every_record_once keys parts -> StronglySorted lt (map fst parts) ->
  never_decreases lt keys.
Proof.
  intros (Ht & _ & Hk) Hs.
  (* generalise: tiles from a *)
  assert (H : forall parts a, concat (map (fun p : K * (nat * nat) => seq p.2.1 (p.2.2 - p.2.1)) parts)
      = seq a (length keys - a) ->
    Forall (fun p : K * (nat * nat) => forall i, p.2.1 <= i < p.2.2 -> keys !! i = Some p.1) parts ->
    StronglySorted lt (map fst parts) ->
    forall i j x y, a <= i -> i < j -> keys !! i = Some x -> keys !! j = Some y -> lt x y \/ x = y).
  { clear parts Ht Hk Hs. intros parts.
    induction parts as [|[k [s e]] parts IH]; intros a Ht Hk Hs i j x y Hai Hij Hx Hy.
    - cbn in Ht. apply lookup_lt_Some in Hy. symmetry in Ht.
      apply (f_equal length) in Ht. rewrite seq_length in Ht. cbn in Ht. lia.
    - cbn [map concat fst snd] in Ht. inversion Hk as [|?? Hk1 Hk']; subst.
      inversion Hs as [|?? Hs' Hf]; subst. cbn [fst snd] in *.
      assert (Hj : j < length keys) by by eapply lookup_lt_Some.
      assert (Hij' : forall i, a <= i < length keys ->
        exists p, p ∈ (k, (s, e)) :: parts /\ p.2.1 <= i < p.2.2).
      { intros i' Hi'. assert (Hin : i' ∈ seq a (length keys - a)) by (apply elem_of_seq; lia).
        rewrite <-Ht in Hin. apply elem_of_app in Hin as [Hin|Hin].
        - apply elem_of_seq in Hin. exists (k, (s, e)). split; [set_solver|]. cbn. lia.
        - apply elem_of_list_In, in_concat in Hin as (l & Hl & Hin).
          apply in_map_iff in Hl as (p & <- & Hp). apply elem_of_list_In in Hin, Hp.
          apply elem_of_seq in Hin. exists p. split; [set_solver|]. lia. }
      destruct (Nat.le_gt_cases e s) as [Hes|Hes].
      { replace (e - s) with 0 in Ht by lia. cbn in Ht. by apply (IH a Ht Hk' Hs' i j). }
      assert (Hsa : s = a).
      { destruct (e - s) as [|w] eqn:Ew; [lia|]. cbn [seq app] in Ht.
        destruct (length keys - a) as [|w'] eqn:Ew'; [done|]. cbn [seq] in Ht. by injection Ht. }
      subst s.
      assert (Hrest : concat (map (fun p : K * (nat * nat) => seq p.2.1 (p.2.2 - p.2.1)) parts)
          = seq e (length keys - e)).
      { assert (Hle : e - a <= length keys - a).
        { apply (f_equal length) in Ht. rewrite app_length, !seq_length in Ht. lia. }
        replace (length keys - a) with ((e - a) + (length keys - e)) in Ht by lia.
        rewrite seq_app in Ht. replace (a + (e - a)) with e in Ht by lia.
        by apply app_inv_head in Ht. }
      destruct (Nat.lt_ge_cases i e) as [Hie|Hie]; [|by apply (IH e Hrest Hk' Hs' i j)].
      assert (x = k) as -> by (rewrite (Hk1 i ltac:(lia)) in Hx; congruence).
      destruct (Nat.lt_ge_cases j e) as [Hje|Hje].
      + right. rewrite (Hk1 j ltac:(lia)) in Hy. congruence.
      + left. assert (Hin : j ∈ seq e (length keys - e)) by (apply elem_of_seq; lia).
        rewrite <-Hrest in Hin. apply elem_of_list_In, in_concat in Hin as (l & Hl & Hin).
        apply in_map_iff in Hl as (p & <- & Hp). apply elem_of_list_In in Hin, Hp.
        apply elem_of_seq in Hin. pose proof (proj1 (Forall_forall _ _) Hk' p Hp) as Hkp.
        pose proof (proj1 (Forall_forall _ _) Hf) as Hf'.
        cbn beta in Hkp. rewrite (Hkp j ltac:(lia)) in Hy. injection Hy as <-.
        apply Hf'. apply elem_of_list_fmap. by exists p. }
  intros i j a b Hij Ha Hb. refine (H parts 0 _ Hk Hs i j a b (Nat.le_0_l _) Hij Ha Hb).
  by rewrite Nat.sub_0_r.
Qed.

(** ** The rows of a matrix *)
Lemma transpose_length cols n : length (transpose_rows cols n) = n.
Proof. unfold transpose_rows. by rewrite map_length, seq_length. Qed.

Lemma transpose_is_rows cols n :
  Forall (fun c => length c = n) cols -> is_rows cols (transpose_rows cols n).
Proof.
  intros Hc i r Hr. unfold transpose_rows in Hr.
  change (map ?f ?l) with (f <$> l) in Hr.
  rewrite list_lookup_fmap in Hr.
  destruct (seq 0 n !! i) as [i'|] eqn:Ei; [|done]. cbn in Hr. injection Hr as <-.
  apply lookup_seq in Ei as [-> Hi]. cbn.
  induction Hc as [|c cols Hl Hc IH]; [constructor|]. cbn [map]. constructor; [|exact IH].
  destruct (lookup_lt_is_Some_2 c i ltac:(lia)) as [v Hv]. rewrite Hv.
  f_equal. by apply nth_lookup_Some with (d := 0%Z) in Hv.
Qed.

Lemma is_rows_unique cols r1 r2 :
  length r1 = length r2 -> is_rows cols r1 -> is_rows cols r2 -> r1 = r2.
Proof.
  intros Hl H1 H2. apply list_eq_same_length with (n := length r1); [done|done|].
  intros i x y _ Hx Hy. specialize (H1 _ _ Hx). specialize (H2 _ _ Hy).
  clear -H1 H2. revert y H2. induction H1 as [|c v cols x Hv H1 IH]; intros y H2;
    inversion H2; subst; [done|]. f_equal; [congruence|]. auto.
Qed.

Lemma transpose_width cols n : Forall (fun r => length r = length cols) (transpose_rows cols n).
Proof.
  unfold transpose_rows. apply Forall_map. apply Forall_true. intros i. cbn. by rewrite map_length.
Qed.

Lemma heads_width {A} `{EqDecision A} (P : A -> Prop) (l : list A) :
  Forall P l -> Forall P (map fst (heads l)).
Proof.
  intros H. apply Forall_map. apply Forall_forall. intros [x s] Hx.
  apply heads_lookup in Hx. rewrite Forall_lookup in H. cbn. eauto.
Qed.

Lemma named_concat names (parts : list (list Z * (nat * nat))) :
  Forall (fun p => length p.1 = length names) parts ->
  map (fun ks : list Z * (nat * nat) =>
    (match names, ks.1 with [f], [k] => [(f, k)] | _, _ => zip names ks.1 end, ks.2)) parts
  = named names parts.
Proof.
  intros _. unfold named. apply map_ext. intros [ks s]. cbn [fst snd]. f_equal.
  by destruct names as [|? [|]], ks as [|? [|]].
Qed.

Definition lazy_parts {A} `{EqDecision A} (keys : list A) := pairs (heads keys) (length keys).

Lemma concat_ok b vals n : (Z.of_nat n < b)%Z -> concatenate_item (Indices b vals) n = Ok (vals ++ [n]).
Proof. intros H. unfold concatenate_item. cbn. by rewrite (proj2 (Z.ltb_lt _ _) H). Qed.

Lemma lazy_bound n : (Z.of_nat n < 2^64)%Z ->
  (Z.of_nat n < (if Z.of_nat n <? 2^32 then 2^32 else 2^64))%Z.
Proof. intros H. destruct (Z.ltb_spec (Z.of_nat n) (2^32)); lia. Qed.

(** ** Sequence *)
Section sequence.
  Context (variables : list (str * list Z)) (n : nat) (rows : list (list Z)).
  Context (Hv : variables <> []) (Hn : Forall (fun c => length c = n) (map snd variables)).
  Context (Hr : length rows = n) (Hrows : is_rows (map snd variables) rows).

  Lemma rows_transpose : rows = transpose_rows (map snd variables) n.
  Proof using Hr Hrows Hn.
    eapply is_rows_unique; [|done|by apply transpose_is_rows]. by rewrite transpose_length.
  Qed.

  Lemma seq_unfold delayed :
    sequence_split variables true delayed =
    do ii <- seq_unique rows (length variables) delayed;
    do indices <- concatenate_item ii.2 n;
    Ok (map (fun ks : list Z * (nat * nat) =>
         (match map fst variables, ks.1 with [f], [k] => [(f, k)] | _, _ => zip (map fst variables) ks.1 end, ks.2))
        (slices_of ii.1 indices)).
  Proof using Hv Hn Hr Hrows.
    unfold sequence_split. rewrite rows_transpose. rewrite map_length.
    assert (E : match map snd variables with [] => 0 | c :: _ => length c end = n).
    { destruct variables as [|[k c] vs]; [done|]. cbn in *. by inversion Hn. }
    rewrite E.
    assert (Hb : forallb (fun c => length c =? n) (map snd variables) = true).
    { apply forallb_forall. intros c Hc. rewrite Forall_forall in Hn.
      apply Nat.eqb_eq, Hn. by apply elem_of_list_In. }
    rewrite Hb. destruct variables; [done|]. reflexivity.
  Qed.

  Lemma rows_width : Forall (fun r => length r = length variables) rows.
  Proof using Hr Hrows Hn. rewrite rows_transpose. rewrite <-(map_length snd variables). apply transpose_width. Qed.

  Lemma seq_lazy_ok :
    (Z.of_nat n < 2^64)%Z -> rows <> [] -> never_decreases row_lt rows ->
    sequence_split variables true true = Ok (named (map fst variables) (lazy_parts rows)).
  Proof using Hv Hn Hr Hrows.
    intros Hb Hne Hs. rewrite seq_unfold. unfold seq_unique.
    rewrite unique_heads by done. cbn [rbind fst snd].
    rewrite (proj2 (is_monotonic_spec _ _ (heads_width _ _ rows_width))).
    2:{ by apply (heads_sorted row_lt row_lt_trans). }
    cbn [negb rbind fst snd]. rewrite Hr. rewrite concat_ok by by apply lazy_bound.
    cbn [rbind]. rewrite slices_of_pairs. rewrite named_concat; [by rewrite <-Hr|].
    apply Forall_forall. intros [k s] Hin. cbn.
    assert (Hk : k ∈ map fst (heads rows)).
    { rewrite <-(pairs_fst (heads rows) n). apply elem_of_list_fmap. by exists (k, s). }
    pose proof (heads_width _ _ rows_width) as Hw. rewrite Forall_forall in Hw.
    apply Hw in Hk. by rewrite map_length.
  Qed.

  Lemma seq_lazy_inv parts :
    (Z.of_nat n < 2^64)%Z ->
    sequence_split variables true true = Ok parts -> rows <> [] /\ never_decreases row_lt rows.
  Proof using Hv Hn Hr Hrows.
    intros Hb. rewrite seq_unfold. unfold seq_unique.
    destruct (decide (rows = [])) as [->|Hne]; [done|].
    rewrite unique_heads by done. cbn [rbind fst snd].
    destruct (is_monotonic (map fst (heads rows)) (length variables)) eqn:E; [|done].
    intros _. split; [done|].
    apply (proj1 (is_monotonic_spec _ _ (heads_width _ _ rows_width))) in E.
    by apply (heads_sorted row_lt row_lt_trans).
  Qed.

  Lemma seq_lazy_raise :
    (Z.of_nat n < 2^64)%Z ->
    (rows = [] -> sequence_split variables true true = Raise IndexError) /\
    (rows <> [] -> ~ never_decreases row_lt rows -> sequence_split variables true true = Raise ValueError).
  Proof using Hv Hn Hr Hrows.
    intros Hb. rewrite seq_unfold. unfold seq_unique. split.
    - intros ->. done.
    - intros Hne Hs. rewrite unique_heads by done. cbn [rbind fst snd].
      destruct (is_monotonic (map fst (heads rows)) (length variables)) eqn:E; [|done].
      apply (proj1 (is_monotonic_spec _ _ (heads_width _ _ rows_width))) in E.
      by apply (proj1 (heads_sorted row_lt row_lt_trans rows)) in E.
  Qed.

  Lemma seq_eager_ok :
    (Z.of_nat n < 2^63)%Z -> never_decreases row_lt rows ->
    sequence_split variables true false = Ok (named (map fst variables) (lazy_parts rows)).
  Proof using Hv Hn Hr Hrows.
    intros Hb Hs. rewrite seq_unfold. unfold seq_unique.
    rewrite (eager_heads row_lt row_leb row_lt_trans row_lt_irrefl row_leb_lt row_leb_refl) by done.
    cbn [rbind fst snd]. rewrite concat_ok by done.
    cbn [rbind]. rewrite slices_of_pairs. rewrite named_concat; [by rewrite <-Hr|].
    apply Forall_forall. intros [k s] Hin. cbn.
    assert (Hk : k ∈ map fst (heads rows)).
    { rewrite <-(pairs_fst (heads rows) n). apply elem_of_list_fmap. by exists (k, s). }
    pose proof (heads_width _ _ rows_width) as Hw. rewrite Forall_forall in Hw.
    apply Hw in Hk. by rewrite map_length.
  Qed.

  Lemma seq_eager_any parts :
    (Z.of_nat n < 2^63)%Z -> rows <> [] ->
    sequence_split variables true false = Ok parts ->
    exists kparts, parts = named (map fst variables) kparts /\
      concat (map (fun p => seq p.2.1 (p.2.2 - p.2.1)) kparts) = seq 0 n /\
      Forall (fun p => p.2.1 < p.2.2) kparts /\
      Forall (fun p => rows !! p.2.1 = Some p.1) kparts /\
      StronglySorted row_lt (map fst kparts) /\
      (never_decreases row_lt rows -> kparts = lazy_parts rows).
  Proof using Hv Hn Hr Hrows.
    intros Hb Hne. rewrite seq_unfold. unfold seq_unique.
    destruct (unique_and_check_monotony row_leb rows) as [[index indices]|e] eqn:E; [|done].
    cbn [rbind fst snd]. destruct indices as [b vals].
    edestruct (eager_any row_lt row_leb (fun r => length r = length variables)) as [H1 H2];
      [apply row_lt_trans|apply row_lt_irrefl|apply row_leb_lt|apply row_leb_refl| |apply rows_width|done|exact E|].
    { intros a c Ha Hc. apply row_lt_total. congruence. }
    cbn [ix_bound ix_vals] in H1, H2. subst b. rewrite concat_ok by done. cbn [rbind].
    intros [= <-]. rewrite Hr in H2. exists (slices_of index (vals ++ [n])).
    destruct H2 as (Ha & Hb' & Hc & Hd).
    split; [|split_and!; [done| |done|done|]].
    - rewrite named_concat; [done|]. eapply Forall_impl; [exact Hc|]. cbn. intros [k s] Hk.
      cbn in *. pose proof rows_width as Hw. rewrite Forall_lookup in Hw. rewrite map_length. eauto.
    - eapply Forall_impl; [exact Hb'|]. cbn. tauto.
    - intros Hs.
      rewrite (eager_heads row_lt row_leb row_lt_trans row_lt_irrefl row_leb_lt row_leb_refl) in E by done.
      injection E as <- <-. rewrite slices_of_pairs. unfold lazy_parts. by rewrite Hr.
  Qed.
End sequence.

(** ** Date *)
Section date.
  Context (trunc : Z -> Z) (values : list Z).
  Notation keys := (map trunc values).

  Lemma Zlt_leb a b : (a < b)%Z -> (a <=? b)%Z = true /\ (b <=? a)%Z = false.
  Proof. intros. split; [apply Z.leb_le|apply Z.leb_gt]; lia. Qed.

  Lemma nondec_never l : all_nondecreasing l = true <-> never_decreases Z.lt l.
  Proof.
    rewrite all_nondecreasing_spec, StronglySorted_lookup. unfold never_decreases.
    split; intros H i j a b Hij Ha Hb; specialize (H i j a b Hij Ha Hb); lia.
  Qed.

  Lemma date_lazy_ok :
    (Z.of_nat (length values) < 2^64)%Z -> values <> [] -> never_decreases Z.lt keys ->
    date_split trunc values true true = Ok (lazy_parts keys).
  Proof.
    intros Hb Hne Hs. unfold date_split, date_unique. cbn [negb].
    assert (Hne' : keys <> []) by (destruct values; done).
    rewrite unique_heads by done. cbn [rbind fst snd].
    rewrite (proj2 (nondec_never _)) by by apply (heads_sorted Z.lt Z.lt_trans).
    cbn [negb rbind fst snd]. rewrite map_length. rewrite concat_ok by by apply lazy_bound.
    cbn [rbind]. rewrite slices_of_pairs. unfold lazy_parts. by rewrite map_length.
  Qed.

  Lemma date_lazy_inv :
    (values = [] -> date_split trunc values true true = Raise IndexError) /\
    (values <> [] -> ~ never_decreases Z.lt keys -> date_split trunc values true true = Raise ValueError).
  Proof.
    unfold date_split, date_unique. cbn [negb]. split; [by intros ->|].
    intros Hne Hs. assert (Hne' : keys <> []) by (destruct values; done).
    rewrite unique_heads by done. cbn [rbind fst snd].
    destruct (all_nondecreasing (map fst (heads keys))) eqn:E; [|done].
    apply nondec_never in E. by apply (proj1 (heads_sorted Z.lt Z.lt_trans keys)) in E.
  Qed.

  Lemma date_eager_ok :
    (Z.of_nat (length values) < 2^63)%Z -> never_decreases Z.lt keys ->
    date_split trunc values true false = Ok (lazy_parts keys).
  Proof.
    intros Hb Hs. unfold date_split, date_unique. cbn [negb].
    rewrite (eager_heads Z.lt Z.leb Z.lt_trans Z.lt_irrefl Zlt_leb Z.leb_refl) by done.
    cbn [rbind fst snd]. rewrite concat_ok by done. cbn [rbind]. rewrite slices_of_pairs.
    unfold lazy_parts. by rewrite map_length.
  Qed.

  Lemma date_eager_any parts :
    (Z.of_nat (length values) < 2^63)%Z -> values <> [] ->
    date_split trunc values true false = Ok parts ->
      concat (map (fun p => seq p.2.1 (p.2.2 - p.2.1)) parts) = seq 0 (length values) /\
      Forall (fun p => p.2.1 < p.2.2) parts /\
      Forall (fun p => keys !! p.2.1 = Some p.1) parts /\
      StronglySorted Z.lt (map fst parts).
  Proof.
    intros Hb Hne. unfold date_split, date_unique. cbn [negb].
    assert (Hne' : keys <> []) by (destruct values; done).
    destruct (unique_and_check_monotony Z.leb keys) as [[index indices]|e] eqn:E; [|done].
    cbn [rbind fst snd]. destruct indices as [b vals].
    edestruct (eager_any Z.lt Z.leb (fun _ => True)) as [H1 H2];
      [apply Z.lt_trans|apply Z.lt_irrefl|apply Zlt_leb|apply Z.leb_refl| |by apply Forall_true|exact Hne'|exact E|].
    { intros a c _ _. lia. }
    cbn [ix_bound ix_vals] in H1, H2. subst b. rewrite concat_ok by done. cbn [rbind].
    intros [= <-]. rewrite map_length in H2. destruct H2 as (Ha & Hb' & Hc & Hd).
    split_and!; try done.
    eapply Forall_impl; [exact Hb'|]. cbn. tauto.
  Qed.
End date.
