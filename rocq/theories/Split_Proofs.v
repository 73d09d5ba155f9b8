From Verif Require Import Py Split_Model Split_Spec.

(** ** Runs of equal keys *)
Section runs.
  Context {A : Type} `{EqDecision A}.

  Fixpoint runs (i : nat) (x : A) (l : list A) : list (A * nat) :=
    match l with
    | [] => []
    | y :: l => if decide (y = x) then runs (S i) y l else (y, i) :: runs (S i) y l
    end.
  Definition heads (l : list A) : list (A * nat) :=
    match l with [] => [] | x :: l => (x, 0) :: runs 1 x l end.

  Fixpoint mk (x : A) (l : list A) : list bool :=
    match l with [] => [] | y :: l => bool_decide (y <> x) :: mk y l end.

  Lemma mk_spec x l :
    zip_with (fun a b => bool_decide (a <> b)) l (take (length l) (x :: l)) = mk x l.
  Proof.
    revert x; induction l as [|y l IH]; intros x; [done|].
    cbn [zip_with length take mk]. f_equal. apply IH.
  Qed.

  Lemma select_cons {B} b m (x : B) l :
    select (b :: m) (x :: l) = if b then x :: select m l else select m l.
  Proof. unfold select. cbn [combine List.filter snd]. by destruct b. Qed.

  Lemma select_mk_fst i x l : select (mk x l) l = map fst (runs i x l).
  Proof.
    revert i x; induction l as [|y l IH]; intros i x; [done|].
    cbn [mk runs]. rewrite select_cons.
    destruct (decide (y = x)) as [->|Hn].
    - rewrite bool_decide_eq_false_2 by (intros ?; done). apply IH.
    - rewrite bool_decide_eq_true_2 by done. cbn [map fst]. f_equal. apply IH.
  Qed.

  Lemma select_mk_snd i x l : select (mk x l) (seq i (length l)) = map snd (runs i x l).
  Proof.
    revert i x; induction l as [|y l IH]; intros i x; [done|].
    cbn [mk runs length seq]. rewrite select_cons.
    destruct (decide (y = x)) as [->|Hn].
    - rewrite bool_decide_eq_false_2 by (intros ?; done). apply IH.
    - rewrite bool_decide_eq_true_2 by done. cbn [map snd]. f_equal. apply IH.
  Qed.

  Lemma unique_heads (l : list A) :
    l <> [] ->
    unique l = Ok (map fst (heads l),
                   Indices (if Z.of_nat (length l) <? 2^32 then 2^32 else 2^64)%Z (map snd (heads l))).
  Proof.
    intros Hl. destruct l as [|x l]; [done|]. unfold unique.
    cbn [length Nat.eqb]. cbn [drop]. rewrite ?drop_0.
    replace (S (length l) - 1) with (length l) by lia.
    rewrite mk_spec. cbn [seq]. rewrite !select_cons, (select_mk_fst 1), (select_mk_snd 1). done.
  Qed.

  (** Slices between successive heads. *)
  Fixpoint pairs (hs : list (A * nat)) (n : nat) : list (A * (nat * nat)) :=
    match hs with
    | [] => []
    | (x, s) :: hs' =>
        (x, (s, match hs' with [] => n | (_, t) :: _ => t end)) :: pairs hs' n
    end.

  Lemma slices_of_alt (index : list A) (idx : list nat) :
    slices_of index idx =
    zip_with (fun item se => (item, se)) index (zip idx (drop 1 idx)).
  Proof.
    unfold slices_of. apply list_eq. intros i.
    rewrite !lookup_zip_with, list_lookup_imap.
    destruct (index !! i) as [item|]; [|done]. cbn.
    destruct (decide (i < length idx - 1)) as [Hi|Hi].
    - rewrite lookup_take by lia.
      destruct (lookup_lt_is_Some_2 idx i ltac:(lia)) as [a Ha].
      destruct (lookup_lt_is_Some_2 idx (S i) ltac:(lia)) as [b Hb].
      rewrite Ha. cbn. rewrite lookup_drop. replace (1 + i) with (S i) by lia.
      rewrite Hb. cbn. do 3 f_equal.
      apply nth_lookup_Some with (d := 0) in Hb. by rewrite Nat.add_1_r.
    - rewrite lookup_take_ge by lia. cbn.
      rewrite (lookup_ge_None_2 (drop 1 idx)) by (rewrite drop_length; lia).
      by destruct (idx !! i).
  Qed.

  Lemma slices_of_pairs hs n :
    slices_of (map fst hs) (map snd hs ++ [n]) = pairs hs n.
  Proof.
    rewrite slices_of_alt. induction hs as [|[x s] hs IH]; [done|].
    cbn [map fst snd app drop]. rewrite drop_0. destruct hs as [|[y t] hs]; [done|].
    cbn [map fst snd app zip zip_with] in *. cbn [pairs].
    cbn [drop] in IH. rewrite drop_0 in IH. f_equal. exact IH.
  Qed.

  Lemma runs_le i x l y s : (y, s) ∈ runs i x l -> i <= s < i + length l.
  Proof.
    revert i x; induction l as [|z l IH]; intros i x Hin; cbn [runs] in Hin.
    - by apply elem_of_nil in Hin.
    - cbn [length]. destruct (decide (z = x)).
      + apply IH in Hin. lia.
      + apply elem_of_cons in Hin as [[= -> ->]|Hin]; [lia|]. apply IH in Hin. lia.
  Qed.

  (** Main invariant: the current run of [x] started at [s], we are at [i]. *)
  Lemma pairs_runs_tile keys i s x l :
    s < i -> drop i keys = l -> length keys = i + length l ->
    (forall j, s <= j < i -> keys !! j = Some x) ->
    let parts := pairs ((x, s) :: runs i x l) (length keys) in
    concat (map (fun p => seq p.2.1 (p.2.2 - p.2.1)) parts) = seq s (length keys - s) /\
    Forall (fun p => p.2.1 < p.2.2) parts /\
    Forall (fun p => forall j, p.2.1 <= j < p.2.2 -> keys !! j = Some p.1) parts.
  Proof.
    revert i s x. induction l as [|y l IH]; intros i s x Hsi Hd Hlen Hx; cbn zeta.
    - cbn [runs pairs map concat length] in *. cbn [fst snd]. rewrite app_nil_r.
      split_and!; [done| |]; repeat constructor; cbn [fst snd]; intros; try apply Hx; lia.
    - cbn [length] in Hlen.
      assert (Hy : keys !! i = Some y).
      { rewrite <- (Nat.add_0_r i), <- lookup_drop, Hd. done. }
      assert (Hd' : drop (S i) keys = l).
      { replace (S i) with (i + 1) by lia. rewrite <- drop_drop, Hd. cbn. by rewrite drop_0. }
      cbn [runs]. destruct (decide (y = x)) as [->|Hn].
      + apply IH; [lia|done|lia|]. intros j Hj.
        destruct (decide (j = i)) as [->|]; [done|]. apply Hx. lia.
      + destruct (IH (S i) i y ltac:(lia) Hd' ltac:(lia)) as (H1 & H2 & H3).
        { intros j Hj. by replace j with i by lia. }
        cbn [pairs map concat fst snd] in *. rewrite H1. split_and!.
        * replace (length keys - s) with ((i - s) + (length keys - i)) by lia.
          rewrite seq_app. do 2 f_equal. lia.
        * constructor; [cbn; lia|done].
        * constructor; [cbn; intros; apply Hx; lia|done].
  Qed.

  Lemma pairs_heads_tile keys :
    files_every_record_once keys (pairs (heads keys) (length keys)).
  Proof.
    destruct keys as [|x l]; [split_and!; (done || constructor)|].
    pose proof (pairs_runs_tile (x :: l) 1 0 x l) as H.
    unfold files_every_record_once. unfold heads.
    rewrite Nat.sub_0_r in H. apply H; try done; try lia.
    intros j Hj. replace j with 0 by lia. done.
  Qed.

  Lemma pairs_fst hs n : map fst (pairs hs n) = map fst hs.
  Proof. induction hs as [|[x s] hs IH]; [done|]. cbn [pairs map fst]. by rewrite IH. Qed.

  (** Adjacent heads differ. *)
  Lemma runs_adjacent i x l :
    forall k a b, (x :: map fst (runs i x l)) !! k = Some a ->
      (x :: map fst (runs i x l)) !! S k = Some b -> a <> b.
  Proof.
    revert i x; induction l as [|y l IH]; intros i x k a b Ha Hb; [done|].
    cbn [runs] in *. destruct (decide (y = x)) as [->|Hn].
    - by eapply IH.
    - cbn [map fst] in *. destruct k as [|k].
      + cbn in *. congruence.
      + cbn [lookup list_lookup] in Ha, Hb. eapply IH; eauto.
  Qed.
  Lemma heads_adjacent l k a b :
    map fst (heads l) !! k = Some a -> map fst (heads l) !! S k = Some b -> a <> b.
  Proof. destruct l as [|x l]; [done|]. apply runs_adjacent. Qed.

  (** The heads are a subsequence of the keys, at their positions. *)
  Lemma runs_lookup i x l y s :
    (y, s) ∈ runs i x l -> i <= s /\ l !! (s - i) = Some y.
  Proof.
    revert i x; induction l as [|z l IH]; intros i x Hin; cbn [runs] in Hin.
    - by apply elem_of_nil in Hin.
    - destruct (decide (z = x)) as [->|].
      + apply IH in Hin as [H1 H2]. split; [lia|].
        replace (s - i) with (S (s - S i)) by lia. done.
      + apply elem_of_cons in Hin as [[= -> ->]|Hin].
        * split; [lia|]. by rewrite Nat.sub_diag.
        * apply IH in Hin as [H1 H2]. split; [lia|].
          replace (s - i) with (S (s - S i)) by lia. done.
  Qed.
  Lemma heads_lookup l y s : (y, s) ∈ heads l -> l !! s = Some y.
  Proof.
    destruct l as [|x l]; intros Hin; [by apply elem_of_nil in Hin|].
    cbn [heads] in Hin. apply elem_of_cons in Hin as [[= -> ->]|Hin]; [done|].
    apply runs_lookup in Hin as [H1 H2]. destruct s; [lia|]. cbn in *. by rewrite Nat.sub_0_r in H2.
  Qed.

  Lemma runs_positions i x l : StronglySorted lt (map snd (runs i x l)) /\
    Forall (fun s => i <= s) (map snd (runs i x l)).
  Proof.
    revert i x; induction l as [|y l IH]; intros i x; cbn [runs]; [repeat constructor|].
    destruct (decide (y = x)); cbn [map snd].
    - destruct (IH (S i) y) as [H1 H2]. split; [done|].
      eapply Forall_impl; [exact H2|]. cbn; lia.
    - destruct (IH (S i) y) as [H1 H2]. split; constructor; try done.
      all: eapply Forall_impl; [exact H2|]; cbn; lia.
  Qed.
  Lemma heads_positions l : StronglySorted lt (map snd (heads l)).
  Proof.
    destruct l as [|x l]; [constructor|]. cbn [heads map snd].
    destruct (runs_positions 1 x l) as [H1 H2]. constructor; [done|].
    eapply Forall_impl; [exact H2|]. cbn; lia.
  Qed.

  (** Every key value is among the heads. *)
  Lemma runs_complete i x l y : y ∈ x :: l -> y ∈ x :: map fst (runs i x l).
  Proof.
    revert i x; induction l as [|z l IH]; intros i x Hin; [done|].
    cbn [runs]. destruct (decide (z = x)) as [->|].
    - apply IH. set_solver.
    - cbn [map fst]. apply elem_of_cons in Hin as [->|Hin]; [set_solver|].
      right. by apply IH.
  Qed.
End runs.

(** ** Strict sortedness of lists of keys *)
Section sorted.
  Context {A : Type} (lt : A -> A -> Prop).

  Lemma StronglySorted_lookup (l : list A) :
    StronglySorted lt l <->
    (forall i j a b, i < j -> l !! i = Some a -> l !! j = Some b -> lt a b).
  Proof.
    induction l as [|x l IH]; split.
    - done.
    - constructor.
    - intros H i j a b Hij Ha Hb. inversion H as [|?? Hs Hf]; subst.
      destruct i as [|i], j as [|j]; try lia; cbn in *.
      + injection Ha as <-. rewrite Forall_lookup in Hf. eauto.
      + exact (proj1 IH Hs i j a b ltac:(lia) Ha Hb).
    - intros H. constructor.
      + apply IH. intros i j a b ? ??. apply (H (S i) (S j)); [lia|done|done].
      + apply Forall_lookup. intros j b Hb. apply (H 0 (S j)); [lia|done|done].
  Qed.
End sorted.

Lemma all_increasing_spec l : all_increasing l = true <-> StronglySorted lt l.
Proof.
  induction l as [|x l IH]; [split; [constructor|done]|].
  destruct l as [|y l]; [split; [repeat constructor|done]|].
  change (all_increasing (x :: y :: l)) with ((x <? y) && all_increasing (y :: l)).
  rewrite andb_true_iff, IH, Nat.ltb_lt. split.
  - intros [H1 H2]. constructor; [done|]. inversion H2; subst.
    constructor; [done|]. eapply Forall_impl; [done|]. cbn; lia.
  - intros H. inversion H as [|?? H1 H2]; subst. inversion H2; subst. done.
Qed.

Lemma all_nondecreasing_spec l : all_nondecreasing l = true <-> StronglySorted Z.le l.
Proof.
  induction l as [|x l IH]; [split; [constructor|done]|].
  destruct l as [|y l]; [split; [repeat constructor|done]|].
  change (all_nondecreasing (x :: y :: l)) with ((0 <=? y - x)%Z && all_nondecreasing (y :: l)).
  rewrite andb_true_iff, IH, Z.leb_le. split.
  - intros [H1 H2]. constructor; [done|]. inversion H2; subst.
    constructor; [lia|]. eapply Forall_impl; [done|]. cbn; lia.
  - intros H. inversion H as [|?? H1 H2]; subst. inversion H2; subst. split; [lia|done].
Qed.

(** ** Lexicographic order of rows *)
Lemma row_lt_cons x y a b :
  row_lt (x :: a) (y :: b) <-> (x < y)%Z \/ (x = y /\ row_lt a b).
Proof.
  split.
  - intros (p & u & v & s & t & Ha & Hb & Huv). destruct p as [|w p]; cbn in *.
    + left. congruence.
    + right. injection Ha as -> ->. injection Hb as -> ->. split; [done|].
      by exists p, u, v, s, t.
  - intros [H|[-> (p & u & v & s & t & -> & -> & Huv)]].
    + by exists [], x, y, a, b.
    + by exists (y :: p), u, v, s, t.
Qed.
Lemma row_lt_nil_l b : ~ row_lt [] b.
Proof. intros (p & u & v & s & t & Ha & _). by destruct p. Qed.
Lemma row_lt_nil_r a : ~ row_lt a [].
Proof. intros (p & u & v & s & t & _ & Hb & _). by destruct p. Qed.

Lemma row_lt_irrefl a : ~ row_lt a a.
Proof.
  induction a as [|x a IH]; [apply row_lt_nil_l|].
  rewrite row_lt_cons. intros [?|[_ ?]]; [lia|done].
Qed.
Lemma row_lt_trans a b c : row_lt a b -> row_lt b c -> row_lt a c.
Proof.
  revert b c; induction a as [|x a IH]; intros b c.
  - intros H. by apply row_lt_nil_l in H.
  - destruct b as [|y b]; [intros H; by apply row_lt_nil_r in H|].
    destruct c as [|z c]; [intros _ H; by apply row_lt_nil_r in H|].
    rewrite !row_lt_cons. intros [?|[-> ?]] [?|[-> ?]]; try (left; lia).
    right. split; [done|]. eauto.
Qed.
Lemma row_lt_total a b : length a = length b -> row_lt a b \/ a = b \/ row_lt b a.
Proof.
  revert b; induction a as [|x a IH]; intros [|y b] Hl; try done; [by right; left|].
  rewrite !row_lt_cons. destruct (Z.lt_trichotomy x y) as [?|[->|?]]; [by left; left| |by right; right; left].
  destruct (IH b ltac:(cbn in *; lia)) as [?|[->|?]]; eauto 10.
Qed.

Lemma row_leb_lt a b : row_lt a b -> row_leb a b = true /\ row_leb b a = false.
Proof.
  revert b; induction a as [|x a IH]; intros [|y b] H.
  - by apply row_lt_nil_l in H.
  - by apply row_lt_nil_l in H.
  - by apply row_lt_nil_r in H.
  - apply row_lt_cons in H. cbn [row_leb].
    destruct H as [H|[-> H]].
    + destruct (Z.ltb_spec x y); [|lia]. destruct (Z.ltb_spec y x); [lia|].
      destruct (Z.eqb_spec y x); [lia|]. done.
    + apply IH in H as [-> ->]. destruct (Z.ltb_spec y y); [lia|].
      rewrite Z.eqb_refl. done.
Qed.
Lemma row_leb_refl a : row_leb a a = true.
Proof. induction a as [|x a IH]; [done|]. cbn. rewrite IH, Z.eqb_refl. by destruct (_ <? _)%Z. Qed.

(** ** lexsort *)
(** Lexicographic comparison by a list of keys, most significant first, then
    by position. *)
Fixpoint RR (ks : list (nat -> Z)) (i j : nat) : Prop :=
  match ks with
  | [] => i < j
  | k :: ks => (k i < k j)%Z \/ (k i = k j /\ RR ks i j)
  end.

Lemma RR_asym ks i j : RR ks i j -> RR ks j i -> False.
Proof.
  induction ks as [|k ks IH]; cbn; [lia|].
  intros [?|[? ?]] [?|[? ?]]; try lia. eauto.
Qed.

Lemma stable_insert_perm k i l : stable_insert k i l ≡ₚ i :: l.
Proof.
  induction l as [|j l IH]; [done|]. cbn [stable_insert].
  destruct (_ <=? _)%Z; [done|]. rewrite IH. constructor.
Qed.
Lemma stable_sort_perm k l : stable_sort k l ≡ₚ l.
Proof. induction l as [|i l IH]; [done|]. cbn. rewrite stable_insert_perm. by rewrite IH. Qed.

Lemma stable_insert_sorted k ks i l :
  Forall (RR ks i) l -> StronglySorted (RR (k :: ks)) l ->
  StronglySorted (RR (k :: ks)) (stable_insert k i l).
Proof.
  induction l as [|j l IH]; intros Hi Hs; [repeat constructor|].
  cbn [stable_insert]. destruct (Z.leb_spec (k i) (k j)) as [Hij|Hij].
  - constructor; [done|]. inversion Hs as [|?? Hs1 Hs2]; subst.
    inversion Hi as [|?? Hi1 Hi2]; subst.
    constructor.
    + destruct (Z.eq_dec (k i) (k j)); [by right|left; lia].
    + rewrite Forall_forall in Hs2, Hi2 |- *. intros z Hz.
      specialize (Hs2 z Hz). specialize (Hi2 z Hz). cbn in *.
      destruct (Z.eq_dec (k i) (k z)); [by right|].
      left. destruct Hs2 as [?|[? ?]]; lia.
  - inversion Hs as [|?? Hs1 Hs2]; subst. inversion Hi as [|?? Hi1 Hi2]; subst.
    constructor; [by apply IH|].
    rewrite stable_insert_perm. constructor; [|done]. left. lia.
Qed.

Lemma stable_sort_sorted k ks l :
  StronglySorted (RR ks) l -> StronglySorted (RR (k :: ks)) (stable_sort k l).
Proof.
  induction 1 as [|i l Hs IH Hf]; [constructor|].
  change (stable_sort k (i :: l)) with (stable_insert k i (stable_sort k l)).
  apply stable_insert_sorted; [|done]. by rewrite stable_sort_perm.
Qed.

Lemma lexsort_spec keys n :
  lexsort keys n ≡ₚ seq 0 n /\
  StronglySorted (RR (map (fun key i => nth i key 0%Z) (rev keys))) (lexsort keys n).
Proof.
  unfold lexsort. rewrite <- (rev_involutive keys).
  generalize (rev keys) as ks. intros ks. rewrite rev_involutive.
  rewrite <- fold_left_rev_right, rev_involutive.
  induction ks as [|k ks [IH1 IH2]]; cbn [fold_right map].
  - split; [done|]. cbn. apply StronglySorted_lookup. intros i j a b Hij Ha Hb.
    apply lookup_seq in Ha, Hb. lia.
  - split; [by rewrite stable_sort_perm|]. by apply stable_sort_sorted.
Qed.

Lemma sorted_perm_seq l n : l ≡ₚ seq 0 n -> StronglySorted lt l -> l = seq 0 n.
Proof.
  intros Hp Hs. assert (AntiSymm (=) lt) by (intros ???; lia).
  apply (StronglySorted_unique lt); [done| |done].
  - apply StronglySorted_lookup. intros i j a b Hij Ha Hb.
    apply lookup_seq in Ha, Hb. lia.
Qed.

Lemma lexsort_identity keys n :
  all_increasing (lexsort keys n) = true <->
  (forall i j, i < j < n -> RR (map (fun key i => nth i key 0%Z) (rev keys)) i j).
Proof.
  destruct (lexsort_spec keys n) as [Hp Hs].
  set (R := RR _) in *. rewrite all_increasing_spec. split.
  - intros Hinc i j Hij. apply (sorted_perm_seq _ n Hp) in Hinc.
    rewrite Hinc in Hs. rewrite StronglySorted_lookup in Hs.
    apply (Hs i j i j); [lia| |]; apply lookup_seq; lia.
  - intros Hall. rewrite StronglySorted_lookup in Hs |- *.
    intros i j a b Hij Ha Hb. specialize (Hs i j a b Hij Ha Hb).
    assert (a ∈ seq 0 n /\ b ∈ seq 0 n) as [Hna Hnb].
    { rewrite <- Hp. split; by eapply elem_of_list_lookup_2. }
    apply elem_of_seq in Hna, Hnb.
    destruct (Nat.lt_trichotomy a b) as [?|[->|Hba]]; [done| |].
    + exfalso. by eapply RR_asym.
    + exfalso. eapply RR_asym; [exact Hs|]. apply Hall. lia.
Qed.

(** Comparing by the columns is comparing the rows. *)
Lemma RR_columns (rows : list (list Z)) c k i j a b :
  rows !! i = Some a -> rows !! j = Some b ->
  length a = k + c -> length b = k + c ->
  RR (map (fun key i => nth i key 0%Z) (map (column rows) (seq k c))) i j <->
  row_lt (drop k a) (drop k b) \/ (drop k a = drop k b /\ i < j).
Proof.
  intros Ha Hb. revert k. induction c as [|c IH]; intros k Hla Hlb.
  - cbn. rewrite !drop_ge by lia. split; [by right|].
    intros [H|[_ H]]; [by apply row_lt_nil_l in H|done].
  - cbn [seq map RR].
    assert (Hcol : forall i a, rows !! i = Some a -> nth i (column rows k) 0%Z = nth k a 0%Z).
    { intros i' a' H'. unfold column. change (map ?f rows) with (f <$> rows).
      apply nth_lookup_Some. by rewrite list_lookup_fmap, H'. }
    rewrite (Hcol i a Ha), (Hcol j b Hb).
    rewrite (IH (S k)) by lia.
    destruct (lookup_lt_is_Some_2 a k ltac:(lia)) as [x Hx].
    destruct (lookup_lt_is_Some_2 b k ltac:(lia)) as [y Hy].
    rewrite (nth_lookup_Some a k 0%Z x Hx), (nth_lookup_Some b k 0%Z y Hy).
    rewrite (drop_S a x k Hx), (drop_S b y k Hy). rewrite row_lt_cons.
    split.
    + intros [?|[-> [?|[-> ?]]]]; auto.
    + intros [[?|[-> ?]]|[[= -> ->] ?]]; auto.
Qed.

Lemma is_monotonic_spec rows c :
  Forall (fun r => length r = c) rows ->
  is_monotonic rows c = true <-> never_decreases row_lt rows.
Proof.
  intros Hc. unfold is_monotonic. rewrite lexsort_identity.
  rewrite <- map_rev, rev_involutive. unfold never_decreases.
  rewrite Forall_lookup in Hc. split.
  - intros H i j a b Hij Ha Hb.
    assert (Hj : j < length rows) by by eapply lookup_lt_Some.
    specialize (H i j ltac:(lia)).
    apply (RR_columns rows c 0 i j a b) in H; eauto.
    rewrite !drop_0 in H. tauto.
  - intros H i j Hij.
    destruct (lookup_lt_is_Some_2 rows i ltac:(lia)) as [a Ha].
    destruct (lookup_lt_is_Some_2 rows j ltac:(lia)) as [b Hb].
    apply (RR_columns rows c 0 i j a b); eauto. rewrite !drop_0.
    destruct (H i j a b ltac:(lia) Ha Hb) as [?| ->]; [by left|right; split; [done|lia]].
Qed.

(** ** Sortedness of the heads and of the keys *)
Section order.
  Context {A : Type} `{EqDecision A} (lt : A -> A -> Prop).
  Context (ltrans : forall a b c, lt a b -> lt b c -> lt a c).
  Notation le a b := (lt a b \/ a = b).

  Lemma le_trans' a b c : le a b -> le b c -> le a c.
  Proof. intros [?| ->] [?| ->]; eauto. Qed.

  Lemma never_decreases_cons x l :
    never_decreases lt (x :: l) <-> never_decreases lt l /\ Forall (fun y => le x y) l.
  Proof.
    unfold never_decreases. split.
    - intros H. split.
      + intros i j a b Hij Ha Hb. apply (H (S i) (S j)); [lia|done|done].
      + apply Forall_lookup. intros j b Hb. apply (H 0 (S j)); [lia|done|done].
    - intros [H Hf] i j a b Hij Ha Hb. rewrite Forall_lookup in Hf.
      destruct i as [|i], j as [|j]; try lia; cbn in *.
      + injection Ha as <-. eauto.
      + eapply (H i j); eauto; lia.
  Qed.

  (** The keys never decrease iff their run heads never decrease. *)
  Lemma runs_sorted i x l :
    never_decreases lt (x :: map fst (runs i x l)) <-> never_decreases lt (x :: l).
  Proof.
    revert i x; induction l as [|y l IH]; intros i x; [done|].
    cbn [runs]. destruct (decide (y = x)) as [->|Hn].
    - rewrite IH. rewrite (never_decreases_cons x (x :: l)). split.
      + intros H. split; [done|]. apply never_decreases_cons in H as [_ H].
        constructor; [by right|done].
      + by intros [? _].
    - cbn [map fst]. rewrite (never_decreases_cons x (y :: l)).
      rewrite (never_decreases_cons x (y :: map _ _)). rewrite IH.
      split; intros [H1 H2]; (split; [done|]).
      + inversion H2 as [|?? Hxy _]; subst.
        apply never_decreases_cons in H1 as [_ H1]. constructor; [done|].
        eapply Forall_impl; [exact H1|]. cbn. intros z Hz. by eapply le_trans'.
      + inversion H2 as [|?? Hxy _]; subst. apply (proj2 (IH (S i) y)) in H1.
        apply never_decreases_cons in H1 as [_ H1]. constructor; [done|].
        eapply Forall_impl; [exact H1|]. cbn. intros z Hz. by eapply le_trans'.
  Qed.

  Lemma heads_sorted l :
    never_decreases lt (map fst (heads l)) <-> never_decreases lt l.
  Proof. destruct l as [|x l]; [done|]. apply runs_sorted. Qed.

  (** Non-decreasing and adjacent distinct: strictly increasing. *)
  Lemma adjacent_strict (l : list A) :
    never_decreases lt l ->
    (forall k a b, l !! k = Some a -> l !! S k = Some b -> a <> b) ->
    forall i j a b, i < j -> l !! i = Some a -> l !! j = Some b -> lt a b.
  Proof.
    intros Hs Had i j a b Hij Ha Hb.
    destruct (lookup_lt_is_Some_2 l (S i)) as [c Hc].
    { apply lookup_lt_Some in Hb. lia. }
    assert (lt a c).
    { destruct (Hs i (S i) a c ltac:(lia) Ha Hc) as [?| ->]; [done|].
      exfalso. by apply (Had i c c). }
    destruct (decide (j = S i)) as [->|]; [congruence|].
    destruct (Hs (S i) j c b ltac:(lia) Hc Hb) as [?| <-]; eauto.
  Qed.

  Lemma heads_keys_increase l :
    never_decreases lt l -> keys_increase lt (pairs (heads l) (length l)).
  Proof.
    intros Hs i j p q Hij Hp Hq.
    apply heads_sorted in Hs.
    eapply (adjacent_strict (map fst (heads l)) Hs (heads_adjacent l) i j); [done| |];
      rewrite <- (pairs_fst (heads l) (length l));
      change (map fst (pairs (heads l) (length l))) with (fst <$> pairs (heads l) (length l));
      rewrite list_lookup_fmap, ?Hp, ?Hq; done.
  Qed.
End order.

(** ** The eager path on sorted keys *)
Section eager.
  Context {A : Type} `{EqDecision A} (lt : A -> A -> Prop) (leb : A -> A -> bool).
  Context (ltrans : forall a b c, lt a b -> lt b c -> lt a c).
  Context (lirrefl : forall a, ~ lt a a).
  Context (leb_lt : forall a b, lt a b -> leb a b = true /\ leb b a = false).
  Context (leb_refl : forall a, leb a a = true).

  Lemma usort_runs i x l :
    never_decreases lt (x :: l) -> usort leb (x :: l) = x :: map fst (runs i x l).
  Proof using leb_lt leb_refl.
    revert i x; induction l as [|y l IH]; intros i x Hs; [done|].
    apply never_decreases_cons in Hs as [Hs Hf].
    change (usort leb (x :: y :: l)) with (usort_insert leb x (usort leb (y :: l))).
    rewrite (IH (S i) y Hs). cbn [usort_insert runs].
    inversion Hf as [|?? Hxy _]; subst.
    destruct (decide (y = x)) as [->|Hn].
    - by rewrite leb_refl.
    - destruct Hxy as [Hxy|]; [|congruence]. apply leb_lt in Hxy as [-> ->]. done.
  Qed.

  Lemma first_index_runs i x l :
    never_decreases lt (x :: l) ->
    map (fun z => i + first_index z l) (map fst (runs i x l)) = map snd (runs i x l).
  Proof using ltrans lirrefl.
    revert i x; induction l as [|y l IH]; intros i x Hs; [done|].
    apply never_decreases_cons in Hs as [Hs Hf].
    inversion Hf as [|?? Hxy _]; subst. pose proof Hs as Hs'.
    (* shift *)
    assert (Hshift : map (fun z => i + first_index z (y :: l)) (map fst (runs (S i) y l))
                     = map snd (runs (S i) y l)).
    { rewrite <- (IH (S i) y Hs). apply map_ext_in. intros z Hz.
      cbn [first_index]. destruct (decide (z = y)) as [->|]; [|lia].
      exfalso. apply elem_of_list_In in Hz.
      apply (heads_sorted lt ltrans (y :: l)) in Hs.
      pose proof (runs_sorted lt ltrans (S i) y l) as Hrs.
      apply Hrs in Hs'.
      apply elem_of_list_lookup in Hz as [k Hk].
      pose proof (adjacent_strict lt ltrans _ Hs' (runs_adjacent (S i) y l) 0 (S k) y y
        ltac:(lia) eq_refl Hk). by eapply lirrefl. }
    cbn [runs]. destruct (decide (y = x)) as [->|Hn]; [done|].
    cbn [map fst snd]. rewrite Hshift. cbn [first_index].
    rewrite decide_True by done. by rewrite Nat.add_0_r.
  Qed.

  Lemma eager_heads l :
    never_decreases lt l ->
    unique_and_check_monotony leb l =
    Ok (map fst (heads l), Indices (2^63)%Z (map snd (heads l))).
  Proof using ltrans lirrefl leb_lt leb_refl.
    intros Hs. unfold unique_and_check_monotony, np_unique.
    assert (Hu : usort leb l = map fst (heads l)).
    { destruct l as [|x l]; [done|]. by apply usort_runs. }
    assert (Hi : map (fun x => first_index x l) (map fst (heads l)) = map snd (heads l)).
    { destruct l as [|x l]; [done|]. cbn [heads map fst snd].
      f_equal; [cbn; by rewrite decide_True|].
      rewrite <- (first_index_runs 1 x l Hs). apply map_ext_in. intros z Hz.
      cbn [first_index]. destruct (decide (z = x)) as [->|]; [|lia].
      exfalso. apply elem_of_list_In, elem_of_list_lookup in Hz as [k Hk].
      pose proof (runs_sorted lt ltrans 1 x l) as Hrs. apply Hrs in Hs.
      pose proof (adjacent_strict lt ltrans _ Hs (runs_adjacent 1 x l) 0 (S k) x x
        ltac:(lia) eq_refl Hk). by eapply lirrefl. }
    rewrite Hu, Hi.
    rewrite (proj2 (all_increasing_spec _)) by apply heads_positions. done.
  Qed.
End eager.
