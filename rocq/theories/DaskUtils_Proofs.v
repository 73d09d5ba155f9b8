From Verif Require Import Py DaskUtils_Model.

Lemma accumulate_from_length acc l : length (accumulate_from acc l) = length l.
Proof. revert acc; induction l; intros; simpl; [done | by rewrite IHl]. Qed.

(** Cutting [l] after successive lengths. *)
Fixpoint cuts {A} (ns : list nat) (l : list A) : list (list A) :=
  match ns with [] => [] | n :: ns => take n l :: cuts ns (drop n l) end.

Lemma take_all_but_last {A} (x : A) l :
  take (length (x :: l) - 1) (x :: l) = removelast (x :: l).
Proof.
  revert x; induction l as [|y l IH]; intros x; [done|].
  change (removelast (x :: y :: l)) with (x :: removelast (y :: l)).
  rewrite <- IH. simpl. by rewrite Nat.sub_0_r.
Qed.

Lemma imap_slices {A} (l : list A) ns acc :
  let div := acc :: accumulate_from acc ns in
  imap (fun ix item => slice item (nth (ix + 1) div 0) l) (removelast div)
  = cuts ns (drop acc l).
Proof.
  cbn zeta. revert acc. induction ns as [|n ns IH]; intros acc; [done|].
  change (removelast (acc :: accumulate_from acc (n :: ns)))
    with (acc :: removelast ((acc + n) :: accumulate_from (acc + n) ns)).
  cbn [imap].
  match goal with |- ?a :: ?b = _ => transitivity (take n (drop acc l) :: cuts ns (drop n (drop acc l))); [|done] end.
  f_equal.
  - cbn [Nat.add nth accumulate_from]. unfold slice. f_equal. lia.
  - rewrite drop_drop. rewrite <- (IH (acc + n)).
    apply imap_ext. intros i x Hx. cbn. done.
Qed.

Lemma split_sequence_cuts {A} (l : list A) (n : option Z) r :
  split_sequence l n = Ok r ->
  exists k : nat, k = Z.to_nat (Z.min (default (Z.of_nat (length l)) n) (Z.of_nat (length l)))
    /\ 0 < k
    /\ r = cuts (replicate (length l mod k) (length l / k + 1)
                ++ replicate (k - length l mod k) (length l / k)) l.
Proof.
  unfold split_sequence. intros H.
  assert (Hd : (match n with None => Z.of_nat (length l) | Some s => s end) = default (Z.of_nat (length l)) n) by by destruct n.
  rewrite Hd in H. clear Hd.
  destruct (Z.leb_spec (default (Z.of_nat (length l)) n) 0); [done|].
  remember (Z.to_nat (Z.min (default (Z.of_nat (length l)) n) (Z.of_nat (length l)))) as k eqn:Hk.
  destruct (Nat.eqb_spec k 0); [done|].
  exists k. split; [done|]. split; [lia|].
  match type of H with Ok ?a = Ok _ => transitivity a; [congruence|] end.
  clear H. change (accumulate ([0] ++ ?a)) with (0 :: accumulate_from 0 a).
  rewrite take_all_but_last.
  rewrite (imap_slices l _ 0). by rewrite drop_0.
Qed.

Lemma concat_cuts {A} ns (l : list A) :
  sum_list ns = length l -> concat (cuts ns l) = l.
Proof.
  revert l; induction ns as [|n ns IH]; intros l Hs; simpl in *.
  - symmetry; apply nil_length_inv. done.
  - rewrite IH by (rewrite drop_length; lia). apply take_drop.
Qed.

Lemma lengths_cuts {A} ns (l : list A) :
  sum_list ns <= length l -> map length (cuts ns l) = ns.
Proof.
  revert l; induction ns as [|n ns IH]; intros l Hs; simpl in *; [done|].
  rewrite take_length, IH by (rewrite drop_length; lia). f_equal. lia.
Qed.

Lemma sum_list_replicate' k n : sum_list (replicate k n) = k * n.
Proof. induction k; simpl; [done|]. rewrite IHk. lia. Qed.

Lemma div_sum n k : 0 < k ->
  sum_list (replicate (n mod k) (n / k + 1) ++ replicate (k - n mod k) (n / k)) = n.
Proof.
  intros Hk. rewrite sum_list_with_app, !sum_list_replicate'.
  pose proof (Nat.mod_upper_bound n k ltac:(lia)).
  pose proof (Nat.div_mod n k ltac:(lia)). nia.
Qed.

Lemma split_sequence_lengths {A} (l : list A) n r :
  split_sequence l n = Ok r ->
  let k := Z.to_nat (Z.min (default (Z.of_nat (length l)) n) (Z.of_nat (length l))) in
  concat r = l /\ 0 < k /\
  map length r = replicate (length l mod k) (length l / k + 1)
                ++ replicate (k - length l mod k) (length l / k).
Proof.
  intros H. apply split_sequence_cuts in H as (k & Hk & Hpos & ->).
  cbn zeta. rewrite <- Hk.
  pose proof (div_sum (length l) k Hpos) as Hs.
  split_and!; [by apply concat_cuts | done | by apply lengths_cuts; lia].
Qed.

(** ** Blocks *)
Lemma blockdims1_spec s c : s = 0 \/ 0 < c -> exists bs, blockdims1 s c = Ok bs
  /\ sum_list bs = s /\ (s <> 0 -> Forall (fun b => 0 < b <= c) bs)
  /\ (s <> 0 -> forall i, S i < length bs -> nth i bs 0 = c).
Proof.
  intros Hor. unfold blockdims1. destruct (Nat.eqb_spec s 0) as [->|Hs].
  - exists [0]. done.
  - destruct Hor as [?|Hc]; [lia|].
    destruct (Nat.eqb_spec c 0); [lia|].
    eexists; split; [done|].
    pose proof (Nat.div_mod s c ltac:(lia)) as Hdm.
    pose proof (Nat.mod_upper_bound s c ltac:(lia)) as Hub.
    split_and!.
    + rewrite sum_list_with_app, sum_list_replicate'.
      destruct (Nat.eqb_spec (s mod c) 0); simpl; nia.
    + intros _. apply Forall_app; split.
      * apply Forall_replicate. lia.
      * destruct (Nat.eqb_spec (s mod c) 0); repeat constructor; lia.
    + intros _ i Hi. rewrite app_length, replicate_length in Hi.
      rewrite app_nth1.
      * apply (nth_lookup_Some _ _ _ c). apply lookup_replicate. split; [done|].
        destruct (Nat.eqb_spec (s mod c) 0); simpl in *; lia.
      * rewrite replicate_length.
        destruct (Nat.eqb_spec (s mod c) 0); simpl in *; lia.
Qed.

Lemma split_sequence_ok {A} (l : list A) (n : option Z) :
  l <> [] -> (0 < default 1 n)%Z -> is_ok (split_sequence l n) = true.
Proof.
  intros Hl Hn. unfold split_sequence.
  assert (0 < length l) by (destruct l; simpl; [done | lia]).
  destruct n as [n|]; simpl in Hn.
  - destruct (Z.leb_spec n 0); [lia|].
    destruct (Nat.eqb_spec (Z.to_nat (Z.min n (Z.of_nat (length l)))) 0); [lia | done].
  - destruct (Z.leb_spec (Z.of_nat (length l)) 0); [lia|].
    destruct (Nat.eqb_spec (Z.to_nat (Z.min (Z.of_nat (length l)) (Z.of_nat (length l)))) 0); [lia | done].
Qed.

Lemma map_length_lookup {A} (r : list (list A)) i p :
  r !! i = Some p -> map length r !! i = Some (length p).
Proof. intros H. change (map length r) with (length <$> r). by rewrite list_lookup_fmap, H. Qed.

Lemma lookup_two_runs (a b x y i z : nat) :
  (replicate a x ++ replicate b y) !! i = Some z ->
  (i < a /\ z = x) \/ (a <= i < a + b /\ z = y).
Proof.
  intros H. apply lookup_app_Some in H as [H|[H1 H2]].
  - apply lookup_replicate in H as [-> ?]. by left.
  - rewrite replicate_length in *. apply lookup_replicate in H2 as [-> ?]. right. lia.
Qed.

Lemma split_sequence_fair {A} (l : list A) (n : Z) :
  l <> [] -> (0 < n)%Z ->
  exists pieces, split_sequence l (Some n) = Ok pieces /\
    (concat pieces = l /\ length pieces = Z.to_nat (Z.min n (Z.of_nat (length l)))
     /\ Forall (fun p => p <> []) pieces /\
  (forall i j p q, i < j -> pieces !! i = Some p -> pieces !! j = Some q ->
     length q <= length p <= length q + 1)).
Proof.
  intros Hl Hn. pose proof (split_sequence_ok l (Some n) Hl Hn) as Hok.
  destruct (split_sequence l (Some n)) as [r|] eqn:Hr; [|done].
  exists r. split; [done|].
  pose proof (split_sequence_lengths l (Some n) r Hr) as (Hc & Hk & Hlen).
  cbn [from_option id] in *.
  set (k := Z.to_nat (Z.min n (Z.of_nat (length l)))) in *.
  assert (Hkl : k <= length l) by (unfold k; lia).
  clearbody k.
  assert (Hq : 1 <= length l / k).
  { apply Nat.div_le_lower_bound; lia. }
  pose proof (Nat.mod_upper_bound (length l) k ltac:(lia)).
  split_and!; [done| | |].
  - assert (HL : length (map length r) = k).
    { rewrite Hlen, app_length, !replicate_length.
      generalize dependent (length l mod k); intros; lia. }
    by rewrite map_length in HL.
  - apply Forall_lookup. intros i p Hp -> .
    apply map_length_lookup in Hp. rewrite Hlen in Hp.
    apply lookup_two_runs in Hp. simpl in Hp. clear Hlen. generalize dependent (length l / k). intros; lia.
  - intros i j p q Hij Hp Hq'.
    apply map_length_lookup in Hp, Hq'. rewrite Hlen in Hp, Hq'.
    apply lookup_two_runs in Hp, Hq'. clear Hlen. generalize dependent (length l / k). intros; lia.
Qed.

Lemma cuts_ones {A} (l : list A) : cuts (replicate (length l) 1) l = map (fun x => [x]) l.
Proof. induction l; simpl; [done|]. by rewrite drop_0, IHl. Qed.

Lemma split_sequence_default {A} (l : list A) :
  l <> [] -> split_sequence l None = Ok (map (fun x => [x]) l).
Proof.
  intros Hl. pose proof (split_sequence_ok l None Hl ltac:(simpl; lia)) as Hok.
  destruct (split_sequence l None) as [r|] eqn:Hr; [|done].
  apply split_sequence_cuts in Hr as (k & Hk & Hpos & ->). f_equal.
  simpl in Hk. rewrite Z.min_id, Nat2Z.id in Hk. subst k.
  rewrite Nat.mod_same, Nat.div_same by lia. simpl.
  rewrite Nat.sub_0_r. apply cuts_ones.
Qed.

Lemma split_sequence_error {A} (l : list A) (n : Z) :
  split_sequence l (Some n) = Raise ValueError <-> (n <= 0)%Z.
Proof.
  unfold split_sequence. destruct (Z.leb_spec n 0); [split; intros; first [done | lia]|].
  destruct (_ =? 0); split; intros; first [done | lia].
Qed.

Lemma split_sequence_empty :
  split_sequence (@nil nat) (Some 4%Z) = Raise ZeroDivisionError /\
  split_sequence (@nil nat) None = Raise ValueError /\
  (forall A n, (0 < n)%Z -> split_sequence (@nil A) (Some n) = Raise ZeroDivisionError).
Proof.
  split_and!; [done..|]. intros A n Hn. unfold split_sequence.
  destruct (Z.leb_spec n 0); [lia|].
  cbn [length]. replace (Z.to_nat (Z.min n (Z.of_nat 0))) with 0 by lia. done.
Qed.

Lemma blockdims1_correct s c :
  0 < c ->
  exists bs, blockdims1 s c = Ok bs /\ sum_list bs = s /\
    (s = 0 -> bs = [0]) /\
    (s <> 0 -> Forall (fun b => 0 < b <= c) bs) /\
    (forall i, S i < length bs -> bs !! i = Some c).
Proof.
  intros Hc. destruct (blockdims1_spec s c (or_intror Hc)) as (bs & H1 & H2 & H3 & H4).
  exists bs. split_and!; try done.
  - intros ->. unfold blockdims1 in H1. simpl in H1. congruence.
  - intros i Hi. destruct (decide (s = 0)) as [->|Hs].
    + unfold blockdims1 in H1. simpl in H1. injection H1 as <-. simpl in Hi. lia.
    + destruct (lookup_lt_is_Some_2 bs i ltac:(lia)) as [x Hx].
      pose proof (nth_lookup_Some bs i 0 x Hx). pose proof (H4 Hs i Hi). congruence.
Qed.

Lemma normalized_chunks_correct shape chunks :
  length shape = length chunks -> Forall (fun c => 0 < c) chunks ->
  exists bss, normalized_chunks shape (map ChunkInt chunks) = Ok bss /\
    map sum_list bss = shape /\
    Forall2 (fun c bs => Forall (fun b => b <= c) bs) chunks bss.
Proof.
  unfold normalized_chunks. intros Hlen Hpos. revert shape Hlen.
  induction Hpos as [|c chunks Hc Hpos IH]; intros [|s shape] Hlen; try done.
  - exists []. split_and!; done || constructor.
  - destruct (IH shape ltac:(simpl in *; lia)) as (bss & H1 & H2 & H3).
    destruct (blockdims1_correct s c Hc) as (bs & B1 & B2 & B3 & B4 & B5).
    exists (bs :: bss). cbn [map zip zip_with traverse fst snd].
    unfold blockdims_from_blockshape at 1. cbn [zip zip_with traverse fst snd].
    rewrite B1. cbn [rbind].
    destruct (traverse _ _) as [t|] eqn:Ht in H1 |- *; [|done].
    cbn [rmap rbind mjoin list_join] in *.
    split_and!.
    + cbn. injection H1 as <-. done.
    + simpl. congruence.
    + constructor; [|done]. destruct (decide (s = 0)) as [->|Hs].
      * rewrite B3 by done. repeat constructor. lia.
      * eapply Forall_impl; [by apply B4|]. simpl. lia.
Qed.

Lemma normalized_chunks_explicit shape (tuples : list (list nat)) :
  length shape = length tuples ->
  normalized_chunks shape (map ChunkTuple tuples) = Ok tuples.
Proof.
  unfold normalized_chunks. revert shape.
  induction tuples as [|t tuples IH]; intros [|s shape] Hlen; try done.
  specialize (IH shape ltac:(simpl in *; lia)).
  cbn [map zip zip_with traverse fst snd rbind].
  destruct (traverse _ _) as [r|] eqn:Hr in IH |- *; [|done].
  unfold rmap, rbind in *. injection IH as IH. rewrite <- IH. done.
Qed.

Lemma fold_left_mul l a : fold_left Z.mul l a = (a * fold_left Z.mul l 1)%Z.
Proof.
  revert a; induction l as [|x l IH]; intros a; cbn [fold_left]; [lia|].
  rewrite (IH (a * x)%Z), (IH (1 * x)%Z). lia.
Qed.
Lemma prod_spec l1 l2 :
  prod [] = 1%Z /\ prod (l1 ++ l2) = (prod l1 * prod l2)%Z /\
  (forall x, prod [x] = x).
Proof.
  unfold prod. split_and!; [done| |].
  - rewrite fold_left_app. by rewrite fold_left_mul.
  - intros x. cbn [fold_left]. lia.
Qed.
