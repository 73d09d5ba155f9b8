(** * Proofs about the index *)
From Verif Require Import Py Dict Order Split_Spec NdArray_Proofs Dataset_Model Dataset_Concat Index_Model Index_Spec Listing_Model Listing_Proofs.

(** ** Lists of bounds *)
Fixpoint pairs {A} (l : list A) : list (A * A) :=
  match l with
  | x :: (y :: _) as l' => (x, y) :: pairs l'
  | _ => []
  end.
Lemma zip_pairs {A} (l : list A) : zip (removelast l) (tail l) = pairs l.
Proof.
  destruct l as [|x l]; [done|]. revert x. induction l as [|y l IH]; intros x; [done|].
  cbn [tail]. cbn [removelast pairs]. cbn [zip zip_with]. f_equal. apply (IH y).
Qed.
Lemma pairs_lookup {A} (l : list A) i x y : pairs l !! i = Some (x, y) <-> l !! i = Some x /\ l !! S i = Some y.
Proof.
  revert i. induction l as [|a l IH]; intros i; [cbn; split; [done|intros [? ?]; done]|].
  destruct l as [|b l]; [cbn; split; [done|]; intros [? H]; by destruct i|].
  destruct i as [|i]; [cbn; split; [by intros [= -> ->]|by intros [[= ->] [= ->]]]|]. apply (IH i).
Qed.

Section bounds.
  Context (P : nat -> bool).
  Definition bounds (n : nat) : list nat := List.filter P (seq 0 n).
  Lemma bounds_elem n i : i ∈ bounds n <-> i < n /\ P i = true.
  Proof. unfold bounds. rewrite elem_of_list_In, filter_In, in_seq. split; intros [? ?]; split; try done; lia. Qed.
  Lemma bounds_sorted n : StronglySorted lt (bounds n).
  Proof.
    unfold bounds. generalize 0. induction n as [|n IH]; intros k; [constructor|]. cbn [seq List.filter].
    destruct (P k); [|apply IH]. constructor; [apply IH|]. apply Forall_forall. intros x Hx.
    apply elem_of_list_In, filter_In in Hx as [Hx _]. apply in_seq in Hx. lia.
  Qed.
  Lemma sorted_lookup (l : list nat) i j a b : StronglySorted lt l -> l !! i = Some a -> l !! j = Some b -> i < j -> a < b.
  Proof.
    intros Hs. revert i j. induction Hs as [|x l Hs IH Hf]; intros i j Hi Hj Hij; [done|].
    destruct j as [|j]; [lia|]. cbn in Hj. destruct i as [|i]; cbn in Hi.
    - injection Hi as ->. rewrite Forall_forall in Hf. apply Hf. by eapply elem_of_list_lookup_2.
    - apply (IH i j); [done|done|lia].
  Qed.
  Lemma sorted_lookup_le (l : list nat) i j a b : StronglySorted lt l -> l !! i = Some a -> l !! j = Some b -> a < b -> i < j.
  Proof.
    intros Hs Hi Hj Hab. destruct (decide (i < j)) as [|Hn]; [done|]. destruct (decide (i = j)) as [->|Hne]; [rewrite Hi in Hj; injection Hj; lia|].
    pose proof (sorted_lookup l j i b a Hs Hj Hi). lia.
  Qed.
  (** A consecutive pair: nothing is between. *)
  Lemma pairs_between n a b : (a, b) ∈ pairs (bounds n) -> a < b < n /\ P a = true /\ P b = true /\ forall j, a < j < b -> P j = false.
  Proof.
    intros (i & Hi)%elem_of_list_lookup. apply pairs_lookup in Hi as [Ha Hb].
    pose proof (sorted_lookup _ _ _ _ _ (bounds_sorted n) Ha Hb ltac:(lia)) as Hab.
    apply elem_of_list_lookup_2 in Ha as Ha'. apply elem_of_list_lookup_2 in Hb as Hb'. apply bounds_elem in Ha', Hb'. split; [lia|]. split_and!; [tauto..|].
    intros j Hj. destruct (P j) eqn:E; [|done]. exfalso. assert (Hjn : j ∈ bounds n) by (apply bounds_elem; split; [lia|done]).
    apply elem_of_list_lookup in Hjn as [k Hk]. pose proof (sorted_lookup_le _ _ _ _ _ (bounds_sorted n) Ha Hk ltac:(lia)).
    pose proof (sorted_lookup_le _ _ _ _ _ (bounds_sorted n) Hk Hb ltac:(lia)). lia.
  Qed.
  (** Each position is between two consecutive bounds. *)
  Lemma pairs_around n j : P 0 = true -> P n = true -> j < n -> exists a b, (a, b) ∈ pairs (bounds (S n)) /\ a <= j < b.
  Proof.
    intros H0 Hn Hj.
    assert (Hgen : forall l x, StronglySorted lt (x :: l) -> x <= j -> (exists y, y ∈ l /\ j < y) -> exists a b, (a, b) ∈ pairs (x :: l) /\ a <= j < b).
    { induction l as [|y l IH]; intros x Hs Hx (z & Hz & Hjz); [by apply elem_of_nil in Hz|].
      destruct (decide (j < y)) as [Hy|Hy].
      - exists x, y. split; [by left|done].
      - destruct (IH y) as (a & b & Hab & Hr).
        + by inversion Hs.
        + lia.
        + apply elem_of_cons in Hz as [->|Hz]; [done|]. by exists z.
        + exists a, b. split; [by right|done]. }
    assert (E : exists l, bounds (S n) = 0 :: l) by (unfold bounds; cbn [seq List.filter]; rewrite H0; by eexists).
    destruct E as [l E]. assert (Hin : n ∈ bounds (S n)) by (apply bounds_elem; split; [lia|done]).
    pose proof (bounds_sorted (S n)) as Hs. rewrite E in *. apply Hgen; [done|lia|]. exists n. split; [|done].
    apply elem_of_cons in Hin as [->|]; [lia|done].
  Qed.
End bounds.

(** ** Where the slices are cut *)
Lemma gaps_elem start stop j : length start = length stop ->
  j ∈ gaps start stop <-> exists i x y, j = S i /\ start !! S i = Some x /\ stop !! i = Some y /\ (y < x)%Z.
Proof.
  intros Hl. unfold gaps. rewrite elem_of_list_In, in_map_iff. setoid_rewrite filter_In. split.
  - intros ([i [x y]] & <- & Hin & Hgt). apply elem_of_list_In, elem_of_lookup_imap in Hin as (i' & [x' y'] & [= -> -> ->] & Hi).
    apply lookup_zip_with_Some in Hi as (x1 & y1 & [= -> ->] & H1 & H2). cbn in Hgt. exists i', x1, y1.
    rewrite lookup_tail in H1. split; [cbn; lia|]. split; [done|]. split; [|lia].
    rewrite <-H2. destruct stop as [|s0 stop'] using rev_ind; [done|]. rewrite removelast_last. rewrite removelast_last in H2.
    symmetry. rewrite lookup_app_l; [done|]. by eapply lookup_lt_Some.
  - intros (i & x & y & -> & Hx & Hy & Hlt). exists (i, (x, y)). cbn. split; [lia|]. split; [|lia].
    apply elem_of_list_In, elem_of_lookup_imap. exists i, (x, y). split; [done|]. apply lookup_zip_with_Some. exists x, y. split; [done|].
    rewrite lookup_tail. split; [done|]. apply lookup_lt_Some in Hx.
    destruct stop as [|s0 stop'] using rev_ind; [cbn in Hl; lia|]. rewrite removelast_last. rewrite app_length in Hl. cbn in Hl.
    rewrite lookup_app_l in Hy by lia. done.
Qed.
Lemma roll_lookup {A} (l : list A) i : S i < length l -> roll l !! S i = l !! i.
Proof.
  intros Hi. unfold roll. destruct l as [|x l] using rev_ind; [cbn in Hi; lia|]. rewrite last_snoc. cbn. rewrite removelast_last.
  rewrite app_length in Hi. cbn in Hi. rewrite lookup_app_l by lia. done.
Qed.
Lemma roll_length {A} (l : list A) : length (roll l) = length l.
Proof. unfold roll. destruct l as [|x l] using rev_ind; [done|]. rewrite last_snoc. cbn. rewrite removelast_last, app_length. cbn. lia. Qed.
Lemma changes_elem l j : S j < length l -> S j ∈ changes l <-> exists x y, l !! j = Some x /\ l !! S j = Some y /\ x <> y.
Proof.
  intros Hj. unfold changes. rewrite elem_of_list_In, in_map_iff. setoid_rewrite filter_In. split.
  - intros ([i [x y]] & Ei & Hin & Hne). cbn in Ei, Hne. subst i. apply elem_of_list_In, elem_of_lookup_imap in Hin as (i' & [x' y'] & [= <- <- <-] & Hi).
    apply lookup_zip_with_Some in Hi as (x1 & y1 & [= -> ->] & H1 & H2). rewrite roll_lookup in H1 by done. exists x1, y1. split; [done|]. split; [done|].
    apply negb_true_iff, bool_decide_eq_false in Hne. done.
  - intros (x & y & Hx & Hy & Hne). exists (S j, (x, y)). cbn. split; [done|]. split; [|by apply negb_true_iff, bool_decide_eq_false].
    apply elem_of_list_In, elem_of_lookup_imap. exists (S j), (x, y). split; [done|]. apply lookup_zip_with_Some. exists x, y. split; [done|].
    rewrite roll_lookup by done. done.
Qed.
Lemma changes_bound l j : j ∈ changes l -> j < length l.
Proof.
  unfold changes. rewrite elem_of_list_In, in_map_iff. setoid_rewrite filter_In. intros ([i [x y]] & <- & Hin & _).
  apply elem_of_list_In, elem_of_lookup_imap in Hin as (i' & [x' y'] & [= -> -> ->] & Hi).
  apply lookup_zip_with_Some in Hi as (x1 & y1 & _ & _ & H2). by eapply lookup_lt_Some.
Qed.

(** ** Cells *)
Definition proj (names : list str) (r : row) : scheme := map (fun n => (n, cell r n)) names.
Lemma cell_get (r : row) n v : n ∈ dkeys r -> dget r n = Some v <-> cell r n = v.
Proof. intros [x Hx]%dget_is_Some. unfold cell. rewrite Hx. cbn. split; congruence. Qed.
Lemma about_proj names k r : (forall n, n ∈ names -> n ∈ dkeys r) -> k.*1 = names -> about k r <-> k = proj names r.
Proof.
  intros Hin <-. unfold about, proj. induction k as [|[n v] k IH]; cbn [map fmap list_fmap fst snd]; [split; [done|constructor]|].
  rewrite Forall_cons. cbn [fst snd]. rewrite cell_get by (apply Hin; left). rewrite IH by (intros m Hm; apply Hin; right; done).
  split; [intros [-> E]; f_equal; done|intros [= E1 E2]; split; [done|exact E2]].
Qed.
Lemma proj_names names r : (proj names r).*1 = names.
Proof. unfold proj. induction names as [|n names IH]; [done|]. cbn. f_equal. exact IH. Qed.
Lemma proj_eq names r r' : proj names r = proj names r' <-> forall n, n ∈ names -> cell r n = cell r' n.
Proof.
  unfold proj. induction names as [|n names IH]; cbn; [split; [intros _ n Hn; by apply elem_of_nil in Hn|done]|]. split.
  - intros [= E1 E2] m Hm. apply elem_of_cons in Hm as [->|Hm]; [done|]. by apply IH.
  - intros H. f_equal; [f_equal; apply H; left|]. apply IH. intros m Hm. apply H. by right.
Qed.
Lemma ranges_cell r a b : lit "start" ∈ dkeys r -> lit "stop" ∈ dkeys r -> ranges r a b <-> cell r START = a /\ cell r STOP = b.
Proof. intros H1 H2. unfold ranges. by rewrite !cell_get. Qed.

(** ** The slices of sorted rows *)
Lemma nth_cell (l : list row) i r n : l !! i = Some r -> nth i (map (fun r => cell r n) l) 0%Z = cell r n.
Proof. intros H. revert i H. induction l as [|x l IH]; intros i H; [done|]. destruct i as [|i]; cbn in *; [by injection H as ->|by apply IH]. Qed.

Definition cuts (names : list str) (l : list row) : list nat :=
  [0] ++ gaps (map (fun r => cell r START) l) (map (fun r => cell r STOP) l) ++ [length l] ++
  concat (map (fun n => changes (map (fun r => cell r n) l)) names).
Lemma cuts_elem names l j r r' : l !! j = Some r -> l !! S j = Some r' ->
  memb (S j) (cuts names l) = false <-> (cell r' START <= cell r STOP)%Z /\ proj names r = proj names r'.
Proof.
  intros Hr Hr'. pose proof (lookup_lt_Some _ _ _ Hr') as Hlt. unfold memb. rewrite bool_decide_eq_false. unfold cuts.
  rewrite !elem_of_app, !elem_of_list_singleton. rewrite gaps_elem by (by rewrite !map_length).
  assert (Hc : S j ∈ concat (map (fun n => changes (map (fun r => cell r n) l)) names) <-> exists n, n ∈ names /\ cell r n <> cell r' n).
  { rewrite elem_of_list_In, in_concat. setoid_rewrite in_map_iff. split.
    - intros (x & (n & <- & Hn) & Hx). apply elem_of_list_In in Hn, Hx. apply changes_elem in Hx as (u & v & Hu & Hv & Hne); [|by rewrite map_length].
      change (map (fun r => cell r n) l) with ((fun r => cell r n) <$> l) in Hu, Hv. rewrite list_lookup_fmap, Hr in Hu. rewrite list_lookup_fmap, Hr' in Hv.
      injection Hu as <-. injection Hv as <-. by exists n.
    - intros (n & Hn & Hne). exists (changes (map (fun r => cell r n) l)). split; [exists n; split; [done|by apply elem_of_list_In]|].
      apply elem_of_list_In, changes_elem; [by rewrite map_length|]. exists (cell r n), (cell r' n).
      change (map (fun r => cell r n) l) with ((fun r => cell r n) <$> l). by rewrite !list_lookup_fmap, Hr, Hr'. }
  rewrite Hc. clear Hc.
  assert (Hg : (exists i x y, S j = S i /\ map (fun r => cell r START) l !! S i = Some x /\ map (fun r => cell r STOP) l !! i = Some y /\ (y < x)%Z) <-> (cell r STOP < cell r' START)%Z).
  { split.
    - intros (i & x & y & [= <-] & Hx & Hy & Hxy). change (map ?f l) with (f <$> l) in Hx, Hy. rewrite list_lookup_fmap, Hr' in Hx. rewrite list_lookup_fmap, Hr in Hy.
      injection Hx as <-. injection Hy as <-. done.
    - intros H. exists j, (cell r' START), (cell r STOP). split; [done|]. change (map ?f l) with (f <$> l). by rewrite !list_lookup_fmap, Hr, Hr'. }
  rewrite Hg. clear Hg. rewrite proj_eq. split.
  - intros H. split.
    + destruct (decide (cell r STOP < cell r' START)%Z); [tauto|lia].
    + intros n Hn. destruct (decide (cell r n = cell r' n)); [done|]. exfalso. apply H. right. right. right. by exists n.
  - intros [H1 H2] [H|[H|[H|(n & Hn & Hne)]]]; [done|lia|lia|]. by apply Hne, H2.
Qed.

Lemma cuts_0 names l : memb 0 (cuts names l) = true.
Proof. unfold memb. apply bool_decide_eq_true. unfold cuts. left. Qed.
Lemma cuts_n names l : memb (length l) (cuts names l) = true.
Proof. unfold memb. apply bool_decide_eq_true. unfold cuts. rewrite !elem_of_app, !elem_of_list_singleton. tauto. Qed.

(** What [table_2_indexer] gives. *)
Definition slices (names : list str) (l : list row) : list (scheme * (Z * Z)) :=
  map (fun ab => (map (fun n => (n, nth ab.1 (map (fun r => cell r n) l) 0%Z)) names,
                  (nth ab.1 (map (fun r => cell r START) l) 0%Z, nth (ab.2 - 1) (map (fun r => cell r STOP) l) 0%Z)))
      (pairs (bounds (fun i => memb i (cuts names l)) (S (length l)))).
Lemma slices_lookup names l j k x y : slices names l !! j = Some (k, (x, y)) <->
  exists a b r r', pairs (bounds (fun i => memb i (cuts names l)) (S (length l))) !! j = Some (a, b) /\
    l !! a = Some r /\ l !! (b - 1) = Some r' /\ k = proj names r /\ x = cell r START /\ y = cell r' STOP.
Proof.
  unfold slices. change (map ?f ?l) with (f <$> l) at 1. rewrite list_lookup_fmap.
  destruct (pairs _ !! j) as [[a b]|] eqn:E; cbn [fmap option_fmap option_map fst snd].
  - pose proof (elem_of_list_lookup_2 _ _ _ E) as Hin. apply pairs_between in Hin as (Hab & _).
    destruct (lookup_lt_is_Some_2 l a ltac:(lia)) as [r Hr]. destruct (lookup_lt_is_Some_2 l (b - 1) ltac:(lia)) as [r' Hr'].
    rewrite (nth_cell l a r START Hr), (nth_cell l (b - 1) r' STOP Hr').
    assert (Hp : map (fun n => (n, nth a (map (fun r => cell r n) l) 0%Z)) names = proj names r).
    { unfold proj. apply map_ext. intros n. by rewrite (nth_cell l a r n Hr). }
    rewrite Hp. split.
    + intros [= <- <- <-]. by exists a, b, r, r'.
    + intros (a' & b' & r1 & r1' & [= <- <-] & H1 & H2 & -> & -> & ->). rewrite Hr in H1. rewrite Hr' in H2. by simplify_eq.
  - split; [done|]. by intros (? & ? & ? & ? & ? & _).
Qed.

(** ** Sorted rows *)
Lemma list_lt_app (p q s t : list Z) : length p = length q ->
  list_lt Z.ltb (p ++ s) (q ++ t) = if list_lt Z.ltb p q then true else if list_lt Z.ltb q p then false else list_lt Z.ltb s t.
Proof.
  revert q. induction p as [|x p IH]; intros [|y q] Hl; try done. cbn [app list_lt].
  destruct (x <? y)%Z; [done|]. destruct (y <? x)%Z; [done|]. apply IH. by injection Hl.
Qed.
Lemma list_lt_row (a b : list Z) : length a = length b -> list_lt Z.ltb a b = true -> row_lt a b.
Proof.
  revert b. induction a as [|x a IH]; intros [|y b] Hl H; try done. cbn in H.
  destruct (x <? y)%Z eqn:E1; [exists [], x, y, a, b; split_and!; [done..|lia]|].
  destruct (y <? x)%Z eqn:E2; [done|]. assert (x = y) as -> by lia.
  destruct (IH b) as (p & u & v & s & t & -> & -> & Huv); [by injection Hl|done|]. by exists (y :: p), u, v, s, t.
Qed.

Section sorted_rows.
  Context (keys names : list str) (l : list row).
  Local Notation sort_key := (fun r : row => map (cell r) (keys ++ [START; STOP])).
  Context (Hsort : StronglySorted (key_le (list_lt Z.ltb) sort_key) l).
  Context (Hsub : forall n, n ∈ keys -> n ∈ names).
  Context (Hun : forall r r', r ∈ l -> r' ∈ l -> proj names r = proj names r' -> (cell r START < cell r' START)%Z -> (cell r STOP <= cell r' STOP)%Z).

  Lemma sorted_pair i j r r' : i < j -> l !! i = Some r -> l !! j = Some r' -> list_lt Z.ltb (sort_key r') (sort_key r) = false.
  Proof using Hsort.
    clear -Hsort. revert i j. induction Hsort as [|x l' Hs IH Hf]; intros i j Hij Hi Hj; [done|].
    destruct j as [|j]; [lia|]. cbn in Hj. destruct i as [|i]; cbn in Hi.
    - injection Hi as ->. rewrite Forall_forall in Hf. apply (Hf r'). by eapply elem_of_list_lookup_2.
    - apply (IH Hs i j); [lia|done|done].
  Qed.
  Lemma proj_cells ks r r' : proj ks r = proj ks r' <-> map (cell r) ks = map (cell r') ks.
  Proof.
    rewrite proj_eq. clear. induction ks as [|n ks IH]; cbn; [split; [done|intros _ n Hn; by apply elem_of_nil in Hn]|]. split.
    - intros H. f_equal; [apply H; left|]. apply IH. intros m Hm. apply H. by right.
    - intros [= E1 E2] m Hm. apply elem_of_cons in Hm as [->|Hm]; [done|]. by apply IH.
  Qed.
  Lemma sorted_keys_le i j r r' : i <= j -> l !! i = Some r -> l !! j = Some r' -> list_lt Z.ltb (map (cell r') keys) (map (cell r) keys) = false.
  Proof using Hsort.
    intros Hij Hi Hj. destruct (decide (i = j)) as [->|Hne]; [rewrite Hi in Hj; injection Hj as ->; apply (so_irrefl _ (list_lt_order _ Z_lt_order))|].
    pose proof (sorted_pair i j r r' ltac:(lia) Hi Hj) as H. cbv beta in H. rewrite !map_app in H. rewrite list_lt_app in H by (by rewrite !map_length).
    destruct (list_lt Z.ltb (map (cell r') keys) _); done.
  Qed.
  Lemma sorted_ranges i j r r' : i <= j -> l !! i = Some r -> l !! j = Some r' -> proj keys r = proj keys r' ->
    (cell r START <= cell r' START)%Z /\ (cell r START = cell r' START -> cell r STOP <= cell r' STOP)%Z.
  Proof using Hsort.
    intros Hij Hi Hj E. destruct (decide (i = j)) as [->|Hne]; [rewrite Hi in Hj; injection Hj as ->; lia|].
    pose proof (sorted_pair i j r r' ltac:(lia) Hi Hj) as H. cbv beta in H. rewrite !map_app in H. apply proj_cells in E. rewrite E in H.
    rewrite list_lt_app in H by done. rewrite (so_irrefl _ (list_lt_order _ Z_lt_order)) in H. cbn [map list_lt] in H.
    destruct (cell r' START <? cell r START)%Z eqn:E1; [done|]. destruct (cell r START <? cell r' START)%Z eqn:E2; [lia|].
    destruct (cell r' STOP <? cell r STOP)%Z eqn:E3; [done|]. lia.
  Qed.
  Lemma proj_sub r r' : proj names r = proj names r' -> proj keys r = proj keys r'.
  Proof using Hsub. rewrite !proj_eq. intros H n Hn. apply H, Hsub, Hn. Qed.
  Lemma sorted_stops i j r r' : i <= j -> l !! i = Some r -> l !! j = Some r' -> proj names r = proj names r' -> (cell r STOP <= cell r' STOP)%Z.
  Proof using Hsort Hsub Hun.
    intros Hij Hi Hj E. destruct (sorted_ranges i j r r' Hij Hi Hj (proj_sub _ _ E)) as [H1 H2].
    destruct (decide (cell r START = cell r' START)) as [Es|Ns]; [by apply H2|]. apply Hun; [by eapply elem_of_list_lookup_2..|done|lia].
  Qed.

  Local Notation P := (fun i => memb i (cuts names l)).
  (** Inside a slice the rows have the same values and follow each other. *)
  Lemma segment_same a b j r r' : (a, b) ∈ pairs (bounds P (S (length l))) -> a <= j < b -> l !! a = Some r -> l !! j = Some r' -> proj names r = proj names r'.
  Proof.
    intros Hab Hj Hr. apply pairs_between in Hab as (Hlt & _ & _ & Hno). revert r'. destruct Hj as [Haj Hjb].
    induction Haj as [|j Haj IH]; intros r' Hr'; [rewrite Hr in Hr'; by injection Hr' as ->|].
    destruct (lookup_lt_is_Some_2 l j) as [r1 Hr1]; [apply lookup_lt_Some in Hr'; lia|].
    rewrite (IH ltac:(lia) r1 Hr1). assert (Hc : P (S j) = false) by (apply Hno; lia). by apply (cuts_elem names l j r1 r' Hr1 Hr') in Hc as [_ Hc].
  Qed.
  Lemma segment_chain a b m r r' i : (a, b) ∈ pairs (bounds P (S (length l))) -> a <= m < b -> l !! a = Some r -> l !! m = Some r' ->
    (cell r START <= i < cell r' STOP)%Z -> exists j r1, a <= j <= m /\ l !! j = Some r1 /\ (cell r1 START <= i < cell r1 STOP)%Z.
  Proof.
    intros Hab Hm Hr. pose proof Hab as Hbt. apply pairs_between in Hbt as (Hlt & _ & _ & Hno). revert r'. destruct Hm as [Ham Hmb].
    induction Ham as [|m Ham IH]; intros r' Hr' Hi; [rewrite Hr in Hr'; injection Hr' as <-; by exists a, r|].
    destruct (decide (cell r' START <= i)%Z) as [Hs|Hs]; [exists (S m), r'; split_and!; [lia|lia|done|done|lia]|].
    destruct (lookup_lt_is_Some_2 l m) as [r1 Hr1]; [apply lookup_lt_Some in Hr'; lia|].
    assert (Hc : P (S m) = false) by (apply Hno; lia). apply (cuts_elem names l m r1 r' Hr1 Hr') in Hc as [Hc _].
    destruct (IH ltac:(lia) r1 Hr1 ltac:(lia)) as (j & r2 & Hj & H2 & H3). exists j, r2. split_and!; [lia|lia|done|lia|lia].
  Qed.

  Lemma slices_cover k i : covered (slices names l) k i <-> exists r, r ∈ l /\ k = proj names r /\ (cell r START <= i < cell r STOP)%Z.
  Proof using Hsort Hsub Hun.
    unfold covered. split.
    - intros (x & y & Hin & Hi). apply elem_of_list_lookup in Hin as [j Hj]. apply slices_lookup in Hj as (a & b & r & r' & Hp & Hr & Hr' & -> & -> & ->).
      apply elem_of_list_lookup_2 in Hp. pose proof Hp as Hbt. apply pairs_between in Hbt as (Hlt & _).
      destruct (segment_chain a b (b - 1) r r' i Hp ltac:(lia) Hr Hr' Hi) as (j' & r1 & Hj' & Hr1 & Hi1). exists r1.
      split; [by eapply elem_of_list_lookup_2|]. split; [|done]. apply (segment_same a b j' r r1 Hp ltac:(lia) Hr Hr1).
    - intros (r & Hin & -> & Hi). apply elem_of_list_lookup in Hin as [j Hj]. pose proof (lookup_lt_Some _ _ _ Hj) as Hlt.
      destruct (pairs_around P (length l) j (cuts_0 _ _) (cuts_n _ _) Hlt) as (a & b & Hp & Hjb).
      pose proof Hp as Hbt. apply pairs_between in Hbt as (Hab & _).
      destruct (lookup_lt_is_Some_2 l a ltac:(lia)) as [ra Ha]. destruct (lookup_lt_is_Some_2 l (b - 1) ltac:(lia)) as [rb Hb].
      pose proof (segment_same a b j ra r Hp ltac:(lia) Ha Hj) as E1. pose proof (segment_same a b (b - 1) ra rb Hp ltac:(lia) Ha Hb) as E2.
      exists (cell ra START), (cell rb STOP). split.
      + apply elem_of_list_lookup in Hp as [q Hq]. eapply elem_of_list_lookup_2. apply slices_lookup. exists a, b, ra, rb. by split_and!.
      + pose proof (sorted_ranges a j ra r ltac:(lia) Ha Hj (proj_sub _ _ E1)) as [H1 _].
        pose proof (sorted_stops j (b - 1) r rb ltac:(lia) Hj Hb ltac:(congruence)). lia.
  Qed.
End sorted_rows.

Lemma slices_in_order keys l : StronglySorted (key_le (list_lt Z.ltb) (fun r => map (cell r) (keys ++ [START; STOP]))) l -> in_order (slices keys l).
Proof.
  intros Hsort i j k x y k' x' y' Hij Hi Hj.
  apply slices_lookup in Hi as (a & b & ra & rb & Hp & Hra & Hrb & -> & -> & ->).
  apply slices_lookup in Hj as (a' & b' & ra' & rb' & Hp' & Hra' & Hrb' & -> & -> & ->).
  pose proof (elem_of_list_lookup_2 _ _ _ Hp) as Hab. apply pairs_between in Hab as (Hab & _ & HPb & _).
  pose proof Hp as Hp1. pose proof Hp' as Hp1'. apply pairs_lookup in Hp1 as [_ Hb]. apply pairs_lookup in Hp1' as [Ha' _].
  assert (Hba : b <= a').
  { destruct (decide (S i = j)) as [<-|Hne]; [rewrite Hb in Ha'; by injection Ha' as ->|].
    pose proof (sorted_lookup _ _ _ _ _ (bounds_sorted _ _) Hb Ha' ltac:(lia)). lia. }
  pose proof (lookup_lt_Some _ _ _ Hra') as Hn.
  assert (Hs2 : forall r, (proj keys r).*2 = map (cell r) keys).
  { intros r. unfold proj. clear. induction keys as [|n ks IH]; [done|]. cbn. f_equal. exact IH. }
  pose proof (list_lt_order _ Z_lt_order) as HO.
  destruct (decide (proj keys ra = proj keys ra')) as [E|E].
  - right. split; [done|]. destruct (lookup_lt_is_Some_2 l b ltac:(lia)) as [rm Hm].
    assert (Ebb : S (b - 1) = b) by lia.
    apply proj_cells in E.
    assert (Hmid : forall q r, a <= q <= a' -> l !! q = Some r -> map (cell r) keys = map (cell ra) keys).
    { intros q r Hq Hr. apply (so_total _ HO).
      - apply (sorted_keys_le keys l Hsort a q ra r); [lia|done|done].
      - rewrite E. apply (sorted_keys_le keys l Hsort q a' r ra'); [lia|done|done]. }
    rewrite <-Ebb in HPb, Hm. destruct (memb (S (b - 1)) (cuts keys l)) eqn:Em; [|done]. clear HPb.
    assert (Hno : ~ (cell rm START <= cell rb STOP)%Z).
    { intros Hle. assert (memb (S (b - 1)) (cuts keys l) = false) as E2; [|congruence].
      apply (cuts_elem keys l (b - 1) rb rm Hrb Hm). split; [done|]. apply proj_cells. rewrite (Hmid (b - 1) rb), (Hmid (S (b - 1)) rm); [done|lia|done|lia|done]. }
    assert (E3 : proj keys rm = proj keys ra').
    { apply proj_cells. rewrite (Hmid (S (b - 1)) rm), (Hmid a' ra'); [done|lia|done|lia|done]. }
    pose proof (sorted_ranges keys l Hsort (S (b - 1)) a' rm ra' ltac:(lia) Hm Hra' E3) as [H1 _]. lia.
  - left. rewrite !Hs2. apply list_lt_row; [by rewrite !map_length|].
    destruct (list_lt Z.ltb (map (cell ra) keys) (map (cell ra') keys)) eqn:E1; [done|]. exfalso. apply E, proj_cells. apply (so_total _ HO); [done|].
    apply (sorted_keys_le keys l Hsort a a' ra ra'); [lia|done|done].
Qed.

(** ** Queries *)
Definition op2 (f : logical) (x y : bool) : bool :=
  match f with And => x && y | AndNot => x && negb y | Or => x || y | Xor => xorb x y | Invert => false end.
Lemma zip_with_map {A} (g : bool -> bool -> bool) (p q : A -> bool) l : zip_with g (map p l) (map q l) = map (fun x => g (p x) (q x)) l.
Proof. induction l as [|x l IH]; [done|]. cbn. by rewrite IH. Qed.
Lemma fold_masks {A B} (f : logical) (test : A -> B -> bool) (l : list A) : f <> Invert -> forall (cs : list B) (p : A -> bool),
  foldM (combine f) (map p l) (map (fun c => map (fun x => test x c) l) cs) = Ok (map (fun x => fold_left (op2 f) (map (test x) cs) (p x)) l).
Proof.
  intros Hf. induction cs as [|c cs IH]; intros p; [done|]. cbn [map foldM].
  assert (E : combine f (map p l) (map (fun x => test x c) l) = Ok (map (fun x => op2 f (p x) (test x c)) l)).
  { destruct f; cbn [combine]; try done; by rewrite zip_with_map. }
  rewrite E. cbn [rbind]. rewrite (IH (fun x => op2 f (p x) (test x c))). done.
Qed.
Lemma filter_map_mask {A} (p : A -> bool) l : map fst (List.filter snd (zip l (map p l))) = List.filter p l.
Proof. induction l as [|x l IH]; [done|]. cbn. destruct (p x); cbn; by rewrite IH. Qed.
Lemma mask_elem {A} (l : list A) (m : list bool) x : length m = length l ->
  x ∈ map fst (List.filter snd (zip l m)) <-> exists i, l !! i = Some x /\ m !! i = Some true.
Proof.
  intros _. rewrite elem_of_list_In, in_map_iff. setoid_rewrite filter_In. split.
  - intros ([y b] & <- & Hin & Hb). cbn in Hb. subst b. apply elem_of_list_In, elem_of_list_lookup in Hin as [i Hi].
    apply lookup_zip_with_Some in Hi as (y' & b' & [= -> <-] & H1 & H2). by exists i.
  - intros (i & H1 & H2). exists (x, true). split; [done|]. split; [|done]. apply elem_of_list_In, (elem_of_list_lookup_2 _ i).
    apply lookup_zip_with_Some. by exists x, true.
Qed.

Section parity.
  Context {A : Type} (P : A -> Prop) (b : A -> bool) (Hb : forall x, b x = true <-> P x).
  Fixpoint parity (l : list A) : bool := match l with [] => false | x :: l => xorb (b x) (parity l) end.
  Lemma parity_spec l : (odd_of P l <-> parity l = true) /\ (even_of P l <-> parity l = false).
  Proof using Hb.
    induction l as [|x l [IH1 IH2]]; cbn; [split; split; [inversion 1|done|done|constructor]|].
    pose proof (Hb x) as Hx. split; split.
    - inversion 1 as [? ? Hp He|? ? Hp Ho]; subst.
      + apply Hx in Hp as ->. apply IH2 in He as ->. done.
      + destruct (b x); [tauto|]. by apply IH1 in Ho as ->.
    - destruct (b x) eqn:E; destruct (parity l) eqn:E'; try done; intros _.
      + apply odd_yes; [by apply Hx|by apply IH2].
      + apply odd_no; [intros ?%Hx; done|by apply IH1].
    - inversion 1 as [|? ? Hp He|? ? Hp Ho]; subst.
      + apply Hx in Hp as ->. apply IH1 in He as ->. done.
      + destruct (b x); [tauto|]. by apply IH2 in Ho as ->.
    - destruct (b x) eqn:E; destruct (parity l) eqn:E'; try done; intros _.
      + apply even_yes; [by apply Hx|by apply IH1].
      + apply even_no; [intros ?%Hx; done|by apply IH2].
  Qed.
  Lemma fold_xor l c : fold_left xorb (map b l) c = xorb c (parity l).
  Proof. revert c. induction l as [|x l IH]; intros c; cbn; [by destruct c|]. rewrite IH. by destruct c, (b x), (parity l). Qed.
  Lemma fold_and l c : fold_left andb (map b l) c = true <-> c = true /\ Forall P l.
  Proof using Hb.
    revert c. induction l as [|x l IH]; intros c; cbn; [split; [intros ->; split; [done|constructor]|tauto]|].
    rewrite IH, andb_true_iff, Forall_cons, Hb. tauto.
  Qed.
  Lemma fold_or l c : fold_left orb (map b l) c = true <-> c = true \/ Exists P l.
  Proof using Hb.
    revert c. induction l as [|x l IH]; intros c; cbn; [split; [tauto|intros [|H]; [done|inversion H]]|].
    rewrite IH, orb_true_iff, Exists_cons, Hb. tauto.
  Qed.
  Lemma fold_and_not l c : fold_left (fun x y => x && negb y) (map b l) c = true <-> c = true /\ Forall (fun x => ~ P x) l.
  Proof using Hb.
    revert c. induction l as [|x l IH]; intros c; cbn; [split; [intros ->; split; [done|constructor]|tauto]|].
    rewrite IH, andb_true_iff, Forall_cons, negb_true_iff, <-Hb. destruct (b x); split; intros; intuition congruence.
  Qed.
End parity.

Definition the_op (op : option str) : str := match op with None | Some [] => lit "and" | Some o => o end.
Lemma fold_chosen op f (r : row) c cs : logical_op op = Ok f -> f <> Invert -> (forall c', c' ∈ c :: cs -> c'.1 ∈ dkeys r) ->
  let test c := memb (cell r c.1) c.2 in
  fold_left (op2 f) (map test cs) (test c) = true <-> chosen (the_op op) (c :: cs) r.
Proof.
  intros Ef Hf Hin. cbv zeta. set (test := fun c : str * list Z => memb (cell r c.1) c.2).
  assert (Ht : forall c', c' ∈ c :: cs -> test c' = true <-> meets r c').
  { intros c' Hc. apply Hin in Hc as [v Hv]%dget_is_Some. unfold test, memb, meets, cell. rewrite bool_decide_eq_true, Hv. cbn. split; [intros ?; by exists v|].
    by intros (v' & [= <-] & ?). }
  (* on the columns of the query the test decides the condition *)
  assert (Hgen : forall l, (forall c', c' ∈ l -> c' ∈ c :: cs) -> (Forall (meets r) l <-> Forall (fun c => test c = true) l) /\
     (Exists (meets r) l <-> Exists (fun c => test c = true) l) /\ (Forall (fun c => ~ meets r c) l <-> Forall (fun c => ~ test c = true) l) /\
     (odd_of (meets r) l <-> odd_of (fun c => test c = true) l) /\ (even_of (meets r) l <-> even_of (fun c => test c = true) l)).
  { induction l as [|x l IH]; intros Hl.
    - split_and!; split; intros H; try constructor; inversion H.
    - destruct IH as (I1 & I2 & I3 & I4 & I5); [intros; apply Hl; by right|]. pose proof (Ht x (Hl x ltac:(left))) as Hx.
      rewrite !Forall_cons, !Exists_cons, I1, I2, I3, Hx. split_and!; try done.
      + split; inversion 1; subst; [apply odd_yes|apply odd_no|apply odd_yes|apply odd_no]; try tauto; naive_solver.
      + split; inversion 1; subst; [apply even_yes|apply even_no|apply even_yes|apply even_no]; try tauto; naive_solver. }
  assert (Hop : the_op op = lit "and" /\ f = And \/ the_op op = lit "and_not" /\ f = AndNot \/ the_op op = lit "or" /\ f = Or \/ the_op op = lit "xor" /\ f = Xor).
  { unfold logical_op in Ef. fold (the_op op) in Ef. destruct (bool_decide (the_op op = lit "and")) eqn:E1; [apply bool_decide_eq_true in E1; injection Ef as <-; tauto|].
    destruct (bool_decide (the_op op = lit "and_not")) eqn:E2; [apply bool_decide_eq_true in E2; injection Ef as <-; tauto|].
    destruct (bool_decide (the_op op = lit "invert")) eqn:E3; [injection Ef as <-; done|].
    destruct (bool_decide (the_op op = lit "or")) eqn:E4; [apply bool_decide_eq_true in E4; injection Ef as <-; tauto|].
    destruct (bool_decide (the_op op = lit "xor")) eqn:E5; [apply bool_decide_eq_true in E5; injection Ef as <-; tauto|done]. }
  destruct (Hgen (c :: cs)) as (G1 & G2 & G3 & G4 & _); [done|]. destruct (Hgen cs) as (_ & _ & K3 & _ & _); [intros; by right|].
  assert (Hid : forall x : str * list Z, test x = true <-> (fun c => test c = true) x) by done.
  unfold chosen. destruct Hop as [[-> ->]|[[-> ->]|[[-> ->]|[-> ->]]]]; cbn [op2].
  - change (fun x y : bool => x && y) with andb. rewrite (fold_and _ test Hid). rewrite G1, Forall_cons. split; [tauto|]. intros [H|[[_ H]|[[H _]|[[H _]|[H _]]]]]; [done|tauto|done..].
  - rewrite (fold_and_not _ test Hid). split.
    + intros [H1 H2]. right. right. right. left. split; [done|]. exists c, cs. split; [done|]. split; [apply Ht; [left|done]|by apply K3].
    + intros [H|[[H _]|[[H _]|[[_ (c' & cs' & [= <- <-] & H1 & H2)]|[H _]]]]]; [done|done|done| |done]. split; [apply Ht; [left|done]|by apply K3].
  - change (fun x y : bool => x || y) with orb. rewrite (fold_or _ test Hid). rewrite G2, Exists_cons. split; [tauto|]. intros [H|[[H _]|[[_ H]|[[H _]|[H _]]]]]; [done|done|tauto|done|done].
  - change (fun x y : bool => xorb x y) with xorb. rewrite (fold_xor test), G4. rewrite (proj1 (parity_spec _ test Hid (c :: cs))). cbn [parity]. split; [tauto|].
    intros [H|[[H _]|[[H _]|[[H _]|[_ H]]]]]; [done..|tauto].
Qed.

Lemma column_ok t n : n ∈ t_names t -> column t n = Ok (map (fun r => cell r n) (t_rows t)).
Proof. intros H. unfold column, memb. by rewrite bool_decide_true. Qed.
Lemma filter_elem_pred {A} (p : A -> bool) l x : x ∈ List.filter p l <-> x ∈ l /\ p x = true.
Proof. rewrite !elem_of_list_In. apply filter_In. Qed.

Definition out_names (ix : index) (t : table) (only_keys : bool) : list str :=
  if only_keys then ix_keys ix else List.filter (fun n => negb (memb n [START; STOP])) (t_names t).

Lemma table_2_indexer_ok ix t only names' : (forall n, n ∈ out_names ix t only -> n ∈ t_names t) -> START ∈ t_names t -> STOP ∈ t_names t -> names' = t_names t ->
  table_2_indexer ix names' t only = Ok (slices (out_names ix t only) (t_rows t)).
Proof.
  intros Hn H1 H2 ->. unfold table_2_indexer. fold (out_names ix t only).
  rewrite (traverse_Ok _ (fun n => (n, map (fun r => cell r n) (t_rows t)))).
  2: { intros n Hin. by rewrite column_ok by (by apply Hn). }
  cbn [rbind]. rewrite !column_ok by done. cbn [rbind]. f_equal. unfold slices. rewrite zip_pairs. unfold unique_up_to, bounds, cuts. rewrite !map_map.
  apply map_ext. intros [a b]. by rewrite map_map.
Qed.

Section query.
  Context (ix : index) (file : option table) (t : table) (columns : list (str * list Z)) (op : option str) (mask : option (list bool)) (only : bool).
  Context (Hix : indexed ix t) (Hread : ix_read ix file = Ok t).
  Context (f : logical) (Hop : logical_op op = Ok f) (Hf : f <> Invert).
  Context (Hcol : forall c, c ∈ columns -> c.1 ∈ t_names t).
  Context (Hmask : forall m, mask = Some m -> length m = length (t_rows t)).

  Lemma query_rows : exists l, query ix file columns op mask only = Ok (slices (out_names ix t only) l) /\
    StronglySorted (key_le (list_lt Z.ltb) (fun r => map (cell r) (ix_keys ix ++ [START; STOP]))) l /\
    forall r, r ∈ l <-> picked t columns op mask r.
  Proof using All.
    destruct Hix as [[Hnd Hrows] Hsta Hsto (Hk1 & Hk2 & Hk3) Hty]. unfold query.
    destruct (ix_keys ix) as [|k0 ks] eqn:Ek; [done|]. rewrite <-Ek in *. clear Hk1.
    rewrite Hop. cbn [rbind].
    assert (Eg : negb (length columns =? 0) && negb (existsb (fun c => memb c.1 (ix_types ix)) columns) = false).
    { destruct columns as [|c cs]; [done|]. apply andb_false_iff. right. apply negb_false_iff. cbn. apply orb_true_iff. left. unfold memb. apply bool_decide_eq_true.
      apply Hty, Hcol. left. }
    rewrite Eg, Hread. cbn [rbind].
    set (rows1 := match mask with None => t_rows t | Some m => map fst (List.filter snd (zip (t_rows t) m)) end).
    assert (E1 : match mask with None => Ok t | Some m => table_filter t m end = Ok (Table (t_names t) rows1)).
    { unfold rows1. destruct mask as [m|]; [|by destruct t]. unfold table_filter. rewrite (Hmask m eq_refl). by rewrite Nat.eqb_refl. }
    rewrite E1. cbn [rbind].
    assert (Hr1 : forall r, r ∈ rows1 <-> exists i, t_rows t !! i = Some r /\ forall m, mask = Some m -> m !! i = Some true).
    { intros r. unfold rows1. destruct mask as [m|].
      - rewrite mask_elem by (by apply Hmask). split; intros (i & H1 & H2); exists i; (split; [done|]); [by intros ? [= <-]|by apply H2].
      - split; [intros (i & Hi)%elem_of_list_lookup; by exists i|intros (i & Hi & _); by eapply elem_of_list_lookup_2]. }
    assert (Hr1' : forall r, r ∈ rows1 -> dkeys r = t_names t).
    { intros r (i & Hi & _)%Hr1. apply Hrows. by eapply elem_of_list_lookup_2. }
    assert (E2 : exists rows2, (match columns with
              | [] => Ok (Table (t_names t) rows1)
              | _ => do masks <- traverse (fun c => do col <- column (Table (t_names t) rows1) c.1; if memb c.1 (ix_types ix) then Ok (map (fun x => memb x c.2) col) else Raise KeyError) columns;
                  match masks with
                  | [] => Raise TypeError
                  | m :: ms => do m <- foldM (combine f) m ms; table_filter (Table (t_names t) rows1) m
                  end
              end) = Ok (Table (t_names t) rows2) /\ forall r, r ∈ rows2 <-> r ∈ rows1 /\ chosen (the_op op) columns r).
    { destruct columns as [|c cs] eqn:Ec.
      - exists rows1. split; [done|]. intros r. split; [intros H; split; [done|by left]|tauto].
      - rewrite (traverse_Ok _ (fun c => map (fun r => memb (cell r c.1) c.2) rows1)).
        2: { intros c' Hc'. rewrite column_ok by (by apply Hcol). cbn [rbind]. unfold memb at 1. rewrite bool_decide_true by (by apply Hty, Hcol). by rewrite map_map. }
        cbn [rbind]. cbn [map]. rewrite (fold_masks f (fun r c => memb (cell r c.1) c.2) rows1 Hf cs (fun r => memb (cell r c.1) c.2)). cbn [rbind].
        unfold table_filter. cbn [t_rows t_names]. rewrite map_length, Nat.eqb_refl, filter_map_mask. eexists. split; [reflexivity|]. intros r. rewrite filter_elem_pred.
        split; intros [Hr Hb]; (split; [done|]).
        + apply (fold_chosen op f r c cs Hop Hf); [|done]. intros c' Hc'. rewrite (Hr1' r Hr). by apply Hcol.
        + apply (fold_chosen op f r c cs Hop Hf); [|done]. intros c' Hc'. rewrite (Hr1' r Hr). by apply Hcol. }
    destruct E2 as (rows2 & -> & Hr2). cbn [rbind].
    assert (Hall : forall n, n ∈ ix_keys ix ++ [START; STOP] -> n ∈ t_names t).
    { intros n [Hn|Hn]%elem_of_app; [by apply Hk3|]. apply elem_of_cons in Hn as [->|Hn]; [done|]. by apply elem_of_list_singleton in Hn as ->. }
    rewrite (traverse_Ok _ (fun n => map (fun r => cell r n) rows2)).
    2: { intros n Hn. by rewrite column_ok by (by apply Hall). }
    cbn [rbind t_names t_rows].
    exists (sorted_by (list_lt Z.ltb) (fun r => map (cell r) (ix_keys ix ++ [START; STOP])) rows2). split_and!.
    - rewrite table_2_indexer_ok; [done| | |done|done]; [|done]. intros n Hn. unfold out_names in Hn. cbn [t_names].
      destruct only; [by apply Hk3|]. by apply filter_elem_pred in Hn as [Hn _].
    - apply sorted_by_sorted, list_lt_order, Z_lt_order.
    - intros r. rewrite sorted_by_perm, Hr2, Hr1. unfold picked. fold (the_op op). split; [intros [(i & H1 & H2) H3]; by exists i|intros (i & H1 & H2 & H3); split; [by exists i|done]].
  Qed.

  Lemma picked_row r : picked t columns op mask r -> dkeys r = t_names t.
  Proof using Hix. intros (i & Hi & _). apply (ixd_complete _ _ Hix). by eapply elem_of_list_lookup_2. Qed.
  Lemma out_names_in n : n ∈ out_names ix t only -> n ∈ t_names t.
  Proof using Hix. unfold out_names. destruct only; [intros H; by apply (ixd_keys _ _ Hix)|]. by intros [H _]%filter_elem_pred. Qed.

  Lemma query_covers : unnested (out_names ix t only) (picked t columns op mask) ->
    exists out, query ix file columns op mask only = Ok out /\
      (forall k i, k.*1 = out_names ix t only -> covered out k i <-> designated (picked t columns op mask) k i) /\
      (forall k a b, (k, (a, b)) ∈ out -> k.*1 = out_names ix t only) /\ (only = true -> in_order out).
  Proof using All.
    intros Hu2. destruct query_rows as (l & Eq & Hso & Hl). exists (slices (out_names ix t only) l). split; [done|].
    assert (Hse : forall r, picked t columns op mask r -> lit "start" ∈ dkeys r /\ lit "stop" ∈ dkeys r).
    { intros r Hr. rewrite (picked_row r Hr). split; [apply (ixd_start _ _ Hix)|apply (ixd_stop _ _ Hix)]. }
    assert (Hin : forall r, picked t columns op mask r -> forall n, n ∈ out_names ix t only -> n ∈ dkeys r).
    { intros r Hr n Hn. rewrite (picked_row r Hr). by apply out_names_in. }
    split_and!.
    - intros k i Hk. rewrite (slices_cover (ix_keys ix) (out_names ix t only) l Hso).
      + unfold designated. split.
        * intros (r & Hr & Ek & Hi). apply Hl in Hr. exists r, (cell r START), (cell r STOP). split; [done|]. split; [by apply (about_proj (out_names ix t only)); [apply Hin|..]|].
          split; [|done]. destruct (Hse r Hr) as [Hs1 Hs2]. by apply ranges_cell.
        * intros (r & a & b & Hr & Ha & Hrg & Hi). exists r. split; [by apply Hl|]. apply (about_proj (out_names ix t only)) in Ha; [|by apply Hin|done]. split; [done|].
          destruct (Hse r Hr) as [Hs1 Hs2]. apply ranges_cell in Hrg as [<- <-]; done.
      + intros n Hn. unfold out_names. destruct only; [done|]. apply filter_elem_pred. destruct (proj2 (proj2 (ixd_keys _ _ Hix)) n Hn) as (H1 & H2 & H3).
        split; [done|]. unfold memb. apply negb_true_iff, bool_decide_eq_false. intros H. apply elem_of_cons in H as [H|H]; [done|]. by apply elem_of_list_singleton in H.
      + intros r r' Hr Hr' Ep Hlt. apply Hl in Hr, Hr'. destruct (Hse r Hr) as [Hs1 Hs2]. destruct (Hse r' Hr') as [Hs1' Hs2'].
        apply (Hu2 r r' (proj (out_names ix t only) r) (cell r START) (cell r STOP) (cell r' START) (cell r' STOP)); try done.
        * apply proj_names.
        * apply (about_proj (out_names ix t only)); [by apply Hin|apply proj_names|done].
        * apply (about_proj (out_names ix t only)); [by apply Hin|apply proj_names|done].
        * by apply ranges_cell.
        * by apply ranges_cell.
    - intros k a b Hkab. apply elem_of_list_lookup in Hkab as [j Hj]. apply slices_lookup in Hj as (a' & b' & r & r' & _ & _ & _ & -> & _). apply proj_names.
    - intros ->. apply slices_in_order. exact Hso.
  Qed.
End query.
Lemma labels_out ix t only : labels ix t only (out_names ix t only).
Proof.
  unfold labels, out_names. destruct only; [done|]. split.
  - generalize (t_names t). clear. induction l as [|n l IH]; [constructor|]. cbn [List.filter]. destruct (negb _); by constructor.
  - intros n. rewrite filter_elem_pred. unfold memb. rewrite negb_true_iff, bool_decide_eq_false, not_elem_of_cons, elem_of_list_singleton. done.
Qed.
Lemma labels_unique ix t only names : NoDup (t_names t) -> labels ix t only names -> names = out_names ix t only.
Proof.
  intros Hnd. unfold labels, out_names. destruct only; [done|]. intros [Hs Hin]. revert names Hs Hin. generalize dependent (t_names t).
  induction l as [|n l IH]; intros Hnd names Hs Hin; [by apply sublist_nil_r in Hs as ->|].
  apply NoDup_cons in Hnd as [Hn Hnd]. cbn [List.filter]. unfold memb at 1. destruct (bool_decide (n ∈ [START; STOP])) eqn:E; cbn [negb].
  - apply bool_decide_eq_true in E. assert (Hnn : n ∉ names).
    { intros H. apply Hin in H as (_ & H1 & H2). apply elem_of_cons in E as [->|E]; [done|]. by apply elem_of_list_singleton in E as ->. }
    apply sublist_cons_r in Hs as [Hs|(l' & -> & _)]; [|exfalso; apply Hnn; left]. apply IH; [done|done|]. intros m. rewrite Hin, elem_of_cons. split.
    + intros ([->|?] & H1 & H2); [|done]. apply elem_of_cons in E as [->|E]; [done|]. by apply elem_of_list_singleton in E as ->.
    + tauto.
  - apply bool_decide_eq_false in E. rewrite not_elem_of_cons, elem_of_list_singleton in E. destruct E as [E1 E2].
    apply sublist_cons_r in Hs as [Hs|(l' & -> & Hs)].
    + exfalso. apply Hn. assert (H : n ∈ names) by (apply Hin; split; [left|done]). clear -H Hs. induction Hs; [done| |].
      * apply elem_of_cons in H as [->|H]; [left|right; auto].
      * right; auto.
    + f_equal. assert (Hnl : n ∉ l').
      { intros H. apply Hn. clear -H Hs. induction Hs; [done| |]; [apply elem_of_cons in H as [->|H]; [left|right; auto]|right; auto]. }
      apply IH; [done|done|]. intros m. specialize (Hin m). rewrite !elem_of_cons in Hin. split.
      * intros H. destruct (proj1 Hin (or_intror H)) as ([->|?] & H1 & H2); [done|done].
      * intros (H & H1 & H2). destruct (proj2 Hin) as [->|?]; [tauto|done|done].
Qed.

(** ** Updates *)
Lemma dict_update_new (e d : row) : NoDup (dkeys e) -> (forall n, n ∈ dkeys e -> n ∉ dkeys d) -> dict_update d e = d ++ e.
Proof.
  unfold dict_update. revert d. induction e as [|[n v] e IH]; intros d Hnd Hno; [by rewrite app_nil_r|]. cbn [fold_left fst snd].
  inversion Hnd as [|? ? Hn Hnd']; subst. rewrite dset_new by (apply Hno; left). rewrite IH; [by rewrite <-app_assoc|done|].
  intros m Hm. unfold dkeys. rewrite map_app, elem_of_app. intros [H|H].
  - apply (Hno m); [by right|done].
  - apply elem_of_list_singleton in H as ->. done.
Qed.
Lemma concat_tables_ok names rows l : Forall (fun u => t_names u = names) l ->
  concat_tables (Table names rows) l = Ok (Table names (rows ++ concat (map t_rows l))).
Proof.
  revert rows. induction l as [|u l IH]; intros rows H; cbn [concat_tables map concat]; [by rewrite app_nil_r|].
  inversion H as [|? ? Hu Hl]; subst. cbn [t_names t_rows]. rewrite bool_decide_true by done. rewrite IH by done. by rewrite app_assoc.
Qed.
Lemma about_same k k' r : k.*1 = k'.*1 -> about k r -> about k' r -> k = k'.
Proof.
  revert k'. induction k as [|[n v] k IH]; intros [|[n' v'] k'] E H H'; try done. cbn in E. injection E as -> E.
  inversion H as [|? ? H1 H2]; subst. inversion H' as [|? ? H1' H2']; subst. cbn in H1, H1'. rewrite H1 in H1'. injection H1' as ->. f_equal. by apply IH.
Qed.

(** The rows of one of the partitions. *)
Lemma or_masks {A B : Type} (f : A -> B -> bool) (m : B -> bool) l rows :
  fold_left (zip_with orb) (map (fun a => map (f a) rows) l) (map m rows) = map (fun r => m r || existsb (fun a => f a r) l) rows.
Proof.
  revert m. induction l as [|a l IH]; intros m; cbn [map fold_left existsb].
  - apply map_ext. intros r. by rewrite orb_false_r.
  - assert (zip_with orb (map m rows) (map (f a) rows) = map (fun r => m r || f a r) rows) as ->.
    { clear. induction rows as [|r rows IH]; [done|]. cbn. by rewrite IH. }
    rewrite IH. apply map_ext. intros r. by rewrite orb_assoc.
Qed.

Section updates.
  Context (ix : index) (file : option table) (results : list (row * struct)) (names : list str).
  Context (Hty : forall n, n ∈ names -> n ∈ ix_types ix) (Hnd : NoDup names) (Hkne : ix_keys ix <> []).
  Context (Hfile : forall t, file = Some t -> t_names t = names /\ complete t).
  Context (Hres : forall k a, (k, a) ∈ results -> k.*1 = ix_keys ix /\ array_for ix names a) (Hks : NoDup (results.*1)).

  Definition new_rows (ka : row * struct) : list row := map (fun i => zip (s_fields ka.2) i ++ ka.1) (s_items ka.2).
  Lemma partition_table_ok k a : (k, a) ∈ results -> partition_table ix k a = Ok (Table names (new_rows (k, a))).
  Proof using Hty Hnd Hres.
    intros Hin. destruct (Hres k a Hin) as [Hk [Hf Hi]]. unfold partition_table, new_rows. cbn [fst snd].
    change (map fst k) with k.*1. rewrite Hk.
    assert (forall n, n ∈ s_fields a -> n ∈ ix_types ix) as Ht1 by (intros n Hn; apply Hty; rewrite <-Hf; apply elem_of_app; by left).
    assert (forall n, n ∈ ix_keys ix -> n ∈ ix_types ix) as Ht2 by (intros n Hn; apply Hty; rewrite <-Hf; apply elem_of_app; by right).
    rewrite (proj2 (forallb_forall _ (s_fields a))). 2: { intros n Hn. apply bool_decide_eq_true, Ht1. by apply elem_of_list_In. }
    rewrite (proj2 (forallb_forall _ (ix_keys ix))). 2: { intros n Hn. apply bool_decide_eq_true, Ht2. by apply elem_of_list_In. }
    cbn [negb].
    assert (Hd : forall d, dkeys d = s_fields a -> dict_update d k = d ++ k).
    { intros d Ed. rewrite <-Hf in Hnd. apply NoDup_app in Hnd as (_ & H2 & H3). apply dict_update_new.
      - unfold dkeys. change (map fst k) with k.*1. by rewrite Hk.
      - unfold dkeys. change (map fst k) with k.*1. rewrite Hk. intros n Hn Hn'. change (map fst d) with (dkeys d) in Hn'. rewrite Ed in Hn'. by apply (H2 n). }
    assert (Hz : forall i : list Z, length i = length (s_fields a) -> dkeys (zip (s_fields a) i) = s_fields a).
    { intros i Hl. unfold dkeys. change (map fst ?x) with (x.*1). by rewrite fst_zip by lia. }
    rewrite Hd by (unfold dkeys; rewrite map_map; apply map_id). f_equal. f_equal.
    - unfold dkeys. rewrite map_app. rewrite map_map. rewrite map_id. change (map fst k) with k.*1. by rewrite Hk.
    - apply map_ext_in. intros i Hin'%elem_of_list_In. apply Hd, Hz, Hi, Hin'.
  Qed.
  Lemma new_rows_spec k a : (k, a) ∈ results -> Forall2 (describes k (s_fields a)) (s_items a) (new_rows (k, a)) /\
    forall r, r ∈ new_rows (k, a) -> dkeys r = names /\ about k r.
  Proof using Hnd Hres.
    intros Hin. destruct (Hres k a Hin) as [Hk [Hf Hi]]. rewrite <-Hf in Hnd. apply NoDup_app in Hnd as (N1 & N2 & N3).
    assert (Hrow : forall i, i ∈ s_items a -> describes k (s_fields a) i (zip (s_fields a) i ++ k) /\ dkeys (zip (s_fields a) i ++ k) = names).
    { intros i Hia. pose proof (Hi i Hia) as Hl. assert (Hz : dkeys (zip (s_fields a) i) = s_fields a) by (unfold dkeys; change (map fst ?x) with (x.*1); by rewrite fst_zip by lia).
      split; [split|].
      - apply Forall_forall. intros [n v] Hnv. cbn. rewrite dget_app. assert (Hn : n ∈ ix_keys ix) by (rewrite <-Hk; apply (elem_of_list_fmap_1 fst _ _ Hnv)).
        assert (dget (zip (s_fields a) i) n = None) as -> by (apply dget_None; rewrite Hz; intros H; by apply (N2 n)).
        apply elem_dget; [|done]. unfold dkeys. change (map fst k) with k.*1. by rewrite Hk.
      - apply Forall2_same_length_lookup. split; [done|]. intros j n v Hn Hv. rewrite dget_app.
        assert (dget (zip (s_fields a) i) n = Some v) as ->; [|done]. apply elem_dget; [by rewrite Hz|]. apply (elem_of_list_lookup_2 _ j). apply lookup_zip_with_Some. by exists n, v.
      - unfold dkeys. rewrite map_app. change (map fst (zip (s_fields a) i)) with (dkeys (zip (s_fields a) i)). rewrite Hz. change (map fst k) with k.*1. by rewrite Hk. }
    split.
    - unfold new_rows. cbn [fst snd]. assert (Hg : forall l, (forall i, i ∈ l -> i ∈ s_items a) -> Forall2 (describes k (s_fields a)) l (map (fun i => zip (s_fields a) i ++ k) l)).
      { induction l as [|i l IH]; intros Hl; cbn; constructor; [apply Hrow, Hl; left|]. apply IH. intros; apply Hl; by right. }
      by apply Hg.
    - unfold new_rows. cbn [fst snd]. intros r (i & <- & Hi')%elem_of_list_In%in_map_iff. apply elem_of_list_In in Hi'. destruct (Hrow i Hi') as [[H1 _] H2]. done.
  Qed.

  Lemma filter_about_new k ka : ka ∈ results -> k.*1 = ix_keys ix -> base.filter (about k) (new_rows ka) = if decide (ka.1 = k) then new_rows ka else [].
  Proof using Hnd Hres.
    destruct ka as [k' a]. intros Hin Hk. destruct (new_rows_spec k' a Hin) as [_ H]. destruct (Hres k' a Hin) as [Hk' _]. cbn [fst].
    revert H. generalize (new_rows (k', a)). induction l as [|r l IH]; intros H; [by destruct (decide _)|].
    rewrite filter_cons. destruct (H r ltac:(left)) as [_ Hr]. specialize (IH (fun r' Hr' => H r' (elem_of_list_further _ _ _ Hr'))).
    destruct (decide (k' = k)) as [<-|Hne].
    - rewrite decide_True by done. by rewrite IH.
    - rewrite decide_False; [done|]. intros Hr'. apply Hne. apply (about_same k' k r); congruence.
  Qed.
  Lemma filter_concat_new k (l : list (row * struct)) : (forall ka, ka ∈ l -> ka ∈ results) -> k.*1 = ix_keys ix -> NoDup (l.*1) ->
    base.filter (about k) (concat (map new_rows l)) = match dget l k with Some a => new_rows (k, a) | None => [] end.
  Proof using Hnd Hres.
    intros Hl Hk Hn. induction l as [|[k' a] l IH]; [done|]. cbn [map concat]. rewrite filter_app.
    inversion Hn as [|? ? Hn1 Hn2]; subst. rewrite IH; [|intros; apply Hl; by right|done]. rewrite filter_about_new; [|apply Hl; left|done]. cbn [fst dget].
    destruct (decide (k = k')) as [<-|Hne].
    - rewrite decide_True by done. assert (dget l k = None) as ->; [|by rewrite app_nil_r]. apply dget_None. exact Hn1.
    - rewrite decide_False by done. done.
  Qed.
  Lemma about_bool k r : dkeys r = names -> k.*1 = ix_keys ix -> (forall n, n ∈ ix_keys ix -> n ∈ names) ->
    forallb (fun kv => bool_decide (cell r kv.1 = kv.2)) k = true <-> about k r.
  Proof.
    intros Hr Hk Hin. unfold about. rewrite forallb_forall, Forall_forall. split; intros H [n v] Hnv.
    - cbn. specialize (H (n, v) ltac:(by apply elem_of_list_In)). apply bool_decide_eq_true in H. apply cell_get; [|done]. rewrite Hr. apply Hin. rewrite <-Hk. apply (elem_of_list_fmap_1 fst _ _ Hnv).
    - cbn. apply elem_of_list_In in Hnv. apply bool_decide_eq_true. apply cell_get; [|by apply (H (n, v))]. rewrite Hr. apply Hin. rewrite <-Hk. apply (elem_of_list_fmap_1 fst _ _ Hnv).
  Qed.

  (** What an update does to the rows about each partition. *)
  Lemma ix_update_ok : exists ix' file', ix_update ix file results = Ok (ix', file') /\
    ((ix' = ix /\ file' = file /\ forall k a, (k, a) ∈ results -> s_items a = []) \/
     exists t', ix' = with_table ix t' /\ file' = Some t' /\ t_names t' = names /\ complete t') /\
    (forall k a, (k, a) ∈ results -> s_items a <> [] -> Forall2 (describes k (s_fields a)) (s_items a) (rows_about file' k)) /\
    (forall k, k.*1 = ix_keys ix -> (forall a, (k, a) ∈ results -> s_items a = []) -> rows_about file' k = rows_about file k).
  Proof using All.
    unfold ix_update. set (res := List.filter (fun r => negb (length (s_items r.2) =? 0)) results).
    assert (Hin : forall k a, (k, a) ∈ res <-> (k, a) ∈ results /\ s_items a <> []).
    { intros k a. unfold res. rewrite filter_elem_pred. cbn. rewrite negb_true_iff, Nat.eqb_neq. split; intros [H1 H2]; (split; [done|]); destruct (s_items a); done. }
    assert (Hin' : forall ka, ka ∈ res -> ka ∈ results) by (intros [k a] H; by apply Hin in H as [H _]).
    rewrite (traverse_Ok _ (fun ka => Table names (new_rows ka))) by (intros [k a] H; apply partition_table_ok; by apply Hin').
    cbn [rbind]. destruct res as [|r0 rs] eqn:Er; cbn [map].
    { exists ix, file. split; [done|]. assert (Hemp : forall k a, (k, a) ∈ results -> s_items a = []).
      { intros k a H. destruct (s_items a) eqn:E; [done|]. exfalso. assert (Hka : (k, a) ∈ @nil (row * struct)) by (apply Hin; rewrite E; done). by apply elem_of_nil in Hka. }
      split_and!; [by left| |done]. intros k a H Hne. by rewrite (Hemp k a H) in Hne. }
    rewrite <-Er in *.
    assert (Hndr : NoDup (res.*1)).
    { unfold res. revert Hks. generalize results. clear. induction results as [|x l IH]; intros Hn; [done|]. inversion Hn as [|? ? H1 H2]; subst. cbn [List.filter].
      destruct (negb _); [|by apply IH]. cbn. constructor; [|by apply IH]. intros Hx. apply H1. apply elem_of_list_fmap in Hx as (y & -> & Hy). apply filter_elem_pred in Hy as [Hy _]. by apply elem_of_list_fmap_1. }
    assert (Hnew : forall k, k.*1 = ix_keys ix -> base.filter (about k) (concat (map new_rows res)) = match dget res k with Some a => new_rows (k, a) | None => [] end).
    { intros k Hk. by apply filter_concat_new. }
    assert (Hkn : forall n, n ∈ ix_keys ix -> n ∈ names).
    { destruct r0 as [k a]. assert (H : (k, a) ∈ results) by (apply Hin'; rewrite Er; left). destruct (Hres k a H) as [_ [<- _]]. intros n Hn. apply elem_of_app. by right. }
    set (b := fun r : row => existsb (fun kr : row * struct => forallb (fun kv => bool_decide (cell r kv.1 = kv.2)) kr.1) res).
    assert (Hb : forall r, dkeys r = names -> b r = true <-> exists k a, (k, a) ∈ res /\ about k r).
    { intros r Hr. unfold b. rewrite existsb_exists. split.
      - intros ([k a] & Hka & H). apply elem_of_list_In in Hka. exists k, a. split; [done|]. apply about_bool in H; [done|done|by apply (Hres k a), Hin'|done].
      - intros (k & a & Hka & H). exists (k, a). split; [by apply elem_of_list_In|]. apply about_bool; [done|by apply (Hres k a), Hin'|done|done]. }
    set (kept := match file with None => [] | Some old => List.filter (fun r => negb (b r)) (t_rows old) end).
    assert (Hkept : forall k, k.*1 = ix_keys ix -> base.filter (about k) kept = match dget res k with Some _ => [] | None => rows_about file k end).
    { intros k Hk. unfold kept, rows_about. destruct file as [old|]; [|by destruct (dget res k)]. destruct (Hfile old eq_refl) as [En [_ Hc]]. rewrite En in Hc. clear -Hb Hk Hc Hin' Hndr Hres.
      induction (t_rows old) as [|r l IH]; [by destruct (dget res k)|]. specialize (IH (fun r' Hr' => Hc r' (elem_of_list_further _ _ _ Hr'))). pose proof (Hc r ltac:(left)) as Hr.
      cbn [List.filter]. rewrite (filter_cons _ r l). destruct (b r) eqn:Ebr; cbn [negb].
      - rewrite IH. apply (Hb r Hr) in Ebr as (k' & a & Hka & Hab). destruct (dget res k) eqn:Ed; [done|]. rewrite decide_False; [done|]. intros Hak.
        apply dget_None in Ed. apply Ed. assert (k = k') as -> by (apply (about_same k k' r); [rewrite (proj1 (Hres k' a (Hin' _ Hka))); done|done|done]). apply (elem_of_list_fmap_1 fst _ _ Hka).
      - rewrite filter_cons, IH. destruct (decide (about k r)) as [Hak|Hak]; [|done]. destruct (dget res k) as [a|] eqn:Ed; [|done].
        exfalso. assert (b r = true); [|congruence]. apply (Hb r Hr). exists k, a. split; [by apply dget_elem|done]. }
    set (t' := Table names (kept ++ concat (map new_rows res))).
    assert (Et : match file with
        | None => concat_tables (Table names (new_rows r0)) (map (fun ka => Table names (new_rows ka)) rs)
        | Some old => do masks <- traverse (fun r => key_mask ix old r.1) res;
            do old0 <- table_filter old (map negb match masks with [] => [] | m :: ms => fold_left (zip_with orb) ms m end);
            concat_tables old0 (Table names (new_rows r0) :: map (fun ka => Table names (new_rows ka)) rs)
        end = Ok t').
    { unfold t', kept. destruct file as [old|] eqn:Ef.
      - destruct (Hfile old eq_refl) as [En Hc].
        rewrite (traverse_Ok _ (fun kr : row * struct => map (fun r => forallb (fun kv => bool_decide (cell r kv.1 = kv.2)) kr.1) (t_rows old))).
        2:{ intros [k a] Hka. cbn [fst]. destruct (Hres k a (Hin' _ Hka)) as [Hk _]. unfold key_mask. destruct k as [|kv k]; [by rewrite <-Hk in Hkne|].
          rewrite (traverse_Ok _ (fun kv => (map (fun r => cell r kv.1) (t_rows old), kv.2))); [done|].
          intros [n v] Hnv. cbn [fst snd]. assert (Hn : n ∈ names) by (apply Hkn; rewrite <-Hk; apply (elem_of_list_fmap_1 fst _ _ Hnv)).
          rewrite column_ok by (by rewrite En). cbn [rbind]. unfold memb. by rewrite bool_decide_true by (by apply Hty). }
        assert (Em : match map (fun kr : row * struct => map (fun r => forallb (fun kv => bool_decide (cell r kv.1 = kv.2)) kr.1) (t_rows old)) res with
                     | [] => [] | m :: ms => fold_left (zip_with orb) ms m end = map b (t_rows old)).
        { unfold b. rewrite Er. cbn [map existsb]. apply or_masks. }
        cbn [rbind]. rewrite Em.
        cbn [rbind]. unfold table_filter. rewrite !map_length, Nat.eqb_refl. cbn [rbind]. rewrite map_map, filter_map_mask, En.
        change (Table names (new_rows r0) :: map (fun ka => Table names (new_rows ka)) rs) with (map (fun ka => Table names (new_rows ka)) (r0 :: rs)).
        rewrite concat_tables_ok by (apply Forall_forall; intros u (ka & <- & _)%elem_of_list_In%in_map_iff; done). rewrite map_map, Er. done.
      - rewrite concat_tables_ok by (apply Forall_forall; intros u (ka & <- & _)%elem_of_list_In%in_map_iff; done). rewrite map_map, Er. done. }
    exists (with_table ix t'), (Some t'). split; [|split_and!].
    - match goal with |- rbind ?m _ = _ => assert (Em : m = Ok t') end; [exact Et|]. rewrite Em. done.
    - right. exists t'. split_and!; [done|done|done|]. split; [done|]. cbn [t_rows t_names t']. intros r [Hr|Hr]%elem_of_app.
      + unfold kept in Hr. destruct file as [old|]; [|by apply elem_of_nil in Hr]. apply filter_elem_pred in Hr as [Hr _]. destruct (Hfile old eq_refl) as [En [_ Hc]]. rewrite <-En. by apply Hc.
      + apply elem_of_list_In, in_concat in Hr as (l & Hl & Hr). apply in_map_iff in Hl as ([k a] & <- & Hka). apply elem_of_list_In in Hka, Hr. by apply (new_rows_spec k a (Hin' _ Hka)).
    - intros k a Hka Hne. assert (Hka' : (k, a) ∈ res) by (by apply Hin). destruct (Hres k a Hka) as [Hk _].
      unfold rows_about. cbn [t_rows t']. rewrite filter_app, (Hkept k Hk), (Hnew k Hk). assert (dget res k = Some a) as -> by (by apply elem_dget). by apply new_rows_spec.
    - intros k Hk Hno. assert (Ed : dget res k = None).
      { destruct (dget res k) as [a|] eqn:Ed; [|done]. apply dget_elem, Hin in Ed as [H1 H2]. by apply Hno in H1. }
      unfold rows_about at 1. cbn [t_rows t']. rewrite filter_app, (Hkept k Hk), (Hnew k Hk), Ed. by rewrite app_nil_r.
  Qed.
End updates.
