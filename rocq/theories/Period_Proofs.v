From Verif Require Import Py Period_Model Period_Spec.
Local Open Scope Z_scope.

Lemma unit_pos r : 0 < unit_ticks r.
Proof. do 11 (destruct r as [|r]; [done|]). done. Qed.

Lemma u_ltb r a b : (unit_ticks r * a <? unit_ticks r * b) = (a <? b).
Proof. pose proof (unit_pos r). apply eq_iff_eq_true. rewrite !Z.ltb_lt. split; intros; nia. Qed.
Lemma u_leb r a b : (unit_ticks r * a <=? unit_ticks r * b) = (a <=? b).
Proof. pose proof (unit_pos r). apply eq_iff_eq_true. rewrite !Z.leb_le. split; intros; nia. Qed.
Lemma u_eqb r a b : (unit_ticks r * a =? unit_ticks r * b) = (a =? b).
Proof. pose proof (unit_pos r). apply eq_iff_eq_true. rewrite !Z.eqb_eq. split; intros; nia. Qed.
Lemma u_le r a b : (unit_ticks r * a <= unit_ticks r * b) <-> (a <= b).
Proof. pose proof (unit_pos r). split; intros; nia. Qed.
Lemma u_succ r a : unit_ticks r * a + unit_ticks r = unit_ticks r * (a + 1).
Proof. lia. Qed.
Lemma u_pred r a : unit_ticks r * a - unit_ticks r = unit_ticks r * (a - 1).
Proof. lia. Qed.

Lemma spans_eq r p b l : spans r p b l ->
  p = MkPeriod (instant r b) (DT (unit_ticks r) r) (instant r l).
Proof. destruct p; intros (H1 & H2 & H3); simpl in *; by subst. Qed.

Lemma spans_mk r b l : spans r (MkPeriod (instant r b) (DT (unit_ticks r) r) (instant r l)) b l.
Proof. done. Qed.

Lemma spans_inj r p b l b' l' : spans r p b l -> spans r p b' l' -> b = b' /\ l = l'.
Proof.
  intros (H1 & H2 & _) (H3 & H4 & _). rewrite H1 in H3. rewrite H2 in H4.
  unfold instant in *. pose proof (unit_pos r).
  injection H3. injection H4. intros. nia.
Qed.

Lemma occurs_spans r p b l k : spans r p b l -> occurs r p k <-> b <= k <= l.
Proof.
  intros H. rewrite (spans_eq _ _ _ _ H). unfold occurs, instant; simpl.
  by rewrite !u_le.
Qed.

Lemma empty_spans r p b l : spans r p b l -> empty r p <-> l < b.
Proof.
  intros H. unfold empty. split.
  - intros He. destruct (Z.lt_ge_cases l b); [done|]. destruct (He b).
    rewrite (occurs_spans _ _ _ _ _ H). lia.
  - intros Hlb k. rewrite (occurs_spans _ _ _ _ _ H). lia.
Qed.

Lemma end_instant r p b l : spans r p b l -> p_end p = instant r (l + 1).
Proof.
  intros H. rewrite (spans_eq _ _ _ _ H). unfold p_end, instant, dt_add. simpl.
  by rewrite u_succ, Nat.min_id.
Qed.

Lemma Period_open r b e : spans r (Period (instant r b) (instant r e) false) b (e - 1).
Proof.
  unfold Period, spans, instant, dt_sub, min_time64_unit. simpl.
  rewrite !Nat.min_id. by rewrite u_pred.
Qed.
Lemma Period_closed r b e : spans r (Period (instant r b) (instant r e) true) b e.
Proof.
  unfold Period, spans, instant, min_time64_unit. simpl.
  by rewrite !Nat.min_id.
Qed.
Lemma Period_open' r b e l : l = e - 1 -> spans r (Period (instant r b) (instant r e) false) b l.
Proof. intros ->. apply Period_open. Qed.

Ltac norm_p H1 H2 :=
  rewrite ?(spans_eq _ _ _ _ H1), ?(spans_eq _ _ _ _ H2); cbn [p_begin p_last p_unit tick reso instant p_end dt_add dt_sub].

Ltac booleans :=
  repeat (rewrite ?u_ltb, ?u_leb, ?u_eqb, ?u_succ, ?u_pred, ?u_le).

(** ** Relations *)
Lemma get_relation_picture r p q b1 l1 b2 l2 :
  spans r p b1 l1 -> spans r q b2 l2 -> b1 <= l1 -> b2 <= l2 ->
  exists rel, get_relation p q = Ok rel /\ picture rel b1 l1 b2 l2.
Proof.
  intros Hp Hq H1 H2.
  unfold get_relation, get_direct_relation, contains, contains_date.
  norm_p Hp Hq. booleans.
  repeat match goal with
  | |- context [?a <? ?b] => destruct (Z.ltb_spec a b)
  | |- context [?a <=? ?b] => destruct (Z.leb_spec a b)
  | |- context [?a =? ?b] => destruct (Z.eqb_spec a b)
  end; cbn [andb negb orb]; try (eexists; split; [reflexivity|]; simpl; lia); try lia.
Qed.

Lemma picture_unique rel rel' b1 l1 b2 l2 : b1 <= l1 -> b2 <= l2 ->
  picture rel b1 l1 b2 l2 -> picture rel' b1 l1 b2 l2 -> rel = rel'.
Proof. intros ??. destruct rel, rel'; simpl; intros; (reflexivity || lia). Qed.

Lemma get_relation_iff r p q b1 l1 b2 l2 rel :
  spans r p b1 l1 -> spans r q b2 l2 -> b1 <= l1 -> b2 <= l2 ->
  get_relation p q = Ok rel <-> picture rel b1 l1 b2 l2.
Proof.
  intros Hp Hq H1 H2.
  destruct (get_relation_picture r p q b1 l1 b2 l2 Hp Hq H1 H2) as (rel' & Hr & Hpic).
  rewrite Hr. split.
  - intros [= <-]. done.
  - intros H. f_equal. exact (picture_unique _ _ _ _ _ _ H1 H2 Hpic H).
Qed.

Lemma get_relation_iff' r p q b1 l1 b2 l2 :
  spans r p b1 l1 -> spans r q b2 l2 -> b1 <= l1 -> b2 <= l2 ->
  (exists rel, get_relation p q = Ok rel) /\
  forall rel, get_relation p q = Ok rel <-> picture rel b1 l1 b2 l2.
Proof.
  intros Hp Hq H1 H2. split.
  - destruct (get_relation_picture r p q b1 l1 b2 l2 Hp Hq H1 H2) as (rel' & Hr & Hpic). eauto.
  - intros rel. exact (get_relation_iff _ _ _ _ _ _ _ rel Hp Hq H1 H2).
Qed.

Lemma picture_mirror rel b1 l1 b2 l2 :
  picture rel b1 l1 b2 l2 -> picture (mirror rel) b2 l2 b1 l1.
Proof. destruct rel; simpl; lia. Qed.

Lemma get_relation_mirror r p q b1 l1 b2 l2 rel :
  spans r p b1 l1 -> spans r q b2 l2 -> b1 <= l1 -> b2 <= l2 ->
  get_relation p q = Ok rel -> get_relation q p = Ok (mirror rel).
Proof.
  intros Hp Hq H1 H2 H. apply (get_relation_iff _ _ _ _ _ _ _ _ Hq Hp H2 H1). apply picture_mirror.
  by apply (get_relation_iff _ _ _ _ _ _ _ _ Hp Hq H1 H2) in H.
Qed.

Lemma get_relation_total p q : exists rel, get_relation p q = Ok rel.
Proof.
  unfold get_relation, get_direct_relation, contains, contains_date.
  repeat match goal with
  | |- context [?a <? ?b] => destruct (Z.ltb_spec a b)
  | |- context [?a <=? ?b] => destruct (Z.leb_spec a b)
  | |- context [?a =? ?b] => destruct (Z.eqb_spec a b)
  end; cbn [andb negb orb]; try (eexists; reflexivity); lia.
Qed.

(** ** Operations *)
Ltac pcases :=
  repeat match goal with
  | |- context [?a <? ?b] => destruct (Z.ltb_spec a b)
  | |- context [?a <=? ?b] => destruct (Z.leb_spec a b)
  | |- context [?a =? ?b] => destruct (Z.eqb_spec a b)
  end; cbn [andb negb orb].

Lemma intersection_spans r p q b1 l1 b2 l2 :
  spans r p b1 l1 -> spans r q b2 l2 ->
  spans r (intersection p q) (Z.max b1 b2) (Z.min l1 l2).
Proof.
  intros Hp Hq. unfold intersection.
  rewrite (end_instant _ _ _ _ Hp), (end_instant _ _ _ _ Hq).
  norm_p Hp Hq. booleans.
  pcases.
  - rewrite Z.max_l, Z.min_l by lia. done.
  - rewrite Z.max_l, Z.min_r by lia. apply Period_open'. lia.
  - rewrite Z.max_r, Z.min_l by lia. apply Period_open'. lia.
  - rewrite Z.max_r, Z.min_r by lia. done.
Qed.

Lemma intersects_iff r p q b1 l1 b2 l2 :
  spans r p b1 l1 -> spans r q b2 l2 -> b1 <= l1 -> b2 <= l2 ->
  intersects p q = true <-> Z.max b1 b2 <= Z.min l1 l2.
Proof.
  intros Hp Hq H1 H2. unfold intersects, contains_date. norm_p Hp Hq. booleans.
  pcases; split; intros; (done || lia).
Qed.

Lemma merge_spans r p q b1 l1 b2 l2 :
  spans r p b1 l1 -> spans r q b2 l2 ->
  if intersects p q
  then spans r (merge p q) (Z.min b1 b2) (Z.max l1 l2)
  else spans r (merge p q) b1 (b1 - 1).
Proof.
  intros Hp Hq. unfold merge. destruct (intersects p q).
  - rewrite (end_instant _ _ _ _ Hp), (end_instant _ _ _ _ Hq).
    norm_p Hp Hq. booleans.
    destruct (Z.ltb_spec l2 l1); destruct (Z.ltb_spec b1 b2);
      rewrite ?(Z.min_l b1 b2), ?(Z.min_r b1 b2), ?(Z.max_l l1 l2), ?(Z.max_r l1 l2) by lia;
      apply Period_open'; lia.
  - norm_p Hp Hq. apply Period_open.
Qed.

Lemma span_spans r p q b1 l1 b2 l2 :
  spans r p b1 l1 -> spans r q b2 l2 ->
  spans r (span p q) (Z.min b1 b2) (Z.max l1 l2).
Proof.
  intros Hp Hq. unfold span.
  rewrite (end_instant _ _ _ _ Hp), (end_instant _ _ _ _ Hq).
  norm_p Hp Hq. booleans. cbn zeta.
  destruct (Z.ltb_spec l1 l2); destruct (Z.ltb_spec b1 b2);
      rewrite ?(Z.min_l b1 b2), ?(Z.min_r b1 b2), ?(Z.max_l l1 l2), ?(Z.max_r l1 l2) by lia;
      apply Period_open'; lia.
Qed.

Lemma is_null_iff r p b l : spans r p b l -> is_null p = true <-> l < b.
Proof.
  intros H. unfold is_null. rewrite (end_instant _ _ _ _ H).
  norm_p H H. booleans. pcases; split; intros; (done || lia).
Qed.

Lemma length_spans r p b l : spans r p b l ->
  p_length p = instant r (l - b + 1).
Proof.
  intros H. unfold p_length. rewrite (end_instant _ _ _ _ H).
  norm_p H H. rewrite u_ltb. unfold instant, dt_sub, dt_add; simpl.
  rewrite ?Nat.min_id. destruct (l <? b); f_equal; lia.
Qed.

Lemma shift_spans r p b l k : spans r p b l ->
  spans r (p_shift p (instant r k)) (b + k) (l + k).
Proof.
  intros H. rewrite (spans_eq _ _ _ _ H). unfold p_shift, spans, instant, dt_add; simpl.
  rewrite Nat.min_id. split_and!; f_equal; lia.
Qed.

Lemma expand_spans r p b l k : spans r p b l ->
  spans r (p_expand p (instant r k)) (b - k) (l + k).
Proof.
  intros H. rewrite (spans_eq _ _ _ _ H). unfold p_expand, spans, instant, dt_add, dt_sub; simpl.
  rewrite Nat.min_id. split_and!; f_equal; lia.
Qed.

Lemma from_duration_spans r b k :
  spans r (from_duration (instant r b) (instant r k)) b (b + k - 1).
Proof.
  unfold from_duration, dt_add. simpl. rewrite Nat.min_id.
  replace (DT (unit_ticks r * b + unit_ticks r * k) r) with (instant r (b + k)).
  - apply Period_open.
  - unfold instant. f_equal. lia.
Qed.

(** Set-level statements *)
Lemma occurs_intersection r p q k :
  at_resolution r p -> at_resolution r q ->
  at_resolution r (intersection p q) /\
  (occurs r (intersection p q) k <-> occurs r p k /\ occurs r q k).
Proof.
  intros (b1 & l1 & Hp) (b2 & l2 & Hq).
  pose proof (intersection_spans _ _ _ _ _ _ _ Hp Hq) as Hi.
  split; [by eexists _, _|].
  rewrite (occurs_spans _ _ _ _ _ Hp), (occurs_spans _ _ _ _ _ Hq), (occurs_spans _ _ _ _ _ Hi). lia.
Qed.

Lemma non_empty_spans r p b l : spans r p b l -> ~ empty r p -> b <= l.
Proof. intros H He. rewrite (empty_spans _ _ _ _ H) in He. lia. Qed.

Lemma occurs_intersects r p q :
  at_resolution r p -> at_resolution r q -> ~ empty r p -> ~ empty r q ->
  intersects p q = true <-> exists k, occurs r p k /\ occurs r q k.
Proof.
  intros (b1 & l1 & Hp) (b2 & l2 & Hq) H1 H2.
  apply (non_empty_spans _ _ _ _ Hp) in H1. apply (non_empty_spans _ _ _ _ Hq) in H2.
  rewrite (intersects_iff _ _ _ _ _ _ _ Hp Hq H1 H2).
  setoid_rewrite (occurs_spans _ _ _ _ _ Hp). setoid_rewrite (occurs_spans _ _ _ _ _ Hq).
  split; [intros; exists (Z.max b1 b2); lia | intros [k ?]; lia].
Qed.

Lemma occurs_merge r p q :
  at_resolution r p -> at_resolution r q -> ~ empty r p -> ~ empty r q ->
  at_resolution r (merge p q) /\
  ((exists k, occurs r p k /\ occurs r q k) ->
     forall k, occurs r (merge p q) k <-> occurs r p k \/ occurs r q k) /\
  (~ (exists k, occurs r p k /\ occurs r q k) -> empty r (merge p q)).
Proof.
  intros Hpr Hqr He1 He2.
  pose proof (occurs_intersects r p q Hpr Hqr He1 He2) as Hint.
  destruct Hpr as (b1 & l1 & Hp), Hqr as (b2 & l2 & Hq).
  pose proof (non_empty_spans _ _ _ _ Hp He1). pose proof (non_empty_spans _ _ _ _ Hq He2).
  pose proof (intersects_iff _ _ _ _ _ _ _ Hp Hq) as Hii.
  pose proof (merge_spans _ _ _ _ _ _ _ Hp Hq) as Hm.
  destruct (intersects p q) eqn:E; (split; [by eexists _, _|]); split.
  - intros _ k. rewrite (occurs_spans _ _ _ _ _ Hp), (occurs_spans _ _ _ _ _ Hq), (occurs_spans _ _ _ _ _ Hm).
    pose proof (proj1 (Hii ltac:(lia) ltac:(lia)) eq_refl). lia.
  - intros Hn. destruct Hn. by apply Hint.
  - intros Hx. apply Hint in Hx. done.
  - intros _. rewrite (empty_spans _ _ _ _ Hm). lia.
Qed.

Lemma occurs_span r p q :
  at_resolution r p -> at_resolution r q -> ~ empty r p -> ~ empty r q ->
  at_resolution r (span p q) /\
  forall k, occurs r (span p q) k <->
    (exists i, (occurs r p i \/ occurs r q i) /\ i <= k) /\
    (exists j, (occurs r p j \/ occurs r q j) /\ k <= j).
Proof.
  intros (b1 & l1 & Hp) (b2 & l2 & Hq) H1 H2.
  apply (non_empty_spans _ _ _ _ Hp) in H1. apply (non_empty_spans _ _ _ _ Hq) in H2.
  pose proof (span_spans _ _ _ _ _ _ _ Hp Hq) as Hs.
  split; [by eexists _, _|]. intros k. rewrite (occurs_spans _ _ _ _ _ Hs).
  setoid_rewrite (occurs_spans _ _ _ _ _ Hp). setoid_rewrite (occurs_spans _ _ _ _ _ Hq).
  split.
  - intros. split.
    + destruct (Z.le_ge_cases b1 b2); [exists b1 | exists b2]; lia.
    + destruct (Z.le_ge_cases l1 l2); [exists l2 | exists l1]; lia.
  - intros [(i & ? & ?) (j & ? & ?)]. lia.
Qed.

Lemma contains_date_occurs r p k :
  at_resolution r p -> contains_date p (instant r k) = true <-> occurs r p k.
Proof.
  intros (b & l & H). rewrite (occurs_spans _ _ _ _ _ H). unfold contains_date.
  norm_p H H. booleans. rewrite andb_true_iff, !Z.leb_le. done.
Qed.

Lemma contains_occurs r p q :
  at_resolution r p -> at_resolution r q -> ~ empty r q ->
  contains p q = true <-> forall k, occurs r q k -> occurs r p k.
Proof.
  intros (b1 & l1 & Hp) (b2 & l2 & Hq) H2.
  apply (non_empty_spans _ _ _ _ Hq) in H2.
  setoid_rewrite (occurs_spans _ _ _ _ _ Hp). setoid_rewrite (occurs_spans _ _ _ _ _ Hq).
  unfold contains. norm_p Hp Hq. booleans. rewrite andb_true_iff, !Z.leb_le.
  split; [intros; lia|]. intros H. pose proof (H b2). pose proof (H l2). lia.
Qed.

Lemma is_adjacent_occurs r p q :
  at_resolution r p -> at_resolution r q -> ~ empty r p -> ~ empty r q ->
  is_adjacent p q = true <->
    (forall i j, occurs r p i -> occurs r q j -> i < j) /\ (exists i, occurs r p i /\ occurs r q (i + 1))
    \/ (forall i j, occurs r p i -> occurs r q j -> j < i) /\ (exists j, occurs r q j /\ occurs r p (j + 1)).
Proof.
  intros (b1 & l1 & Hp) (b2 & l2 & Hq) H1 H2.
  apply (non_empty_spans _ _ _ _ Hp) in H1. apply (non_empty_spans _ _ _ _ Hq) in H2.
  setoid_rewrite (occurs_spans _ _ _ _ _ Hp). setoid_rewrite (occurs_spans _ _ _ _ _ Hq).
  unfold is_adjacent. rewrite (end_instant _ _ _ _ Hp), (end_instant _ _ _ _ Hq).
  norm_p Hp Hq. booleans. rewrite orb_true_iff, !Z.eqb_eq.
  split.
  - intros [->| ->]; [left|right]; (split; [intros; lia|]).
    + exists l1. lia.
    + exists l2. lia.
  - intros [[H (i & ? & ?)]|[H (j & ? & ?)]].
    + pose proof (H l1 b2). lia.
    + pose proof (H b1 l2). lia.
Qed.

Lemma is_before_after_occurs r p k :
  at_resolution r p ->
  (is_before p (instant r k) = true <-> ~ empty r p /\ forall i, occurs r p i -> i < k) /\
  (is_after p (instant r k) = true <-> ~ empty r p /\ forall i, occurs r p i -> k < i).
Proof.
  intros (b & l & H).
  pose proof (is_null_iff _ _ _ _ H) as Hn. pose proof (empty_spans _ _ _ _ H) as He.
  setoid_rewrite (occurs_spans _ _ _ _ _ H). rewrite He.
  unfold is_before, is_after. destruct (is_null p).
  - assert (l < b) by by apply Hn. split; (split; [done|]); lia.
  - assert (b <= l). { destruct (Z.lt_ge_cases l b) as [Hx|]; [apply Hn in Hx; done|lia]. }
    norm_p H H. booleans. rewrite !Z.ltb_lt. split; (split; [intros; split; intros; lia|]).
    + intros [_ Hx]. pose proof (Hx l). lia.
    + intros [_ Hx]. pose proof (Hx b). lia.
Qed.

Lemma is_null_occurs r p : at_resolution r p -> is_null p = true <-> empty r p.
Proof. intros (b & l & H). by rewrite (is_null_iff _ _ _ _ H), (empty_spans _ _ _ _ H). Qed.

Lemma eq_lt_occurs r p q :
  at_resolution r p -> at_resolution r q -> ~ empty r p -> ~ empty r q ->
  (p_eq p q = true <-> forall k, occurs r p k <-> occurs r q k) /\
  p_ne p q = negb (p_eq p q) /\
  (p_lt p q = true <-> forall i j, occurs r p i -> occurs r q j -> i < j).
Proof.
  intros (b1 & l1 & Hp) (b2 & l2 & Hq) H1 H2.
  apply (non_empty_spans _ _ _ _ Hp) in H1. apply (non_empty_spans _ _ _ _ Hq) in H2.
  setoid_rewrite (occurs_spans _ _ _ _ _ Hp). setoid_rewrite (occurs_spans _ _ _ _ _ Hq).
  unfold p_eq, p_ne, p_lt. norm_p Hp Hq. booleans. split_and!.
  - rewrite andb_true_iff, !Z.eqb_eq. split; [intros [-> ->]; done|].
    intros H. pose proof (H b1). pose proof (H b2). pose proof (H l1). pose proof (H l2). lia.
  - by rewrite negb_andb.
  - rewrite Z.ltb_lt. split; [intros; lia|]. intros H. specialize (H l1 b2). lia.
Qed.

Lemma shift_expand_occurs r p d k :
  at_resolution r p ->
  (occurs r (p_shift p (instant r d)) k <-> occurs r p (k - d)) /\
  (~ empty r p -> 0 <= d -> occurs r (p_expand p (instant r d)) k <-> exists i, occurs r p i /\ i - d <= k <= i + d).
Proof.
  intros (b & l & H). split.
  - rewrite (occurs_spans _ _ _ _ _ (shift_spans _ _ _ _ d H)), (occurs_spans _ _ _ _ _ H). lia.
  - intros He Hd. apply (non_empty_spans _ _ _ _ H) in He.
    rewrite (occurs_spans _ _ _ _ _ (expand_spans _ _ _ _ d H)).
    setoid_rewrite (occurs_spans _ _ _ _ _ H). split.
    + intros. exists (Z.max b (Z.min l k)). lia.
    + intros (i & ? & ?). lia.
Qed.

Lemma seqZ_occurs r p b l k : spans r p b l -> k ∈ seqZ b (l - b + 1) <-> occurs r p k.
Proof. intros H. rewrite (occurs_spans _ _ _ _ _ H), elem_of_seqZ. lia. Qed.

(** The length counts the instants. *)
Lemma length_occurs r p :
  at_resolution r p -> ~ empty r p ->
  exists ks, NoDup ks /\ (forall k, k ∈ ks <-> occurs r p k) /\
    p_length p = instant r (Z.of_nat (length ks)).
Proof.
  intros (b & l & H) He. apply (non_empty_spans _ _ _ _ H) in He.
  exists (seqZ b (l - b + 1)). split_and!.
  - apply NoDup_seqZ.
  - intros k. by apply seqZ_occurs.
  - rewrite (length_spans _ _ _ _ H), seqZ_length. f_equal. lia.
Qed.

Lemma constructors_occurs r b e k :
  at_resolution r (Period (instant r b) (instant r e) false) /\
  at_resolution r (Period (instant r b) (instant r e) true) /\
  at_resolution r (from_duration (instant r b) (instant r e)) /\
  (occurs r (Period (instant r b) (instant r e) false) k <-> b <= k < e) /\
  (occurs r (Period (instant r b) (instant r e) true) k <-> b <= k <= e) /\
  (occurs r (from_duration (instant r b) (instant r e)) k <-> b <= k < b + e).
Proof.
  split_and!.
  - eexists _, _; apply Period_open.
  - eexists _, _; apply Period_closed.
  - eexists _, _; apply from_duration_spans.
  - rewrite (occurs_spans _ _ _ _ _ (Period_open r b e)). lia.
  - by rewrite (occurs_spans _ _ _ _ _ (Period_closed r b e)).
  - rewrite (occurs_spans _ _ _ _ _ (from_duration_spans r b e)). lia.
Qed.

Definition seconds (k : Z) := instant 6%nat k.
Definition millis (k : Z) := instant 5%nat k.

Lemma intersection_mixed_wrong :
  exists (p q : period) (d : dt64),
    at_resolution 5%nat p /\ at_resolution 6%nat q /\
    contains_date (intersection p q) d = true /\
    tick (p_end p) < tick d.
Proof.
  exists (Period (millis 5500) (millis 9500) false),
         (Period (seconds 0) (seconds 10) false), (millis 9900).
  split_and!.
  - eexists _, _; apply Period_open.
  - eexists _, _; apply Period_open.
  - vm_compute. reflexivity.
  - vm_compute. reflexivity.
Qed.

Lemma relation_groups r p q b1 l1 b2 l2 rel :
  spans r p b1 l1 -> spans r q b2 l2 -> b1 <= l1 -> b2 <= l2 ->
  get_relation p q = Ok rel ->
  (rel_is_before rel = true <-> l1 < b2) /\
  (rel_is_after rel = true <-> l2 < b1) /\
  (rel_contains rel = true -> b1 <= b2 /\ l2 <= l1) /\
  (rel_is_inside rel = true <-> b2 < b1 /\ l1 < l2) /\
  (rel_is_before_overlapping rel = true -> b1 <= b2 <= l1 /\ l1 <= l2) /\
  (rel_is_after_overlapping rel = true -> b2 <= b1 <= l2 /\ l2 <= l1 \/ b2 <= b1 /\ l1 = l2) /\
  length (List.filter (fun b : bool => b)
    [rel_is_before rel; rel_is_after rel; rel_contains rel; rel_is_inside rel;
     rel_is_before_overlapping rel; rel_is_after_overlapping rel]) = 1%nat.
Proof.
  intros Hp Hq H1 H2 Hr. apply (get_relation_iff _ _ _ _ _ _ _ _ Hp Hq H1 H2) in Hr.
  destruct rel; simpl in *; split_and!; try split; intros; try done; lia.
Qed.
