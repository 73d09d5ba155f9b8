(** * Properties C09 and C10 (time periods) *)
From Verif Require Import Py Period_Model Period_Spec Period_Proofs.
Local Open Scope Z_scope.

(** C09. Between two non-empty periods of a resolution, [get_relation] always
    answers, and answers [rel] exactly when the documented picture of [rel]
    holds of their bounds. *)
Theorem C09_relation r p q b1 l1 b2 l2 :
  spans r p b1 l1 -> spans r q b2 l2 -> b1 <= l1 -> b2 <= l2 ->
  (exists rel, get_relation p q = Ok rel) /\
  forall rel, get_relation p q = Ok rel <-> picture rel b1 l1 b2 l2.
Proof. exact (get_relation_iff' r p q b1 l1 b2 l2). Qed.
Print Assumptions C09_relation.

(** Exchanging the periods mirrors the relation. *)
Theorem C09_mirror r p q b1 l1 b2 l2 rel :
  spans r p b1 l1 -> spans r q b2 l2 -> b1 <= l1 -> b2 <= l2 ->
  get_relation p q = Ok rel -> get_relation q p = Ok (mirror rel).
Proof. exact (get_relation_mirror r p q b1 l1 b2 l2 rel). Qed.
Print Assumptions C09_mirror.

(** The internal assertion cannot fail, whatever the periods (empty ones and
    mixed resolutions included). *)
Theorem C09_never_asserts p q : exists rel, get_relation p q = Ok rel.
Proof. exact (get_relation_total p q). Qed.
Print Assumptions C09_never_asserts.

(** The families of relations used by the merge are exclusive, exhaustive and
    mean what their names say. *)
Theorem C09_families r p q b1 l1 b2 l2 rel :
  spans r p b1 l1 -> spans r q b2 l2 -> b1 <= l1 -> b2 <= l2 ->
  get_relation p q = Ok rel ->
  (rel_is_before rel = true <-> l1 < b2) /\
  (rel_is_after rel = true <-> l2 < b1) /\
  (rel_contains rel = true -> b1 <= b2 /\ l2 <= l1) /\
  (rel_is_inside rel = true <-> b2 < b1 /\ l1 < l2) /\
  (rel_is_before_overlapping rel = true -> b1 <= b2 <= l1 /\ l1 <= l2) /\
  (rel_is_after_overlapping rel = true -> b2 <= b1 <= l2 /\ l2 <= l1 \/ b2 <= b1 /\ l1 = l2) /\
  length (List.filter (fun b : bool => b)
    [rel_is_before rel; rel_is_after rel; rel_contains rel; rel_is_inside rel;
     rel_is_before_overlapping rel; rel_is_after_overlapping rel]) = 1%nat.
Proof. exact (relation_groups r p q b1 l1 b2 l2 rel). Qed.
Print Assumptions C09_families.

Example C09_example :
  let p := Period (instant 6%nat 10) (instant 6%nat 20) false in
  let q := Period (instant 6%nat 15) (instant 6%nat 40) true in
  spans 6%nat p 10 19 /\ spans 6%nat q 15 40 /\ get_relation p q = Ok END_INSIDE /\
  get_relation q p = Ok START_INSIDE /\ picture END_INSIDE 10 19 15 40.
Proof. cbv zeta. unfold spans, picture. split_and!; vm_compute; (reflexivity || discriminate). Qed.

(** C10. The constructors: half-open, closed, and by duration. *)
Theorem C10_constructors r b e k :
  at_resolution r (Period (instant r b) (instant r e) false) /\
  at_resolution r (Period (instant r b) (instant r e) true) /\
  at_resolution r (from_duration (instant r b) (instant r e)) /\
  (occurs r (Period (instant r b) (instant r e) false) k <-> b <= k < e) /\
  (occurs r (Period (instant r b) (instant r e) true) k <-> b <= k <= e) /\
  (occurs r (from_duration (instant r b) (instant r e)) k <-> b <= k < b + e).
Proof. exact (constructors_occurs r b e k). Qed.
Print Assumptions C10_constructors.

Theorem C10_is_null r p : at_resolution r p -> is_null p = true <-> empty r p.
Proof. exact (is_null_occurs r p). Qed.
Print Assumptions C10_is_null.

(** Membership and inclusion. *)
Theorem C10_contains_date r p k :
  at_resolution r p -> contains_date p (instant r k) = true <-> occurs r p k.
Proof. exact (contains_date_occurs r p k). Qed.
Print Assumptions C10_contains_date.

Theorem C10_contains r p q :
  at_resolution r p -> at_resolution r q -> ~ empty r q ->
  contains p q = true <-> forall k, occurs r q k -> occurs r p k.
Proof. exact (contains_occurs r p q). Qed.
Print Assumptions C10_contains.

(** Intersection, also of empty periods. *)
Theorem C10_intersection r p q k :
  at_resolution r p -> at_resolution r q ->
  at_resolution r (intersection p q) /\
  (occurs r (intersection p q) k <-> occurs r p k /\ occurs r q k).
Proof. exact (occurs_intersection r p q k). Qed.
Print Assumptions C10_intersection.

Theorem C10_intersects r p q :
  at_resolution r p -> at_resolution r q -> ~ empty r p -> ~ empty r q ->
  intersects p q = true <-> exists k, occurs r p k /\ occurs r q k.
Proof. exact (occurs_intersects r p q). Qed.
Print Assumptions C10_intersects.

(** [merge] is the union of two periods that share an instant, and empty
    otherwise. *)
Theorem C10_merge r p q :
  at_resolution r p -> at_resolution r q -> ~ empty r p -> ~ empty r q ->
  at_resolution r (merge p q) /\
  ((exists k, occurs r p k /\ occurs r q k) ->
     forall k, occurs r (merge p q) k <-> occurs r p k \/ occurs r q k) /\
  (~ (exists k, occurs r p k /\ occurs r q k) -> empty r (merge p q)).
Proof. exact (occurs_merge r p q). Qed.
Print Assumptions C10_merge.

(** [span] is the convex hull. *)
Theorem C10_span r p q :
  at_resolution r p -> at_resolution r q -> ~ empty r p -> ~ empty r q ->
  at_resolution r (span p q) /\
  forall k, occurs r (span p q) k <->
    (exists i, (occurs r p i \/ occurs r q i) /\ i <= k) /\
    (exists j, (occurs r p j \/ occurs r q j) /\ k <= j).
Proof. exact (occurs_span r p q). Qed.
Print Assumptions C10_span.

(** Adjacent: one ends just before the other starts. *)
Theorem C10_is_adjacent r p q :
  at_resolution r p -> at_resolution r q -> ~ empty r p -> ~ empty r q ->
  is_adjacent p q = true <->
    (forall i j, occurs r p i -> occurs r q j -> i < j) /\ (exists i, occurs r p i /\ occurs r q (i + 1))
    \/ (forall i j, occurs r p i -> occurs r q j -> j < i) /\ (exists j, occurs r q j /\ occurs r p (j + 1)).
Proof. exact (is_adjacent_occurs r p q). Qed.
Print Assumptions C10_is_adjacent.

Theorem C10_before_after r p k :
  at_resolution r p ->
  (is_before p (instant r k) = true <-> ~ empty r p /\ forall i, occurs r p i -> i < k) /\
  (is_after p (instant r k) = true <-> ~ empty r p /\ forall i, occurs r p i -> k < i).
Proof. exact (is_before_after_occurs r p k). Qed.
Print Assumptions C10_before_after.

Theorem C10_comparisons r p q :
  at_resolution r p -> at_resolution r q -> ~ empty r p -> ~ empty r q ->
  (p_eq p q = true <-> forall k, occurs r p k <-> occurs r q k) /\
  p_ne p q = negb (p_eq p q) /\
  (p_lt p q = true <-> forall i j, occurs r p i -> occurs r q j -> i < j).
Proof. exact (eq_lt_occurs r p q). Qed.
Print Assumptions C10_comparisons.

Theorem C10_shift_expand r p d k :
  at_resolution r p ->
  (occurs r (p_shift p (instant r d)) k <-> occurs r p (k - d)) /\
  (~ empty r p -> 0 <= d ->
   occurs r (p_expand p (instant r d)) k <-> exists i, occurs r p i /\ i - d <= k <= i + d).
Proof. exact (shift_expand_occurs r p d k). Qed.
Print Assumptions C10_shift_expand.

(** [length] counts the instants of the period. *)
Theorem C10_length r p :
  at_resolution r p -> ~ empty r p ->
  exists ks, NoDup ks /\ (forall k, k ∈ ks <-> occurs r p k) /\
    p_length p = instant r (Z.of_nat (length ks)).
Proof. exact (length_occurs r p). Qed.
Print Assumptions C10_length.

(** The claim for different resolutions is false: the intersection of a period
    in milliseconds ([5.5 s, 9.5 s[) with one in seconds ([0 s, 10 s[) contains
    an instant (9.9 s) after the end of the first. *)
Theorem C10_intersection_mixed_refuted :
  exists (p q : period) (d : dt64),
    at_resolution 5%nat p /\ at_resolution 6%nat q /\
    contains_date (intersection p q) d = true /\
    tick (p_end p) < tick d.
Proof. exact intersection_mixed_wrong. Qed.
Print Assumptions C10_intersection_mixed_refuted.

Example C10_example :
  let p := Period (instant 9%nat 10) (instant 9%nat 20) false in
  let q := Period (instant 9%nat 15) (instant 9%nat 40) false in
  at_resolution 9%nat p /\ at_resolution 9%nat q /\ occurs 9%nat p 15 /\ occurs 9%nat q 15 /\
  p_begin (merge p q) = instant 9%nat 10 /\ p_end (merge p q) = instant 9%nat 40 /\
  p_length (intersection p q) = instant 9%nat 5.
Proof.
  cbv zeta. split; [eexists _, _; apply Period_open|].
  split; [eexists _, _; apply Period_open|].
  unfold occurs. split_and!; vm_compute; (reflexivity || discriminate).
Qed.
