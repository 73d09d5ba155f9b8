(** * Specification vocabulary for the splitting of a dataset

    [keys] gives the partition key of each record, in record order; [parts] is
    a list of announced keys with the half-open slice of records filed under
    each. *)
From Verif Require Import Py.

(** Listing the records slice by slice gives every record exactly once, in
    order; no slice is empty; each record of a slice has the announced key. *)
Definition files_every_record_once {K} (keys : list K) (parts : list (K * (nat * nat))) : Prop :=
  concat (map (fun p => seq p.2.1 (p.2.2 - p.2.1)) parts) = seq 0 (length keys) /\
  Forall (fun p => p.2.1 < p.2.2) parts /\
  Forall (fun p => forall i, p.2.1 <= i < p.2.2 -> keys !! i = Some p.1) parts.

(** Keys appear in strictly increasing order. *)
Definition keys_increase {K} (lt : K -> K -> Prop) (parts : list (K * (nat * nat))) : Prop :=
  forall i j p q, i < j -> parts !! i = Some p -> parts !! j = Some q -> lt p.1 q.1.

(** The keys of the records never decrease. *)
Definition never_decreases {K} (lt : K -> K -> Prop) (keys : list K) : Prop :=
  forall i j a b, i < j -> keys !! i = Some a -> keys !! j = Some b -> lt a b \/ a = b.

(** Row [a] is before row [b]: at the first column where they differ, the
    value of [a] is smaller. *)
Definition row_lt (a b : list Z) : Prop :=
  exists p x y s t, a = p ++ x :: s /\ b = p ++ y :: t /\ (x < y)%Z.

(** The key of record [i]: the values of the columns at [i]. *)
Definition is_rows (cols : list (list Z)) (rows : list (list Z)) : Prop :=
  forall i r, rows !! i = Some r -> Forall2 (fun c v => c !! i = Some v) cols r.

(** A partition announces its key as a list of pairs (variable, value). *)
Definition named (names : list str) (parts : list (list Z * (nat * nat)))
  : list (list (str * Z) * (nat * nat)) :=
  map (fun p => (zip names p.1, p.2)) parts.
