(** * Vocabulary for the properties of the index (C32, C33, C34) *)
From Verif Require Import Py Dataset_Model Split_Spec Collection_Spec Index_Model.

(** The row [r] is about the partition (or, more generally, has the values) [k]. *)
Definition about (k : scheme) (r : row) : Prop := Forall (fun nv => dget r nv.1 = Some nv.2) k.
Global Instance about_dec k r : Decision (about k r).
Proof. unfold about. apply _. Defined.
(** The row [r] designates the records from [a] to [b], [b] excluded. *)
Definition ranges (r : row) (a b : Z) : Prop := dget r (lit "start") = Some a /\ dget r (lit "stop") = Some b.

(** All the rows have the columns of the table, which are distinct. *)
Definition complete (t : table) : Prop := NoDup (t_names t) /\ forall r, r ∈ t_rows t -> dkeys r = t_names t.
(** An index: a complete table that has the columns of the ranges, and a column
    for each key of the partitioning. *)
Record indexed (ix : index) (t : table) : Prop := {
  ixd_complete : complete t;
  ixd_start : lit "start" ∈ t_names t;
  ixd_stop : lit "stop" ∈ t_names t;
  ixd_keys : ix_keys ix <> [] /\ NoDup (ix_keys ix) /\ forall n, n ∈ ix_keys ix -> n ∈ t_names t /\ n <> lit "start" /\ n <> lit "stop";
  ixd_types : forall n, n ∈ t_names t -> n ∈ ix_types ix;
}.

(** The row has one of the values that the condition allows. *)
Definition meets (r : row) (c : str * list Z) : Prop := exists v, dget r c.1 = Some v /\ v ∈ c.2.
(** How the conditions are put together: all of them; one of them; the first one
    and none of the others; an odd number of them. *)
Inductive odd_of {A} (P : A -> Prop) : list A -> Prop :=
| odd_yes x l : P x -> even_of P l -> odd_of P (x :: l)
| odd_no x l : ~ P x -> odd_of P l -> odd_of P (x :: l)
with even_of {A} (P : A -> Prop) : list A -> Prop :=
| even_none : even_of P []
| even_yes x l : P x -> odd_of P l -> even_of P (x :: l)
| even_no x l : ~ P x -> even_of P l -> even_of P (x :: l).
Definition chosen (op : str) (columns : list (str * list Z)) (r : row) : Prop :=
  columns = [] \/
  (op = lit "and" /\ Forall (meets r) columns) \/
  (op = lit "or" /\ Exists (meets r) columns) \/
  (op = lit "and_not" /\ exists c l, columns = c :: l /\ meets r c /\ Forall (fun c => ~ meets r c) l) \/
  (op = lit "xor" /\ odd_of (meets r) columns).

(** The rows that a query selects. *)
Definition picked (t : table) (columns : list (str * list Z)) (op : option str) (mask : option (list bool)) (r : row) : Prop :=
  exists i, t_rows t !! i = Some r /\ (forall m, mask = Some m -> m !! i = Some true) /\
    chosen (match op with None | Some [] => lit "and" | Some o => o end) columns r.

(** The names of the values that go with the slices of a query. *)
Definition labels (ix : index) (t : table) (only_keys : bool) (names : list str) : Prop :=
  if only_keys then names = ix_keys ix
  else names `sublist_of` t_names t /\ forall n, n ∈ names <-> n ∈ t_names t /\ n <> lit "start" /\ n <> lit "stop".
(** Among these rows, no range with the same values [k] contains another one:
    the one that begins first also ends first. *)
Definition unnested (names : list str) (P : row -> Prop) : Prop :=
  forall r r' k a b a' b', k.*1 = names -> P r -> P r' -> about k r -> about k r' -> ranges r a b -> ranges r' a' b' -> (a < a')%Z -> (b <= b')%Z.

(** The record [i] of [k] is in one of the slices. *)
Definition covered (out : list (scheme * (Z * Z))) (k : scheme) (i : Z) : Prop := exists a b, (k, (a, b)) ∈ out /\ (a <= i < b)%Z.
(** The record [i] of [k] is in the range of one of the rows. *)
Definition designated (P : row -> Prop) (k : scheme) (i : Z) : Prop := exists r a b, P r /\ about k r /\ ranges r a b /\ (a <= i < b)%Z.

(** The slices are in the order of the keys and, in a partition, in the order of
    the records, with unselected records between them. *)
Definition in_order (out : list (scheme * (Z * Z))) : Prop :=
  forall i j k a b k' a' b', i < j -> out !! i = Some (k, (a, b)) -> out !! j = Some (k', (a', b')) ->
    row_lt k.*2 k'.*2 \/ (k = k' /\ (b < a')%Z).

(** The row of the item [item] of an array with these fields, in the partition [k]. *)
Definition describes (k : scheme) (fields : list str) (item : list Z) (r : row) : Prop :=
  about k r /\ Forall2 (fun n v => dget r n = Some v) fields item.
(** The rows of the file that are about [k], in their order. *)
Definition rows_about (file : option table) (k : scheme) : list row :=
  match file with None => [] | Some t => base.filter (about k) (t_rows t) end.
(** An array that can be put in an index with the columns [names]. *)
Definition array_for (ix : index) (names : list str) (a : struct) : Prop :=
  s_fields a ++ ix_keys ix = names /\ forall i, i ∈ s_items a -> length i = length (s_fields a).

(** The part [piece] of the dataset [ds]: its records from [a] to [b], [b]
    excluded. *)
Definition extracts (dim : str) (ds : dataset) (slice : Z * Z) (piece : dataset) : Prop :=
  exists n, dget (d_dims ds) dim = Some n /\
    reduced dim ds (base.filter (fun i => (slice.1 <= Z.of_nat i < slice.2)%Z) (seq 0 n)) piece.
(** The slices that an indexer gives for [k], in its order. *)
Definition slices_for (indexer : list (scheme * (Z * Z))) (k : scheme) : list (Z * Z) :=
  map snd (base.filter (fun i => i.1 = k) indexer).
