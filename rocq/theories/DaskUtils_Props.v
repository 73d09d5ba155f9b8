(** * Properties C08 (split_sequence) and C44 (blocks of a stored array) *)
From Verif Require Import Py DaskUtils_Model DaskUtils_Proofs.

(** C08. [pieces] is a fair cut of [l] in [k] pieces: nothing is lost,
    repeated or reordered, no piece is empty, and the sizes differ by at most
    one with the larger pieces first. *)
Definition fair_cut {A} (l : list A) (k : nat) (pieces : list (list A)) : Prop :=
  concat pieces = l /\ length pieces = k /\ Forall (fun p => p <> []) pieces /\
  (forall i j p q, i < j -> pieces !! i = Some p -> pieces !! j = Some q ->
     length q <= length p <= length q + 1).

(** Splitting in [n] > 0 sections a non-empty sequence succeeds and is a fair
    cut in [min n (length l)] pieces. *)
Theorem C08_split_sequence {A} (l : list A) (n : Z) :
  l <> [] -> (0 < n)%Z ->
  exists pieces, split_sequence l (Some n) = Ok pieces /\
    fair_cut l (Z.to_nat (Z.min n (Z.of_nat (length l)))) pieces.
Proof. exact (split_sequence_fair l n). Qed.
Print Assumptions C08_split_sequence.

(** Without a number of sections: one piece per item. *)
Theorem C08_split_sequence_default {A} (l : list A) :
  l <> [] -> split_sequence l None = Ok (map (fun x => [x]) l).
Proof. exact (split_sequence_default l). Qed.
Print Assumptions C08_split_sequence_default.

(** A non-positive number of sections is a ValueError. *)
Theorem C08_split_sequence_error {A} (l : list A) (n : Z) :
  split_sequence l (Some n) = Raise ValueError <-> (n <= 0)%Z.
Proof. exact (split_sequence_error l n). Qed.
Print Assumptions C08_split_sequence_error.

(** The last clause of C08 (an empty sequence yields no piece) is false: the
    code divides by zero, or rejects the default number of sections. *)
Theorem C08_split_sequence_empty_refuted :
  split_sequence (@nil nat) (Some 4%Z) = Raise ZeroDivisionError /\
  split_sequence (@nil nat) None = Raise ValueError /\
  (forall A n, (0 < n)%Z -> split_sequence (@nil A) (Some n) = Raise ZeroDivisionError).
Proof. exact split_sequence_empty. Qed.
Print Assumptions C08_split_sequence_empty_refuted.

Example C08_example :
  split_sequence [1;2;3;4;5;6;7;8;9;10] (Some 4%Z)
  = Ok [[1;2;3];[4;5;6];[7;8];[9;10]] /\
  [1;2;3;4;5;6;7;8;9;10] <> [] /\ (0 < 4)%Z.
Proof. split_and!; done. Qed.

(** C44. Along a dimension of size [s] stored by chunks of [c], the blocks
    tile the dimension: they add up to [s], are positive and at most [c], and
    all but the last are full. An empty dimension has a single empty block. *)
Theorem C44_blocks (s c : nat) :
  0 < c ->
  exists bs, blockdims1 s c = Ok bs /\ sum_list bs = s /\
    (s = 0 -> bs = [0]) /\
    (s <> 0 -> Forall (fun b => 0 < b <= c) bs) /\
    (forall i, S i < length bs -> bs !! i = Some c).
Proof. exact (blockdims1_correct s c). Qed.
Print Assumptions C44_blocks.

(** All dimensions together, as passed to dask: one list of blocks per
    dimension, each adding up to the size of the dimension. *)
Theorem C44_blocks_all (shape chunks : list nat) :
  length shape = length chunks -> Forall (fun c => 0 < c) chunks ->
  exists bss, normalized_chunks shape (map ChunkInt chunks) = Ok bss /\
    map sum_list bss = shape /\
    Forall2 (fun c bs => Forall (fun b => b <= c) bs) chunks bss.
Proof. exact (normalized_chunks_correct shape chunks). Qed.
Print Assumptions C44_blocks_all.

(** Explicit block tuples are used as they are. *)
Theorem C44_blocks_explicit (shape : list nat) (tuples : list (list nat)) :
  length shape = length tuples ->
  normalized_chunks shape (map ChunkTuple tuples) = Ok tuples.
Proof. exact (normalized_chunks_explicit shape tuples). Qed.
Print Assumptions C44_blocks_explicit.

Example C44_example :
  normalized_chunks [10; 0; 4] [ChunkInt 4; ChunkInt 3; ChunkTuple [1;3]]
  = Ok [[4;4;2]; [0]; [1;3]].
Proof. done. Qed.

(** The number of elements of a shape is the product of its sizes (prod). *)
Theorem C44_prod (l1 l2 : list Z) :
  prod [] = 1%Z /\ prod (l1 ++ l2) = (prod l1 * prod l2)%Z /\
  (forall x, prod [x] = x).
Proof. exact (prod_spec l1 l2). Qed.
Print Assumptions C44_prod.
