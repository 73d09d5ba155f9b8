(** * Model of dask_utils.split_sequence, mathematics.prod and the block
    arithmetic of delayed_array *)
From Verif Require Import Py.

(** zcollection/dask_utils.py:59-84, [split_sequence].
    [sections] is the optional integer argument.  The generator is modelled by
    the list of what it yields; exceptions are raised at its first [next].
    [divmod] by zero is modelled explicitly (empty sequence with [sections]
    given). *)
Definition split_sequence {A} (sequence : list A) (sections : option Z)
  : res (list (list A)) :=
  (* l.71: sections = len(sequence) if sections is None else sections *)
  let sections := match sections with
                  | None => Z.of_nat (length sequence) | Some s => s end in
  (* l.72-73 *)
  if (sections <=? 0)%Z then Raise ValueError else
  let length := length sequence in
  (* l.75 *)
  let sections := Z.to_nat (Z.min sections (Z.of_nat length)) in
  (* l.79: divmod(length, sections) *)
  if sections =? 0 then Raise ZeroDivisionError else
  let size := length / sections in
  let extras := length mod sections in
  (* l.81-83 *)
  let div := accumulate ([0] ++ replicate extras (size + 1)
                             ++ replicate (sections - extras) size) in
  (* l.84: (sequence[item:div[ix + 1]] for ix, item in enumerate(div[:-1])) *)
  Ok (imap (fun ix item => slice item (nth (ix + 1) div 0) sequence)
           (take (List.length div - 1) div)).

(** zcollection/mathematics.py:14-24, [prod]. *)
Definition prod (iterable : list Z) : Z := fold_left Z.mul iterable 1%Z.

(** zcollection/variable/delayed_array.py:32-39, [_blockdims_from_blockshape],
    one dimension.  Python's [//] by zero is modelled. *)
Definition blockdims1 (shape_item chunk_item : nat) : res (list nat) :=
  if shape_item =? 0 then Ok [0] else
  if chunk_item =? 0 then Raise ZeroDivisionError else
  Ok (replicate (shape_item / chunk_item) chunk_item ++
      if shape_item mod chunk_item =? 0 then [] else [shape_item mod chunk_item]).

(** zcollection/variable/delayed_array.py:32-39: the tuple over all
    dimensions; [zip] stops at the shorter operand. *)
Definition blockdims_from_blockshape (shape chunks : list nat)
  : res (list (list nat)) :=
  traverse (fun sc => blockdims1 sc.1 sc.2) (zip shape chunks).

(** A chunk specification of [from_zarr_array]: an integer or an explicit
    tuple of block sizes. *)
Inductive chunk_spec := ChunkInt (n : nat) | ChunkTuple (l : list nat).

(** zcollection/variable/delayed_array.py:66-74, [from_zarr_array]: the
    [normalized_chunks] expression (the rest of the function hands these to
    dask). *)
Definition normalized_chunks (shape : list nat) (chunks : list chunk_spec)
  : res (list (list nat)) :=
  rmap (@mjoin list _ _)
    (traverse (fun sc => match sc.2 with
                         | ChunkInt c => blockdims_from_blockshape [sc.1] [c]
                         | ChunkTuple t => Ok [t]
                         end) (zip shape chunks)).
