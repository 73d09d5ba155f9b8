(** * Specification vocabulary for collections *)
From Verif Require Import Py NdArray_Model Dataset_Model Dataset_Spec Meta_Model Calendar_Model Calendar_Spec PartPath_Model Split_Spec FS_Model Pool_Model Storage_Model Storage_Spec Listing_Model Listing_Spec Listing_Props Collection_Model.

(** The partition key of each record of a dataset: the values of the key
    variables, or the first fields of the date. *)
Definition record_keys (p : partitioning) (ds : dataset) (rows : list (list Z)) : Prop :=
  match p with
  | Sequence names _ =>
      exists cols, is_rows cols rows /\
        Forall2 (fun n col => length col = length rows /\
                   exists v, dget (d_vars ds) n = Some v /\ a_flat (v_array v) = map Num col) names cols
  | Date names _ r =>
      exists n v tps ticks, names = [n] /\ dget (d_vars ds) n = Some v /\ dget DATETIMES (v_dtype v) = Some tps /\
        a_flat (v_array v) = map Num ticks /\
        Forall2 (fun t row => exists y f, has_fields (t / tps) (y :: f) /\ (1 <= y <= 9999)%Z /\
                                row = take (dres_index r + 1) (y :: f)) ticks rows
  end.

(** The directory of the partition [values]. *)
Definition part_dir (c : collection) (values : list Z) : path := c_dir c ++ key_dirs (c_part c) values.

(** A dataset that can be stored, no variable having twice the same dimension. *)
Record sound (ds : dataset) : Prop := { sound_storable : storable ds; sound_dims : no_repeat ds }.

(** [ps] are the positions of the records filed under the key [values]. *)
Definition positions_of (rows : list (list Z)) (values : list Z) (ps : list nat) : Prop :=
  StronglySorted lt ps /\ forall i, i ∈ ps <-> rows !! i = Some values.

(** [piece] is the dataset [ds] reduced to the records at the positions [ps]. *)
Definition reduced (dim : str) (ds : dataset) (ps : list nat) (piece : dataset) : Prop :=
  related (fun _ v v' => same_but_records dim v v' /\ records v' dim = option_map (pick ps) (records v dim)) ds piece.

(** A digest is not empty and written with the sixteen hexadecimal digits. *)
Definition digest (n : str) : Prop := n <> [] /\ forall x, x ∈ n -> x ∈ lit "0123456789abcdef".

(** The merge strategy gives datasets that can be stored. *)
Definition merges_sound (c : collection) (merge : option merge_callable) : Prop :=
  forall f a b r, merge = Some f -> sound a -> sound b -> f a b (c_axis c) (c_dim c) = Ok r -> sound r.

(** What the partition holds after the insertion of [piece]: the piece, or what
    the merge strategy makes of what was there, with the chunks of the piece, and
    of the piece. *)
Definition merged (c : collection) (merge : option merge_callable) (delayed : bool) (old : option dataset) (piece new : dataset) : Prop :=
  match merge, old with
  | Some f, Some o => exists o', reads_as delayed None o o' /\ f (Dataset (d_dims o') (d_vars o') (d_attrs o') (d_chunks piece) (d_block piece) (d_delayed o')) piece (c_axis c) (c_dim c) = Ok new
  | _, _ => new = piece
  end.

(** The variables are declared under their names, with chunks and a block size
    that make sense; the key variables have the dimension of the axis only.
    A collection with variables that do not have this dimension names its axis
    as the dimension. *)
Record declared (c : collection) : Prop := {
  dc_nodup : NoDup (dkeys (md_vars (c_meta c)));
  dc_name : forall n mv, dget (md_vars (c_meta c)) n = Some mv -> mv_name mv = n /\ plain_name n /\ NoDup (mv_dims mv);
  dc_cuts : NoDup (dkeys (md_chunks (c_meta c)));
  dc_limit : md_block (c_meta c) <> 0%Z;
  dc_axis : exists mv, dget (md_vars (c_meta c)) (c_axis c) = Some mv /\ c_dim c ∈ mv_dims mv;
  dc_keys : forall n, n ∈ p_variables (c_part c) -> exists mv, dget (md_vars (c_meta c)) n = Some mv /\ mv_dims mv = [c_dim c];
  dc_fixed : c_immutable c = true <-> exists n mv, dget (md_vars (c_meta c)) n = Some mv /\ c_dim c ∉ mv_dims mv;
  dc_same : c_immutable c = true -> c_axis c = c_dim c;
}.
(** The variables of the dataset have the declared dimensions. *)
Definition conforms (c : collection) (ds : dataset) : Prop :=
  forall n v, dget (d_vars ds) n = Some v -> exists mv, dget (md_vars (c_meta c)) n = Some mv /\ v_dims v = mv_dims mv.

(** The variable [mv] filled with its fill value, in a dataset with these
    dimensions. *)
Definition filled (ds : dataset) (mv : mvar) (v : variable) : Prop :=
  exists f, mv_fill mv = Some f /\ arr_wf (v_array v) /\ Forall (fun x => x = f) (a_flat (v_array v)) /\
    Forall2 (fun d n => dget (d_dims ds) d = Some n) (mv_dims mv) (v_shape v) /\
    v = Var (mv_name mv) (d_delayed ds) (v_array v) (mv_dtype mv) (mv_dims mv) [] (mv_compressor mv) (mv_fill mv) (mv_filters mv).
(** [out] is what is stored of [ds]: the declared variables that satisfy [P],
    without attributes; those that [ds] does not have are filled. *)
Record fitted (c : collection) (P : mvar -> Prop) (ds out : dataset) : Prop := {
  ft_names : forall n, n ∈ dkeys (d_vars out) <-> exists mv, dget (md_vars (c_meta c)) n = Some mv /\ P mv;
  ft_given : forall n v v', dget (d_vars ds) n = Some v -> dget (d_vars out) n = Some v' -> v' = with_attrs v [];
  ft_missing : forall n mv v', dget (d_vars ds) n = None -> dget (md_vars (c_meta c)) n = Some mv ->
    dget (d_vars out) n = Some v' -> filled ds mv v';
  ft_attrs : d_attrs out = [];
  ft_chunks : d_chunks out = md_chunks (c_meta c);
  ft_block : d_block out = md_block (c_meta c);
  ft_delayed : d_delayed out = d_delayed ds;
}.

(** The variables that have, or do not have, the dimension of the axis. *)
Definition moving (c : collection) (mv : mvar) : Prop := c_dim c ∈ mv_dims mv.
Definition fixed (c : collection) (mv : mvar) : Prop := c_dim c ∉ mv_dims mv.

(** The dataset [ds], whose records have the keys [rows], can be given to the
    insertion: it can be stored, its variables have the declared dimensions,
    its records are sorted or it is lazy (then the insertion checks them), and
    the temporary directories of its partitions differ. *)
Record insertable (e : env) (c : collection) (ds : dataset) (rows : list (list Z)) (merge : option merge_callable) : Prop := {
  in_sound : sound ds;
  in_conforms : conforms c ds;
  in_keys : record_keys (c_part c) ds rows;
  in_size : (Z.of_nat (length rows) < 2 ^ 63)%Z;
  in_sorted : d_delayed ds = true \/ never_decreases row_lt rows;
  in_merge : merges_sound c merge;
  in_digests : forall v v', v ∈ rows -> v' ∈ rows -> e_hash e (part_dir c v) = e_hash e (part_dir c v') -> v = v';
}.

(** The contents of the partition [values] go from [old] to [new]: the records
    of [part] with this key replace it, or are merged with it. *)
Definition replaced (c : collection) (merge : option merge_callable) (delayed : bool) (rows : list (list Z)) (part : dataset)
    (values : list Z) (old : option dataset) (new : dataset) : Prop :=
  exists ps piece, positions_of rows values ps /\ sound piece /\ reduced (c_dim c) part ps piece /\ merged c merge delayed old piece new.
(** The insertion of [ds] takes the partitions [M] to [M']. *)
Definition inserted (c : collection) (ds : dataset) (rows : list (list Z)) (merge : option merge_callable)
    (M M' : list Z -> option dataset) : Prop :=
  exists part, fitted c (moving c) ds part /\ forall values,
    (values ∈ rows -> exists new, M' values = Some new /\ replaced c merge (d_delayed ds) rows part values (M values) new) /\
    (values ∉ rows -> M' values = M values).
(** An insertion that fails takes some of the partitions there. *)
Definition inserted_in_part (c : collection) (ds : dataset) (rows : list (list Z)) (merge : option merge_callable)
    (M M' : list Z -> option dataset) : Prop :=
  forall values, M' values = M values \/
    (values ∈ rows /\ exists part new, fitted c (moving c) ds part /\ M' values = Some new /\
       replaced c merge (d_delayed ds) rows part values (M values) new).
(** The variables that do not have the dimension of the axis are written by the
    first insertion. *)
Definition kept (c : collection) (ds : dataset) (I I' : option dataset) : Prop :=
  match I with
  | Some i => I' = Some i
  | None => if c_immutable c then exists i, I' = Some i /\ fitted c (fixed c) ds i else I' = None
  end.

(** What the filter [f] says of the partition [values]: [P]. *)
Definition says (p : partitioning) (f : filter) (values : list Z) (P : Prop) : Prop :=
  match f with
  | NoFilter => P
  | FExpr x => means (keys_of p values) x P
  | FFun g => exists b, g (zip (p_keys p) values) = Ok b /\ (b = true <-> P)
  end.
(** The filters can be used: see C07. *)
Definition filterable (c : collection) : Prop := base_apart (c_part c) (c_dir c) /\ lit "range" ∉ p_keys (c_part c).

(** What a user sees of the partitions: those listed, in the order of the keys,
    and what is read in each. *)
Record shows (e : env) (c : collection) (M : list Z -> option dataset) (s : store) : Prop := {
  sh_listed : exists keys, exec (select_parts e c NoFilter) s = (Ok (map (part_dir c) keys), s) /\
    StronglySorted row_lt keys /\ forall values, values ∈ keys <-> is_Some (M values);
  sh_read : forall values ds delayed selected, M values = Some ds ->
    exists ds', exec (open_zarr_group (part_dir c values) delayed selected) s = (Ok ds', s) /\ reads_as delayed selected ds ds';
}.

(** The datasets have the same variables with the same dimensions and, except
    along [dim], the same sizes. *)
Definition same_layout (dim : str) (a b : dataset) : Prop :=
  (forall n, n ∈ dkeys (d_vars a) <-> n ∈ dkeys (d_vars b)) /\
  (forall n v w, dget (d_vars a) n = Some v -> dget (d_vars b) n = Some w ->
     v_dims w = v_dims v /\ length (v_shape w) = length (v_shape v) /\
     forall k, v_dims v !! k <> Some dim -> v_shape w !! k = v_shape v !! k).
(** The variables of the datasets are different and agree on the size of the
    dimensions. *)
Definition disjoint (a b : dataset) : Prop :=
  forall n v n' v', dget (d_vars a) n = Some v -> dget (d_vars b) n' = Some v' ->
    n <> n' /\ forall k k' d, v_dims v !! k = Some d -> v_dims v' !! k' = Some d -> v_shape v !! k = v_shape v' !! k'.

(** The variable as a user gets it: the attributes are those declared. *)
Definition delivered (c : collection) (delayed : bool) (n : str) (v v' : variable) : Prop :=
  exists mv, dget (md_vars (c_meta c)) n = Some mv /\ v' = with_attrs (with_delayed v delayed) (mv_attrs mv).
(** [out] gathers the datasets [parts], in this order, and the dataset [imm]:
    the records of each variable of the parts follow each other. *)
Record gathered (c : collection) (delayed : bool) (selected : option (list str)) (parts : list dataset) (imm : option dataset)
    (out : dataset) : Prop := {
  ga_names : forall n, n ∈ dkeys (d_vars out) <-> wanted selected n /\
    ((exists p, p ∈ parts /\ n ∈ dkeys (d_vars p)) \/ exists i, imm = Some i /\ n ∈ dkeys (d_vars i));
  ga_moving : forall n v' p v, dget (d_vars out) n = Some v' -> head parts = Some p -> dget (d_vars p) n = Some v ->
    exists w rss, delivered c delayed n v w /\ same_but_records (c_dim c) w v' /\
      (c_dim c ∈ v_dims v -> records_in (c_dim c) n parts rss /\ records v' (c_dim c) = Some (mjoin rss));
  ga_fixed : forall n v' i v, dget (d_vars out) n = Some v' -> imm = Some i -> dget (d_vars i) n = Some v -> delivered c delayed n v v';
  ga_attrs : d_attrs out = md_attrs (c_meta c);
  ga_delayed : d_delayed out = delayed;
  ga_proper : proper out;
}.

(** The partitions can be put together: they have the same layout, and differ
    from the variables that do not have the dimension of the axis, which are
    there if the collection declares some. *)
Record uniform (c : collection) (M : list Z -> option dataset) (I : option dataset) : Prop := {
  un_layout : forall v v' a b, M v = Some a -> M v' = Some b -> same_layout (c_dim c) a b;
  un_declared : forall v a n, M v = Some a -> n ∈ dkeys (d_vars a) -> n ∈ dkeys (md_vars (c_meta c));
  un_immutable : c_immutable c = true -> (exists v, is_Some (M v)) -> is_Some I;
  un_fixed : forall v a i, M v = Some a -> I = Some i -> disjoint a i;
  un_fixed_dims : forall i n v, I = Some i -> dget (d_vars i) n = Some v -> c_dim c ∉ v_dims v;
  un_fixed_declared : forall i n, I = Some i -> n ∈ dkeys (d_vars i) -> n ∈ dkeys (md_vars (c_meta c));
}.

(** The variable [v] of an inserted dataset: given, or filled. *)
Definition supplied (c : collection) (ds : dataset) (n : str) (v : variable) : Prop :=
  dget (d_vars ds) n = Some v \/
  (dget (d_vars ds) n = None /\ exists mv, dget (md_vars (c_meta c)) n = Some mv /\ filled ds mv v).
(** [out] is the dataset [ds] reduced to the records at the positions [ps], with
    the declared variables that are selected and the declared attributes. *)
Record restored (c : collection) (delayed : bool) (selected : option (list str)) (ps : list nat) (ds out : dataset) : Prop := {
  rs_names : forall n, n ∈ dkeys (d_vars out) <-> wanted selected n /\ n ∈ dkeys (md_vars (c_meta c));
  rs_vars : forall n v', dget (d_vars out) n = Some v' -> exists v w, supplied c ds n v /\ delivered c delayed n v w /\
    same_but_records (c_dim c) w v' /\ records v' (c_dim c) = option_map (pick ps) (records v (c_dim c));
  rs_attrs : d_attrs out = md_attrs (c_meta c);
  rs_delayed : d_delayed out = delayed;
  rs_proper : proper out;
}.

(** The dtypes have a common integer type (there is none for uint64 and a
    signed integer). *)
Definition SIGNED : list str := [lit "int8"; lit "int16"; lit "int32"; lit "int64"].
Definition UNSIGNED : list str := [lit "uint8"; lit "uint16"; lit "uint32"; lit "uint64"].
Definition integers (dtypes : list str) : Prop :=
  Forall (fun t => t ∈ SIGNED \/ t ∈ UNSIGNED) dtypes /\ ~ (lit "uint64" ∈ dtypes /\ exists t, t ∈ dtypes /\ t ∈ SIGNED).

(** What an insertion needs to be accepted: the collection is writable, the
    dataset has records, sorted by key, the key variables of a partitioning by
    values are integers, the variables that are missing have a fill value and
    known dimensions. *)
Record accepted (c : collection) (ds : dataset) (rows : list (list Z)) (npartitions : option Z) (validate : bool) : Prop := {
  ac_writable : c_readonly c = false;
  ac_some : rows <> [];
  ac_sorted : never_decreases row_lt rows;
  ac_integers : match c_part c with
                | Sequence names _ => forall vs, Forall2 (fun n v => dget (d_vars ds) n = Some v) names vs -> integers (map v_dtype vs)
                | Date _ _ _ => True
                end;
  ac_filled : forall n mv, dget (md_vars (c_meta c)) n = Some mv -> n ∉ dkeys (d_vars ds) ->
    is_Some (mv_fill mv) /\ forall d, d ∈ mv_dims mv -> is_Some (dget (d_dims ds) d);
  ac_count : forall k, npartitions = Some k -> (1 <= k)%Z;
  ac_valid : validate = true -> md_eq (ds_metadata ds) (c_meta c) = true /\ forall n, n ∈ dkeys (md_vars (c_meta c)) -> n ∈ dkeys (d_vars ds);
}.

(** ** Histories *)

(** A call of the user: an insertion (of a dataset whose records have the keys
    [rows]) or the removal of partitions. The schedules tell in which order the
    file operations of the workers happen. *)
Inductive call :=
  | Insert (ds : dataset) (rows : list (list Z)) (merge : option merge_callable) (npartitions : option Z) (validate : bool)
           (scheds : nat -> schedule) (inner : path -> schedule)
  | Drop (f : filter) (older : option (path -> bool)) (sched : schedule).
Definition run_call (e : env) (c : collection) (x : call) : program (list path) :=
  match x with
  | Insert ds _ merge np validate scheds inner => insert e scheds inner c ds merge np validate
  | Drop f older sched => drop_partitions e sched c f older
  end.
(** The results of the calls of a history, and the files at the end. *)
Fixpoint run_calls (e : env) (c : collection) (h : list call) (s : store) : list (res (list path)) * store :=
  match h with
  | [] => ([], s)
  | x :: h => let '(r, s) := exec (run_call e c x) s in let '(rs, s) := run_calls e c h s in (r :: rs, s)
  end.
Definition allowed (e : env) (c : collection) (x : call) : Prop :=
  match x with Insert ds rows merge _ _ _ _ => insertable e c ds rows merge | Drop _ _ _ => True end.

(** The partitions [vs] are removed. *)
Definition removed (vs : list (list Z)) (M M' : list Z -> option dataset) : Prop :=
  forall v, (v ∈ vs -> M' v = None) /\ (v ∉ vs -> M' v = M v).
(** What a call does to the partitions [M], given its result. *)
Definition effect (c : collection) (x : call) (r : res (list path)) (M M' : list Z -> option dataset) : Prop :=
  match x, r with
  | Insert ds rows merge _ _ _ _, Ok _ => inserted c ds rows merge M M'
  | Insert ds rows merge _ _ _ _, Raise _ => inserted_in_part c ds rows merge M M'
  | Drop f older _, Ok dirs => exists vs, dirs = map (part_dir c) vs /\ (forall v, v ∈ vs -> is_Some (M v) /\ length v = length (p_keys (c_part c))) /\ removed vs M M' /\
      (filterable c -> forall P, (forall v, is_Some (M v) -> says (c_part c) f v (P v)) ->
         forall v, v ∈ vs <-> is_Some (M v) /\ P v /\ match older with None => True | Some o => o (part_dir c v) = true end)
  | Drop _ _ _, Raise _ => forall v, M' v = M v
  end.
(** The effects of the calls, one after the other. *)
Inductive explains (c : collection) : list call -> list (res (list path)) -> (list Z -> option dataset) -> (list Z -> option dataset) -> Prop :=
  | explains_nil M : explains c [] [] M M
  | explains_cons x h r rs M M1 M' : effect c x r M M1 -> explains c h rs M1 M' -> explains c (x :: h) (r :: rs) M M'.
(** The call may change the partition [v]. *)
Definition touches (c : collection) (x : call) (r : res (list path)) (v : list Z) : Prop :=
  match x with
  | Insert _ rows _ _ _ _ _ => v ∈ rows
  | Drop _ _ _ => exists dirs, r = Ok dirs /\ part_dir c v ∈ dirs
  end.
(** The same calls, with other schedules. *)
Definition same_call (x y : call) : Prop :=
  match x, y with
  | Insert ds rows m np va _ _, Insert ds' rows' m' np' va' _ _ => ds' = ds /\ rows' = rows /\ m' = m /\ np' = np /\ va' = va
  | Drop f o _, Drop f' o' _ => f' = f /\ o' = o
  | _, _ => False
  end.

(** ** Creation *)

(** The dataset given to create a collection: the key variables have one
    dimension, that of the axis; if a variable does not have this dimension,
    the axis bears its name. *)
Record creatable (axis : str) (ds : dataset) (p : partitioning) : Prop := {
  cr_sound : sound ds;
  cr_keys : forall n v a, n ∈ p_variables p -> dget (d_vars ds) n = Some v -> dget (d_vars ds) axis = Some a -> exists d, v_dims v = [d] /\ head (v_dims a) = Some d;
  cr_axis : forall n v a d, dget (d_vars ds) n = Some v -> dget (d_vars ds) axis = Some a -> head (v_dims a) = Some d -> d ∉ v_dims v -> axis = d;
}.
