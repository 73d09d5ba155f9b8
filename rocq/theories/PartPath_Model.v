(** * Model of the partitioning classes: names, paths, encoding
    (partitioning/abc.py, sequence.py, date.py, registry.py) *)
From Verif Require Import Py Calendar_Model.

(** ** Decimal numbers: Python's [str(int)], [format(int, '02d')], [int(str)] *)

Definition newline : ascii := "010"%char.
Definition is_newline (c : ascii) : bool := bool_decide (c = newline).

Definition digit_char (d : nat) : ascii := ascii_of_nat (48 + d).
Definition digit_val (c : ascii) : option Z :=
  let n := nat_of_ascii c in
  if (48 <=? n) && (n <=? 57) then Some (Z.of_nat (n - 48)) else None.

(** Digits of a non-negative integer, without leading zero. [fuel] bounds the
    number of digits. *)
Fixpoint show_fuel (fuel : nat) (z : Z) : str :=
  match fuel with
  | 0 => []
  | S f => if (z <? 10)%Z then [digit_char (Z.to_nat z)]
           else show_fuel f (z / 10) ++ [digit_char (Z.to_nat (z mod 10))]
  end.
Definition show_nonneg (z : Z) : str := show_fuel (S (Z.to_nat (Z.log2 z))) z.
(** [str(v)], [f'{v}'] *)
Definition show_Z (z : Z) : str :=
  if (z <? 0)%Z then "-"%char :: show_nonneg (- z) else show_nonneg z.
(** [f'{v:02d}'] *)
Definition show_02d (z : Z) : str :=
  if (0 <=? z)%Z && (z <? 10)%Z then digit_char 0 :: show_Z z else show_Z z.

(** [int(s)]. Simplification: the white space and the underscores Python
    tolerates in a number are rejected. *)
Fixpoint digits_val (acc : Z) (s : str) : option Z :=
  match s with
  | [] => Some acc
  | c :: s => match digit_val c with
              | Some d => digits_val (acc * 10 + d)%Z s
              | None => None
              end
  end.
Definition int_of (s : str) : res Z :=
  let unsigned := fun s => match s with
    | [] => Raise ValueError
    | _ => match digits_val 0 s with Some z => Ok z | None => Raise ValueError end
    end in
  match s with
  | c :: s' => if decide (c = "-"%char) then rmap Z.opp (unsigned s')
               else if decide (c = "+"%char) then unsigned s' else unsigned s
  | [] => Raise ValueError
  end.

(** ** The regular expression of a partitioning *)

Fixpoint strip_prefix (p s : str) : option str :=
  match p, s with
  | [], _ => Some s
  | a :: p, b :: s => if decide (a = b) then strip_prefix p s else None
  | _ :: _, [] => None
  end.

(** A greedy group of any characters, followed by [k]: the longest prefix without newline after which [k]
    matches. *)
Fixpoint greedy {R} (k : str -> option R) (s : str) : option (str * R) :=
  let here := match k s with Some r => Some ([], r) | None => None end in
  match s with
  | [] => here
  | c :: s' =>
      match (if is_newline c then None else greedy k s') with
      | Some (v, r) => Some (c :: v, r)
      | None => here
      end
  end.

(** zcollection/partitioning/abc.py:261-263, [_regex], matched at the start of
    [s]: for each key, the key as a group, '=' and a greedy group of any
    characters; these pieces are joined by '.' (any character).  The result is the list
    of the groups, by pairs.  Simplification: the characters of the keys stand
    for themselves (no key contains a character special in a regular
    expression). *)
Fixpoint match_from (ks : list str) (s : str) : option (list (str * str)) :=
  match ks with
  | [] => Some []
  | k :: ks' =>
      match strip_prefix (k ++ lit "=") s with
      | None => None
      | Some s' =>
          match (match ks' with
                 | [] => greedy (fun _ => Some []) s'
                 | _ => greedy (fun t => match t with
                                | [] => None
                                | c :: t' => if is_newline c then None else match_from ks' t'
                                end) s'
                 end) with
          | Some (v, r) => Some ((k, v) :: r)
          | None => None
          end
      end
  end.

(** [re.search]: the leftmost match. *)
Fixpoint search (ks : list str) (s : str) : option (list (str * str)) :=
  match match_from ks s with
  | Some r => Some r
  | None => match s with [] => None | _ :: s' => search ks s' end
  end.

(** ** The partitioning classes *)

(** zcollection/partitioning/date.py:21-37 *)
Definition RESOLUTION : list (str * dres) :=
  [(lit "Y", RY); (lit "M", RM); (lit "D", RD); (lit "h", Rh); (lit "m", Rm); (lit "s", Rs)].
Definition UNITS : list str :=
  [lit "year"; lit "month"; lit "day"; lit "hour"; lit "minute"; lit "second"].
Definition DATE_TYPES : list str :=
  [lit "uint16"; lit "uint8"; lit "uint8"; lit "uint8"; lit "uint8"; lit "uint8"].
Definition SEPARATORS : list (str * ascii) :=
  [(lit "year", "-"%char); (lit "month", "-"%char); (lit "day", "T"%char);
   (lit "hour", ":"%char); (lit "minute", ":"%char); (lit "second", "."%char)].
(** zcollection/partitioning/abc.py:43-44 *)
Definition DATA_TYPES : list str :=
  [lit "int8"; lit "int16"; lit "int32"; lit "int64";
   lit "uint8"; lit "uint16"; lit "uint32"; lit "uint64"].

(** The instances of the two partitioning classes: the attributes [variables]
    and [_dtype] (abc.py:206-247) and, for dates, [resolution]. *)
Inductive partitioning :=
  | Sequence (variables dtype : list str)
  | Date (variables dtype : list str) (resolution : dres).
Global Instance partitioning_eq_dec : EqDecision partitioning.
Proof. solve_decision. Defined.

Definition p_variables (p : partitioning) : list str :=
  match p with Sequence v _ => v | Date v _ _ => v end.
Definition p_dtypes (p : partitioning) : list str :=
  match p with Sequence _ d => d | Date _ d _ => d end.

(** The argument [dtype] of the constructor. *)
Inductive dtype_arg := DNone | DStr (s : str) | DSeq (l : list str).

(** zcollection/partitioning/abc.py:229-247, [Partitioning.__init__]: checks
    and the value of [_dtype]. *)
Definition base_init (variables : list str) (dtype : dtype_arg) : res (list str) :=
  match dtype with
  | DStr _ => Raise TypeError
  | _ =>
      if length variables =? 0 then Raise ValueError else
      let dt := match dtype with
                | DSeq l => l
                | _ => repeat (lit "int64") (length variables)
                end in
      if forallb (fun t => memb t DATA_TYPES) dt then Ok dt else Raise ValueError
  end.
Definition mk_sequence (variables : list str) (dtype : dtype_arg) : res partitioning :=
  do dt <- base_init variables dtype; Ok (Sequence variables dt).

(** zcollection/partitioning/date.py:87-102, [Date.__init__]. *)
Definition mk_date (variables : list str) (resolution : str) : res partitioning :=
  if negb (length variables =? 1) then Raise ValueError else
  match dget RESOLUTION resolution with
  | None => Raise ValueError
  | Some r =>
      let index := dres_index r + 1 in
      do dt <- base_init variables (DSeq (take index DATE_TYPES));
      Ok (Date variables dt r)
  end.

(** zcollection/partitioning/abc.py:257-259 and date.py:104-106, [_keys] *)
Definition p_keys (p : partitioning) : list str :=
  match p with
  | Sequence v _ => v
  | Date _ _ r => take (dres_index r + 1) UNITS
  end.

(** zcollection/partitioning/abc.py:249-251, [__len__] *)
Definition p_len (p : partitioning) : nat := length (p_dtypes p).

(** zcollection/partitioning/abc.py:253-255, [dtype] *)
Definition p_dtype (p : partitioning) : list (str * str) := zip (p_keys p) (p_dtypes p).

(** zcollection/partitioning/abc.py:361-377, [parse] *)
Definition p_parse (p : partitioning) (s : str) : res (list (str * Z)) :=
  match search (p_keys p) s with
  | None => Raise ValueError
  | Some groups => traverse (fun kv => do v <- int_of kv.2; Ok (kv.1, v)) groups
  end.

(** One directory name: [f'{k}={v}'] (abc.py:412) or [f'{k}={v:02d}']
    (date.py:174). *)
Definition p_dir (p : partitioning) (kv : str * Z) : str :=
  match p with
  | Sequence _ _ => kv.1 ++ lit "=" ++ show_Z kv.2
  | Date _ _ _ => kv.1 ++ lit "=" ++ show_02d kv.2
  end.

(** zcollection/partitioning/abc.py:402-412 and date.py:157-174, [join] *)
Definition p_join (p : partitioning) (scheme : list (str * Z)) (s : str) : str :=
  join_with s (map (p_dir p) scheme).

(** zcollection/partitioning/abc.py:282-285, [_partition], for a Sequence. *)
Definition seq_partition (selection : list (str * Z)) : list str :=
  map (fun kv => kv.1 ++ lit "=" ++ show_Z kv.2) selection.

(** zcollection/partitioning/date.py:198-218, [decode], for a date given as a
    count [c] of units [r']: fields of its first second. *)
Definition date_decode (r : dres) (r' : dres) (c : Z) : res (list (str * Z)) :=
  do f <- datetime_fields (unit_start r' c);
  Ok (take (dres_index r + 1) (zip UNITS f)).

(** zcollection/partitioning/date.py:110-119, [_partition], for a date at the
    resolution of the partitioning. *)
Definition date_partition (r : dres) (c : Z) : res (list str) :=
  do f <- datetime_fields (unit_start r c);
  Ok (take (dres_index r + 1)
        (zip_with (fun u v => u ++ lit "=" ++ show_02d v) UNITS f)).

(** zcollection/partitioning/date.py:148-155, [_stringify]; a key that is not
    a unit raises KeyError, an empty partition IndexError. *)
Definition stringify (partition : list (str * Z)) : res str :=
  do parts <- traverse (fun kv => match dget SEPARATORS kv.1 with
                        | Some c => Ok (show_02d kv.2 ++ [c])
                        | None => Raise KeyError end) partition;
  let string := concat parts in
  match last string with
  | None => Raise IndexError
  | Some c => if memb c (map snd SEPARATORS) then Ok (removelast string) else Ok string
  end.

(** numpy.datetime64(s) on the ISO 8601 forms YYYY, YYYY-MM, YYYY-MM-DD,
    YYYY-MM-DDThh, YYYY-MM-DDThh:mm, YYYY-MM-DDThh:mm:ss (library function,
    modelled by its documentation): the unit found and the count. Other forms
    are outside the model and raise ValueError. *)
Definition fixed_digits (n : nat) (s : str) : option (Z * str) :=
  if n <=? length s then
    match digits_val 0 (take n s) with Some z => Some (z, drop n s) | None => None end
  else None.

Definition days_of_month (y m : Z) : Z :=
  (days_from_civil (if m =? 12 then y + 1 else y) (if m =? 12 then 1 else m + 1) 1
   - days_from_civil y m 1)%Z.

Definition field2 (lo hi : Z) (s : str) : res (Z * str) :=
  match fixed_digits 2 s with
  | Some (v, s') => if ((lo <=? v) && (v <=? hi))%Z then Ok (v, s') else Raise ValueError
  | None => Raise ValueError
  end.

Definition after (c : ascii) (s : str) : option str :=
  match s with a :: s' => if decide (a = c) then Some s' else None | [] => None end.

Definition np_datetime64 (s : str) : res (dres * Z) :=
  match fixed_digits 4 s with
  | None => Raise ValueError
  | Some (y, []) => Ok (RY, y - 1970)%Z
  | Some (y, s1) =>
    match after "-"%char s1 with None => Raise ValueError | Some s1 =>
    do ms <- field2 1 12 s1;
    let '(m, s2) := ms in
    match s2 with [] => Ok (RM, (y - 1970) * 12 + (m - 1))%Z | _ =>
    match after "-"%char s2 with None => Raise ValueError | Some s2 =>
    do ds <- field2 1 (days_of_month y m) s2;
    let '(d, s3) := ds in
    let day := days_from_civil y m d in
    match s3 with [] => Ok (RD, day) | _ =>
    match after "T"%char s3 with None => Raise ValueError | Some s3 =>
    do hs <- field2 0 23 s3;
    let '(h, s4) := hs in
    match s4 with [] => Ok (Rh, day * 24 + h)%Z | _ =>
    match after ":"%char s4 with None => Raise ValueError | Some s4 =>
    do mis <- field2 0 59 s4;
    let '(mi, s5) := mis in
    match s5 with [] => Ok (Rm, (day * 24 + h) * 60 + mi)%Z | _ =>
    match after ":"%char s5 with None => Raise ValueError | Some s5 =>
    do ss <- field2 0 59 s5;
    let '(sec, s6) := ss in
    match s6 with [] => Ok (Rs, ((day * 24 + h) * 60 + mi) * 60 + sec)%Z
             | _ => Raise ValueError end
    end end end end end end end end end
  end.

(** zcollection/partitioning/date.py:176-196, [Date.encode] *)
Definition date_encode (partition : list (str * Z)) : res (dres * Z) :=
  do s <- stringify partition; np_datetime64 s.

(** zcollection/partitioning/sequence.py:127-148, [Sequence.encode] *)
Definition seq_encode (p : partitioning) (partition : list (str * Z)) : res (list Z) :=
  do kv <- p_parse p (p_join p partition (lit "/")); Ok (map snd kv).

(** zcollection/partitioning/sequence.py:150-165, [Sequence.decode] *)
Definition seq_decode (p : partitioning) (values : list Z) : list (str * Z) :=
  zip (p_variables p) values.

(** ** Configuration *)

(** The configuration of a partitioning as stored in JSON: the keys 'id',
    'variables', 'resolution' (or any other key, by [c_other]). *)
Record pconfig := PConfig {
  c_id : option str;
  c_variables : option (list str);
  c_resolution : option str;
  c_dtype : option (list str);
}.
Global Instance pconfig_eq_dec : EqDecision pconfig.
Proof. solve_decision. Defined.

Definition resolution_str (r : dres) : str :=
  match r with RY => lit "Y" | RM => lit "M" | RD => lit "D"
             | Rh => lit "h" | Rm => lit "m" | Rs => lit "s" end.

(** zcollection/partitioning/abc.py:336-348, [get_config]: the public slots,
    i.e. [variables] and, for dates, [resolution]. *)
Definition p_get_config (p : partitioning) : pconfig :=
  match p with
  | Sequence v _ => PConfig (Some (lit "Sequence")) (Some v) None None
  | Date v _ r => PConfig (Some (lit "Date")) (Some v) (Some (resolution_str r)) None
  end.

(** The classes registered in zcollection/partitioning/__init__.py. *)
Inductive pclass := CSequence | CDate.
Global Instance pclass_eq_dec : EqDecision pclass.
Proof. solve_decision. Defined.

(** zcollection/partitioning/abc.py:350-359, [from_config]: the class called with the configuration as keyword arguments;
    a missing or unknown argument is a TypeError. *)
Definition p_from_config (cls : pclass) (c : pconfig) : res partitioning :=
  match cls, c_variables c, c_resolution c, c_dtype c with
  | CSequence, Some v, None, None => mk_sequence v DNone
  | CSequence, Some v, None, Some d => mk_sequence v (DSeq d)
  | CDate, Some v, Some r, None => mk_date v r
  | _, _, _, _ => Raise TypeError
  end.

(** zcollection/partitioning/registry.py:16-58: the registry is a dictionary
    from identifiers to classes. *)
Definition registry := list (str * pclass).

(** registry.py:40-58, [register_codec]; [cls_id] is the attribute ID of the
    class. *)
Definition register_codec (reg : registry) (cls : pclass) (cls_id codec_id : option str)
  : res registry :=
  match (match codec_id with None => cls_id | Some i => Some i end) with
  | None => Raise ValueError
  | Some i => if dmem reg i then Raise ValueError else Ok (dset reg i cls)
  end.

(** registry.py:19-37, [get_codecs] *)
Definition get_codecs (reg : registry) (c : pconfig) : res partitioning :=
  match c_id c with
  | None => Raise ValueError
  | Some i => match dget reg i with
              | None => Raise ValueError
              | Some cls => p_from_config cls c
              end
  end.

(** zcollection/partitioning/__init__.py: the registrations at import. *)
Definition default_registry : res registry :=
  do r <- register_codec [] CDate (Some (lit "Date")) None;
  register_codec r CSequence (Some (lit "Sequence")) None.
