(** * Properties C03, C04, C05, C18 (partitions, paths, dates, configuration)
    and the part of C46 about partitionings *)
From Verif Require Import Py Calendar_Model Calendar_Spec Calendar_Proofs Calendar_Fields.
From Verif Require Import PartPath_Model PartPath_Numbers PartPath_Proofs PartPath_Dates.

(** No character '=' in a string. *)
Definition no_eq (s : str) : Prop := "="%char ∉ s.

Lemma no_eq_Forall s : no_eq s <-> Forall (fun c => c <> eqc) s.
Proof.
  unfold no_eq. rewrite Forall_forall. split.
  - intros H c Hc ->. done.
  - intros H Hc. by apply (H "="%char).
Qed.

(** ** C03. For any partitioning whose keys contain no '=', any root without
    '=' and any integer values, parsing the path of the partition gives back
    the keys and the values. *)
Theorem C03_parse_join (p : partitioning) (root : str) (values : list Z) :
  p_keys p <> [] -> Forall no_eq (p_keys p) -> no_eq root ->
  length values = length (p_keys p) ->
  p_parse p (root ++ p_join p (zip (p_keys p) values) (lit "/")) = Ok (zip (p_keys p) values).
Proof.
  intros Hne Hk Hr Hl. apply parse_join; try done.
  - eapply Forall_impl; [exact Hk|]. intros s Hs. by apply no_eq_Forall.
  - by apply no_eq_Forall.
Qed.
Print Assumptions C03_parse_join.

(** The keys of a Date partitioning always qualify. *)
Theorem C03_date_keys (v d : list str) (r : dres) :
  p_keys (Date v d r) <> [] /\ Forall no_eq (p_keys (Date v d r)).
Proof.
  destruct (date_keys_good v d r) as [H1 H2]. split; [done|].
  eapply Forall_impl; [exact H2|]. intros s Hs. by apply no_eq_Forall.
Qed.
Print Assumptions C03_date_keys.

(** Two different keys never share a directory. *)
Theorem C03_join_injective (p : partitioning) (v1 v2 : list Z) :
  p_keys p <> [] -> Forall no_eq (p_keys p) ->
  length v1 = length (p_keys p) -> length v2 = length (p_keys p) ->
  p_join p (zip (p_keys p) v1) (lit "/") = p_join p (zip (p_keys p) v2) (lit "/") -> v1 = v2.
Proof.
  intros Hne Hk H1 H2 E.
  pose proof (C03_parse_join p [] v1 Hne Hk (not_elem_of_nil _) H1) as P1.
  pose proof (C03_parse_join p [] v2 Hne Hk (not_elem_of_nil _) H2) as P2.
  rewrite E, P2 in P1. injection P1 as P1.
  apply (f_equal (fmap snd)) in P1. by rewrite !snd_zip in P1 by lia.
Qed.
Print Assumptions C03_join_injective.

(** The directories created for a partition announced by the splitting are
    those of join. *)
Theorem C03_split_paths (v d : list str) (scheme : list (str * Z)) :
  join_with (lit "/") (seq_partition scheme) = p_join (Sequence v d) scheme (lit "/").
Proof. done. Qed.
Print Assumptions C03_split_paths.

(** Whatever string is parsed successfully, the keys are those of the
    partitioning and each value is written in the string after its key and
    '=', in order. *)
Theorem C03_parse_sound (p : partitioning) (s : str) (l : list (str * Z)) :
  p_keys p <> [] -> p_parse p s = Ok l ->
  map fst l = p_keys p /\
  exists texts pre seps post,
    Forall2 (fun t (kv : str * Z) => t.1 = kv.1 /\ int_of t.2 = Ok kv.2) texts l /\
    length seps = length l - 1 /\ s = pre ++ shape texts seps ++ post.
Proof. exact (parse_sound p s l). Qed.
Print Assumptions C03_parse_sound.

(** The hypothesis on the root is necessary: below a root that itself contains
    'a=', no partition of a collection partitioned by 'a' can be parsed. *)
Theorem C03_root_refuted :
  let p := Sequence [lit "a"] [lit "int64"] in
  p_parse p (lit "/data/a=5/collection/" ++ p_join p [(lit "a", 1%Z)] (lit "/")) = Raise ValueError /\
  forall v, length v > 0 -> Forall is_digit v ->
    p_parse p (lit "/data/a=5/collection/a=" ++ v) = Raise ValueError.
Proof.
  cbn zeta. split; [vm_compute; reflexivity|].
  intros v Hv Hd. unfold p_parse.
  assert (Hs : search (p_keys (Sequence [lit "a"] [lit "int64"])) (lit "/data/a=5/collection/a=" ++ v)
     = Some [(lit "a", lit "5/collection/a=" ++ v)]).
  { cbn [p_keys]. apply (search_found _ _ 6).
    - rewrite app_length. cbn. lia.
    - change (drop 6 (lit "/data/a=5/collection/a=" ++ v)) with (lit "a=" ++ (lit "5/collection/a=" ++ v)).
      cbn [match_from].
      rewrite (proj2 (strip_prefix_spec (lit "a" ++ lit "=") _ (lit "5/collection/a=" ++ v))) by done.
      rewrite greedy_last; [done|]. apply Forall_app. split; [repeat constructor; discriminate|].
      eapply Forall_impl; [exact Hd|]. intros c Hc. apply digit_neq in Hc. tauto.
    - intros m' Hm'. do 6 (destruct m' as [|m']; [reflexivity|]). lia. }
  rewrite Hs. cbn [traverse]. reflexivity.
Qed.
Print Assumptions C03_root_refuted.

Example C03_example :
  p_parse (Date [lit "time"] [] RD)
    (lit "/data/collection/" ++ p_join (Date [lit "time"] [] RD)
      (zip (p_keys (Date [lit "time"] [] RD)) [2000; 1; 5]%Z) (lit "/"))
  = Ok [(lit "year", 2000%Z); (lit "month", 1%Z); (lit "day", 5%Z)] /\
  p_join (Date [lit "time"] [] RD)
      (zip (p_keys (Date [lit "time"] [] RD)) [2000; 1; 5]%Z) (lit "/") = lit "year=2000/month=01/day=05" /\
  no_eq (lit "/data/collection/").
Proof. split_and!; try (vm_compute; reflexivity). apply no_eq_Forall. repeat constructor; discriminate. Qed.

(** ** C04, Sequence *)
Theorem C04_sequence (v d : list str) (values : list Z) :
  v <> [] -> Forall no_eq v -> length values = length v ->
  seq_encode (Sequence v d) (zip v values) = Ok values /\
  seq_decode (Sequence v d) values = zip v values.
Proof.
  intros Hne Hk Hl. split; [|done]. unfold seq_encode.
  pose proof (C03_parse_join (Sequence v d) [] values Hne Hk (not_elem_of_nil _) Hl) as H.
  cbn [app p_keys] in H. rewrite H. cbn [rbind]. f_equal.
  change (map snd (zip v values)) with (snd <$> zip v values). apply snd_zip. lia.
Qed.
Print Assumptions C04_sequence.

(** ** C04, Date. An instant [secs] (seconds since 1970) with fields
    year, month, day, ... of year 1000 to 9999: encoding its leading fields
    gives the unit that contains it, and decoding this unit gives the fields
    back. *)
Theorem C04_date (r : dres) (secs y : Z) (f : list Z) :
  has_fields secs (y :: f) -> (1000 <= y <= 9999)%Z ->
  let keys := take (dres_index r + 1) (zip UNITS (y :: f)) in
  date_encode keys = Ok (r, trunc_seconds r secs) /\
  date_decode r r (trunc_seconds r secs) = Ok keys.
Proof.
  intros Hf Hy. split.
  - pose proof Hf as (y' & m & d & h & mi & s & [= -> ->] & _). by apply date_encode_spec.
  - apply date_decode_spec; [done|lia].
Qed.
Print Assumptions C04_date.

(** Decoding then encoding any unit of a year 1000 to 9999 gives it back. *)
Theorem C04_date_decode_encode (r : dres) (c : Z) (keys : list (str * Z)) :
  date_decode r r c = Ok keys ->
  (exists y k, keys = (lit "year", y) :: k /\ (1000 <= y)%Z) ->
  date_encode keys = Ok (r, c).
Proof.
  intros Hd (y & k & Ek & Hy).
  destruct (has_fields_total (unit_start r c)) as [f Hf].
  pose proof Hf as (y' & m & d & h & mi & s & -> & _).
  unfold date_decode in Hd.
  destruct (datetime_fields (unit_start r c)) as [g|] eqn:E; [|done].
  apply datetime_fields_spec in E as [Hg (yg & rg & -> & Hyg)].
  pose proof (has_fields_unique _ _ _ Hf Hg) as Hfg.
  rewrite <-Hfg in *. cbn [rbind] in Hd. injection Hd as Hd.
  assert (Hy' : y' = y).
  { subst keys. rewrite Nat.add_1_r in Ek. cbn [take zip zip_with UNITS] in Ek. by injection Ek. }
  subst y'. assert (Hyy : yg = y) by congruence. subst yg.
  assert (Hk : keys = take (dres_index r + 1) (zip UNITS [y; m; d; h; mi; s])) by (symmetry; exact Hd).
  rewrite Hk. rewrite (date_encode_spec r _ _ _ _ _ _ _ Hf) by lia.
  by rewrite trunc_unit_start.
Qed.
Print Assumptions C04_date_decode_encode.

(** A date given at a finer resolution than the partitioning's is decoded into
    the keys of the partition that contains it. *)
Theorem C04_date_decode_finer (r r' : dres) (secs y : Z) (f : list Z) :
  has_fields secs (y :: f) -> (1 <= y <= 9999)%Z -> dres_index r <= dres_index r' ->
  date_decode r r' (trunc_seconds r' secs) = Ok (take (dres_index r + 1) (zip UNITS (y :: f))).
Proof.
  intros Hf Hy Hr. destruct (datetime_fields_unit r' _ _ _ Hf Hy) as (g & Hg & Ht).
  unfold date_decode. rewrite Hg. cbn [rbind]. f_equal.
  rewrite !take_zip. f_equal.
  replace (dres_index r + 1) with (Nat.min (dres_index r + 1) (dres_index r' + 1)) by lia.
  by rewrite <-!take_take, Ht.
Qed.
Print Assumptions C04_date_decode_finer.

(** The bound on the year is necessary: the keys of the year 999 are decoded
    but cannot be encoded. *)
Theorem C04_date_early_refuted :
  date_decode RY RY (-971) = Ok [(lit "year", 999%Z)] /\
  date_encode [(lit "year", 999%Z)] = Raise ValueError.
Proof. split; vm_compute; reflexivity. Qed.
Print Assumptions C04_date_early_refuted.

Example C04_example :
  has_fields 951868799 [2000; 2; 29; 23; 59; 59]%Z /\
  date_encode [(lit "year", 2000%Z); (lit "month", 2%Z); (lit "day", 29%Z)] = Ok (RD, 11016%Z) /\
  date_encode [(lit "year", 2001%Z); (lit "month", 2%Z); (lit "day", 29%Z)] = Raise ValueError /\
  trunc_seconds RD 951868799 = 11016%Z.
Proof.
  split_and!; [|vm_compute; reflexivity..].
  exists 2000%Z, 2%Z, 29%Z, 23%Z, 59%Z, 59%Z. split_and!; try (vm_compute; reflexivity || discriminate).
Qed.

(** ** C05. The calendar used is the proleptic Gregorian one: day 0 is
    1970-01-01, the day after a date is the next date of the calendar, and
    every valid date is the date of exactly one day. *)
Theorem C05_calendar :
  civil_from_days 0 = (1970, 1, 1)%Z /\
  (forall z, civil_from_days (z + 1) = next_day (civil_from_days z)) /\
  (forall z y m d, civil_from_days z = (y, m, d) -> valid_date y m d) /\
  (forall y m d, valid_date y m d -> exists z, civil_from_days z = (y, m, d) /\
     forall z', civil_from_days z' = (y, m, d) -> z' = z).
Proof.
  split_and!; [exact civil_epoch|exact civil_next|exact civil_valid|].
  intros y m d H. exists (days_from_civil y m d).
  pose proof (civil_of_days_from_civil y m d H) as E. split; [done|].
  intros z' E'. apply civil_inj. congruence.
Qed.
Print Assumptions C05_calendar.

(** A timestamp of [t] ticks is filed in the directories named after its own
    year, month, day, ..., down to the resolution. *)
Theorem C05_partition (tps : Z) (r : dres) (t y : Z) (f : list Z) :
  has_fields (t / tps) (y :: f) -> (1 <= y <= 9999)%Z ->
  date_partition r (trunc tps r t) =
  Ok (take (dres_index r + 1) (zip_with (fun u v => u ++ lit "=" ++ show_02d v) UNITS (y :: f))).
Proof. exact (date_partition_spec r (t / tps) y f). Qed.
Print Assumptions C05_partition.

(** Every instant has fields, and only one list of them. *)
Theorem C05_fields (secs : Z) :
  exists f, has_fields secs f /\ forall g, has_fields secs g -> g = f.
Proof.
  destruct (has_fields_total secs) as [f Hf]. exists f. split; [done|].
  intros g Hg. by apply (has_fields_unique secs).
Qed.
Print Assumptions C05_fields.

(** The unit of a timestamp starts at or before it, the next one after it. *)
Theorem C05_contains (tps : Z) (r : dres) (t : Z) :
  (unit_start r (trunc tps r t) <= t / tps < unit_start r (trunc tps r t + 1))%Z.
Proof. by apply trunc_seconds_spec. Qed.
Print Assumptions C05_contains.

(** Two timestamps are filed together iff their fields agree down to the
    resolution. *)
Theorem C05_same_partition (tps : Z) (r : dres) (t1 t2 : Z) (f1 f2 : list Z) :
  has_fields (t1 / tps) f1 -> has_fields (t2 / tps) f2 ->
  trunc tps r t1 = trunc tps r t2 <-> take (dres_index r + 1) f1 = take (dres_index r + 1) f2.
Proof. exact (trunc_seconds_fields r (t1 / tps) (t2 / tps) f1 f2). Qed.
Print Assumptions C05_same_partition.

(** Later timestamps never have smaller keys. *)
Theorem C05_monotone (tps : Z) (r : dres) (t1 t2 : Z) :
  (0 < tps)%Z -> (t1 <= t2)%Z -> (trunc tps r t1 <= trunc tps r t2)%Z.
Proof. exact (trunc_le tps r t1 t2). Qed.
Print Assumptions C05_monotone.

(** Outside the years 1 to 9999, filing raises AttributeError. *)
Theorem C05_out_of_range (tps : Z) (r : dres) (t y : Z) (f : list Z) :
  has_fields (t / tps) (y :: f) -> (y < 1 \/ 9999 < y)%Z ->
  date_partition r (trunc tps r t) = Raise AttributeError.
Proof.
  intros Hf Hy. unfold date_partition, trunc.
  destruct (datetime_fields (unit_start r (trunc_seconds r (t / tps)))) as [g|e] eqn:E.
  - exfalso. apply datetime_fields_spec in E as [Hg (y' & r' & -> & Hy')].
    destruct (unit_start_year_field _ _ _ _ _ Hf Hg) as [g' [= -> _]]. lia.
  - cbn [rbind]. unfold datetime_fields in E.
    destruct (civil_from_days _) as [[y0 m0] d0].
    destruct ((1 <=? y0)%Z && (y0 <=? 9999)%Z); [done|]. by injection E as <-.
Qed.
Print Assumptions C05_out_of_range.

(** Before 1970 too. *)
Example C05_example :
  has_fields (-1 / 1000) [1969; 12; 31; 23; 59; 59]%Z /\
  date_partition RM (trunc 1000 RM (-1)) = Ok [lit "year=1969"; lit "month=12"] /\
  date_partition RD (trunc 1000000000 RD 951868799999999999) =
    Ok [lit "year=2000"; lit "month=02"; lit "day=29"].
Proof.
  split_and!; [|vm_compute; reflexivity..].
  exists 1969%Z, 12%Z, 31%Z, 23%Z, 59%Z, 59%Z. split_and!; try (vm_compute; reflexivity || discriminate).
Qed.

(** ** C18 *)
Definition the_registry : registry := [(lit "Date", CDate); (lit "Sequence", CSequence)].
Lemma default_registry_ok : default_registry = Ok the_registry.
Proof. vm_compute. reflexivity. Qed.

(** A Date partitioning is rebuilt identically. *)
Theorem C18_date (reg : registry) (v : list str) (resolution : str) (p : partitioning) :
  default_registry = Ok reg -> mk_date v resolution = Ok p -> get_codecs reg (p_get_config p) = Ok p.
Proof.
  rewrite default_registry_ok. intros [= <-] H. unfold mk_date in H.
  destruct (length v =? 1) eqn:El; [|done]. cbn [negb] in H.
  destruct (dget RESOLUTION resolution) as [r|] eqn:Er; [|done].
  destruct (base_init v _) as [dt|] eqn:Eb; [|done]. cbn [rbind] in H. injection H as <-.
  unfold get_codecs. cbn [p_get_config c_id].
  replace (dget the_registry (lit "Date")) with (Some CDate) by (vm_compute; reflexivity).
  cbn [p_from_config c_variables c_resolution c_dtype]. unfold mk_date. rewrite El. cbn [negb].
  assert (Hr : dget RESOLUTION (resolution_str r) = Some r) by (destruct r; vm_compute; reflexivity).
  rewrite Hr, Eb. done.
Qed.
Print Assumptions C18_date.

(** A Sequence partitioning is rebuilt with the same keys, paths, parsing and
    encoding; it is identical exactly when all its key types are the default
    ones. *)
Theorem C18_sequence (reg : registry) (v : list str) (dtype : dtype_arg) (p : partitioning) :
  default_registry = Ok reg -> mk_sequence v dtype = Ok p ->
  exists p', get_codecs reg (p_get_config p) = Ok p' /\
    p_keys p' = p_keys p /\ p_variables p' = p_variables p /\
    (forall s, p_parse p' s = p_parse p s) /\
    (forall k s, p_join p' k s = p_join p k s) /\
    (forall k, seq_encode p' k = seq_encode p k) /\ (forall k, seq_decode p' k = seq_decode p k) /\
    (p' = p <-> p_dtypes p = repeat (lit "int64") (length v)).
Proof.
  rewrite default_registry_ok. intros [= <-] H. unfold mk_sequence in H.
  destruct (base_init v dtype) as [dt|] eqn:Eb; [|done]. cbn [rbind] in H. injection H as <-.
  assert (Hv : length v =? 0 = false).
  { unfold base_init in Eb. destruct dtype; [|done|]; by destruct (length v =? 0). }
  exists (Sequence v (repeat (lit "int64") (length v))).
  split.
  - unfold get_codecs. cbn [p_get_config c_id].
    replace (dget the_registry (lit "Sequence")) with (Some CSequence) by (vm_compute; reflexivity).
    cbn [p_from_config c_variables c_resolution c_dtype]. unfold mk_sequence, base_init. rewrite Hv.
    assert (Hf : forallb (fun t => memb t DATA_TYPES) (repeat (lit "int64") (length v)) = true).
    { apply forallb_forall. intros t Ht. apply repeat_spec in Ht as ->. vm_compute. reflexivity. }
    by rewrite Hf.
  - split_and!; try done. cbn. split; [by intros [= <-]|by intros ->].
Qed.
Print Assumptions C18_sequence.

(** C65 is false: the key types given to a Sequence are lost. *)
Theorem C65_dtype_refuted :
  exists reg p p', default_registry = Ok reg /\
    mk_sequence [lit "cycle"; lit "pass"] (DSeq [lit "int32"; lit "uint16"]) = Ok p /\
    get_codecs reg (p_get_config p) = Ok p' /\
    p_dtype p = [(lit "cycle", lit "int32"); (lit "pass", lit "uint16")] /\
    p_dtype p' = [(lit "cycle", lit "int64"); (lit "pass", lit "int64")].
Proof.
  do 3 eexists. split; [exact default_registry_ok|].
  split; [vm_compute; reflexivity|]. split; [vm_compute; reflexivity|].
  split; vm_compute; reflexivity.
Qed.
Print Assumptions C65_dtype_refuted.

Example C18_example :
  mk_date [lit "time"] (lit "D") = Ok (Date [lit "time"] [lit "uint16"; lit "uint8"; lit "uint8"] RD) /\
  mk_sequence [lit "a"] DNone = Ok (Sequence [lit "a"] [lit "int64"]).
Proof. split; vm_compute; reflexivity. Qed.

(** ** C46, partitionings. A Sequence needs a variable and known types; a Date
    exactly one variable and a known resolution; a class is registered only
    once under a name. *)
Theorem C46_partitionings (v : list str) (dtype : dtype_arg) (resolution : str) :
  (is_ok (mk_sequence v dtype) = true <->
     v <> [] /\ match dtype with DNone => True | DStr _ => False
                | DSeq l => Forall (fun t => t ∈ DATA_TYPES) l end) /\
  (is_ok (mk_date v resolution) = true <->
     (exists x, v = [x]) /\ resolution ∈ map lit ["Y"; "M"; "D"; "h"; "m"; "s"]%string).
Proof.
  assert (Hfb : forall l, forallb (fun t => memb t DATA_TYPES) l = true <-> Forall (fun t => t ∈ DATA_TYPES) l).
  { intros l. rewrite forallb_forall, Forall_forall. unfold memb.
    split; intros H x Hx; [apply (bool_decide_eq_true_1 _), H; by apply elem_of_list_In|].
    apply bool_decide_eq_true_2, H. by apply elem_of_list_In. }
  split.
  - unfold mk_sequence, base_init. destruct v as [|x v]; [destruct dtype; cbn; split; [done|tauto|done|tauto|done|tauto]|].
    cbn [length Nat.eqb]. destruct dtype as [|s|l].
    + assert (Hf : forallb (fun t => memb t DATA_TYPES) (repeat (lit "int64") (S (length v))) = true).
      { apply forallb_forall. intros t Ht. apply repeat_spec in Ht as ->. vm_compute. reflexivity. }
      rewrite Hf. done.
    + cbn. split; [done|tauto].
    + rewrite <-(Hfb l). destruct (forallb _ l); cbn; split; try done. by intros [_ ?].
  - unfold mk_date.
    assert (Hr : forall r : dres, match dget RESOLUTION resolution with Some r => True | None => False end
        <-> resolution ∈ map lit ["Y"; "M"; "D"; "h"; "m"; "s"]%string).
    { intros _. cbn [dget RESOLUTION map].
      repeat (destruct (decide (resolution = _)) as [->|?]; [split; [set_solver|done]|]).
      split; [done|]. set_solver. }
    specialize (Hr RY).
    destruct v as [|x [|y v]]; cbn [length Nat.eqb negb].
    + cbn. split; [done|]. by intros [[? ?] _].
    + destruct (dget RESOLUTION resolution) as [r|].
      * split; [|by destruct r]. intros _. split; [eauto|]. by apply Hr.
      * split; [done|]. intros [_ H]. by apply Hr in H.
    + cbn. split; [done|]. by intros [[? ?] _].
Qed.
Print Assumptions C46_partitionings.

Theorem C46_registry (reg reg' : registry) (cls cls' : pclass) (i : str) (cls_id : option str) :
  register_codec reg cls cls_id (Some i) = Ok reg' ->
  dget reg' i = Some cls /\ (forall j, j <> i -> dget reg' j = dget reg j) /\
  register_codec reg' cls' cls_id (Some i) = Raise ValueError.
Proof.
  unfold register_codec. destruct (dmem reg i) eqn:E; [done|]. intros [= <-].
  assert (Hs : forall d, dget (dset d i cls) i = Some cls).
  { intros d. induction d as [|[k v] d IH]; cbn.
    - by rewrite decide_True.
    - destruct (decide (i = k)) as [->|]; cbn; [by rewrite decide_True|by rewrite decide_False]. }
  split_and!; [apply Hs| |].
  - intros j Hj. clear E Hs. induction reg as [|[k v] reg IH]; cbn.
    + by rewrite decide_False.
    + destruct (decide (i = k)) as [->|]; cbn; [by rewrite !decide_False by congruence|].
      destruct (decide (j = k)); [done|apply IH].
  - unfold dmem. by rewrite Hs.
Qed.
Print Assumptions C46_registry.

Example C46_example :
  register_codec the_registry CDate (Some (lit "Date")) None = Raise ValueError /\
  is_ok (register_codec the_registry CDate (Some (lit "Date")) (Some (lit "Day"))) = true /\
  mk_date [lit "time"] (lit "W") = Raise ValueError.
Proof. split_and!; vm_compute; reflexivity. Qed.
