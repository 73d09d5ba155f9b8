(** * Properties of the insertions that are refused *)
From Verif Require Import Py Dict NdArray_Model NdArray_Spec NdArray_Proofs Dataset_Model Dataset_Spec Dataset_Proofs Dataset_Props Dataset_Props2 Meta_Model Meta_Props PartPath_Model PartPath_Proofs
  Split_Model Split_Spec DaskUtils_Model DaskUtils_Proofs FS_Model FS_Proofs Pool_Model Pool_Proofs Storage_Model Storage_Spec Storage_Proofs
  Listing_Model Listing_Spec Collection_Model Collection_Spec Collection_Split Collection_Proofs Collection_State Collection_Prepare Collection_Select Collection_Load Collection_Insert Collection_Total Collection_Props
  Crash_Spec Collection_Crash Crash_Props Collection_Example Immutable_Props.

(** ** The key variables that are given to the cut *)
Lemma prepared_var c ds validate out n v : declared c -> sound ds -> prepare c ds validate = Ok out -> dget (d_vars ds) n = Some v -> dget (d_vars out) n = Some (with_attrs v []).
Proof.
  intros Hc Hs H Hv. unfold prepare in H. destruct (complete c ds) as [ds1|] eqn:E; [|done]. cbn [rbind] in H. destruct (validate && _); [done|].
  apply complete_ok in E as (names & Hg & Hnd & H1 & H2); [|done..].
  assert (Hv1 : dget (d_vars ds1) n = Some v) by (by rewrite (grown_get c _ _ _ n Hg Hnd), Hv).
  assert (Hn1 : forall k w, dget (d_vars ds1) k = Some w -> v_name w = k).
  { intros k w. rewrite (grown_get c _ _ _ k Hg Hnd). destruct (dget (d_vars ds) k) as [w0|] eqn:Ek.
    - intros [= <-]. by apply (proper_consistent _ (storable_proper _ (sound_storable _ Hs))) in Ek as [? _].
    - destruct (decide (k ∈ names)); [|done]. destruct (dget (md_vars (c_meta c)) k) as [mv|] eqn:Em; [|done]. destruct (mv_fill mv) as [f|]; [|done].
      intros [= <-]. by apply (dc_name _ Hc) in Em as [? _]. }
  assert (Hk1 : NoDup (dkeys (d_vars ds1))).
  { rewrite (grown_keys c _ _ _ Hg). apply NoDup_app. split_and!; [apply (storable_proper _ (sound_storable _ Hs))| |done].
    intros x Hx Hx'. by apply H2 in Hx' as [_ ?]. }
  apply new_dataset_ok in H as (-> & _).
  assert (El : map (fun v => (v_name v, v)) (map (fun v => with_attrs v []) (dvals (d_vars ds1))) = map (fun kv => (kv.1, with_attrs kv.2 [])) (d_vars ds1)).
  { unfold dvals. rewrite !map_map. apply map_ext_in. intros [k w] Hin. cbn. f_equal. apply Hn1, elem_dget; [done|]. by apply elem_of_list_In. }
  rewrite El, dict_of_id.
  - clear -Hv1. induction (d_vars ds1) as [|[k w] l IH]; [done|]. cbn in *. destruct (decide (n = k)); [by injection Hv1 as ->|by apply IH].
  - by rewrite map_map.
Qed.
Lemma prepared_wf c ds validate out : prepare c ds validate = Ok out -> NoDup (dkeys (d_vars out)) /\ consistent out.
Proof.
  intros H. unfold prepare in H. destruct (complete c ds) as [ds1|] eqn:E; [|done]. cbn [rbind] in H. destruct (validate && _); [done|].
  apply new_dataset_ok in H as (-> & _ & _ & _ & _ & H). split; [apply dict_of_NoDup|done].
Qed.
Lemma cut_var c out part s s' n w v : exec (insert_immutable c out) s = (Ok part, s') -> NoDup (dkeys (d_vars out)) -> consistent out ->
  dget (d_vars out) n = Some v -> dget (d_vars part) n = Some w -> w = v.
Proof.
  intros H Hnd Hco Hv Hw. unfold insert_immutable in H. destruct (c_immutable c); [|cbn in H; injection H as -> _; congruence].
  rewrite exec_bind, exec_exists in H. rewrite exec_bind in H. destruct (exec _ s) as [[[]|ex] s1]; [|done]. cbn [exec] in H.
  destruct (ds_select_variables_by_dims _ _ _) as [p|] eqn:E; [|done]. injection H as -> _.
  apply new_dataset_ok in E as (E & _). rewrite E in Hw. apply dict_of_elem, elem_of_list_In, in_map_iff in Hw as (w' & [= <- ->] & Hin).
  apply filter_In in Hin as [Hin _]. apply elem_of_list_In, elem_dvals in Hin as [k Hin]. apply elem_dget in Hin; [|done].
  pose proof (Hco _ _ Hin) as [<- _]. congruence.
Qed.

(** The insertion is refused: it raises, and no file changes but, perhaps, those
    of the variables that do not depend on the axis. *)
Definition refused (c : collection) (r : res (list path) * store) (s : store) : Prop :=
  exists ex s', r = (Raise ex, s') /\ forall q, ~ under (c_dir c ++ [IMMUTABLE]) q -> s' !! q = s !! q.
Lemma uncut e c ds scheds inner merge np validate s :
  (forall out part s', prepare c ds validate = Ok out -> exec (insert_immutable c out) s = (Ok part, s') -> exists ex, split_dataset (c_part c) part = Raise ex) ->
  refused c (exec (insert e scheds inner c ds merge np validate) s) s.
Proof.
  intros H. unfold refused, insert. destruct (c_readonly c); [by eexists _, s|]. destruct (prepare c ds validate) as [out|ex] eqn:E; cbn [pbind]; [|by eexists _, s].
  rewrite exec_bind. pose proof (exec_outside (fun _ => True) (under (c_dir c ++ [IMMUTABLE])) (insert_immutable c out) s) as Ho.
  destruct (exec (insert_immutable c out) s) as [[part|ex] s'] eqn:Ei.
  - destruct (H out part s' eq_refl Ei) as [ex ->]. exists ex, s'. split; [done|]. intros q Hq. apply (Ho q); [apply within_insert_immutable|done].
  - exists ex, s'. split; [done|]. intros q Hq. apply (Ho q); [apply within_insert_immutable|done].
Qed.

(** ** C92 *)
(** A dataset in which a variable of the partitioning is not an array of one
    dimension, *)
Theorem C92_shape e c ds scheds inner merge npartitions validate s n v :
  declared c -> sound ds -> n ∈ p_variables (c_part c) -> dget (d_vars ds) n = Some v -> length (v_shape v) <> 1 ->
  refused c (exec (insert e scheds inner c ds merge npartitions validate) s) s.
Proof.
  intros Hc Hs Hn Hv Hl. apply uncut. intros out part s' Hp Hi. pose proof (prepared_var c ds validate out n v Hc Hs Hp Hv) as Hv'.
  destruct (prepared_wf _ _ _ _ Hp) as [Hnd Hco]. unfold split_dataset. destruct (traverse _ _) as [l|ex] eqn:E; [|by exists ex]. exfalso.
  apply traverse_inv in E. apply elem_of_list_lookup in Hn as [i Hn]. destruct (Forall2_lookup_l _ _ _ _ _ E Hn) as (y & _ & Ey).
  unfold get_var in Ey. destruct (dget (d_vars part) n) as [w|] eqn:Ew; [|done]. rewrite (cut_var c out part s s' n w _ Hi Hnd Hco Hv' Ew) in Ey. cbn [rbind] in Ey.
  destruct (length (v_shape (with_attrs v [])) =? 1) eqn:E1; [|done]. by apply Nat.eqb_eq in E1.
Qed.
Print Assumptions C92_shape.
(** one that is partitioned by date with something else than dates, *)
Theorem C92_dates e c ds scheds inner merge npartitions validate s n v names types r :
  declared c -> sound ds -> c_part c = Date (n :: names) types r -> dget (d_vars ds) n = Some v ->
  v_dtype v ∉ [lit "datetime64[s]"; lit "datetime64[ms]"; lit "datetime64[us]"; lit "datetime64[ns]"] ->
  refused c (exec (insert e scheds inner c ds merge npartitions validate) s) s.
Proof.
  intros Hc Hs Hn Hv Hl. apply uncut. intros out part s' Hp Hi. pose proof (prepared_var c ds validate out n v Hc Hs Hp Hv) as Hv'.
  destruct (prepared_wf _ _ _ _ Hp) as [Hnd Hco]. unfold split_dataset. destruct (traverse _ _) as [l|ex]; [|by exists ex]. rewrite Hn. cbn [rbind]. unfold split_keys.
  destruct (traverse (get_var part) _) as [vs|ex] eqn:E; [|by exists ex]. cbn [rbind]. apply traverse_inv in E. inversion E as [|? w ? vs' Ew _]; subst.
  unfold get_var in Ew. destruct (dget (d_vars part) n) as [w'|] eqn:Ew'; [|done]. injection Ew as <-. rewrite (cut_var c out part s s' n w' _ Hi Hnd Hco Hv' Ew').
  destruct (dget DATETIMES (v_dtype (with_attrs v []))) as [tps|] eqn:Ed; [|by eexists]. exfalso. apply Hl. change (v_dtype (with_attrs v [])) with (v_dtype v) in Ed.
  apply dget_elem in Ed. apply (elem_of_list_fmap_1 fst) in Ed. exact Ed.
Qed.
Print Assumptions C92_dates.
(** one partitioned by a variable whose type is not one of the integers, *)
Theorem C92_integers e c ds scheds inner merge npartitions validate s n v names types :
  declared c -> sound ds -> c_part c = Sequence names types -> n ∈ names -> dget (d_vars ds) n = Some v ->
  v_dtype v ∉ [lit "int8"; lit "int16"; lit "int32"; lit "int64"; lit "uint8"; lit "uint16"; lit "uint32"; lit "uint64"] ->
  refused c (exec (insert e scheds inner c ds merge npartitions validate) s) s.
Proof.
  intros Hc Hs Hpart Hn Hv Hl. apply uncut. intros out part s' Hp Hi. pose proof (prepared_var c ds validate out n v Hc Hs Hp Hv) as Hv'.
  destruct (prepared_wf _ _ _ _ Hp) as [Hnd Hco]. unfold split_dataset. destruct (traverse _ _) as [l|ex]; [|by exists ex]. rewrite Hpart. cbn [rbind]. unfold split_keys.
  destruct (traverse (get_var part) _) as [vs|ex] eqn:E; [|by exists ex]. cbn [rbind]. destruct (traverse _ vs) as [cols|ex]; [|by exists ex].
  apply traverse_inv in E. apply elem_of_list_lookup in Hn as [i Hn]. destruct (Forall2_lookup_l _ _ _ _ _ E Hn) as (w & Hw & Ew).
  unfold get_var in Ew. destruct (dget (d_vars part) n) as [w'|] eqn:Ew'; [|done]. injection Ew as <-. rewrite (cut_var c out part s s' n w' _ Hi Hnd Hco Hv' Ew') in Hw.
  assert (promotes_to_integer (map v_dtype vs) = false) as ->.
  { apply not_true_iff_false. unfold promotes_to_integer. intros [H _]%andb_true_iff. rewrite forallb_forall in H. apply Hl.
    apply (bool_decide_eq_true (v_dtype v ∈ DATA_TYPES)), H, in_map_iff. exists (with_attrs v []). split; [done|]. apply elem_of_list_In. by eapply elem_of_list_lookup_2. }
  unfold sequence_split. cbn [rbind negb]. destruct (_ || _); by eexists.
Qed.
Print Assumptions C92_integers.
(** and a lazy dataset whose records are not in the order of the partitions, or
    that has no record, are refused. *)
Theorem C92_order e c ds rows scheds inner merge npartitions validate M I s :
  regular e c -> declared c -> insertable e c ds rows merge -> represents c M I s -> d_delayed ds = true ->
  rows = [] \/ ~ never_decreases row_lt rows ->
  refused c (exec (insert e scheds inner c ds merge npartitions validate) s) s.
Proof.
  intros Hr Hc Hi Hs Hd Hrow. apply uncut. intros out part s' Hp Hx.
  destruct (exec_insert_immutable e c Hr Hc ds (in_sound _ _ _ _ _ Hi) (in_conforms _ _ _ _ _ Hi) M I s validate out Hp Hs) as (part' & I' & s1 & E & Hpa & Hf & _).
  rewrite Hx in E. injection E as <- <-. destruct (part_rows e c Hr Hc ds rows merge Hi part Hpa Hf) as [Hrk Hn].
  destruct (split_dataset (c_part c) part) as [parts|ex] eqn:Es; [|by exists ex]. exfalso.
  destruct (split_sound _ _ _ _ (rg_keys _ _ Hr) Hrk (in_size _ _ _ _ _ Hi) Es) as (kparts & _ & _ & H).
  destruct H as [H1 H2]; [by rewrite (ft_delayed _ _ _ _ Hf)|]. by destruct Hrow.
Qed.
Print Assumptions C92_order.
(** Then nothing that can be loaded changes: the partitions are the same. *)
Theorem C92_partitions e c ds rows scheds inner merge npartitions validate M I s :
  regular e c -> declared c -> insertable e c ds rows merge -> represents c M I s -> d_delayed ds = true ->
  rows = [] \/ ~ never_decreases row_lt rows ->
  exists ex s' I', exec (insert e scheds inner c ds merge npartitions validate) s = (Raise ex, s') /\ represents c M I' s' /\ shows e c M s'.
Proof.
  intros Hr Hc Hi Hs Hd Hrow.
  pose proof (C92_order e c ds rows scheds inner merge npartitions validate M I s Hr Hc Hi Hs Hd Hrow) as (ex & s' & E & _).
  destruct (insert_cases e c Hr Hc ds rows merge Hi M I s scheds inner npartitions validate Hs) as [[ex' E']|(part & I' & s1 & Hp & Hf & Hs1 & _ & _ & [[ex' E']|(kparts & kbs & Es & _)])].
  - rewrite E in E'. injection E' as <- ->. exists ex, s, I. split_and!; [done|done|by eapply represents_shows].
  - rewrite E in E'. injection E' as <- ->. exists ex, s1, I'. split_and!; [done|done|by eapply represents_shows].
  - exfalso. destruct (part_rows e c Hr Hc ds rows merge Hi part Hp Hf) as [Hrk _].
    destruct (split_sound _ _ _ _ (rg_keys _ _ Hr) Hrk (in_size _ _ _ _ _ Hi) Es) as (kparts' & _ & _ & H).
    destruct H as [H1 H2]; [by rewrite (ft_delayed _ _ _ _ Hf)|]. by destruct Hrow.
Qed.
Print Assumptions C92_partitions.

(** ** C93 *)
(** The claim "an insertion that is refused changes nothing" is false of the
    code: when no dataset was inserted before, the variables that do not depend on
    the axis are stored, and they are those that every later insertion keeps
    (C31). *)
Theorem C93_immutable_refuted e c ds rows scheds inner merge npartitions M s :
  regular e c -> declared c -> insertable e c ds rows merge -> represents c M None s -> d_delayed ds = true ->
  rows = [] \/ ~ never_decreases row_lt rows -> c_readonly c = false -> c_immutable c = true ->
  (forall n, n ∈ dkeys (md_vars (c_meta c)) -> n ∈ dkeys (d_vars ds)) ->
  exists ex s' i, exec (insert e scheds inner c ds merge npartitions false) s = (Raise ex, s') /\ represents c M (Some i) s' /\ fitted c (fixed c) ds i.
Proof.
  intros Hr Hc Hi Hs Hd Hrow Hw Him Hall. pose proof (storable_proper _ (sound_storable _ (in_sound _ _ _ _ _ Hi))) as Hpr.
  assert (exists out, prepare c ds false = Ok out) as [out Eo].
  { unfold prepare, complete.
    assert (Hk : forall n, n ∈ dkeys (md_vars (ds_metadata ds)) <-> n ∈ dkeys (d_vars ds)).
    { intros n. rewrite <-!dget_is_Some. destruct (C17_of_dataset ds) as (_ & _ & _ & _ & G); [|apply Hpr..|].
      - intros k v Hv. by apply (proper_consistent _ Hpr) in Hv as [? _].
      - rewrite G. destruct (dget (d_vars ds) n); split; intros [? ?]; try done; by eexists. }
    assert (md_missing_variables (c_meta c) (ds_metadata ds) = Ok []) as ->.
    { unfold md_missing_variables. assert (forallb (fun n => memb n (dkeys (md_vars (c_meta c)))) (dkeys (md_vars (ds_metadata ds))) = true) as ->.
      - apply forallb_forall. intros n Hn. apply bool_decide_eq_true, dget_is_Some. apply elem_of_list_In, Hk, dget_is_Some in Hn as [v Hv].
        destruct (in_conforms _ _ _ _ _ Hi n v Hv) as (mv & Hmv & _). by exists mv.
      - cbn [negb]. f_equal. destruct (List.filter _ _) as [|n l] eqn:E; [done|]. exfalso.
        assert (Hin : In n (n :: l)) by (by left). rewrite <-E in Hin. apply filter_In in Hin as [Hin Hx]. apply elem_of_list_In, Hall, Hk in Hin.
        unfold memb in Hx. by rewrite bool_decide_eq_true_2 in Hx. }
    cbn [rbind foldM andb].
    destruct (C48_insertion ds (md_chunks (c_meta c)) (md_block (c_meta c)) Hpr (dc_cuts _ Hc) (dc_limit _ Hc)) as (out & E & _); [|by exists out].
    right. intros En. destruct (dc_axis _ Hc) as (mv & Hmv & _). assert (Hin : c_axis c ∈ dkeys (d_vars ds)) by (apply Hall, dget_is_Some; eauto).
    rewrite En in Hin. by apply elem_of_nil in Hin. }
  destruct (exec_insert_immutable e c Hr Hc ds (in_sound _ _ _ _ _ Hi) (in_conforms _ _ _ _ _ Hi) M None s false out Eo Hs) as (part & I' & s1 & E & Hpa & Hf & Hs1 & _ & HI).
  rewrite Him in HI. destruct HI as (i & -> & Hfi).
  assert (exists ex, split_dataset (c_part c) part = Raise ex) as [ex Es].
  { destruct (split_dataset (c_part c) part) as [parts|ex] eqn:Es; [exfalso|by exists ex]. destruct (part_rows e c Hr Hc ds rows merge Hi part Hpa Hf) as [Hrk _].
    destruct (split_sound _ _ _ _ (rg_keys _ _ Hr) Hrk (in_size _ _ _ _ _ Hi) Es) as (kparts' & _ & _ & H).
    destruct H as [H1 H2]; [by rewrite (ft_delayed _ _ _ _ Hf)|]. by destruct Hrow. }
  exists ex, s1, i. split_and!; [|done|done]. unfold insert. rewrite Hw, Eo. cbn [pbind]. rewrite exec_bind, E, Es. done.
Qed.
Print Assumptions C93_immutable_refuted.

(** ** Cases *)
(** A lazy dataset whose second half orbit lies between records of the first. *)
Definition R_vars : list variable :=
  [X_var (lit "time") (lit "int64") [lit "time"] [3] [10; 20; 30]%Z;
   X_var (lit "pass") (lit "int64") [lit "time"] [3] [1; 2; 1]%Z;
   X_var (lit "height") (lit "float64") [lit "time"; lit "x"] [3; 2] [5; 6; 7; 8; 9; 4]%Z;
   X_var (lit "bias") (lit "float64") [lit "x"] [2] [3; 4]%Z].
Definition R_ds : dataset :=
  Dataset [(lit "time", 3); (lit "x", 2)] (map (fun v => (v_name v, v)) R_vars) [(lit "title", lit "t")] [(lit "time", 2)] 64%Z true.
Definition R_rows : list (list Z) := [[1]; [2]; [1]]%Z.
(** One whose half orbits are an array of two dimensions. *)
Definition S_vars : list variable :=
  [X_var (lit "time") (lit "int64") [lit "time"] [3] [10; 20; 30]%Z;
   X_var (lit "pass") (lit "int64") [lit "time"; lit "x"] [3; 2] [1; 1; 1; 1; 2; 2]%Z;
   X_var (lit "height") (lit "float64") [lit "time"; lit "x"] [3; 2] [5; 6; 7; 8; 9; 4]%Z;
   X_var (lit "bias") (lit "float64") [lit "x"] [2] [3; 4]%Z].
Definition S_ds : dataset :=
  Dataset [(lit "time", 3); (lit "x", 2)] (map (fun v => (v_name v, v)) S_vars) [(lit "title", lit "t")] [(lit "time", 2)] 64%Z true.
Lemma named_in vs n v : dget (map (fun v => (v_name v, v)) vs) n = Some v -> v ∈ vs /\ v_name v = n.
Proof.
  intros H. apply dget_elem, elem_of_list_In, in_map_iff in H as (w & [= <- <-] & Hw). split; [by apply elem_of_list_In|done].
Qed.
Lemma R_sound : sound R_ds.
Proof.
  split; [split|].
  - split.
    + apply (bool_decide_unpack _). vm_compute. done.
    + apply (bool_decide_unpack _). vm_compute. done.
    + done.
    + intros v Hv. change (v ∈ R_vars) in Hv. by cases_var Hv.
    + intros n v Hv. apply (named_in R_vars) in Hv as [Hv <-]. split_and!; [done|by cases_var Hv|].
      intros k d Hk. cases_var Hv; destruct k as [|[|k]]; cbn in Hk; try done; injection Hk as <-; eexists; split; vm_compute; reflexivity.
  - intros v Hv. change (v ∈ R_vars) in Hv. by cases_var Hv.
  - intros n Hn. apply dget_is_Some in Hn as [v Hv]. apply (named_in R_vars) in Hv as [Hv <-]. unfold plain_name.
    cases_var Hv; apply (bool_decide_unpack _); vm_compute; done.
  - intros v Hv. change (v ∈ R_vars) in Hv. cases_var Hv; apply (bool_decide_unpack _); vm_compute; done.
Qed.
Lemma S_sound : sound S_ds.
Proof.
  split; [split|].
  - split.
    + apply (bool_decide_unpack _). vm_compute. done.
    + apply (bool_decide_unpack _). vm_compute. done.
    + done.
    + intros v Hv. change (v ∈ S_vars) in Hv. by cases_var Hv.
    + intros n v Hv. apply (named_in S_vars) in Hv as [Hv <-]. split_and!; [done|by cases_var Hv|].
      intros k d Hk. cases_var Hv; destruct k as [|[|k]]; cbn in Hk; try done; injection Hk as <-; eexists; split; vm_compute; reflexivity.
  - intros v Hv. change (v ∈ S_vars) in Hv. by cases_var Hv.
  - intros n Hn. apply dget_is_Some in Hn as [v Hv]. apply (named_in S_vars) in Hv as [Hv <-]. unfold plain_name.
    cases_var Hv; apply (bool_decide_unpack _); vm_compute; done.
  - intros v Hv. change (v ∈ S_vars) in Hv. cases_var Hv; apply (bool_decide_unpack _); vm_compute; done.
Qed.
Lemma R_insertable : insertable X_env X_coll R_ds R_rows None.
Proof.
  split; [apply R_sound| | |done|by left|done|].
  - intros n v Hv. apply (named_in R_vars) in Hv as [Hv <-]. cases_var Hv; eexists; split; vm_compute; reflexivity.
  - exists [[1; 2; 1]%Z]. split.
    + intros i r Hr. destruct i as [|[|[|i]]]; cbn in Hr; try done; injection Hr as <-; by repeat constructor.
    + constructor; [|constructor]. split; [done|]. eexists. split; vm_compute; reflexivity.
  - intros v v' Hv Hv'. unfold R_rows in *. repeat (apply elem_of_cons in Hv as [->|Hv]); try (by apply elem_of_nil in Hv);
      repeat (apply elem_of_cons in Hv' as [->|Hv']); try (by apply elem_of_nil in Hv'); vm_compute; done.
Qed.
Lemma R_unsorted : ~ never_decreases row_lt R_rows.
Proof.
  intros H. destruct (H 1 2 [2%Z] [1%Z] ltac:(lia) eq_refl eq_refl) as [Hl|]; [|done].
  destruct Hl as (p & x & y & a & b & E1 & E2 & Hlt). destruct p as [|z p].
  - injection E1 as <- _. injection E2 as <- _. lia.
  - destruct p; discriminate.
Qed.
Example C92_case : refused X_coll (exec (insert X_env X_scheds X_inner X_coll S_ds None None false) X_store) X_store /\
  refused X_coll (exec (insert X_env X_scheds X_inner X_coll R_ds None None true) X_store) X_store.
Proof.
  split.
  - apply (C92_shape X_env X_coll S_ds X_scheds X_inner None None false X_store (lit "pass") (X_var (lit "pass") (lit "int64") [lit "time"; lit "x"] [3; 2] [1; 1; 1; 1; 2; 2]%Z) X_declared S_sound);
      [left|reflexivity|discriminate].
  - exact (C92_order X_env X_coll R_ds R_rows X_scheds X_inner None None true _ None X_store X_regular X_declared R_insertable X_empty eq_refl (or_intror R_unsorted)).
Qed.
(** The first dataset ever inserted is refused, and its bias is stored. *)
Example C93_case : exists ex s' i, exec (insert X_env X_scheds X_inner X_coll R_ds None None false) X_store = (Raise ex, s') /\
  represents X_coll (fun _ => None) (Some i) s' /\ fitted X_coll (fixed X_coll) R_ds i.
Proof.
  apply (C93_immutable_refuted X_env X_coll R_ds R_rows X_scheds X_inner None None _ X_store X_regular X_declared R_insertable X_empty eq_refl (or_intror R_unsorted) eq_refl eq_refl).
  intros n Hn. assert (E : bool_decide (Forall (fun n => n ∈ dkeys (d_vars R_ds)) (dkeys (md_vars (c_meta X_coll)))) = true) by (vm_compute; done).
  apply bool_decide_eq_true in E. rewrite Forall_forall in E. by apply E.
Qed.
(** The collection partitioned by the month of its dates, which are integers. *)
Definition T_coll : collection := Coll (lit "time") (ds_metadata X_ds) (Date [lit "time"] [lit "uint16"; lit "uint8"] Calendar_Model.RM) X_dir (lit "time") true false.
Lemma T_declared : declared T_coll.
Proof.
  destruct X_declared as [H1 H2 H3 H4 H5 H6 H7 H8]. split; [exact H1|exact H2|exact H3|exact H4|exact H5| |exact H7|exact H8].
  intros n Hn. cbn in Hn. apply elem_of_list_singleton in Hn as ->. eexists. split; vm_compute; reflexivity.
Qed.
Example C92_dates_case : refused T_coll (exec (insert X_env X_scheds X_inner T_coll X_ds None None true) X_store) X_store.
Proof.
  apply (C92_dates X_env T_coll X_ds X_scheds X_inner None None true X_store (lit "time") (X_var (lit "time") (lit "int64") [lit "time"] [3] [10; 20; 30]%Z) [] [lit "uint16"; lit "uint8"] Calendar_Model.RM T_declared X_sound eq_refl eq_refl).
  apply (bool_decide_unpack _). vm_compute. done.
Qed.
(** A dataset whose half orbits are floating-point numbers. *)
Definition N_vars : list variable :=
  [Var (lit "pass") true (Arr [2] [Num 1; Num 2]) (lit "float64") [lit "time"] [] None None [];
   X_var (lit "time") (lit "int64") [lit "time"] [2] [10; 20]%Z].
Definition N_ds : dataset := Dataset [(lit "time", 2)] (map (fun v => (v_name v, v)) N_vars) [] [] 64%Z true.
Lemma N_sound : sound N_ds.
Proof.
  split; [split|].
  - split.
    + apply (bool_decide_unpack _). vm_compute. done.
    + apply (bool_decide_unpack _). vm_compute. done.
    + done.
    + intros v Hv. change (v ∈ N_vars) in Hv. by cases_var Hv.
    + intros n v Hv. apply (named_in N_vars) in Hv as [Hv <-]. split_and!; [done|by cases_var Hv|].
      intros k d Hk. cases_var Hv; destruct k as [|[|k]]; cbn in Hk; try done; injection Hk as <-; eexists; split; vm_compute; reflexivity.
  - intros v Hv. change (v ∈ N_vars) in Hv. by cases_var Hv.
  - intros n Hn. apply dget_is_Some in Hn as [v Hv]. apply (named_in N_vars) in Hv as [Hv <-]. unfold plain_name.
    cases_var Hv; apply (bool_decide_unpack _); vm_compute; done.
  - intros v Hv. change (v ∈ N_vars) in Hv. cases_var Hv; apply (bool_decide_unpack _); vm_compute; done.
Qed.
Example C92_integers_case : refused X_coll (exec (insert X_env X_scheds X_inner X_coll N_ds None None false) X_store) X_store.
Proof.
  refine (C92_integers X_env X_coll N_ds X_scheds X_inner None None false X_store (lit "pass") _ [lit "pass"] [lit "int64"] X_declared N_sound eq_refl _ eq_refl _).
  - left.
  - apply (bool_decide_unpack _). vm_compute. done.
Qed.
