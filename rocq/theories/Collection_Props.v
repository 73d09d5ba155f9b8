(** * Properties of collections: insertion, loading, histories, removal *)
From Verif Require Import Py Dict NdArray_Model NdArray_Spec NdArray_Proofs Dataset_Model Dataset_Spec Dataset_Proofs Dataset_Main Dataset_Props Dataset_Props2 Meta_Model Meta_Spec Meta_Props PartPath_Model PartPath_Proofs
  Split_Model Split_Spec DaskUtils_Model FS_Model FS_Proofs Pool_Model Pool_Proofs Storage_Model Storage_Chunks Storage_Spec Storage_Proofs
  Listing_Model Listing_Spec Listing_Proofs Listing_Props Collection_Model Collection_Spec Collection_Split Collection_Proofs Collection_State Collection_Prepare Collection_Insert Collection_Select Collection_Load Collection_Round Collection_Total Collection_Create Collection_Example.

(** ** C19: what is inserted is loaded *)

Lemma sorted_same (l k : list nat) : StronglySorted lt l -> StronglySorted lt k -> (forall i, i ∈ l <-> i ∈ k) -> l = k.
Proof.
  intros Hl Hk Hin.
  assert (Hnd : forall l : list nat, StronglySorted lt l -> NoDup l).
  { clear. induction 1 as [|x l _ IH Hx]; constructor; [|done]. intros Hin. rewrite Forall_forall in Hx. specialize (Hx _ Hin). lia. }
  assert (HA : AntiSymm (=) lt) by (intros x y ? ?; lia).
  apply (StronglySorted_unique lt); [done..|]. apply NoDup_Permutation; [by apply Hnd..|done].
Qed.
Lemma seq_sorted n : StronglySorted lt (seq 0 n).
Proof.
  generalize 0. induction n as [|n IH]; intros a; constructor; [apply IH|].
  apply Forall_forall. intros x Hx. apply elem_of_seq in Hx. lia.
Qed.
Lemma rows_count e c ds rows merge : regular e c -> declared c -> insertable e c ds rows merge -> dget (d_dims ds) (c_dim c) = Some (length rows).
Proof.
  intros Hr Hc Hi. destruct (record_keys_count _ _ _ (rg_keys _ _ Hr) (in_keys _ _ _ _ _ Hi)) as (n & v & Hn & Hv & Hl).
  destruct (dc_keys _ Hc _ Hn) as (mv & Hmv & Hd). destruct (in_conforms _ _ _ _ _ Hi _ _ Hv) as (mv' & Hmv' & Hdv).
  assert (mv' = mv) as -> by congruence. destruct (in_sound _ _ _ _ _ Hi) as [Hst Hnr].
  destruct (proper_consistent _ (storable_proper _ Hst) _ _ Hv) as (_ & _ & Hsz).
  destruct (Hsz 0 (c_dim c)) as (k & Hk & ->); [by rewrite Hdv, Hd|]. f_equal. rewrite <-Hl. symmetry.
  assert (Hin : v ∈ dvals (d_vars ds)) by (eapply vals_elem; by apply dget_elem).
  apply flat_count; [by apply (storable_proper _ Hst)|]. pose proof (storable_rank _ Hst _ Hin) as Hrk. rewrite Hdv, Hd in Hrk.
  unfold v_shape in *. destruct (a_shape (v_array v)) as [|x [|y l]]; try done. cbn in Hk. by injection Hk as ->.
Qed.
Lemma restored_delivered e c ds rows merge delayed sel out n v v' : regular e c -> declared c -> insertable e c ds rows merge ->
  restored c delayed sel (seq 0 (length rows)) ds out -> dget (d_vars ds) n = Some v -> dget (d_vars out) n = Some v' -> delivered c delayed n v v'.
Proof.
  intros Hr Hc Hi Hrs Hv Hv'. destruct (rs_vars _ _ _ _ _ _ Hrs _ _ Hv') as (v0 & w & Hsup & Hdel & Hsb & Hrec).
  assert (v0 = v) as ->.
  { destruct Hsup as [?|[? _]]; congruence. }
  destruct (in_sound _ _ _ _ _ Hi) as [Hst Hnr]. pose proof (storable_proper _ Hst) as Hp.
  destruct (proper_consistent _ Hp _ _ Hv) as (_ & _ & Hsz).
  assert (Hin : v ∈ dvals (d_vars ds)) by (eapply vals_elem; by apply dget_elem).
  assert (Hwd : v_dims w = v_dims v /\ v_array w = v_array v) by (by destruct Hdel as (mv & _ & ->)). destruct Hwd as [Hwd Hwa].
  assert (v' = w) as ->; [|done].
  apply (var_determined (d_dims ds) (c_dim c)); [| | | |done|].
  - intros k d Hk. rewrite Hwd in Hk. unfold v_shape. rewrite Hwa. by apply Hsz.
  - rewrite Hwd. by apply Hnr.
  - rewrite Hwa. by apply (proper_arrays _ Hp).
  - apply (proper_arrays _ (rs_proper _ _ _ _ _ _ Hrs)). eapply vals_elem. by apply dget_elem.
  - rewrite Hrec. unfold records. rewrite Hwd, Hwa. destruct (list_find _ _) as [[ax d]|] eqn:Ef; [|done].
    apply list_find_Some in Ef as (Hax & -> & _). cbn. f_equal.
    destruct (Hsz _ _ Hax) as (m & Hm & Hdm). rewrite (rows_count e c ds rows merge) in Hdm by done. injection Hdm as <-.
    assert (Hlen : length (NdArray_Spec.rows ax (v_array v)) = length rows).
    { unfold v_shape in Hm. rewrite rows_length. by rewrite (nth_lookup_Some _ _ _ _ Hm). }
    rewrite <-Hlen. apply pick_seq.
Qed.

(** A dataset whose records are sorted by key is inserted in an empty
    collection, whatever the batches, the merge strategy and the schedules; then
    loading gives all its records, in the same order, with the declared
    variables: those of the dataset are equal to the inserted ones, except for
    the attributes, which are the declared ones. *)
Theorem C19_insert_load e c ds rows merge np validate s scheds inner :
  regular e c -> declared c -> insertable e c ds rows merge -> accepted c ds rows np validate ->
  represents c (fun _ => None) None s ->
  exists dirs s', exec (insert e scheds inner c ds merge np validate) s = (Ok dirs, s') /\
    forall delayed selected, exists out,
      exec (load e c delayed NoFilter selected) s' = (Ok (Some out), s') /\
      restored c delayed selected (seq 0 (length rows)) ds out /\
      forall n v v', dget (d_vars ds) n = Some v -> dget (d_vars out) n = Some v' -> delivered c delayed n v v'.
Proof.
  intros Hr Hc Hi Ha Hs.
  destruct (insert_total e c Hr Hc ds rows merge Hi np validate Ha _ _ s scheds inner Hs) as (dirs & s' & E); [by right|].
  exists dirs, s'. split; [done|]. intros delayed sel.
  destruct (insert_spec e c Hr Hc ds rows merge Hi _ _ s scheds inner np validate _ s' Hs E) as (M & I & Hs' & _ & Hins & Hk & Hsort & _).
  pose proof (in_sound _ _ _ _ _ Hi) as Hso. pose proof (in_conforms _ _ _ _ _ Hi) as Hco.
  pose proof (inserted_uniform c ds Hso Hco rows merge M I Hins Hk) as Hu.
  destruct (select_all e c Hr M I s' Hs') as (vs & Hvs & Hin & Es).
  assert (HM : forall v, is_Some (M v) <-> v ∈ rows).
  { destruct (inserted_pieces c ds rows merge M Hins) as (_ & _ & H & _). exact H. }
  assert (exists parts, Forall2 (fun v d => M v = Some d) vs parts) as (parts & Hp).
  { clear -Hin. assert (H : forall v, v ∈ vs -> is_Some (M v)) by (intros v; apply Hin). clear Hin.
    induction vs as [|v vs IH]; [exists []; constructor|]. destruct (H v) as [d Hd]; [left|]. destruct IH as [l Hl]; [intros w Hw; apply H; by right|].
    exists (d :: l). by constructor. }
  assert (Hne : vs <> []).
  { destruct rows as [|r rows'] eqn:Er; [by destruct (ac_some _ _ _ _ _ Ha)|]. intros ->. assert (H : r ∈ []); [|by apply elem_of_nil in H].
    apply Hin, HM. left. }
  destruct (load_ok e c M I s' NoFilter delayed sel vs parts Hs' Hu Es Hp Hne) as (out & El & Hg).
  destruct (gathered_restored c Hc ds Hso Hco rows merge M I Hins Hk Hsort delayed sel vs parts out Hne Hvs Hp Hg) as (ps & P1 & P2 & Hrs).
  assert (ps = seq 0 (length rows)) as ->.
  { apply sorted_same; [done|apply seq_sorted|]. intros i. rewrite P2, elem_of_seq. split.
    - intros (v & _ & Hv). apply lookup_lt_Some in Hv. lia.
    - intros [_ Hlt]. destruct (lookup_lt_is_Some_2 rows i) as [v Hv]; [lia|]. exists v. split; [|done]. apply Hin, HM. by apply elem_of_list_lookup_2 in Hv. }
  exists out. split_and!; [done..|]. intros n v v' Hv Hv'. by eapply restored_delivered.
Qed.
Print Assumptions C19_insert_load.

(** With a filter, loading gives the records of the partitions whose keys the
    filter accepts, and nothing if there are none. *)
Theorem C19_insert_load_filter e c ds rows merge np validate s scheds inner f (P : list Z -> Prop) :
  regular e c -> declared c -> insertable e c ds rows merge -> accepted c ds rows np validate ->
  represents c (fun _ => None) None s -> filterable c ->
  (forall v, v ∈ rows -> says (c_part c) f v (P v)) ->
  exists dirs s', exec (insert e scheds inner c ds merge np validate) s = (Ok dirs, s') /\
    forall delayed selected, exists r, exec (load e c delayed f selected) s' = (Ok r, s') /\
      match r with
      | None => forall v, v ∈ rows -> ~ P v
      | Some out => exists ps, StronglySorted lt ps /\ (forall i, i ∈ ps <-> exists v, rows !! i = Some v /\ P v) /\
          restored c delayed selected ps ds out
      end.
Proof.
  intros Hr Hc Hi Ha Hs Hfi HP.
  destruct (insert_total e c Hr Hc ds rows merge Hi np validate Ha _ _ s scheds inner Hs) as (dirs & s' & E); [by right|].
  exists dirs, s'. split; [done|]. intros delayed sel.
  destruct (insert_spec e c Hr Hc ds rows merge Hi _ _ s scheds inner np validate _ s' Hs E) as (M & I & Hs' & _ & Hins & Hk & Hsort & _).
  pose proof (in_sound _ _ _ _ _ Hi) as Hso. pose proof (in_conforms _ _ _ _ _ Hi) as Hco.
  pose proof (inserted_uniform c ds Hso Hco rows merge M I Hins Hk) as Hu.
  assert (HM : forall v, is_Some (M v) <-> v ∈ rows).
  { destruct (inserted_pieces c ds rows merge M Hins) as (_ & _ & H & _). exact H. }
  destruct (select_filter e c Hr M I s' f P Hs' Hfi) as (vs & Hvs & Hin & Es); [intros v Hv; by apply HP, HM|].
  destruct (decide (vs = [])) as [->|Hne].
  { exists None. split; [by apply load_none|]. intros v Hv Hpv. assert (H : v ∈ []); [|by apply elem_of_nil in H]. apply Hin. split; [by apply HM|done]. }
  assert (exists parts, Forall2 (fun v d => M v = Some d) vs parts) as (parts & Hp).
  { clear -Hin. assert (H : forall v, v ∈ vs -> is_Some (M v)) by (intros v Hv; by apply Hin). clear Hin.
    induction vs as [|v vs IH]; [exists []; constructor|]. destruct (H v) as [d Hd]; [left|]. destruct IH as [l Hl]; [intros w Hw; apply H; by right|].
    exists (d :: l). by constructor. }
  destruct (load_ok e c M I s' f delayed sel vs parts Hs' Hu Es Hp Hne) as (out & El & Hg).
  destruct (gathered_restored c Hc ds Hso Hco rows merge M I Hins Hk Hsort delayed sel vs parts out Hne Hvs Hp Hg) as (ps & P1 & P2 & Hrs).
  exists (Some out). split; [done|]. exists ps. split_and!; [done| |done]. intros i. rewrite P2. split.
  - intros (v & Hv & Hi'). exists v. split; [done|]. by apply Hin.
  - intros (v & Hi' & Hpv). exists v. split; [|done]. apply Hin. split; [|done]. apply HM. by apply elem_of_list_lookup_2 in Hi'.
Qed.
Print Assumptions C19_insert_load_filter.

(** ** C20: histories *)

(** After any sequence of insertions and removals on a new collection, the
    partitions are what the results of the calls say, and reading shows them;
    nothing outside of the collection changes. *)
Theorem C20_history axis ds p d s c s0 e h rs s' :
  creatable axis ds p -> exec (create_collection axis ds p d) s = (Ok c, s0) -> regular e c ->
  Forall (allowed e c) h -> run_calls e c h s0 = (rs, s') ->
  exists M, explains c h rs (fun _ => None) M /\ shows e c M s' /\ forall q, ~ under d q -> s' !! q = s !! q.
Proof.
  intros Hcr E Hr Hal Er. destruct (create_ok axis ds p d s c s0 Hcr E) as (_ & _ & _ & Ed & _ & Hc & Hs & _ & Hout).
  destruct (calls_spec e c Hr Hc h _ _ s0 rs s' Hal Hs Er) as (M & I & Hs' & Hex & Hq & _). exists M. split_and!; [done| |].
  - by eapply represents_shows.
  - intros q Nq. rewrite Hq, Hout; [done|done|]. left. by rewrite Ed.
Qed.
Print Assumptions C20_history.

(** The state that a history leaves satisfies what the other theorems ask for. *)
Theorem C20_reachable axis ds p d s c s0 e h rs s' :
  creatable axis ds p -> exec (create_collection axis ds p d) s = (Ok c, s0) -> regular e c ->
  Forall (allowed e c) h -> run_calls e c h s0 = (rs, s') ->
  declared c /\ exists M I, explains c h rs (fun _ => None) M /\ represents c M I s'.
Proof.
  intros Hcr E Hr Hal Er. destruct (create_ok axis ds p d s c s0 Hcr E) as (_ & _ & _ & Ed & _ & Hc & Hs & _ & Hout).
  destruct (calls_spec e c Hr Hc h _ _ s0 rs s' Hal Hs Er) as (M & I & Hs' & Hex & _). split; [done|]. by exists M, I.
Qed.
Print Assumptions C20_reachable.

(** A partition holds what the last call that touches it put there. *)
Theorem C20_last_insertion c h1 h2 rs1 rs2 M M' ds rows merge np va sch inn dirs v :
  length h1 = length rs1 -> explains c (h1 ++ Insert ds rows merge np va sch inn :: h2) (rs1 ++ Ok dirs :: rs2) M M' ->
  v ∈ rows -> (forall i x r, h2 !! i = Some x -> rs2 !! i = Some r -> ~ touches c x r v) ->
  exists M1 part new, explains c h1 rs1 M M1 /\ fitted c (moving c) ds part /\
    M' v = Some new /\ replaced c merge (d_delayed ds) rows part v (M1 v) new.
Proof.
  intros Hl Hex Hv Hno. apply explains_app in Hex as (M1 & H1 & H2); [|done]. inversion H2 as [|? ? ? ? ? M2 ? Heff H3]; subst.
  cbn [effect] in Heff. destruct Heff as (part & Hf & H). destruct (proj1 (H v) Hv) as (new & Hn & Hrep).
  exists M1, part, new. split_and!; try done. by rewrite (explains_untouched c h2 rs2 M2 M' v H3 Hno).
Qed.
Print Assumptions C20_last_insertion.

Theorem C20_dropped c h1 h2 rs1 rs2 M M' f older sch dirs v :
  length h1 = length rs1 -> explains c (h1 ++ Drop f older sch :: h2) (rs1 ++ Ok dirs :: rs2) M M' ->
  length v = length (p_keys (c_part c)) -> part_dir c v ∈ dirs ->
  (forall i x r, h2 !! i = Some x -> rs2 !! i = Some r -> ~ touches c x r v) -> M' v = None.
Proof.
  intros Hl Hex Hlen Hv Hno. apply explains_app in Hex as (M1 & H1 & H2); [|done]. inversion H2 as [|? ? ? ? ? M2 ? Heff H3]; subst.
  cbn [effect] in Heff. destruct Heff as (vs & -> & Hsome & Hrem & _). rewrite (explains_untouched c h2 rs2 M2 M' v H3 Hno). apply Hrem.
  apply elem_of_list_In, in_map_iff in Hv as (w & Hw & Hw'). apply elem_of_list_In in Hw'.
  destruct (decide (w = v)) as [<-|N]; [done|]. exfalso.
  apply (parts_apart c w v (proj2 (Hsome w Hw')) Hlen N (part_dir c w)); [apply under_refl|rewrite Hw; apply under_refl].
Qed.
Print Assumptions C20_dropped.

(** A partition that no call touches does not change. *)
Theorem C20_untouched c h rs M M' v : explains c h rs M M' ->
  (forall i x r, h !! i = Some x -> rs !! i = Some r -> ~ touches c x r v) -> M' v = M v.
Proof. apply explains_untouched. Qed.
Print Assumptions C20_untouched.

(** ** C21: the schedules and the batches do not matter *)

(** The results of the calls and the files at the end do not depend on the order
    in which the file operations of the workers happen. *)
Theorem C21_schedules axis ds p d s c s0 e h h' :
  creatable axis ds p -> exec (create_collection axis ds p d) s = (Ok c, s0) -> regular e c ->
  Forall (allowed e c) h -> Forall2 same_call h h' -> run_calls e c h s0 = run_calls e c h' s0.
Proof.
  intros Hcr E Hr Hal Hsame. destruct (create_ok axis ds p d s c s0 Hcr E) as (_ & _ & _ & _ & _ & Hc & Hs & _).
  by eapply calls_schedules.
Qed.
Print Assumptions C21_schedules.
(** An insertion that succeeds gives the same result and the same files with any
    number of partitions per batch and any schedules. *)
Theorem C21_batches e c ds rows merge np np' validate M I s scheds inner scheds' inner' dirs s' :
  regular e c -> declared c -> insertable e c ds rows merge -> represents c M I s -> (forall k, np' = Some k -> (1 <= k)%Z) ->
  exec (insert e scheds inner c ds merge np validate) s = (Ok dirs, s') ->
  exec (insert e scheds' inner' c ds merge np' validate) s = (Ok dirs, s').
Proof. intros Hr Hc Hi Hs Hk E. by eapply insert_batches. Qed.
Print Assumptions C21_batches.

(** ** C28: removing partitions *)

(** The partitions removed, and returned in the order of their keys, are those
    that the filter (and the age) select; every other file of the collection,
    and outside of it, is as before. *)
Theorem C28_drop e c M I s sched f older (P : list Z -> Prop) :
  regular e c -> c_readonly c = false -> represents c M I s -> filterable c ->
  (forall v, is_Some (M v) -> says (c_part c) f v (P v)) ->
  exists vs s', exec (drop_partitions e sched c f older) s = (Ok (map (part_dir c) vs), s') /\ StronglySorted row_lt vs /\
    (forall v, v ∈ vs <-> is_Some (M v) /\ P v /\ match older with None => True | Some o => o (part_dir c v) = true end) /\
    (forall v q, v ∈ vs -> under (part_dir c v) q -> s' !! q = None) /\
    (forall q, ~ (exists v, v ∈ vs /\ under (part_dir c v) q) -> s' !! q = s !! q) /\
    exists M', removed vs M M' /\ represents c M' I s' /\ shows e c M' s'.
Proof.
  intros Hr Hw Hs Hfi HP. destruct (drop_filter e c Hr M I s sched f older P Hw Hs Hfi HP) as (vs0 & s' & E & Hin).
  pose proof (drop_spec e c Hr M I s sched f older _ s' Hs E) as (vs & Evs & Hsome & Hsort & Hs' & Hq).
  assert (Hl : forall v, is_Some (M v) -> length v = length (p_keys (c_part c))).
  { intros v [d Hd]. by apply (rp_part _ _ _ _ Hs) in Hd as [? _]. }
  assert (Hinj : forall a b, is_Some (M a) -> is_Some (M b) -> part_dir c a = part_dir c b -> a = b).
  { intros a b Ha Hb Hab. destruct (decide (a = b)) as [|N]; [done|]. exfalso.
    apply (parts_apart c a b (Hl a Ha) (Hl b Hb) N (part_dir c a)); [apply under_refl|rewrite Hab; apply under_refl]. }
  assert (vs0 = vs) as ->.
  { assert (H : forall v, v ∈ vs0 -> is_Some (M v)) by (intros v Hv; by apply Hin). clear -Evs Hsome H Hinj. revert vs Evs Hsome.
    induction vs0 as [|a l IH]; intros [|b k] Evs Hsome; try done. cbn in Evs. injection Evs as Eab Evs. f_equal.
    - apply Hinj; [apply H; left|apply Hsome; left|done].
    - apply IH; [intros v Hv; apply H; by right|done|intros v Hv; apply Hsome; by right]. }
  exists vs, s'. split_and!; try done.
  - intros v q Hv (t & ->). destruct (s' !! (part_dir c v ++ t)) as [x|] eqn:Ex; [|done]. exfalso.
    assert (Hlv := Hl v (Hsome v Hv)). unfold part_dir in Ex. rewrite <-app_assoc in Ex.
    destruct (rp_files _ _ _ _ Hs' _ _ Ex) as [Ec|[(_ & g & Eg)|(w & g & Hw' & Eg)]].
    + destruct (key_head e c Hr v Hlv) as (a & r0 & Ea & Ha & Hd'). rewrite Ea in Ec. injection Ec as -> _. done.
    + destruct (key_head e c Hr v Hlv) as (a & r0 & Ea & Ha & Hd'). rewrite Ea in Eg. injection Eg as -> _. done.
    + unfold without in Hw'. destruct (decide (w ∈ vs)) as [Hwv|Hwv]; [by destruct Hw'|].
      assert (w <> v) as N by (by intros ->). apply (parts_apart c w v (Hl w Hw') Hlv N (part_dir c v ++ t)).
      * exists g. unfold part_dir. rewrite <-!app_assoc. by f_equal.
      * apply under_app.
  - exists (without M vs). split_and!; [|done|by eapply represents_shows].
    intros v. unfold without. split; intros Hv; [by rewrite decide_True|by rewrite decide_False].
Qed.
Print Assumptions C28_drop.
(** The same call again finds nothing to remove. *)
Theorem C28_idempotent e c M I s sched f older (P : list Z -> Prop) dirs s' sched' :
  regular e c -> c_readonly c = false -> represents c M I s -> filterable c ->
  (forall v, is_Some (M v) -> says (c_part c) f v (P v)) ->
  exec (drop_partitions e sched c f older) s = (Ok dirs, s') ->
  exec (drop_partitions e sched' c f older) s' = (Ok [], s').
Proof.
  intros Hr Hw Hs Hfi HP E. destruct (C28_drop e c M I s sched f older P Hr Hw Hs Hfi HP) as (vs & s1 & E1 & _ & Hin & _ & _ & M' & Hrem & Hs' & _).
  assert (s1 = s') as -> by congruence.
  assert (HM : forall v, is_Some (M' v) -> is_Some (M v) /\ v ∉ vs).
  { intros v Hv. destruct (decide (v ∈ vs)) as [Hd|Hd]; [rewrite (proj1 (Hrem v) Hd) in Hv; by destruct Hv|]. by rewrite (proj2 (Hrem v) Hd) in Hv. }
  destruct (C28_drop e c M' I s' sched' f older P Hr Hw Hs' Hfi) as (vs2 & s2 & E2 & _ & Hin2 & _ & Hq & _); [intros v Hv; by apply HP, HM|].
  assert (vs2 = []) as ->.
  { destruct vs2 as [|v l]; [done|]. exfalso. destruct (proj1 (Hin2 v) ltac:(left)) as (H1 & H2 & H3). apply HM in H1 as [H1 H4]. by apply H4, Hin. }
  rewrite E2. cbn [map]. f_equal. apply map_eq. intros q. apply Hq. intros (v & Hv & _). by apply elem_of_nil in Hv.
Qed.
Print Assumptions C28_idempotent.

(** ** Cases *)

(** The collection, the dataset and the environment of Collection_Example meet
    the hypotheses. *)
Lemma X_says_rows w : w ∈ X_rows -> says X_part X_filter w (hd 0%Z w = 2%Z).
Proof.
  intros Hw. assert (exists a, w = [a]) as [a ->].
  { unfold X_rows in Hw. repeat (apply elem_of_cons in Hw as [->|Hw]); [by eexists..|by apply elem_of_nil in Hw]. }
  exact (X_says a).
Qed.
Example C19_case : exists dirs s' out v,
  exec (insert X_env X_scheds X_inner X_coll X_ds None (Some 1%Z) true) X_store = (Ok dirs, s') /\
  exec (load X_env X_coll false NoFilter (Some [lit "height"])) s' = (Ok (Some out), s') /\
  dget (d_vars out) (lit "height") = Some v /\ a_flat (v_array v) = map Num [5; 6; 7; 8; 9; 4]%Z /\ v_delayed v = false /\
  v_attrs v = [(lit "unit", lit "1")] /\ dget (d_vars out) (lit "time") = None.
Proof.
  destruct (C19_insert_load X_env X_coll X_ds X_rows None (Some 1%Z) true X_store X_scheds X_inner X_regular X_declared X_insertable) as (dirs & s' & E & H).
  { apply X_accepted. intros k [= <-]. done. }
  { apply X_empty. }
  destruct (H false (Some [lit "height"])) as (out & El & Hrs & Hdel). exists dirs, s', out.
  assert (Hn : lit "height" ∈ dkeys (d_vars out)).
  { apply (rs_names _ _ _ _ _ _ Hrs). split; [left|]. apply dget_is_Some. eexists. vm_compute. reflexivity. }
  apply dget_is_Some in Hn as [v Hv]. exists v.
  destruct (Hdel (lit "height") (X_var (lit "height") (lit "float64") [lit "time"; lit "x"] [3; 2] [5; 6; 7; 8; 9; 4]%Z) v ltac:(vm_compute; reflexivity) Hv) as (mv & Hmv & Ev).
  vm_compute in Hmv. injection Hmv as <-. split; [exact E|split; [exact El|split; [exact Hv|]]]. clear E El H Hdel. split_and!; [by rewrite Ev..|].
  destruct (dget (d_vars out) (lit "time")) as [x|] eqn:Ex; [|done]. exfalso.
  assert (Hin : lit "time" ∈ dkeys (d_vars out)) by (apply dget_is_Some; by eexists). apply (rs_names _ _ _ _ _ _ Hrs) in Hin as [Hin _].
  cbn in Hin. by apply elem_of_list_singleton in Hin.
Qed.
Example C19_filter_case : exists dirs s' out,
  exec (insert X_env X_scheds X_inner X_coll X_ds None None false) X_store = (Ok dirs, s') /\
  exec (load X_env X_coll true X_filter None) s' = (Ok (Some out), s') /\ restored X_coll true None [2] X_ds out.
Proof.
  destruct (C19_insert_load_filter X_env X_coll X_ds X_rows None None false X_store X_scheds X_inner X_filter (fun v => hd 0%Z v = 2%Z)
              X_regular X_declared X_insertable) as (dirs & s' & E & H).
  { by apply X_accepted. }
  { apply X_empty. }
  { apply X_filterable. }
  { intros v Hv. unfold X_rows in Hv. assert (exists a, v = [a]) as [a ->].
    { repeat (apply elem_of_cons in Hv as [->|Hv]); [by eexists..|by apply elem_of_nil in Hv]. }
    exact (X_says a). }
  destruct (H true None) as (r & El & Hr). destruct r as [out|].
  - destruct Hr as (ps & Hs & Hin & Hrs). exists dirs, s', out. split; [exact E|split; [exact El|]].
    assert (ps = [2]) as ->; [|exact Hrs]. clear -Hs Hin. apply sorted_same; [done|repeat constructor|]. intros i. rewrite Hin, elem_of_list_singleton. split.
    + intros (v & Hi & Hv). destruct i as [|[|[|i]]]; cbn in Hi; try done; injection Hi as <-; done.
    + intros ->. by exists [2%Z].
  - exfalso. clear E El H. apply (Hr [2%Z]); [|reflexivity]. unfold X_rows. right. right. left.
Qed.
Definition X_history : list call := [Insert X_ds X_rows None (Some 1%Z) false X_scheds X_inner; Drop X_filter None [(0, true)]].
Example C20_case : exists rs s' M, run_calls X_env X_coll X_history X_store = (rs, s') /\ shows X_env X_coll M s' /\
  is_Some (M [1%Z]) /\ M [2%Z] = None.
Proof.
  assert (Hal : Forall (allowed X_env X_coll) X_history) by (constructor; [exact X_insertable|constructor; [exact Logic.I|constructor]]).
  destruct (run_calls X_env X_coll X_history X_store) as [rs s'] eqn:E.
  destruct (C20_history _ _ _ _ _ _ _ _ _ _ _ X_creatable X_create X_regular Hal E) as (M & Hex & Hsh & _). exists rs, s', M. split; [reflexivity|split; [exact Hsh|]]. clear Hsh Hal. split.
  all: destruct (insert_total _ _ X_regular X_declared _ _ _ X_insertable (Some 1%Z) false ltac:(apply X_accepted; by intros k [= <-])
         _ _ X_store X_scheds X_inner X_empty ltac:(by left)) as (dirs & s1 & E1).
  all: cbn [run_calls run_call X_history] in E; rewrite E1 in E.
  all: destruct (exec (drop_partitions X_env [(0, true)] X_coll X_filter None) s1) as [r s2] eqn:E2; injection E as <- <-.
  all: inversion Hex as [|? ? ? ? ? M1 ? H1 H2]; subst; inversion H2 as [|? ? ? ? ? M2 ? H3 H4]; subst; inversion H4; subst.
  all: cbn [effect] in H1, H3.
  all: destruct (insert_spec _ _ X_regular X_declared _ _ _ X_insertable _ _ X_store X_scheds X_inner _ _ _ s1 X_empty E1) as (M' & I' & Hs1 & _ & Hins' & _).
  all: destruct (inserted_pieces _ _ _ _ _ H1) as (_ & _ & Hsome & _); destruct (inserted_pieces _ _ _ _ _ Hins') as (_ & _ & Hsome' & _).
  all: pose proof X_says_rows as Hsay.
  all: destruct (C28_drop X_env X_coll M' I' s1 [(0, true)] X_filter None (fun w => hd 0%Z w = 2%Z) X_regular eq_refl Hs1 X_filterable ltac:(intros w Hw; by apply Hsay, Hsome'))
    as (vs & s3 & E3 & _); rewrite E2 in E3; apply (f_equal fst) in E3; cbn [fst] in E3; subst r.
  all: destruct H3 as (vs' & Evs & Hvs & Hrem & Hwhich); specialize (Hwhich X_filterable (fun w => hd 0%Z w = 2%Z) ltac:(intros w Hw; by apply Hsay, Hsome)).
  - clear E1 E2 H2 H4 Hs1. rewrite (proj2 (Hrem [1%Z])); [apply Hsome; left|]. intros Hin. by apply Hwhich in Hin as (_ & ? & _).
  - clear E1 E2 H2 H4 Hs1. apply (proj1 (Hrem [2%Z])), Hwhich. split; [|split; [reflexivity|exact Logic.I]]. apply Hsome. right. right. left.
Qed.
Definition X_history' : list call := [Insert X_ds X_rows None (Some 1%Z) false (fun _ => [(0, false)]) (fun _ => [(3, true); (3, true)]); Drop X_filter None []].
Example C21_case : run_calls X_env X_coll X_history X_store = run_calls X_env X_coll X_history' X_store.
Proof.
  eapply C21_schedules; [exact X_creatable|exact X_create|exact X_regular| |].
  - constructor; [exact X_insertable|constructor; [exact Logic.I|constructor]].
  - constructor; [by split_and!|constructor; [by split|constructor]].
Qed.
