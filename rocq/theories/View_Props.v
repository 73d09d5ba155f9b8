(** * Views: what they write, and their synchronisation (C35, C36, C37) *)
From Verif Require Import Py Dict NdArray_Model NdArray_Spec NdArray_Proofs Dataset_Model Dataset_Spec Dataset_Proofs Meta_Model PartPath_Model PartPath_Proofs
  Split_Spec FS_Model FS_Proofs Pool_Model Pool_Proofs Storage_Model Storage_Spec Storage_Chunks Storage_Proofs Storage_Change
  Listing_Model Listing_Spec Listing_Proofs Collection_Model Collection_Spec Collection_Proofs Collection_State Collection_Select Update_Model
  Collection_Split Collection_Create Collection_Example Update_Example Validate_Props
  Index_Model View_Model View_Spec View_State View_Proofs View_Sync View_Init View_Example.

(** ** C35: what is written *)
Lemma used_within v w A (p : program A) : used v w A p -> within (fun _ => True) (under (w_dir w)) p.
Proof.
  intros H. destruct H; [apply within_view_parts|apply within_view_add|apply within_view_drop|apply within_view_load|apply within_view_update|apply within_view_map|
    apply within_view_map_overlap|apply within_is_synced|apply within_view_sync].
Qed.

(** An operation on a view changes no file outside the directory of the view,
    also at any point where it is interrupted. *)
Theorem C35_outside v w A (p p' : program A) (s u : store) : used v w A p -> rtc (step CTorn) (p, s) (p', u) ->
  forall q, ~ under (w_dir w) q -> u !! q = s !! q.
Proof. intros H Hs. eapply steps_outside; [by eapply used_within|done]. Qed.
(** So the partitions of the reference are what they were. *)
Theorem C35_reference v w M I A (p p' : program A) (s u : store) : apart (w_dir w) (c_dir (w_ref w)) -> represents (w_ref w) M I s ->
  used v w A p -> rtc (step CTorn) (p, s) (p', u) -> represents (w_ref w) M I u /\ forall q, under (c_dir (w_ref w)) q -> u !! q = s !! q.
Proof.
  intros Ha Hs Hp Hr. assert (H : forall q, under (c_dir (w_ref w)) q -> u !! q = s !! q).
  { intros q Hq. eapply C35_outside; [done..|]. intros U. by apply (Ha q). }
  split; [|done]. by eapply represents_frame.
Qed.
(** The creation of a view writes in the directory of the view only. *)
Theorem C35_create v reg sched d ref f (p' : program view) (s u : store) : rtc (step CTorn) (create_view v reg sched d ref f, s) (p', u) ->
  forall q, ~ under d q -> u !! q = s !! q.
Proof. intros Hs. eapply steps_outside; [apply within_create_view|done]. Qed.

(** ** C36: synchronisation *)
Section props.
  Context (v : venv) (w : view) (M : list Z -> option dataset) (I : option dataset) (V : list Z -> option vpart) (s : store).
  Context (Hw : viewable v w) (Hs : represents (w_ref w) M I s) (Hmo : forall x ds, M x = Some ds -> made_of (w_ref w) ds)
    (Hv : holds_view v w V s) (Hcol : no_collision v w M V) (Hne : exists x, is_Some (M x)).
  Local Notation keys := (p_keys (c_part (w_ref w))).

(** [sync()] synchronises all the partitions of the reference, and tells which
    ones it changed. Nothing else changes. *)
Theorem C36_sync sched sched' : exists s' V' changed,
  exec (sync v sched sched' w NoFilter) s = (Ok (w, map (zip keys) changed), s') /\ StronglySorted row_lt changed /\
  represents (w_ref w) M I s' /\ holds_view v w V' s' /\ (forall q, ~ under (w_dir w) q -> s' !! q = s !! q) /\
  (forall x ds, M x = Some ds -> exists p, V' x = Some p /\ synchronised w ds (V x) p (bool_decide (x ∈ changed))) /\
  (forall x, M x = None -> x ∉ changed /\ V' x = V x) /\ in_step w M V'.
Proof using All.
  destruct (sync_ok v w Hw M I Hmo V s sched sched' Hs Hv Hcol Hne) as (s' & V' & vs & D & Hso & Hvs & E & _ & H1 & H2 & H3 & H4 & H5 & _).
  exists s', V', vs. split_and!; try done.
  - intros x ds Hx. destruct (H4 x ds Hx) as (p & Hp & Hsy). exists p. split; [done|]. replace (bool_decide (x ∈ vs)) with (D x); [done|].
    destruct (D x) eqn:Ed; symmetry; [apply bool_decide_eq_true|apply bool_decide_eq_false]; rewrite Hvs; [split; [by eexists|done]|]. intros [_ ?]. congruence.
  - intros x Hx. split; [|by apply H5]. rewrite Hvs. intros [[ds ?] _]. congruence.
  - intros x ds Hx. destruct (H4 x ds Hx) as (p & Hp & Hsy). exists p. split; [done|]. unfold synchronised in Hsy. destruct (V x) as [p0|].
    + destruct Hsy as [(Ha & _ & ->)|(_ & _ & a & Ha & [(_ & [Hb _])|(_ & [Hb _])])]; done.
    + by destruct Hsy as [_ [? _]].
Qed.
(** It has nothing to do if and only if the view has all the partitions, with
    their axis; [is_synced] tells it, and changes nothing. *)
Theorem C36_is_synced sched : exists b, exec (is_synced v sched w) s = (Ok b, s) /\ (b = true <-> in_step w M V).
Proof using All.
  destruct (sync_ok v w Hw M I Hmo V s sched sched Hs Hv Hcol Hne) as (s' & V' & vs & D & Hso & Hvs & _ & E & H1 & H2 & H3 & H4 & H5 & _).
  eexists. split; [exact E|]. split.
  - intros Hb. destruct vs as [|]; [|done]. intros x ds Hx. destruct (H4 x ds Hx) as (p & Hp & Hsy).
    assert (D x = false) as Ed. { destruct (D x) eqn:Ed; [|done]. assert (x ∈ []) as Hin by (apply Hvs; split; [by eexists|done]). by apply elem_of_nil in Hin. }
    rewrite Ed in Hsy. unfold synchronised in Hsy. destruct (V x) as [p0|]; [|by destruct Hsy]. destruct Hsy as [(Ha & _ & _)|(_ & ? & _)]; [|done]. by exists p0.
  - intros Hi. destruct vs as [|x vs]; [done|]. exfalso. destruct (proj1 (Hvs x)) as [[ds Hds] Ed]; [left|].
    destruct (H4 x ds Hds) as (p & _ & Hsy). destruct (Hi x ds Hds) as (p0 & Hp0 & Ha). rewrite Hp0, Ed in Hsy. destruct Hsy as [(_ & ? & _)|(? & _)]; done.
Qed.
(** Then [sync()] changes no file: a second call has no effect. *)
Theorem C36_again sched sched' : in_step w M V -> exec (sync v sched sched' w NoFilter) s = (Ok (w, []), s).
Proof using All.
  intros Hi. destruct (sync_ok v w Hw M I Hmo V s sched sched' Hs Hv Hcol Hne) as (s' & V' & vs & D & Hso & Hvs & E & _ & H1 & H2 & H3 & H4 & H5 & H6).
  assert (vs = []) as ->.
  { destruct vs as [|x vs]; [done|]. exfalso. destruct (proj1 (Hvs x)) as [[ds Hds] Ed]; [left|].
    destruct (H4 x ds Hds) as (p & _ & Hsy). destruct (Hi x ds Hds) as (p0 & Hp0 & Ha). rewrite Hp0, Ed in Hsy. destruct Hsy as [(_ & ? & _)|(? & _)]; done. }
  rewrite E. by rewrite H6.
Qed.
End props.

(** A view that is in step has no collision: the theorems above apply after
    [sync]. *)
Theorem C36_step_again v w M V : in_step w M V -> no_collision v w M V.
Proof.
  intros Hi x ds p a Hm Hp (va & Ha & <-) _. destruct (Hi x ds Hm) as (p' & Hp' & vb & Hb & E). rewrite Hp in Hp'. injection Hp' as <-. rewrite Ha in Hb. injection Hb as <-. done.
Qed.

(** A view of a collection without partition cannot be synchronised. *)
Theorem C36_empty_refuted v w I s sched sched' : regular (ve_env v) (w_ref w) -> represents (w_ref w) (fun _ => None) I s ->
  exec (is_synced v sched w) s = (Raise TypeError, s) /\ exec (sync v sched sched' w NoFilter) s = (Raise TypeError, s).
Proof.
  intros Hr Hs. destruct (select_all (ve_env v) (w_ref w) Hr _ I s Hs) as (vss & _ & Hvs & Esel). pose proof (exec_ref_parts v w NoFilter s vss Esel) as E.
  assert (vss = []) as -> by (destruct vss as [|x l]; [done|]; destruct (proj1 (Hvs x)) as [? ?]; [left|done]).
  split.
  - unfold is_synced. by rewrite exec_bind, E.
  - unfold sync. rewrite exec_bind. cbn [exec pret]. by rewrite exec_bind, E.
Qed.

(** A case: the view has the partition "pass=1" with the first record only, the
    reference has two records there, and another partition. *)
Example C36_case : exists M s ds p a, viewable W_env W_view /\ represents (w_ref W_view) M None s /\ (forall x d, M x = Some d -> made_of (w_ref W_view) d) /\
  holds_view W_env W_view W_parts s /\ no_collision W_env W_view M W_parts /\
  M [1%Z] = Some ds /\ W_parts [1%Z] = Some p /\ axis_is (w_ref W_view) ds a /\ begins (vp_axis p) a /\ is_Some (M [2%Z]) /\ W_parts [2%Z] = None.
Proof.
  destruct W_filled as (M & s & Hs & HM & Hv & Hc). pose proof (fun x d => W_made M x d HM) as Hmo.
  destruct HM as (p1 & p2 & H1 & H2 & _ & _ & A1 & _). exists M, s, p1, (VPart W_axis [(lit "speed", W_var)]), (v_array (X_time [10; 20]%Z)).
  split; [exact W_viewable|]. split; [exact Hs|]. split; [exact Hmo|]. split; [exact Hv|]. split; [exact Hc|]. split; [exact H1|]. split; [reflexivity|].
  split; [by exists (X_time [10; 20]%Z)|]. split; [|split; [by eexists|reflexivity]]. split; [cbn; lia|]. intros [|i] x Hx; cbn in Hx; [|done]. injection Hx as <-. by exists 10%Z.
Qed.

(** ** C37: the partitions of the view *)
Section present.
  Context (v : venv) (w : view) (M : list Z -> option dataset) (I : option dataset) (V : list Z -> option vpart) (s : store).
  Context (Hw : viewable v w) (Hs : represents (w_ref w) M I s) (Hmo : forall x ds, M x = Some ds -> made_of (w_ref w) ds)
    (Hv : holds_view v w V s) (Hcol : no_collision v w M V).

(** [sync()] without filters creates the partitions that the view does not
    have, whatever the filters of the view. *)
Theorem C37_present_refuted x ds sched sched' : M x = Some ds -> V x = None -> nothing_at (vdir w x) s /\
  exists s' changed, exec (sync v sched sched' w NoFilter) s = (Ok (w, map (zip (p_keys (c_part (w_ref w)))) changed), s') /\ x ∈ changed /\ ~ nothing_at (vdir w x) s'.
Proof using All.
  intros Hx Hn. destruct (rp_part _ _ _ _ Hs _ _ Hx) as (Hl & _). split; [by eapply (view_nothing v w Hw)|].
  destruct (C36_sync v w M I V s Hw Hs Hmo Hv Hcol ltac:(by exists x) sched sched') as (s' & V' & changed & E & _ & _ & Hv' & _ & H4 & _).
  exists s', changed. split; [done|]. destruct (H4 x ds Hx) as (p & Hp & Hsy). rewrite Hn in Hsy. destruct Hsy as [Hb _]. split; [by apply bool_decide_eq_true in Hb|].
  intros Hno. destruct (hw_part _ _ _ _ Hv' _ _ Hp) as (_ & K). destruct (kt_axis _ _ _ _ K) as (_ & dt & Ks).
  destruct (kp_array _ _ Ks) as (cs & _ & Hz & _). rewrite !sub_lookup, Hno in Hz by apply under_app. done.
Qed.

(** With filters: the partitions that are selected and that the view did not
    have get the axis, and no variable; those are not reported. The others are
    synchronised, also those that are not selected. *)
Theorem C37_filtered sched sched' f (P : list Z -> Prop) `{!forall x, Decision (P x)} :
  f <> NoFilter -> filterable (w_ref w) -> (forall x, is_Some (M x) -> says (c_part (w_ref w)) f x (P x)) -> (exists x, is_Some (M x)) ->
  exists s' changed, exec (sync v sched sched' w f) s = (Ok (View (w_dir w) (w_ref w) (w_meta w) f, map (zip (p_keys (c_part (w_ref w)))) changed), s') /\
    StronglySorted row_lt changed /\ (forall q, ~ under (w_dir w) q -> s' !! q = s !! q) /\ (forall x, x ∈ changed -> is_Some (M x)) /\
    (forall x ds, M x = Some ds -> P x -> V x = None -> x ∉ changed /\ exists a, axis_is (w_ref w) ds a /\ bare v w (sub (vdir w x) s') a) /\
    (forall x ds, M x = Some ds -> ~ (P x /\ V x = None) -> exists p, keeps_part v w (sub (vdir w x) s') p /\ synchronised w ds (V x) p (bool_decide (x ∈ changed))).
Proof using All. intros. by eapply sync_filtered. Qed.
(** So the variables of the view are not created in the new partitions. *)
Theorem C37_complete_refuted sched sched' f (P : list Z -> Prop) `{!forall x, Decision (P x)} x ds :
  f <> NoFilter -> filterable (w_ref w) -> (forall x, is_Some (M x) -> says (c_part (w_ref w)) f x (P x)) -> M x = Some ds -> P x -> V x = None ->
  exists s' changed, exec (sync v sched sched' w f) s = (Ok (View (w_dir w) (w_ref w) (w_meta w) f, map (zip (p_keys (c_part (w_ref w)))) changed), s') /\ x ∉ changed /\
    ~ nothing_at (vdir w x) s' /\ forall n, n ∈ dkeys (md_vars (w_meta w)) -> nothing_at (vdir w x ++ [n]) s'.
Proof using All.
  intros Hf Hfi Hsa Hx HP Hn. destruct (C37_filtered sched sched' f P Hf Hfi Hsa ltac:(by exists x)) as (s' & changed & E & _ & _ & _ & Hb & _).
  exists s', changed. split; [done|]. destruct (Hb x ds Hx HP Hn) as (Hc & a & _ & [B1 _ (dt & B3)]). split; [done|]. split.
  - intros Hno. destruct (kp_array _ _ B3) as (cs & _ & Hz & _). rewrite !sub_lookup, Hno in Hz by apply under_app. done.
  - intros n Hin q (r & ->). destruct (s' !! _) as [y|] eqn:Ey; [|done]. exfalso. rewrite <-app_assoc, <-sub_lookup in Ey. destruct (B1 _ _ Ey) as (f' & [= -> _]).
    apply dget_is_Some in Hin as [mv Hmv]. destruct (vw_vars _ _ Hw _ _ Hmv) as (_ & ? & _). done.
Qed.
End present.
Example C37_case : exists M s ds, represents (w_ref W_view) M None s /\ holds_view W_env W_view W_parts s /\ no_collision W_env W_view M W_parts /\
  X_filter <> NoFilter /\ filterable (w_ref W_view) /\ (forall x, is_Some (M x) -> says (c_part (w_ref W_view)) X_filter x (nth 0 x 0%Z = 2%Z)) /\
  M [2%Z] = Some ds /\ W_parts [2%Z] = None /\ lit "speed" ∈ dkeys (md_vars (w_meta W_view)).
Proof.
  destruct W_filled as (M & s & Hs & HM & Hv & Hc). destruct HM as (p1 & p2 & H1 & H2 & H3 & _). exists M, s, p2.
  split; [exact Hs|]. split; [exact Hv|]. split; [exact Hc|]. split; [done|]. split; [exact Y_filterable|]. split; [|split; [exact H2|split; [reflexivity|left]]].
  intros x [ds Hx]. destruct (decide (x = [1%Z])) as [->|N1]; [apply X_says|]. destruct (decide (x = [2%Z])) as [->|N2]; [apply X_says|]. by rewrite H3 in Hx.
Qed.

Print Assumptions C35_outside.
Print Assumptions C35_reference.
Print Assumptions C35_create.
Print Assumptions C36_sync.
Print Assumptions C36_is_synced.
Print Assumptions C36_again.
Print Assumptions C36_step_again.
Print Assumptions C36_empty_refuted.
Print Assumptions C37_present_refuted.
Print Assumptions C37_filtered.
Print Assumptions C37_complete_refuted.
