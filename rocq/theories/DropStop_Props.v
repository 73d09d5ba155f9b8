(** * Properties of a removal of partitions that is interrupted *)
From Verif Require Import Py Dict NdArray_Model NdArray_Proofs Dataset_Model Dataset_Spec Meta_Model PartPath_Model PartPath_Proofs
  Split_Spec FS_Model FS_Proofs Pool_Model Pool_Proofs Storage_Model Storage_Spec Storage_Proofs
  Listing_Model Listing_Spec Listing_Proofs Listing_Props Collection_Model Collection_Spec Collection_Proofs Collection_State Collection_Select Collection_Load
  Collection_Example Collection_Props Crash_Spec Collection_Crash Crash_Props Update_Model Update_Spec Update_Proofs Update_Example Validate_Spec Validate_Proofs Validate_Props ValidateStop_Props Assemble_Proofs.

Section stop.
Context (e : env) (c : collection) (filt : filter) (P : list Z -> Prop).

(** The removal of directories that are there, in any state. *)
Lemma exec_rm_standing u sched vs : NoDup vs -> (forall v, v ∈ vs -> stands c u v) ->
  exec (execute_transaction CTorn sched (map rm (map (part_dir c) vs))) u = (Ok (map (fun _ => tt) vs), prune_all c u vs).
Proof.
  intros Hnd Hv. set (ps := map rm (map (part_dir c) vs) : list (program unit)).
  assert (Hlen : forall v, v ∈ vs -> length v = length (p_keys (c_part c))) by (intros v Hin; by apply Hv in Hin as [? _]).
  set (W := fun i q => match vs !! i with Some v => under (part_dir c v) q | None => False end).
  assert (Hlk : forall i p, ps !! i = Some p -> exists v, vs !! i = Some v /\ p = rm (part_dir c v)).
  { intros i p. unfold ps. rewrite map_map. change (map ?f vs) with (f <$> vs). rewrite list_lookup_fmap. destruct (vs !! i) as [v|]; [|done]. intros [= <-]. eauto. }
  assert (Hind : independent ps (fun _ _ => False) W).
  { split.
    - intros i p E. apply Hlk in E as (v & Ei & ->). apply within_rm. intros q Hq. unfold W. by rewrite Ei.
    - intros i j p p' Ei Ej N q Wi [?|Wj]; [done|]. apply Hlk in Ei as (v & Ei & _), Ej as (v' & Ej & _). unfold W in *. rewrite Ei in Wi. rewrite Ej in Wj.
      refine (parts_apart c v v' _ _ _ q Wi Wj); try (apply Hlen; by eapply elem_of_list_lookup_2). intros ->. apply N. by eapply NoDup_lookup. }
  assert (Hdec : forall i q, Decision (W i q)) by (intros i q; unfold W; destruct (vs !! i); apply _).
  rewrite (exec_transaction CTorn sched ps (fun _ _ => False) W u Hdec Hind).
  destruct (exec_all_spec CTorn ps (fun _ _ => False) W u Hind) as (E1 & E2 & E3).
  assert (Hex : forall v, v ∈ vs -> exec (rm (part_dir c v)) u = (Ok tt, prune (part_dir c v) u)).
  { intros v Hin. rewrite exec_rm. destruct (empty_at (part_dir c v) u) eqn:Em; [|done]. exfalso. apply nothing_empty in Em.
    apply Hv in Hin as [_ (a & f & x & Ex)]. fold (part_dir c v) in Ex. rewrite (Em _ (under_app _ _)) in Ex. done. }
  f_equal.
  - rewrite E1. apply first_error_Ok. unfold ps. rewrite !map_map. apply map_ext_in. intros v Hin. rewrite Hex by (by apply elem_of_list_In). done.
  - apply map_eq. intros q. rewrite prune_all_lookup. destruct (decide _) as [X|X].
    + apply Exists_exists in X as (v & Hin & U). pose proof Hin as Hin'. apply elem_of_list_lookup in Hin as [i Hi].
      rewrite (E2 i (rm (part_dir c v)) q).
      * rewrite Hex by done. cbn. by rewrite prune_lookup, decide_True.
      * unfold ps. rewrite map_map. change (map ?f vs) with (f <$> vs). by rewrite list_lookup_fmap, Hi.
      * right. unfold W. by rewrite Hi.
    + apply E3. intros i p Ei Wi. apply Hlk in Ei as (v & Ei & _). unfold W in Wi. rewrite Ei in Wi. apply X, Exists_exists. exists v.
      split; [by eapply elem_of_list_lookup_2|done].
Qed.

(** Called again, with the same filter, a removal that was stopped leaves what
    it would have left; it returns the partitions that were still there. *)
Theorem C107_again M I s sched sched' u :
  regular e c -> c_readonly c = false -> represents c M I s -> filterable c -> (forall v, is_Some (M v) -> says (c_part c) filt v (P v)) ->
  stopped_at (drop_partitions e sched c filt None) s u ->
  exists vs vs' s', exec (drop_partitions e sched c filt None) s = (Ok (map (part_dir c) vs), s') /\
    exec (drop_partitions e sched' c filt None) u = (Ok (map (part_dir c) vs'), s') /\
    StronglySorted row_lt vs' /\ forall v, v ∈ vs' <-> v ∈ vs /\ stands c u v.
Proof.
  intros Hr Hw Hs Hfi HP Hu. pose proof (C50_drop_stopped e c M I s sched filt None P u Hr Hs Hfi HP Hu) as Hq.
  destruct (C28_drop e c M I s sched filt None P Hr Hw Hs Hfi HP) as (vs & s' & E & _ & Hvs & Hgone & Hkept & _).
  assert (Hsub : forall q x, u !! q = Some x -> s !! q = Some x) by (intros q x Hx; destruct (Hq q) as [X|[X _]]; congruence).
  assert (Hlo : laid_out (c_part c) (c_dir c) u).
  { intros q x Hx. destruct (represents_laid_out c M I s Hs q x (Hsub _ _ Hx)) as [(a & -> & Hn)|[?|?]]; [left|by right; left|by right; right].
    exists a. split; [done|]. intros (b & f & y & Hy). apply Hn. exists b, f, y. by apply Hsub. }
  assert (Hst : forall v, stands c u v -> is_Some (M v)).
  { intros v (Hl & a & f & x & Hx). apply (represents_directory e c Hr M I s v Hs). split; [done|]. exists a, f, x. by apply Hsub. }
  destruct (select_filter_laid e c Hr u filt P Hlo Hfi) as (vs' & Hso & Hin & Esel).
  { intros v Hv. by apply HP, Hst. }
  exists vs, vs', s'. split; [exact E|].
  assert (Hiff : forall v, v ∈ vs' <-> v ∈ vs /\ stands c u v).
  { intros v. rewrite Hin, Hvs. split; [intros [Hv HPv]; split; [|exact Hv]; split; [by apply Hst|done]|]. intros [(_ & HPv & _) Hv]. by split. }
  split; [|by split].
  assert (Hfin : prune_all c u vs' = s').
  { apply map_eq. intros q. rewrite prune_all_lookup. destruct (decide _) as [X|X].
    - apply Exists_exists in X as (v & Hv & U). apply Hiff in Hv as [Hv _]. symmetry. by apply (Hgone v).
    - destruct (decide (Exists (fun v => under (part_dir c v) q) vs)) as [Y|Y].
      + apply Exists_exists in Y as (v & Hv & U). rewrite (Hgone v q Hv U). destruct (u !! q) as [x|] eqn:Ex; [|done]. exfalso. apply X, Exists_exists. exists v. split; [|done].
        apply Hiff. split; [done|]. apply Hvs in Hv as (Hm & _). pose proof (proj2 (represents_directory e c Hr M I s v Hs) Hm) as [Hl _]. split; [done|]. destruct U as (f & ->).
        destruct f as [|a f]; [|by exists a, f, x]. exfalso. apply Hsub in Ex. destruct Hm as [d Hd]. destruct (rp_part _ _ _ _ Hs _ _ Hd) as (_ & _ & Hn0 & _). rewrite sub_lookup in Hn0. congruence.
      + rewrite Hkept by (intros (v & Hv & U); apply Y, Exists_exists; by exists v). destruct (Hq q) as [|(_ & v & Hm & HPv & _ & U)]; [done|]. exfalso. apply Y, Exists_exists. exists v. split; [|done]. by apply Hvs. }
  unfold drop_partitions. rewrite Hw, exec_bind, Esel. destruct (map (part_dir c) vs') as [|x l] eqn:El; [destruct vs'; [|done]; cbn; by rewrite <-Hfin|].
  cbv zeta. rewrite <-El, exec_bind, exec_rm_standing; [by rewrite Hfin| |].
  - by apply sorted_nodup_rows.
  - intros v Hv. by apply Hiff in Hv as [_ ?].
Qed.

(** Read as data: a removal that begins with the chunks of a selected partition,
    and is stopped there, leaves a partition that is listed, that can be read,
    where all the values are the fill value, and that validate_partitions does
    not report. *)
Theorem C108_data_refuted M I s v old :
  regular e c -> c_readonly c = false -> represents c M I s -> filterable c -> (forall v, is_Some (M v) -> says (c_part c) filt v (P v)) ->
  M v = Some old -> P v ->
  exists sched u, stopped_at (drop_partitions e sched c filt None) s u /\
    (forall q, ~ under (part_dir c v) q -> u !! q = s !! q) /\
    stands c u v /\
    (forall delayed, exists got, exec (open_zarr_group (part_dir c v) delayed None) u = (Ok got, u) /\
      forall n w, dget (d_vars old) n = Some w -> exists w', dget (d_vars got) n = Some w' /\ v_shape w' = v_shape w /\
        forall x, x ∈ a_flat (v_array w') -> x = default (Num 0) (v_fill w)) /\
    forall finish fix_, (forall l, finish l ≡ₚ l) -> exec (validate_partitions e finish c filt fix_) u = (Ok [], u).
Proof.
  intros Hr Hw Hs Hfi HP HM HPv. assert (Hv : is_Some (M v)) by (by eexists). set (d := part_dir c v).
  set (kept := fun p : path => match strip d p with Some q => Crash_Props.bare q | None => true end).
  set (u := base.filter (fun kc : path * content => kept kc.1 = true) s : store).
  assert (Lu : forall p, u !! p = if kept p then s !! p else None).
  { intros p. unfold u. destruct (kept p) eqn:K.
    - destruct (s !! p) as [x|] eqn:Ex; [by apply map_filter_lookup_Some|]. apply map_filter_lookup_None. by left.
    - apply map_filter_lookup_None. right. intros x _ N. cbn in N. congruence. }
  assert (Lin : forall q, u !! (d ++ q) = if Crash_Props.bare q then s !! (d ++ q) else None) by (intros q; rewrite Lu; unfold kept; by rewrite strip_app).
  assert (Lout : forall q, ~ under d q -> u !! q = s !! q) by (intros q Hq; rewrite Lu; unfold kept; apply strip_None in Hq as ->; done).
  assert (Hu : forall q, u !! q = s !! q \/ (under d q /\ u !! q = None)).
  { intros q. destruct (decide (under d q)) as [U|U]; [|left; by apply Lout]. pose proof U as (f & ->). rewrite Lin. destruct (Crash_Props.bare f); [by left|by right]. }
  destruct (represents_readable c M I s v Hs Hv) as (m & Hm & Hg & Hall). fold d in Hm.
  assert (Hm' : sub d u !! [ZMETADATA] = Some (CCons m)) by (rewrite sub_lookup in Hm |- *; by rewrite Lin).
  assert (Hread : readable (sub d u)).
  { exists m. split; [exact Hm'|]. split; [exact Hg|]. intros n' x Hx. destruct (Hall n' x Hx) as (z' & -> & Hz').
    exists z'. split; [done|]. intros i Hi. specialize (Hz' i Hi). cbn zeta in Hz' |- *. rewrite sub_lookup in Hz' |- *. fold d in Hz'.
    destruct (Hu (d ++ [n'; chunk_key (chunk_of (z_chunks z') i)])) as [->|[_ ->]]; [done|by left]. }
  assert (Hall' : forall w, stands c u w -> readable (sub (part_dir c w) u)).
  { intros w Hw'. apply (missing_stands e c M I s u v Hr Hs Hu) in Hw'. destruct (decide (w = v)) as [->|N]; [done|].
    rewrite (missing_sub c M I s u v Hs Hv Hu) by done. by apply (represents_readable c M I). }
  destruct (select_filter e c Hr M I s filt P Hs Hfi HP) as (vs & H1 & H2 & H3).
  assert (exists i, vs !! i = Some v) as [i Hi] by (apply elem_of_list_lookup, H2; by split).
  exists [(i, false)], u. split.
  { unfold drop_partitions. rewrite Hw. eapply stopped_then; [exact H3|]. destruct (map (part_dir c) vs) as [|x l] eqn:El; [by destruct vs|]. cbv zeta. rewrite <-El. apply stopped_first.
    unfold execute_transaction. apply stopped_first. cbn [interleave].
    assert (Hlk : map rm (map (part_dir c) vs) !! i = Some (rm (C := content) d)).
    { rewrite map_map. change (map ?f vs) with (f <$> vs). by rewrite list_lookup_fmap, Hi. }
    rewrite Hlk. unfold rm at 1. eexists. apply rtc_once. apply step_rm.
    - apply empty_at_false. rewrite sub_lookup in Hm. exists (d ++ [ZMETADATA]), (CCons m). split; [apply under_app|done].
    - exact Hu. }
  split; [exact Lout|]. split.
  { split; [by apply (len_of c M I s Hs)|]. rewrite sub_lookup in Hm'. by exists ZMETADATA, [], (CCons m). }
  split.
  { intros delayed. destruct (rp_part _ _ _ _ Hs _ _ HM) as (_ & [Ho Hno] & [_ Hh]).
    pose proof (holds_bare _ (sub d u) _ _ Hh ltac:(intros q; rewrite !sub_lookup; apply Lin)) as Hb.
    destruct (read_group_ok _ _ _ delayed None (dget (d_dims old)) Hb) as (got & E & _ & _ & _ & _ & _ & Hgot).
    - intros n w Hn. rewrite (dget_map_vals (fun _ => Crash_Props.blank)), dget_stored in Hn. destruct (dget (d_vars old) n) as [w0|] eqn:E0; [|done]. injection Hn as <-.
      apply (proj2 (proj2 (proper_consistent _ (storable_proper _ Ho) n w0 E0))).
    - intros n w Hn. rewrite (dget_map_vals (fun _ => Crash_Props.blank)) in Hn. destruct (dget (stored_vars (d_vars old)) n) as [w0|]; [|done]. injection Hn as <-.
      unfold arr_wf. cbn. rewrite map_length. apply indices_length.
    - exists got. split; [cbn; by rewrite E|]. intros n w Hn. exists (with_delayed (Crash_Props.blank (stored w)) delayed). split_and!; [|done|].
      + apply Hgot. split; [done|]. exists (Crash_Props.blank (stored w)). split; [|done]. by rewrite (dget_map_vals (fun _ => Crash_Props.blank)), dget_stored, Hn.
      + cbn. intros x Hin. apply elem_of_list_In, in_map_iff in Hin as (_ & <- & _). done. }
  intros finish' fix_ Hp'.
  destruct (C45_validate e c filt P finish' u fix_ Hr (missing_laid e c M I s u v Hr Hs Hu) Hfi) as (vs0 & u' & E' & _ & Hvs & Hq); [|done| |].
  { intros w Hw'. apply HP. by apply (missing_stands e c M I s u v Hr Hs Hu). }
  { intros w Hw' _. by apply readable_indexed, Hall'. }
  rewrite E'. destruct vs0 as [|w vs0]; [|exfalso; destruct (proj1 (Hvs w) ltac:(left)) as (Hw' & _ & Hno); by apply Hno, Hall'].
  f_equal. apply map_eq. intros q. apply Hq. right. intros w Hw'. by apply elem_of_nil in Hw'.
Qed.
End stop.
Print Assumptions C107_again.
Print Assumptions C108_data_refuted.

(** ** A concrete case *)

(** The two partitions are removed, and the call is stopped when the chunks of
    the first one are gone: it shows the fill value instead of its passes. The call made
    again removes both. *)
Example C107_case : exists M s sched u got w l s', represents Y_coll M None s /\ is_Some (M [1%Z]) /\ is_Some (M [2%Z]) /\
  stopped_at (drop_partitions X_env sched Y_coll NoFilter None) s u /\
  exec (open_zarr_group (part_dir Y_coll [1%Z]) false None) u = (Ok got, u) /\ dget (d_vars got) (lit "pass") = Some w /\ v_shape w = [2] /\
  (forall x, x ∈ a_flat (v_array w) -> x <> Num 1) /\
  exec (drop_partitions X_env [] Y_coll NoFilter None) u = (Ok l, s') /\
  forall q, (exists v, (v = [1%Z] \/ v = [2%Z]) /\ under (part_dir Y_coll v) q) -> s' !! q = None.
Proof.
  destruct Y_filled as (M & s & Hs & Hu & (p1 & p2 & H1 & H2 & H3 & _ & Ht1 & Hp1 & _)).
  destruct (C108_data_refuted X_env Y_coll NoFilter (fun _ => True) M None s [1%Z] p1 Y_regular eq_refl Hs Y_filterable ltac:(done) H1 Logic.I)
    as (sched & u & Hst & Hout & Hsv & Hread & _).
  destruct (Hread false) as (got & Eg & Hg). destruct (Hg _ _ Hp1) as (w & Ew & Hsh & Hx).
  destruct (C107_again X_env Y_coll NoFilter (fun _ => True) M None s sched [] u Y_regular eq_refl Hs Y_filterable ltac:(done) Hst)
    as (vs & vs' & s' & E1 & E2 & Hso & Hin).
  destruct (C28_drop X_env Y_coll M None s sched NoFilter None (fun _ => True) Y_regular eq_refl Hs Y_filterable ltac:(done)) as (vs0 & s0 & E0 & _ & Hvs & Hgone & _ & _).
  rewrite E1 in E0. injection E0 as Em <-.
  exists M, s, sched, u, got, w. eexists. exists s'. split; [exact Hs|]. split; [by eexists|]. split; [by eexists|]. split; [exact Hst|]. split; [exact Eg|]. split; [exact Ew|]. split; [exact Hsh|].
  split; [intros x Hi E; apply Hx in Hi; rewrite E in Hi; discriminate Hi|]. split; [exact E2|]. intros q (v & Hv & U). apply (Hgone v q); [|exact U]. apply Hvs. split; [destruct Hv as [->| ->]; by eexists|done].
Qed.
