(** * Properties of a synchronisation of a view that is interrupted *)
From Verif Require Import Py Dict NdArray_Model NdArray_Spec NdArray_Proofs Dataset_Model Dataset_Spec Dataset_Proofs Meta_Model PartPath_Model PartPath_Proofs PartPath_Props
  Split_Spec FS_Model FS_Proofs Pool_Model Pool_Proofs Storage_Model Storage_Spec Storage_Chunks Storage_Proofs Storage_Change
  Listing_Model Listing_Spec Listing_Proofs Collection_Model Collection_Spec Collection_Proofs Collection_State Collection_Select Collection_Load Collection_Example Crash_Spec Crash_Props Update_Model Update_Example Validate_Props
  Index_Model View_Model View_Spec View_State View_Proofs View_Sync View_Init View_Example View_Props Collection_Crash ViewSync_Props.

Section stop.
  Context (v : venv) (w : view) (Hw : viewable v w) (ds : dataset) (Hds : sound ds) (Hmo : made_of (w_ref w) ds).
  Local Notation c := (w_ref w).
  Local Notation dim := (c_dim (w_ref w)).

  (** A partition that gets longer may be found with its arrays longer and the
      former digest. *)
  Lemma extend_stop d s p x : keeps_part v w (sub d s) p -> dget (d_vars ds) (c_axis c) = Some x -> v_dims x = [dim] ->
    length (a_flat (vp_axis p)) <= length (a_flat (v_array x)) ->
    exists u dt a, stopped_at (extend_partition v d (AxisRef (v_array x) (v_dtype x) dim (ve_digest v (v_array x)))) s u /\ same_out d s u /\
      keeps (sub (d ++ [CHECKSUM]) u) (with_array (sum_var v w dt (vp_axis p)) a) /\ length (a_flat a) = length (a_flat (v_array x)).
  Proof using Hds Hw.
    intros K Ex Ed Hlen. destruct (axis_size w ds Hds x Ex Ed) as (n & Hn1 & Hn2 & Hn3).
    destruct (kt_axis _ _ _ _ K) as (Har & dt & Ks). rewrite sub_sub in Ks.
    assert (Hax : exists m, a_shape (vp_axis p) = [m] /\ length (a_flat (vp_axis p)) = m).
    { pose proof (kp_wf _ _ Ks) as W. cbn in W. unfold arr_wf in W. destruct (a_shape (vp_axis p)) as [|m [|]]; try done. exists m. split; [done|]. rewrite W. cbn. lia. }
    destruct Hax as (m & Hm1 & Hm2).
    unfold extend_partition. cbn [ar_array ar_dim]. rewrite Hn1. set (l := children (e_order (ve_env v)) [] (sub d s)).
    assert (Hl : forall k, k ∈ l <-> k = CHECKSUM \/ k ∈ dkeys (md_vars (w_meta w))).
    { intros k. unfold l. rewrite (children_elem _ (rg_order _ _ (vw_regular _ _ Hw))). cbn [app]. split.
      - intros (f & y & E). destruct (kt_names _ _ _ _ K _ _ E) as (k' & f' & [= -> ->] & H). done.
      - intros [->|Hk].
        + exists [ZARRAY]. destruct (kp_array _ _ Ks) as (cs & _ & Hz & _). rewrite sub_lookup, <-app_assoc in Hz. cbn [app] in Hz. eexists. by rewrite sub_lookup.
        + apply (kt_same _ _ _ _ K), dget_is_Some in Hk as [y Hy]. destruct (kt_vars _ _ _ _ K _ _ Hy) as (mv & _ & _ & Ky).
          destruct (kp_array _ _ Ky) as (cs & _ & Hz & _). rewrite sub_lookup in Hz. cbn [app] in Hz. by exists [ZARRAY], (CMeta (MArray (zarr_for y cs))). }
    set (old := sum_var v w dt (vp_axis p)).
    destruct (exec_each d id (fun name => extend_array dim n (d ++ [name])) (fun name u => name = CHECKSUM -> keeps u (View_Proofs.extended w n old)) l s) as (s1 & E1 & P1 & O1).
    { rewrite map_id. apply children_nodup, (rg_order _ _ (vw_regular _ _ Hw)). }
    { unfold id. intros k s' Hk Es. apply Hl in Hk as [->|Hk].
      - destruct (exec_extend_array w n (d ++ [CHECKSUM]) s' old 0) as (s1 & E1 & O1 & K1).
        + by rewrite Es.
        + cbn. by rewrite decide_True.
        + intros m'. unfold old. cbn. unfold v_shape. cbn. rewrite Hm1. intros [= <-]. lia.
        + exists s1. split_and!; [done..|]. done.
      - apply (kt_same _ _ _ _ K), dget_is_Some in Hk as [y Hy]. destruct (kt_vars _ _ _ _ K _ _ Hy) as (mv & _ & _ & Ky). rewrite sub_sub in Ky.
        destruct (part_var v w Hw _ _ _ _ K Hy) as (N & _ & i & Ei & _ & Esz).
        destruct (exec_extend_array w n (d ++ [k]) s' y i) as (s1 & E1 & O1 & K1); [by rewrite Es|done| |].
        + intros m'. rewrite Esz. intros [= <-]. lia.
        + exists s1. split_and!; [done..|]. done. }
    unfold id in P1, O1. exists s1, dt, (v_array (View_Proofs.extended w n old)). split_and!.
    - apply stopped_catch. eapply stopped_then; [apply exec_get_tree|]. apply stopped_first. eapply stopped_end. exact E1.
    - intros y Hy. apply O1. intros k _ U. apply Hy. by eapply under_snoc.
    - apply (P1 CHECKSUM); [apply Hl; by left|done].
    - assert (View_Proofs.extended w n old = with_array old (grow 0 n old)) as -> by (unfold View_Proofs.extended, old; cbn; by rewrite decide_True).
      change (v_array (with_array old (grow 0 n old))) with (grow 0 n old). assert (W : arr_wf (grow 0 n old)) by apply tabulate_wf. unfold arr_wf in W. rewrite W, Hn2.
      unfold grow, old. cbn. unfold v_shape. cbn. rewrite Hm1. cbn. lia.
  Qed.

  (** The synchronisation of a partition that was found so makes it again. *)
  Lemma sync_again q s dt a0 a x : keeps (sub ((w_dir w ++ q) ++ [CHECKSUM]) s) (with_array (sum_var v w dt a0) a) -> holds_dataset (sub (c_dir c ++ q) s) ds ->
    dget (d_vars ds) (c_axis c) = Some x -> length (a_flat a) = length (a_flat (v_array x)) -> ve_digest v (v_array x) <> ve_digest v a0 ->
    exists s1 p, exec (sync_one v w false q) s = (Ok (Some q), s1) /\ same_out (w_dir w ++ q) s s1 /\ keeps_part v w (sub (w_dir w ++ q) s1) p /\ renewed w ds p.
  Proof using Hds Hmo Hw.
    intros Ks Ht Ex Hlen Hdg. set (d := w_dir w ++ q) in *.
    destruct (keeps_read _ _ Ks) as (cs & _ & Hz & Hread). pose proof Hz as Hz'. rewrite sub_lookup, <-app_assoc in Hz'.
    assert (empty_at d s = false) as Hne.
    { apply empty_at_false. exists (d ++ [CHECKSUM] ++ [ZARRAY]). eexists. split; [apply under_app|]. exact Hz'. }
    destruct (tree_axis v w ds Hmo _ Ht) as (x' & Ex' & Edx & Eax). rewrite Ex in Ex'. injection Ex' as <-.
    destruct (exec_sync_partition v w Hw ds Hds Hmo q (prune d s)) as (s1 & p' & E1 & O1 & K1 & R1).
    { intros y Hy. by rewrite prune_lookup, decide_True. }
    { rewrite (same_out_sub d (c_dir c ++ q) s (prune d s)); [done| |apply same_out_prune]. eapply apart_under; [apply (vw_apart _ _ Hw)|apply under_app..]. }
    exists s1, p'. split_and!; [|eapply same_out_trans; [apply same_out_prune|exact O1]|done|done].
    unfold sync_one. cbv zeta. fold d. rewrite exec_bind, exec_exists, Hne. cbn [negb]. cbv iota.
    rewrite exec_bind, (exec_open_array (d ++ [CHECKSUM]) s _ ltac:(rewrite <-sub_lookup; exact Hz)). cbv iota beta.
    rewrite exec_bind, (exec_open_group w ds q s _ eq_refl Ht). cbv iota beta. rewrite exec_bind, Eax. cbn [exec].
    rewrite exec_bind, (exec_array_attrs (d ++ [CHECKSUM]) s _ _ ltac:(rewrite <-sub_lookup; exact (kp_attrs _ _ Ks))). cbv iota beta. cbn [fst].
    change (dget (v_attrs (with_array (sum_var v w dt a0) a)) CHECKSUM_ATTR) with (Some (ve_digest v a0)). cbv iota beta. cbn [ar_digest].
    rewrite bool_decide_eq_false_2 by done. rewrite exec_bind, exec_get_tree. cbv iota beta. rewrite exec_bind. cbn [exec]. rewrite Hread. cbn [ar_array].
    change (v_array (with_array (sum_var v w dt a0) a)) with a.
    assert (is_extended a (v_array x) = false) as -> by (unfold is_extended; rewrite Hlen, Nat.ltb_irrefl; done).
    rewrite exec_bind, exec_bind, exec_rm, Hne. cbv iota beta. rewrite E1. done.
  Qed.
End stop.

(** ** C113: the values of the variables of a view are kept when a synchronisation is interrupted and made again *)

(** The claim is false of the code. A partition of the reference got longer: the
    synchronisation keeps the values of the view. It may be stopped where a new
    synchronisation makes the partition again, and all the values are lost. *)
Theorem C113_kept_refuted v w M I V s x ds p a sched : viewable v w -> represents (w_ref w) M I s -> (forall x ds, M x = Some ds -> made_of (w_ref w) ds) ->
  holds_view v w V s -> no_collision v w M V ->
  M x = Some ds -> V x = Some p -> axis_is (w_ref w) ds a -> begins (vp_axis p) a -> (forall y, is_Some (M y) -> y = x \/ row_lt x y) ->
  (exists ids s' p', exec (sync v sched [] w NoFilter) s = (Ok (w, ids), s') /\ keeps_part v w (sub (vdir w x) s') p' /\ stretched w ds p p') /\
  exists u, stopped_at (sync v sched [] w NoFilter) s u /\
    forall sched1 sched2, exists ids u' p', exec (sync v sched1 sched2 w NoFilter) u = (Ok (w, ids), u') /\ keeps_part v w (sub (vdir w x) u') p' /\ renewed w ds p'.
Proof.
  intros Hw Hs Hmo Hv Hcol Hx Hp Hax Hbe Hfirst. assert (Hne : exists x, is_Some (M x)) by (exists x; by rewrite Hx).
  assert (Hdg : ve_digest v a <> ve_digest v (vp_axis p)).
  { intros E. pose proof (Hcol x ds p a Hx Hp Hax E) as ->. destruct Hbe as [L _]. lia. }
  split.
  { destruct (C36_sync v w M I V s Hw Hs Hmo Hv Hcol Hne sched []) as (s' & V' & ch & E & _ & _ & HV' & _ & H1 & _). destruct (H1 x ds Hx) as (p' & Hp' & Hsy).
    eexists _, s', p'. split; [exact E|]. split; [by destruct (hw_part _ _ _ _ HV' _ _ Hp')|]. rewrite Hp in Hsy. destruct Hsy as [(Ha & _)|(_ & _ & a' & Ha' & [[_ ?]|[Nb _]])]; [|done|].
    - exfalso. destruct Hax as (y & Ey & <-), Ha as (y' & Ey' & Ea). rewrite Ey in Ey'. injection Ey' as <-. by rewrite Ea in Hdg.
    - exfalso. apply Nb. destruct Hax as (y & Ey & <-), Ha' as (y' & Ey' & <-). rewrite Ey in Ey'. by injection Ey' as <-. }
  destruct (rp_part _ _ _ _ Hs _ _ Hx) as (Hl & Hso & Hh). destruct (hw_part _ _ _ _ Hv _ _ Hp) as (_ & K).
  destruct (tree_axis v w ds (Hmo _ _ Hx) _ Hh) as (y & Ey & Edy & Eay). assert (v_array y = a) as Eya by (by apply (axis_is_iff w ds y a)).
  destruct (extend_stop v w Hw ds Hso (vdir w x) s p y K Ey Edy) as (u & dt & a1 & Hst & Hout & Ku & Hlen); [rewrite Eya; destruct Hbe; lia|].
  set (kd := key_dirs (c_part (w_ref w))) in *.
  assert (Hsame : forall z ds', M z = Some ds' -> sub (part_dir (w_ref w) z) u = sub (part_dir (w_ref w) z) s).
  { intros z ds' _. apply (same_out_sub (vdir w x)); [|done]. apply (vdir_part v w Hw). }
  assert (Hsu : represents (w_ref w) M I u).
  { eapply (represents_frame w); [exact Hs|]. intros q Hq. apply Hout. intros U. eapply (vw_apart _ _ Hw); [by eapply under_more|exact Hq]. }
  destruct (select_all (ve_env v) (w_ref w) (vw_regular _ _ Hw) M I s Hs) as (vs & Hsv & Hvs & Esel). pose proof (exec_ref_parts v w NoFilter s vs Esel) as Eref. fold kd in Eref.
  exists u. split.
  - assert (exists rest, vs = x :: rest) as [rest ->].
    { destruct vs as [|z rest]; [exfalso; eapply elem_of_nil, (Hvs x); by rewrite Hx|]. exists rest. f_equal. destruct (Hfirst z) as [?|Hlt]; [apply Hvs; left|done|]. exfalso.
      assert (Hin : x ∈ z :: rest) by (apply Hvs; by rewrite Hx). apply elem_of_cons in Hin as [->|Hin]; [by eapply row_lt_irrefl|].
      inversion Hsv as [|? ? _ Hall]; subst. rewrite Forall_forall in Hall. apply (row_lt_irrefl x). assert (Hlz : length z = length x) by (destruct (proj1 (Hvs z)) as [dz Hdz]; [left|]; destruct (rp_part _ _ _ _ Hs _ _ Hdz) as (-> & _); done).
      apply (row_lt_trans x z x); [done..|by apply Hall]. }
    unfold sync. eapply stopped_then; [reflexivity|]. eapply stopped_then; [exact Eref|]. cbn [map]. apply stopped_first. unfold execute_transaction. apply stopped_first. cbn [interleave map run_all].
    apply stopped_first, stopped_attempt.
    destruct (kt_axis _ _ _ _ K) as (Har & dt' & Ks). rewrite sub_sub in Ks. destruct (keeps_read _ _ Ks) as (cs & _ & Hz & Hread). pose proof Hz as Hz'. rewrite sub_lookup, <-app_assoc in Hz'.
    assert (empty_at (vdir w x) s = false) as Hne'.
    { apply empty_at_false. exists (vdir w x ++ [CHECKSUM] ++ [ZARRAY]). eexists. split; [apply under_app|]. exact Hz'. }
    unfold sync_one. cbv zeta. change (w_dir w ++ kd x) with (vdir w x). eapply stopped_then; [apply exec_exists|]. rewrite Hne'. cbn [negb]. cbv iota.
    eapply stopped_then; [exact (exec_open_array (vdir w x ++ [CHECKSUM]) s _ ltac:(rewrite <-sub_lookup; exact Hz))|].
    eapply stopped_then; [exact (exec_open_group w ds (kd x) s _ eq_refl Hh)|]. eapply stopped_then; [cbn [exec]; change (c_dir (w_ref w) ++ kd x) with (part_dir (w_ref w) x); rewrite Eay; reflexivity|].
    eapply stopped_then; [exact (exec_array_attrs (vdir w x ++ [CHECKSUM]) s _ _ ltac:(rewrite <-sub_lookup; exact (kp_attrs _ _ Ks)))|]. cbn [fst].
    change (dget (v_attrs (sum_var v w dt' (vp_axis p))) CHECKSUM_ATTR) with (Some (ve_digest v (vp_axis p))). cbv iota beta. cbn [ar_digest].
    rewrite bool_decide_eq_false_2 by (by rewrite Eya). eapply stopped_then; [apply exec_get_tree|]. eapply stopped_then; [cbn [exec]; rewrite Hread; reflexivity|]. cbn [ar_array].
    change (v_array (sum_var v w dt' (vp_axis p))) with (vp_axis p). rewrite (proj2 (is_extended_begins (vp_axis p) (v_array y))) by (by rewrite Eya). apply stopped_first. exact Hst.
  - intros sched1 sched2. clear Esel Eref Hsv. destruct (select_all (ve_env v) (w_ref w) (vw_regular _ _ Hw) M I u Hsu) as (vs' & Hsv & Hvs' & Esel). pose proof (exec_ref_parts v w NoFilter u vs' Esel) as Eref. fold kd in Eref.
    assert (Hlv : forall z, z ∈ vs' -> length z = length (p_keys (c_part (w_ref w)))) by (intros z Hz; apply Hvs' in Hz as [dz Hdz]; by destruct (rp_part _ _ _ _ Hs _ _ Hdz) as (? & _)).
    assert (Hex : exists s1 p', exec (sync_one v w false (kd x)) u = (Ok (Some (kd x)), s1) /\ same_out (vdir w x) u s1 /\ keeps_part v w (sub (vdir w x) s1) p' /\ renewed w ds p').
    { destruct (rp_part _ _ _ _ Hsu _ _ Hx) as (_ & _ & Hhu). apply (sync_again v w Hw ds Hso (Hmo _ _ Hx) (kd x) u dt (vp_axis p) a1 y Ku Hhu Ey Hlen). by rewrite Eya. }
    destruct Hex as (s1 & p' & E1 & O1 & K1 & R1).
    destruct (choose vs' (fun z (D : bool) => (exec (sync_one v w false (kd z)) u).1 = Ok (if D then Some (kd z) else None)) (fun _ => false)) as (D & HD & _).
    { intros z Hz. destruct (decide (z = x)) as [->|N]; [exists true; by rewrite E1|]. apply Hvs' in Hz as [dz Hdz]. destruct (rp_part _ _ _ _ Hsu _ _ Hdz) as (Hlz & Hsz & Hhz).
      destruct (exec_sync_one v w Hw dz Hsz (Hmo _ _ Hdz) (kd z) u (V z)) as (s2 & pz & dn & F1 & _); [|exact Hhz|exists dn; by rewrite F1].
      pose proof (before_ok v w Hw M I V s z dz Hs Hv Hcol Hdz) as Hb. assert (Hgz : sub (vdir w z) u = sub (vdir w z) s) by (apply (same_out_sub (vdir w x)); [apply (vdirs_apart w); [exact Hl|exact Hlz|by apply not_eq_sym]|done]).
      unfold before_sync in *. change (w_dir w ++ kd z) with (vdir w z). destruct (V z) as [pz|]; [by rewrite Hgz|].
      intros q (r & ->). rewrite <-sub_lookup, Hgz, sub_lookup. apply Hb, under_app. }
    destruct (exec_view_tasks v w Hw sched2 (sync_one v w false) (fun z => if D z then Some (kd z) else None) vs' u) as (u' & E2 & S2 & _); [by apply sorted_nodup_rows|done| |done|].
    { intros z _. apply within_sync_one; [by left|done]. }
    assert (Hin : x ∈ vs') by (apply Hvs'; by rewrite Hx).
    eexists _, u', p'. split.
    + unfold sync. rewrite exec_bind. cbn [exec pret]. rewrite exec_bind, Eref. cbv iota beta. fold kd in E2.
      destruct (map kd vs') as [|q l] eqn:El; [by destruct vs'; [apply elem_of_nil in Hin|]|]. rewrite exec_bind, E2. cbv iota beta. rewrite exec_bind. cbn [exec]. unfold kd. rewrite (changed_ids v w Hw D vs' Hlv). done.
    + split; [|done]. rewrite S2 by done. fold kd. rewrite E1. done.
Qed.
Print Assumptions C113_kept_refuted.

(** A case: the view has the values 3 and 4 of the variable "speed" for the first
    record of the partition "pass=1", the reference has two records there. *)
Example C113_case : exists M s ds, M [1%Z] = Some ds /\ represents (w_ref W_view) M None s /\ holds_view W_env W_view W_parts s /\
  W_parts [1%Z] = Some (VPart W_axis [(lit "speed", W_var)]) /\
  exists u, stopped_at (sync W_env [] [] W_view NoFilter) s u /\
    exists ids u' p', exec (sync W_env [] [] W_view NoFilter) u = (Ok (W_view, ids), u') /\ keeps_part W_env W_view (sub (vdir W_view [1%Z]) u') p' /\ renewed W_view ds p'.
Proof.
  destruct W_filled as (M & s & Hs & HM & Hv & Hc). pose proof (fun x d => W_made M x d HM) as Hmo.
  destruct HM as (p1 & p2 & H1 & H2 & H3 & _ & A1 & _).
  exists M, s, p1. split; [exact H1|]. split; [exact Hs|]. split; [exact Hv|]. split; [reflexivity|].
  destruct (C113_kept_refuted W_env W_view M None W_parts s [1%Z] p1 (VPart W_axis [(lit "speed", W_var)]) (v_array (X_time [10; 20]%Z)) [] W_viewable Hs Hmo Hv Hc H1 eq_refl) as [_ (u & Hu & H)].
  - by exists (X_time [10; 20]%Z).
  - split; [cbn; lia|]. intros [|i] x Hx; cbn in Hx; [|done]. injection Hx as <-. by exists 10%Z.
  - intros y [dy Hy]. destruct (decide (y = [1%Z])) as [->|N1]; [by left|]. right. destruct (decide (y = [2%Z])) as [->|N2]; [|by rewrite H3 in Hy]. exists [], 1%Z, 2%Z, [], []. split; [done|]. split; [done|]. lia.
  - exists u. split; [exact Hu|]. apply H.
Qed.

(** ** C114: a synchronisation that is interrupted leaves alone the partitions that are in step *)

Lemma always_true {A : Type} (p : program A) (s : store) : always CTorn (fun _ => True) p s.
Proof. revert s. induction p as [r|o k IH]; intros s; cbn; [done|]. split; [done|]. split; [by destruct o|apply IH]. Qed.

(** A partition with the axis of the reference is only read. *)
Lemma always_in_step v w ds q (s : store) p : made_of (w_ref w) ds -> holds_dataset (sub (c_dir (w_ref w) ++ q) s) ds -> keeps_part v w (sub (w_dir w ++ q) s) p ->
  axis_is (w_ref w) ds (vp_axis p) -> always CTorn (fun u => u = s) (sync_one v w false q) s.
Proof.
  intros Hmo Ht K Hax. set (d := w_dir w ++ q) in *. destruct (kt_axis _ _ _ _ K) as (Har & dt & Ks). rewrite sub_sub in Ks.
  destruct (keeps_read _ _ Ks) as (cs & _ & Hz & Hread). pose proof Hz as Hz'. rewrite sub_lookup, <-app_assoc in Hz'.
  assert (empty_at d s = false) as Hne.
  { apply empty_at_false. exists (d ++ [CHECKSUM] ++ [ZARRAY]). eexists. split; [apply under_app|]. exact Hz'. }
  destruct (tree_axis v w ds Hmo _ Ht) as (x & Ex & Edx & Eax). assert (v_array x = vp_axis p) as Exa by (by apply (axis_is_iff w ds x)).
  unfold sync_one. cbv zeta. fold d. apply always_bind; [apply always_read; [apply within_exists; auto|done]|]. intros b s' E. rewrite exec_exists, Hne in E. injection E as <- <-. cbn [negb]. cbv iota.
  apply always_bind; [apply always_read; [apply within_open_array; auto|done]|]. intros z s' E. rewrite (exec_open_array (d ++ [CHECKSUM]) s _ ltac:(rewrite <-sub_lookup; exact Hz)) in E. injection E as <- <-.
  apply always_bind; [apply always_read; [apply within_view_group; auto|done]|]. intros g s' E. rewrite (exec_open_group w ds q s _ eq_refl Ht) in E. injection E as <- <-.
  apply always_bind; [by cbn|]. intros ax s' E. cbn [exec] in E. rewrite Eax in E. injection E as <- <-.
  apply always_bind; [apply always_read; [apply within_array_attrs; auto|done]|]. intros at_ s' E.
  rewrite (exec_array_attrs (d ++ [CHECKSUM]) s _ _ ltac:(rewrite <-sub_lookup; exact (kp_attrs _ _ Ks))) in E. injection E as <- <-. cbn [fst].
  lazymatch goal with |- context [dget ?l CHECKSUM_ATTR] => change (dget l CHECKSUM_ATTR) with (Some (ve_digest v (vp_axis p))) end. cbv iota beta. cbn [ar_digest].
  rewrite bool_decide_eq_true_2 by (by rewrite Exa). by cbn.
Qed.

(** Wherever [sync()] is stopped: the partitions of the view that have the axis
    of the reference, and those that the reference does not have, are what they
    were. *)
Theorem C114_alone v w M I V s x p sched sched' u : viewable v w -> represents (w_ref w) M I s -> (forall x ds, M x = Some ds -> made_of (w_ref w) ds) ->
  holds_view v w V s -> V x = Some p -> (forall ds, M x = Some ds -> axis_is (w_ref w) ds (vp_axis p)) ->
  stopped_at (sync v sched sched' w NoFilter) s u -> forall q, under (vdir w x) q -> u !! q = s !! q.
Proof.
  intros Hw Hs Hmo Hv Hp Hax [p' H]. destruct (hw_part _ _ _ _ Hv _ _ Hp) as (Hlx & K).
  destruct (select_all (ve_env v) (w_ref w) (vw_regular _ _ Hw) M I s Hs) as (vs & Hsv & Hvs & Esel). pose proof (exec_ref_parts v w NoFilter s vs Esel) as Eref. set (kd := key_dirs (c_part (w_ref w))) in *.
  assert (Hlv : forall z, z ∈ vs -> length z = length (p_keys (c_part (w_ref w)))) by (intros z Hz; apply Hvs in Hz as [dz Hdz]; by destruct (rp_part _ _ _ _ Hs _ _ Hdz) as (? & _)).
  assert (Hind : forall z, z ∈ vs -> within (under (part_dir (w_ref w) z)) (under (vdir w z)) (sync_one v w false (kd z))) by (intros z _; apply within_sync_one; [by left|done]).
  pose proof (view_tasks_independent v w Hw (sync_one v w false) vs (sorted_nodup_rows _ Hsv) Hlv Hind) as Hi. fold kd in Hi.
  set (Psi := fun u : store => forall q, under (vdir w x) q -> u !! q = s !! q).
  assert (Htr : always CTorn Psi (execute_transaction CTorn sched' (map (sync_one v w false) (map kd vs))) s).
  { eapply always_impl; [|apply (always_transaction CTorn sched' _ _ _ (fun i u => vs !! i = Some x -> Psi u) s Hi)].
    - intros u0 [H1 H2] q Hq. rewrite !map_length in H1. rewrite !map_length in H2. destruct (decide (x ∈ vs)) as [Hin|Nin].
      + apply elem_of_list_lookup in Hin as [i Ei]. by apply (H1 i (lookup_lt_Some _ _ _ Ei) Ei).
      + apply H2. intros i _ Hu. destruct (vs !! i) as [z|] eqn:Ei; [|done]. assert (Hz : z ∈ vs) by (by eapply elem_of_list_lookup_2).
        refine (vdirs_apart w z x (Hlv z Hz) Hlx _ q Hu Hq). by intros ->.
    - intros i _ t t' Hag Ht Ei q Hq. rewrite <-(Ht Ei q Hq). symmetry. apply Hag. right. by rewrite Ei.
    - intros i pr Ei. rewrite map_map in Ei. change (map ?g vs) with (g <$> vs) in Ei. rewrite list_lookup_fmap in Ei. destruct (vs !! i) as [z|] eqn:Ez; [|done]. injection Ei as <-.
      destruct (decide (z = x)) as [->|N].
      + assert (Hin : x ∈ vs) by (by eapply elem_of_list_lookup_2). apply Hvs in Hin as [ds Hds]. destruct (rp_part _ _ _ _ Hs _ _ Hds) as (_ & _ & Hh).
        eapply always_impl; [|apply (always_in_step v w ds (kd x) s p (Hmo _ _ Hds) Hh K (Hax _ Hds))]. intros t -> _ q _. done.
      + eapply always_impl; [|apply always_true]. intros t _ [= E]. done. }
  assert (Ha : always CTorn Psi (sync v sched sched' w NoFilter) s).
  { unfold sync. apply always_bind; [by cbn|]. intros w0 s' E. cbn in E. injection E as <- <-. apply always_bind; [apply always_read; [apply within_ref_parts|by intros ??]|].
    intros l s' E. rewrite Eref in E. injection E as <- <-. destruct (map kd vs) as [|q0 l0] eqn:El; [by cbn|]. rewrite <-El in Htr |- *.
    apply always_bind; [exact Htr|]. intros r s' E. pose proof (exec_steps CTorn (execute_transaction CTorn sched' (map (sync_one v w false) (map kd vs))) s) as Hst. rewrite E in Hst.
    pose proof (always_sound CTorn _ _ _ _ _ Htr Hst) as Hend. cbn [snd] in Hend. apply always_bind; [by cbn|]. intros ids s'' E'. cbn [exec] in E'. injection E' as _ <-. by cbn. }
  exact (always_sound CTorn _ _ p' s u Ha H).
Qed.
Print Assumptions C114_alone.

(** A case: the partition "pass=1" of the view is in step once [sync()] is
    called; a call made afterwards leaves it alone wherever it is stopped. *)
Example C114_case : exists M s V p, represents (w_ref W_view) M None s /\ holds_view W_env W_view V s /\ V [1%Z] = Some p /\ is_Some (M [1%Z]) /\
  forall u q, stopped_at (sync W_env [] [] W_view NoFilter) s u -> under (vdir W_view [1%Z]) q -> u !! q = s !! q.
Proof.
  destruct W_filled as (M & s & Hs & HM & Hv & Hc). pose proof (fun x d => W_made M x d HM) as Hmo. destruct HM as (p1 & p2 & H1 & H2 & H3 & _ & A1 & _).
  destruct (C36_sync W_env W_view M None W_parts s W_viewable Hs Hmo Hv Hc ltac:(exists [1%Z]; by rewrite H1) [] []) as (s' & V' & ch & _ & _ & Hs' & Hv' & _ & _ & _ & Hst).
  destruct (Hst [1%Z] p1 H1) as (p & Hp & Hax). exists M, s', V', p. split; [exact Hs'|]. split; [exact Hv'|]. split; [exact Hp|]. split; [by rewrite H1|]. intros u q Hu.
  apply (C114_alone W_env W_view M None V' s' [1%Z] p [] [] u W_viewable Hs' Hmo Hv' Hp); [|exact Hu]. intros ds Hds. rewrite H1 in Hds. injection Hds as <-. exact Hax.
Qed.
