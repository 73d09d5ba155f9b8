(** * Views: creation of the partitions *)
From Verif Require Import Py Dict NdArray_Model NdArray_Spec NdArray_Proofs Dataset_Model Dataset_Spec Dataset_Proofs Meta_Model PartPath_Model PartPath_Proofs PartPath_Props
  Split_Spec FS_Model FS_Proofs Pool_Model Pool_Proofs Storage_Model Storage_Spec Storage_Chunks Storage_Proofs Storage_Change
  Listing_Model Listing_Spec Listing_Proofs Collection_Model Collection_Spec Collection_Proofs Collection_State Collection_Select Collection_Load Update_Model
  Index_Model View_Model View_Spec View_State View_Proofs View_Sync.

(** The only files are those of the axis. *)
Record bare (v : venv) (w : view) (t : store) (a : arr) : Prop := {
  br_only : forall q x, t !! q = Some x -> exists f, q = CHECKSUM :: f;
  br_rank : length (a_shape a) = 1;
  br_sum : exists dtype, keeps (sub [CHECKSUM] t) (sum_var v w dtype a);
}.
Lemma bare_part v w t a : md_vars (w_meta w) = [] -> bare v w t a -> keeps_part v w t (VPart a []).
Proof.
  intros E [H1 H2 H3]. split; cbn [vp_axis vp_vars]; try done.
  - intros q x Hq. destruct (H1 q x Hq) as [f ->]. exists CHECKSUM, f. split; [done|by left].
  - constructor.
  - intros n. by rewrite E.
Qed.

Section init.
  Context (v : venv) (w : view) (Hw : viewable v w) (M : list Z -> option dataset) (I : option dataset) (Hmo : forall x ds, M x = Some ds -> made_of (w_ref w) ds).
  Local Notation c := (w_ref w).
  Local Notation keys := (p_keys (c_part (w_ref w))).
  Local Notation kd := (key_dirs (c_part (w_ref w))).

  Lemma exec_write_checksum ds q s : sound ds -> made_of c ds -> nothing_at (w_dir w ++ q) s -> holds_dataset (sub (c_dir c ++ q) s) ds ->
    exists s1 a, exec (write_checksum v w q) s = (Ok tt, s1) /\ same_out (w_dir w ++ q) s s1 /\ axis_is c ds a /\ bare v w (sub (w_dir w ++ q) s1) a.
  Proof using Hw.
    intros Hso Hm Hn Ht. set (d := w_dir w ++ q) in *. destruct (tree_axis v w ds Hm _ Ht) as (x & Ex & Edx & Eax).
    destruct (axis_size w ds Hso x Ex Edx) as (n & Hn1 & Hn2 & Hn3). destruct (ds_var ds Hso _ _ Ex) as (_ & Ha & _ & _).
    unfold write_checksum. rewrite exec_bind, (exec_open_group w ds q s _ eq_refl Ht). cbv iota beta. rewrite exec_bind, Eax. cbn [exec].
    destruct (exec_checksum_new v w Hw d (AxisRef (v_array x) (v_dtype x) (c_dim c) (ve_digest v (v_array x))) s) as (s2 & E2 & O2 & K2); try done.
    { intros y Hy. apply Hn. by eapply under_more. }
    { cbn. by rewrite Hn1. }
    exists s2, (v_array x). split; [exact E2|]. split; [eapply same_out_up; [|exact O2]; apply under_app|]. split; [by exists x|]. split.
    - intros y f E. rewrite sub_lookup in E. destruct (decide (under (d ++ [CHECKSUM]) (d ++ y))) as [(r & Er)|N].
      + rewrite <-app_assoc in Er. apply app_inv_head in Er as ->. by exists r.
      + rewrite O2 in E by done. rewrite (Hn _ (under_app _ _)) in E. done.
    - by rewrite Hn1.
    - exists (v_dtype x). rewrite sub_sub. exact K2.
  Qed.
  Lemma exec_pfilter {A} (f : A -> program bool) (g : A -> bool) l s : (forall x, x ∈ l -> exec (f x) s = (Ok (g x), s)) -> exec (pfilter f l) s = (Ok (List.filter g l), s).
  Proof.
    intros H. unfold pfilter. rewrite exec_bind, (exec_pseq_pure _ s (map g l)).
    - cbn [exec pret]. f_equal. f_equal. clear H. induction l as [|x l IH]; [done|]. cbn. destruct (g x); cbn; by rewrite IH.
    - induction l as [|x l IH]; constructor; [apply H; left|apply IH]. intros y Hy. apply H. by right.
  Qed.
  Lemma exec_init_parts vs s sched f : represents c M I s -> exec (ref_parts v w f) s = (Ok (map kd vs), s) -> NoDup vs -> (forall x, x ∈ vs -> is_Some (M x)) ->
    exists s', exec (init_partitions v sched w f) s = (Ok tt, s') /\
      (forall x ds, x ∈ vs -> M x = Some ds -> nothing_at (vdir w x) s -> exists a, axis_is c ds a /\ bare v w (sub (vdir w x) s') a) /\
      (forall q, (forall x, x ∈ vs -> nothing_at (vdir w x) s -> ~ under (vdir w x) q) -> s' !! q = s !! q).
  Proof using Hw Hmo.
    intros Hs Eref Hnd Hin. unfold init_partitions. rewrite exec_bind, Eref. cbv iota beta.
    rewrite exec_bind, (exec_pfilter _ (fun q => empty_at (w_dir w ++ q) s)).
    2: { intros q _. rewrite exec_bind, exec_exists. cbn [exec pret]. by rewrite Bool.negb_involutive. }
    cbv iota beta. set (ms := List.filter (fun x => empty_at (vdir w x) s) vs).
    assert (Ems : List.filter (fun q => empty_at (w_dir w ++ q) s) (map kd vs) = map kd ms).
    { unfold ms. clear. induction vs as [|x l IH]; [done|]. cbn. unfold vdir. destruct (empty_at _ s); cbn; by rewrite IH. }
    rewrite Ems.
    assert (Hms : forall x, x ∈ ms <-> x ∈ vs /\ nothing_at (vdir w x) s).
    { intros x. unfold ms. rewrite elem_of_list_In, filter_In, <-elem_of_list_In, <-nothing_empty. done. }
    assert (Hper : forall x, x ∈ ms -> exists s1 a ds, M x = Some ds /\ exec (write_checksum v w (kd x)) s = (Ok tt, s1) /\ same_out (vdir w x) s s1 /\ axis_is c ds a /\ bare v w (sub (vdir w x) s1) a).
    { intros x Hx. apply Hms in Hx as [Hx Hn]. destruct (Hin x Hx) as [ds Hds]. destruct (rp_part _ _ _ _ Hs _ _ Hds) as (_ & Hso & Hh).
      destruct (exec_write_checksum ds (kd x) s Hso (Hmo _ _ Hds) Hn Hh) as (s1 & a & H1 & H2 & H3 & H4). by exists s1, a, ds. }
    destruct (exec_view_tasks v w Hw sched (write_checksum v w) (fun _ => tt) ms s) as (s' & E & S & O).
    { unfold ms. by apply NoDup_ListNoDup, List.NoDup_filter, NoDup_ListNoDup. }
    { intros x Hx. apply Hms in Hx as [Hx _]. destruct (Hin x Hx) as [ds Hds]. by destruct (rp_part _ _ _ _ Hs _ _ Hds) as (Hl & _). }
    { intros x _. apply within_write_checksum; [by left|done]. }
    { intros x Hx. destruct (Hper x Hx) as (s1 & a & ds & _ & E & _). by rewrite E. }
    exists s'. rewrite exec_bind, E. split; [done|]. split.
    - intros x ds Hx Hds Hn. destruct (Hper x) as (s1 & a & ds' & Hds' & E1 & _ & Ha & Hb); [by apply Hms|]. rewrite Hds in Hds'. injection Hds' as <-.
      exists a. split; [done|]. rewrite S by (by apply Hms). by rewrite E1.
    - intros q Hq. apply O. intros x Hx. apply Hms in Hx as [Hx Hn]. by apply Hq.
  Qed.

  (** A partition that has the axis of the reference is left alone. *)
  Lemma exec_sync_bare ds q s a dry : made_of c ds -> holds_dataset (sub (c_dir c ++ q) s) ds -> axis_is c ds a -> bare v w (sub (w_dir w ++ q) s) a ->
    exec (sync_one v w dry q) s = (Ok None, s).
  Proof.
    intros Hm Ht Ha [_ Hr (dt & Ks)]. set (d := w_dir w ++ q) in *. rewrite sub_sub in Ks. destruct (keeps_read _ _ Ks) as (cs & _ & Hz & Hread).
    pose proof Hz as Hz'. rewrite sub_lookup, <-app_assoc in Hz'.
    assert (empty_at d s = false) as Hne.
    { apply empty_at_false. exists (d ++ [CHECKSUM] ++ [ZARRAY]). eexists. split; [apply under_app|]. exact Hz'. }
    destruct (tree_axis v w ds Hm _ Ht) as (x & Ex & Edx & Eax). apply (axis_is_iff w ds x) in Ha; [|done]. subst a.
    unfold sync_one. cbv zeta. fold d. rewrite exec_bind, exec_exists, Hne. cbn [negb]. cbv iota.
    rewrite exec_bind, (exec_open_array (d ++ [CHECKSUM]) s _ ltac:(rewrite <-sub_lookup; exact Hz)). cbv iota beta.
    rewrite exec_bind, (exec_open_group w ds q s _ eq_refl Ht). cbv iota beta. rewrite exec_bind, Eax. cbn [exec].
    rewrite exec_bind, (exec_array_attrs (d ++ [CHECKSUM]) s _ _ ltac:(rewrite <-sub_lookup; exact (kp_attrs _ _ Ks))). cbv iota beta. cbn [fst].
    change (dget (v_attrs (sum_var v w dt (v_array x))) CHECKSUM_ATTR) with (Some (ve_digest v (v_array x))). cbv iota beta. cbn [ar_digest].
    by rewrite bool_decide_eq_true_2.
  Qed.

  (** ** [sync] with filters *)
  Lemma viewable_filters f : viewable v (with_filters w f).
  Proof using Hw. destruct Hw as [H1 H2 H3 H4 H5 H6 H7]. by split. Qed.
  Lemma holds_view_config V s (x : content) : holds_view v w V s -> holds_view v w V (<[w_dir w ++ [VIEW_CONFIG] := x]> s).
  Proof using Hw.
    intros Hv. split.
    - intros q y E. destruct (decide (q = [VIEW_CONFIG])) as [->|N]; [by left|]. rewrite lookup_insert_ne in E; [by apply (hw_files _ _ _ _ Hv _ _ E)|].
      intros E'. apply N. by apply app_inv_head in E'.
    - intros y p Hy. destruct (hw_part _ _ _ _ Hv _ _ Hy) as (Hl & K). split; [done|]. replace (sub _ _) with (sub (vdir w y) s); [done|]. apply map_eq. intros q.
      rewrite !sub_lookup, lookup_insert_ne; [done|]. intros E. unfold vdir in E. rewrite <-app_assoc in E. apply app_inv_head in E.
      destruct (key_head (ve_env v) c (vw_regular _ _ Hw) y Hl) as (a & r & Ea & _ & Hd). rewrite Ea in E. injection E as <- _. apply Hd. by exists (lit "view").
  Qed.
  Lemma represents_config s (x : content) : represents c M I s -> represents c M I (<[w_dir w ++ [VIEW_CONFIG] := x]> s).
  Proof using Hw.
    intros Hs. eapply represents_frame; [done|]. intros q Hq. rewrite lookup_insert_ne; [done|]. intros <-. eapply (vw_apart _ _ Hw); [apply under_app|exact Hq].
  Qed.
  Lemma sync_filtered V s sched sched' f (P : list Z -> Prop) `{!forall x, Decision (P x)} :
    f <> NoFilter -> filterable c -> (forall x, is_Some (M x) -> says (c_part c) f x (P x)) ->
    represents c M I s -> holds_view v w V s -> no_collision v w M V -> (exists x, is_Some (M x)) ->
    exists s' changed, exec (sync v sched sched' w f) s = (Ok (with_filters w f, map (zip keys) changed), s') /\ StronglySorted row_lt changed /\
      (forall q, ~ under (w_dir w) q -> s' !! q = s !! q) /\ (forall x, x ∈ changed -> is_Some (M x)) /\
      (forall x ds, M x = Some ds -> P x -> V x = None -> x ∉ changed /\ exists a, axis_is c ds a /\ bare v w (sub (vdir w x) s') a) /\
      (forall x ds, M x = Some ds -> ~ (P x /\ V x = None) -> exists p, keeps_part v w (sub (vdir w x) s') p /\ synchronised w ds (V x) p (bool_decide (x ∈ changed))).
  Proof using Hw Hmo.
    intros Hf Hfi Hsays Hs Hv Hcol [x0 Hx0]. set (w' := with_filters w f). pose proof (viewable_filters f : viewable v w') as Hw'.
    set (s0 := <[w_dir w ++ [VIEW_CONFIG] := CView (vconfig_of v w')]> s).
    assert (Hs0 : represents c M I s0) by (by apply represents_config). assert (Hv0 : holds_view v w V s0) by (by apply holds_view_config).
    destruct (select_filter (ve_env v) c (vw_regular _ _ Hw) M I s0 f P Hs0 Hfi Hsays) as (vs & Hso & Hvs & Esel).
    assert (Hlen : forall x ds, M x = Some ds -> length x = length keys) by (intros x ds Hds; by destruct (rp_part _ _ _ _ Hs _ _ Hds) as (Hl & _)).
    destruct (exec_init_parts vs s0 sched f Hs0) as (s1 & E1 & B1 & O1).
    { by apply (exec_ref_parts v w f s0 vs). }
    { by apply sorted_nodup_rows. }
    { intros x Hx. by apply Hvs in Hx as [? _]. }
    assert (Hnone : forall x ds, M x = Some ds -> nothing_at (vdir w x) s0 <-> V x = None).
    { intros x ds Hx. split.
      - intros Hn. destruct (V x) as [p|] eqn:Ep; [|done]. destruct (hw_part _ _ _ _ Hv0 _ _ Ep) as (_ & K). destruct (kt_axis _ _ _ _ K) as (_ & dt & Ks).
        destruct (kp_array _ _ Ks) as (cs & _ & Hz & _). rewrite !sub_lookup, Hn in Hz by apply under_app. done.
      - intros Hn. by eapply (view_nothing v w Hw); [..|by eapply Hlen|]. }
    assert (Hs1 : represents c M I s1).
    { eapply represents_frame; [exact Hs0|]. intros q Hq. apply O1. intros x _ _ U. eapply (vw_apart _ _ Hw); [by eapply under_more|exact Hq]. }
    assert (Hgood : forall x ds, M x = Some ds -> ~ (P x /\ V x = None) -> sub (vdir w x) s1 = sub (vdir w x) s0).
    { intros x ds Hx Hg. apply map_eq. intros q. rewrite !sub_lookup. apply O1. intros y Hy Hn U. apply Hvs in Hy as [[dy Hdy] Py].
      destruct (decide (y = x)) as [->|N]; [apply Hg; split; [done|by eapply Hnone]|].
      eapply (vdirs_apart w y x); [by eapply Hlen..|done|exact U|apply under_app]. }
    destruct (select_all (ve_env v) c (vw_regular _ _ Hw) M I s1 Hs1) as (vss & Hsoa & Hvss & Esela). pose proof (exec_ref_parts v w NoFilter s1 vss Esela) as Eref.
    destruct (choose vss (fun x (D : bool) => exists s2 ds, M x = Some ds /\ exec (sync_one v w false (kd x)) s1 = (Ok (if D then Some (kd x) else None), s2) /\ same_out (vdir w x) s1 s2 /\
      (P x /\ V x = None -> D = false /\ s2 = s1) /\ (~ (P x /\ V x = None) -> exists p, keeps_part v w (sub (vdir w x) s2) p /\ synchronised w ds (V x) p D)) (fun _ => false)) as (D & HD & HD').
    { intros x Hx. apply Hvss in Hx as [ds Hds]. destruct (rp_part _ _ _ _ Hs1 _ _ Hds) as (Hl & Hsd & Hh). destruct (decide (P x /\ V x = None)) as [Hb|Hg].
      - destruct (B1 x ds) as (a & Ha & Hba); [apply Hvs; split; [by eexists|by destruct Hb]|done|by eapply Hnone; [|destruct Hb]|].
        exists false, s1, ds. split_and!; [done| |apply same_out_refl|done|done]. by eapply exec_sync_bare; [by eapply Hmo|..].
      - destruct (exec_sync_one v w Hw ds Hsd (Hmo _ _ Hds) (kd x) s1 (V x)) as (s2 & p & d & F1 & _ & F3 & F4 & F5 & _); [|exact Hh|].
        + pose proof (before_ok v w Hw M I V s0 x ds Hs0 Hv0 Hcol Hds) as Hb. pose proof (Hgood x ds Hds Hg) as Hgx. unfold before_sync in *. change (w_dir w ++ kd x) with (vdir w x). destruct (V x) as [p|].
          * rewrite Hgx. done.
          * intros q Hq. destruct Hq as (r & ->). rewrite <-sub_lookup, Hgx, sub_lookup. apply Hb, under_app.
        + exists d, s2, ds. split_and!; [done..|]. intros _. by exists p. }
    assert (Hndv : NoDup vss) by (by apply sorted_nodup_rows).
    assert (Hlv : forall x, x ∈ vss -> length x = length keys) by (intros x Hx; apply Hvss in Hx as [ds Hds]; by eapply Hlen).
    destruct (exec_view_tasks v w Hw sched' (sync_one v w false) (fun x => if D x then Some (kd x) else None) vss s1 Hndv Hlv) as (s' & E2 & S2 & O2).
    { intros x _. apply within_sync_one; [by left|done]. }
    { intros x Hx. destruct (HD x Hx) as (s2 & ds & _ & E & _). by rewrite E. }
    exists s', (List.filter D vss).
    assert (Hch : forall x, x ∈ List.filter D vss <-> is_Some (M x) /\ D x = true).
    { intros x. by rewrite elem_of_list_In, filter_In, <-elem_of_list_In, Hvss. }
    split_and!.
    - assert (Hpre : exec (let w := with_filters w f in let! _ <- write_vconfig v w; let! _ <- init_partitions v sched w f; pret w) s = (Ok w', s1)).
      { cbv zeta. unfold write_vconfig at 1. rewrite exec_bind, exec_write. cbv iota beta. rewrite exec_bind.
        change (init_partitions v sched (with_filters w f) f) with (init_partitions v sched w f). fold w'. change (w_dir w') with (w_dir w). fold s0. rewrite E1. done. }
      unfold sync. rewrite exec_bind. lazymatch goal with |- context [exec ?m s] => assert (exec m s = (Ok w', s1)) as -> by (by destruct f) end.
      cbv iota beta. change (ref_parts v w' NoFilter) with (ref_parts v w NoFilter). rewrite exec_bind, Eref. cbv iota beta.
      assert (Hnn : vss <> []) by (intros ->; by apply Hvss, elem_of_nil in Hx0).
      destruct (map kd vss) as [|q l] eqn:El; [by destruct vss|]. change (sync_one v w' false) with (sync_one v w false). rewrite exec_bind, E2. cbv iota beta.
      change (w_ref w') with c. rewrite exec_bind. cbn [exec]. rewrite (changed_ids v w Hw D vss Hlv). done.
    - by apply sorted_filter.
    - intros q Hq. rewrite O2, O1.
      + unfold s0. rewrite lookup_insert_ne; [done|]. intros <-. apply Hq, under_app.
      + intros x _ _ U. apply Hq. by eapply under_more.
      + intros x _ U. apply Hq. by eapply under_more.
    - intros x Hx. by apply Hch in Hx as [? _].
    - intros x ds Hds Px Vx. assert (Hin : x ∈ vss) by (apply Hvss; by eexists). destruct (HD x Hin) as (s2 & ds' & _ & E & _ & Hb & _). destruct Hb as [Ed ->]; [done|].
      split; [rewrite Hch; intros [_ ?]; congruence|]. destruct (B1 x ds) as (a & Ha & Hba); [apply Hvs; split; [by eexists|done]|done|by eapply Hnone|].
      exists a. split; [done|]. rewrite S2, E by done. done.
    - intros x ds Hds Hg. assert (Hin : x ∈ vss) by (apply Hvss; by eexists). destruct (HD x Hin) as (s2 & ds' & Hds' & E & _ & _ & Hp). rewrite Hds in Hds'. injection Hds' as <-.
      destruct (Hp Hg) as (p & K & Sy). exists p. split; [rewrite S2, E by done; done|]. replace (bool_decide (x ∈ List.filter D vss)) with (D x); [done|].
      destruct (D x) eqn:Ed; symmetry; [apply bool_decide_eq_true|apply bool_decide_eq_false]; rewrite Hch; [split; [by eexists|done]|]. intros [_ ?]. congruence.
  Qed.
End init.
