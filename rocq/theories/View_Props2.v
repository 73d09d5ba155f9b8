(** * Views: creation, opening (C62), and the variables of a view (C63) *)
From Verif Require Import Py Dict NdArray_Model NdArray_Spec NdArray_Proofs Dataset_Model Dataset_Spec Dataset_Proofs Meta_Model Meta_Spec Meta_Props PartPath_Model PartPath_Proofs PartPath_Props
  Split_Spec FS_Model FS_Proofs Pool_Model Pool_Proofs Storage_Model Storage_Spec Storage_Chunks Storage_Proofs Storage_Change
  Listing_Model Listing_Spec Listing_Proofs Collection_Model Collection_Spec Collection_Proofs Collection_State Collection_Select Update_Model
  Collection_Split Collection_Create Collection_Example Update_Example Validate_Props Variable_Props Reopen_Spec Reopen_Props
  Index_Model View_Model View_Spec View_State View_Proofs View_Sync View_Init View_Vars View_Example View_Props.

(** ** C62: creation *)
Lemma select_chosen e c M I s f (P : list Z -> Prop) : regular e c -> represents c M I s -> f = NoFilter \/ filterable c ->
  (forall x, is_Some (M x) -> says (c_part c) f x (P x)) ->
  exists vs, StronglySorted row_lt vs /\ (forall x, x ∈ vs <-> is_Some (M x) /\ P x) /\ exec (select_parts e c f) s = (Ok (map (part_dir c) vs), s).
Proof.
  intros Hr Hs [->|Hf] HP; [|by eapply select_filter]. destruct (select_all e c Hr M I s Hs) as (vs & H1 & H2 & H3). exists vs. split_and!; [done| |done].
  intros x. rewrite H2. split; [|by intros [? _]]. intros Hx. split; [done|]. by apply HP.
Qed.

Lemma make_new v reg sched d ref m f c M I (P : list Z -> Prop) s :
  let w := View d c (default (mk_mdataset (md_dims (c_meta c)) [] [] [] None) m) f in
  exec (open_collection reg ref (Some (lit "r"))) s = (Ok c, s) -> viewable v w -> nothing_at d s ->
  represents c M I s -> (forall x ds, M x = Some ds -> made_of c ds) ->
  f = NoFilter \/ filterable c -> (forall x, is_Some (M x) -> says (c_part c) f x (P x)) ->
  exists s' vs, exec (make_view v reg sched d ref m f) s = (Ok w, s') /\ StronglySorted row_lt vs /\ (forall x, x ∈ vs <-> is_Some (M x) /\ P x) /\
    represents c M I s' /\ s' !! (d ++ [VIEW_CONFIG]) = Some (CView (vconfig_of v w)) /\ (forall q, ~ under d q -> s' !! q = s !! q) /\
    (forall q y, s' !! (d ++ q) = Some y -> q = [VIEW_CONFIG] \/ exists x f, x ∈ vs /\ q = key_dirs (c_part c) x ++ f) /\
    (forall x ds, x ∈ vs -> M x = Some ds -> exists a, axis_is c ds a /\ bare v w (sub (vdir w x) s') a).
Proof.
  intros w Eo Hw Hn Hs Hmo Hf HP. set (s0 := <[d ++ [VIEW_CONFIG] := CView (vconfig_of v w)]> s).
  assert (Hs0 : represents c M I s0) by (by apply (represents_config v w Hw)).
  destruct (select_chosen (ve_env v) c M I s0 f P (vw_regular _ _ Hw) Hs0 Hf HP) as (vs & Hso & Hvs & Esel).
  assert (Hlen : forall x, x ∈ vs -> length x = length (p_keys (c_part c))).
  { intros x Hx. apply Hvs in Hx as [[ds Hds] _]. by destruct (rp_part _ _ _ _ Hs _ _ Hds) as (Hl & _). }
  destruct (exec_init_parts v w Hw M I Hmo vs s0 sched f Hs0) as (s' & E & B & O).
  { by apply (exec_ref_parts v w f s0 vs). }
  { by apply sorted_nodup_rows. }
  { intros x Hx. by apply Hvs in Hx as [? _]. }
  assert (Hvc : forall x r, x ∈ vs -> key_dirs (c_part c) x ++ r <> [VIEW_CONFIG]).
  { intros x r Hx Ex. destruct (key_head (ve_env v) c (vw_regular _ _ Hw) x (Hlen x Hx)) as (a & k & Ea & _ & Hd). rewrite Ea in Ex. injection Ex as -> _. apply Hd. by exists (lit "view"). }
  assert (Hnx : forall x, x ∈ vs -> nothing_at (vdir w x) s0).
  { intros x Hx q (r & ->). unfold s0. rewrite lookup_insert_ne; [apply Hn; unfold vdir; rewrite <-app_assoc; apply under_app|].
    intros Ex. unfold vdir in Ex. rewrite <-app_assoc in Ex. apply app_inv_head in Ex. by eapply Hvc. }
  exists s', vs. split_and!; [|done|done|..].
  - unfold make_view. rewrite exec_bind, Eo. cbv iota beta zeta.
    change (View d c (default (mk_mdataset (md_dims (c_meta c)) [] [] [] None) m) f) with w. rewrite exec_bind, exec_exists, (proj1 (nothing_empty d s) Hn). cbn [negb]. cbv iota.
    unfold write_vconfig. change (w_dir w) with d. rewrite exec_bind, exec_write. cbv iota beta. fold s0. rewrite exec_bind, E. done.
  - eapply (represents_frame w); [exact Hs0|]. intros q Hq. apply O. intros x Hx _ U. eapply (vw_apart _ _ Hw); [by eapply under_more|exact Hq].
  - rewrite O; [apply lookup_insert|]. intros x Hx _ (r & Ex). unfold vdir in Ex. rewrite <-app_assoc in Ex. apply app_inv_head in Ex. by eapply Hvc.
  - intros q Hq. rewrite O.
    + unfold s0. rewrite lookup_insert_ne; [done|]. intros <-. apply Hq, under_app.
    + intros x Hx _ U. apply Hq. by eapply under_more.
  - intros q y Ey. destruct (decide (Exists (fun x => under (vdir w x) (d ++ q)) vs)) as [X|X].
    + apply Exists_exists in X as (x & Hx & (r & Er)). right. exists x, r. split; [done|]. unfold vdir in Er. rewrite <-app_assoc in Er. by apply app_inv_head in Er.
    + left. rewrite O in Ey; [|intros x Hx _ U; apply X, Exists_exists; by exists x]. unfold s0 in Ey. destruct (decide (q = [VIEW_CONFIG])) as [->|N]; [done|].
      rewrite lookup_insert_ne in Ey by (intros E'; apply N; by apply app_inv_head in E'). rewrite Hn in Ey; [done|apply under_app].
  - intros x ds Hx Hds. by apply B; [..|apply Hnx].
Qed.

(** The view has the partitions of the reference that satisfy the filter, with
    their axis and no variable. *)
Theorem C62_create v reg sched d ref f c M I (P : list Z -> Prop) s :
  let w := View d c (mk_mdataset (md_dims (c_meta c)) [] [] [] None) f in
  exec (open_collection reg ref (Some (lit "r"))) s = (Ok c, s) -> viewable v w -> nothing_at d s ->
  represents c M I s -> (forall x ds, M x = Some ds -> made_of c ds) ->
  f = NoFilter \/ filterable c -> (forall x, is_Some (M x) -> says (c_part c) f x (P x)) ->
  exists s' V, exec (create_view v reg sched d ref f) s = (Ok w, s') /\ holds_view v w V s' /\ represents c M I s' /\
    s' !! (d ++ [VIEW_CONFIG]) = Some (CView (vconfig_of v w)) /\ (forall q, ~ under d q -> s' !! q = s !! q) /\
    (forall x, is_Some (V x) <-> is_Some (M x) /\ P x) /\
    (forall x ds p, M x = Some ds -> V x = Some p -> axis_is c ds (vp_axis p) /\ vp_vars p = []).
Proof.
  intros w Eo Hw Hn Hs Hmo Hf HP. destruct (make_new v reg sched d ref None f c M I P s Eo Hw Hn Hs Hmo Hf HP) as (s' & vs & E & Hso & Hvs & H1 & H2 & H3 & H4 & B).
  destruct (choose vs (fun x p => exists a ds, M x = Some ds /\ p = Some (VPart a []) /\ axis_is c ds a /\ bare v w (sub (vdir w x) s') a) (fun _ => None)) as (V & HV & HV').
  { intros x Hx. pose proof Hx as Hx'. apply Hvs in Hx' as [[ds Hds] _]. destruct (B x ds Hx Hds) as (a & Ha & Hb). by exists (Some (VPart a [])), a, ds. }
  exists s', V. split_and!; try done.
  - unfold create_view. rewrite exec_bind, exec_exists, (proj1 (nothing_empty d s) Hn). exact E.
  - split.
    + intros q y Ey. destruct (H4 q y Ey) as [?|(x & r & Hx & ->)]; [by left|right]. exists x, r. split; [|done]. destruct (HV x Hx) as (a & ds & _ & -> & _). by eexists.
    + intros x p Hp. destruct (decide (x ∈ vs)) as [Hx|Hx]; [|by rewrite HV' in Hp]. destruct (HV x Hx) as (a & ds & Hds & Ep & _ & Hb). rewrite Hp in Ep. injection Ep as ->.
      split; [by destruct (rp_part _ _ _ _ Hs _ _ Hds) as (Hl & _)|]. by apply bare_part.
  - intros x. rewrite <-Hvs. destruct (decide (x ∈ vs)) as [Hx|Hx].
    + destruct (HV x Hx) as (a & ds & _ & -> & _). split; [done|]. intros _. by eexists.
    + rewrite HV' by done. split; [by intros [? ?]|done].
  - intros x ds p Hx Hp. destruct (decide (x ∈ vs)) as [Hi|Hi]; [|by rewrite HV' in Hp]. destruct (HV x Hi) as (a & ds' & Hds' & Ep & Ha & _).
    rewrite Hp in Ep. injection Ep as ->. rewrite Hx in Hds'. by injection Hds' as <-.
Qed.
(** The directory exists: the call is refused. *)
Theorem C62_exists v reg sched d ref f s : ~ nothing_at d s -> exec (create_view v reg sched d ref f) s = (Raise ValueError, s).
Proof.
  intros Hn. unfold create_view. rewrite exec_bind, exec_exists. destruct (empty_at d s) eqn:E; [|done]. exfalso. by apply Hn, nothing_empty.
Qed.

(** ** C62: opening *)

(** The view opened from the configuration that was written is the same view. *)
Theorem C62_open v reg sched w s : exec (open_collection reg (c_dir (w_ref w)) (Some (lit "r"))) s = (Ok (w_ref w), s) ->
  s !! (w_dir w ++ [VIEW_CONFIG]) = Some (CView (vconfig_of v w)) -> well_formed (w_meta w) -> ve_unpickle v (ve_pickle v (w_filters w)) = w_filters w ->
  exists m, exec (open_view v reg sched (w_dir w)) s = (Ok (View (w_dir w) (w_ref w) m (w_filters w)), s) /\ same_metadata (w_meta w) m.
Proof.
  intros Eo Ec Hm Hf. destruct (C17_round_trip _ Hm) as (m & Em & Hsm & _). exists m. split; [|done].
  assert (Hne : forall r, under (w_dir w) (w_dir w ++ r) -> r = [VIEW_CONFIG] -> empty_at (w_dir w) s = false).
  { intros r _ ->. apply empty_at_false. eexists _, _. split; [|exact Ec]. apply under_app. }
  unfold open_view. rewrite exec_bind, exec_exists. assert (empty_at (w_dir w ++ [VIEW_CONFIG]) s = false) as ->.
  { apply empty_at_false. eexists _, _. split; [|exact Ec]. apply under_refl. }
  cbn [negb]. cbv iota. rewrite exec_bind, exec_read_file, Ec. cbv iota beta. rewrite exec_bind. cbn [exec vconfig_of vc_dataset vc_base vc_ref vc_filters]. rewrite Em.
  cbv iota beta. unfold make_view. rewrite exec_bind, Eo. cbv iota beta zeta. rewrite exec_bind, exec_exists, (Hne _ (under_app _ _) eq_refl). cbn. by rewrite Hf.
Qed.
(** But a view that was moved is opened where it was: the files of the
    directory that is given are not used; if there is nothing where it was, it
    is created there, without the values of its variables. *)
Theorem C67_moved_refuted v reg sched d s w M I : s !! (d ++ [VIEW_CONFIG]) = Some (CView (vconfig_of v w)) -> d <> w_dir w ->
  exec (open_collection reg (c_dir (w_ref w)) (Some (lit "r"))) s = (Ok (w_ref w), s) ->
  well_formed (w_meta w) -> ve_unpickle v (ve_pickle v (w_filters w)) = w_filters w -> viewable v w -> w_filters w = NoFilter ->
  represents (w_ref w) M I s -> (forall x ds, M x = Some ds -> made_of (w_ref w) ds) -> nothing_at (w_dir w) s ->
  exists m s', exec (open_view v reg sched d) s = (Ok (View (w_dir w) (w_ref w) m (w_filters w)), s') /\ same_metadata (w_meta w) m /\
    (forall x ds, M x = Some ds -> ~ nothing_at (vdir w x) s' /\ forall n, n <> CHECKSUM -> nothing_at (vdir w x ++ [n]) s').
Proof.
  intros Ec Hd Eo Hm Hf Hw Hnf Hs Hmo Hn. destruct (C17_round_trip _ Hm) as (m & Em & Hsm & _).
  assert (Hw' : viewable v (with_vmeta w m)).
  { destruct Hw as [A1 A2 A3 A4 A5 A6 A7]. split; try done.
    - cbn [with_vmeta w_meta]. unfold md_from_config in Em. destruct (traverse _ _) as [vs|]; [|done]. injection Em as <-. cbn. apply dict_of_NoDup.
    - intros n mv E. cbn [with_vmeta w_meta w_ref] in *. assert (is_Some (dget (w_meta w).(md_vars) n)) as [mv0 E0].
      { apply dget_is_Some. apply (sm_names _ _ Hsm). apply dget_is_Some. by eexists. }
      pose proof (sm_vars _ _ Hsm _ _ _ E0 E) as Hv. destruct (A6 n mv0 E0) as (B1 & B2 & B3 & B4 & B5 & B6 & B7). destruct Hv as [V1 _ V3 _ _ _ _]. rewrite <-V1, <-V3. done. }
  assert (Hsays : forall x, is_Some (M x) -> says (c_part (w_ref w)) (w_filters w) x True) by (intros x _; by rewrite Hnf).
  destruct (make_new v reg sched (w_dir w) (c_dir (w_ref w)) (Some m) (w_filters w) (w_ref w) M I (fun _ => True) s Eo Hw' Hn Hs Hmo (or_introl Hnf) Hsays)
    as (s' & vs & E & _ & Hvs & _ & _ & _ & _ & B).
  exists m, s'. split_and!; [|done|].
  - unfold open_view. rewrite exec_bind, exec_exists. assert (empty_at (d ++ [VIEW_CONFIG]) s = false) as ->.
    { apply empty_at_false. eexists _, _. split; [|exact Ec]. apply under_refl. }
    cbn [negb]. cbv iota. rewrite exec_bind, exec_read_file, Ec. cbv iota beta. rewrite exec_bind. cbn [exec vconfig_of vc_dataset vc_base vc_ref vc_filters]. rewrite Em, Hf. exact E.
  - intros x ds Hx. destruct (B x ds) as (a & _ & [B1 _ (dt & B3)]); [apply Hvs; split; [by eexists|done]|done|]. split.
    + intros Hno. destruct (kp_array _ _ B3) as (cs & _ & Hz & _). rewrite !sub_lookup in Hz. change (vdir _ x) with (vdir w x) in Hz. rewrite Hno in Hz by apply under_app. done.
    + intros n Hin q (r & ->). destruct (s' !! _) as [y|] eqn:Ey; [|done]. exfalso. rewrite <-app_assoc, <-sub_lookup in Ey. destruct (B1 _ _ Ey) as (f' & [= -> _]). done.
Qed.

(** A case: the collection of the other examples, opened in read mode, with the
    filter "pass == 2". *)
Lemma reopened_viewable v d c c' m f mode : reopened mode c c' -> declared c' -> (forall e, regular e c -> regular e c') -> viewable v (View d c m f) -> viewable v (View d c' m f).
Proof.
  intros Ho Hc Hr [A1 A2 A3 A4 A5 A6 A7]. split; cbn [w_ref w_dir w_meta] in *; [by apply Hr|done|by rewrite (ro_dir _ _ _ Ho)|done|done| |].
  - intros n mv Hn. destruct (A6 n mv Hn) as (B1 & B2 & B3 & B4 & B5 & B6 & (n' & mv' & En & Ed)). rewrite (ro_dim _ _ _ Ho). split_and!; try done.
    + intros Hin. by apply B6, (sm_names _ _ (ro_meta _ _ _ Ho)).
    + destruct (same_get _ _ _ _ (ro_meta _ _ _ Ho) En) as (mv2 & E2 & Hs). exists n', mv2. split; [done|]. by rewrite <-(sv_dims _ _ Hs).
  - split; [apply (dc_nodup _ Hc)|]. intros n mv Hn. by apply (dc_name _ Hc).
Qed.
Lemma reopened_made mode c c' ds : reopened mode c c' -> made_of c ds -> made_of c' ds.
Proof.
  intros Ho [A1 A2 A3]. split; rewrite ?(ro_dim _ _ _ Ho), ?(ro_axis _ _ _ Ho); try done.
  - intros n mv Hn Hd. destruct (same_get' _ _ _ _ (ro_meta _ _ _ Ho) Hn) as (mv0 & E0 & Hs). rewrite <-(sv_dims _ _ Hs) in Hd |- *. by eapply A2.
  - intros n x Hn. destruct (A3 n x Hn) as (B1 & (mv & E)). split; [done|]. destruct (same_get _ _ _ _ (ro_meta _ _ _ Ho) E) as (mv2 & E2 & _). by exists mv2.
Qed.

Definition W_opened : collection := Coll (lit "time") (match md_from_config (md_get_config (c_meta Y_coll)) with Ok m => m | Raise _ => c_meta Y_coll end) X_part X_dir (lit "time") false true.
Example C62_case : exists M s, exec (open_collection the_registry X_dir (Some (lit "r"))) s = (Ok W_opened, s) /\
  viewable W_env (View W_dir W_opened (mk_mdataset (md_dims (c_meta W_opened)) [] [] [] None) X_filter) /\ nothing_at W_dir s /\ represents W_opened M None s /\
  (forall x ds, M x = Some ds -> made_of W_opened ds) /\ filterable W_opened /\ (forall x, is_Some (M x) -> says (c_part W_opened) X_filter x (hd 0%Z x = 2%Z)) /\
  is_Some (M [1%Z]) /\ is_Some (M [2%Z]).
Proof.
  destruct Y_filled as (M & s & Hs & _ & HM). set (s1 := <[X_dir ++ [CONFIG] := CConf (config_of Y_coll)]> (prune W_dir s)). exists M, s1.
  assert (Hout : forall q, ~ under W_dir q -> q <> X_dir ++ [CONFIG] -> s1 !! q = s !! q).
  { intros q H1 H2. unfold s1. rewrite lookup_insert_ne by done. by rewrite prune_lookup, decide_False. }
  assert (Hap : forall q, under X_dir q -> ~ under W_dir q) by (intros q H1 H2; by apply (vw_apart _ _ W_viewable q)).
  assert (Hs1 : represents Y_coll M None s1).
  { destruct Hs as [H1 H2 H3]. split.
    - intros q x E. destruct (decide (q = [CONFIG])) as [->|N]; [by left|]. rewrite Hout in E; [by eapply H1|apply Hap, under_app|intros E'; by apply app_inv_head in E'].
    - intros x ds Hx. destruct (H2 _ _ Hx) as (Hl & Hso & Hh). split; [done|]. split; [done|]. replace (sub (part_dir Y_coll x) s1) with (sub (part_dir Y_coll x) s); [done|].
      apply map_eq. intros q. rewrite !sub_lookup. unfold part_dir. rewrite <-app_assoc. symmetry. apply Hout; [apply Hap, under_app|]. intros E. apply app_inv_head in E.
      destruct (key_head X_env Y_coll Y_regular x Hl) as (a & r & Ea & _ & Hd). rewrite Ea in E. injection E as E _. subst a. apply Hd. by exists (lit "zcollection").
    - done. }
  assert (Es : s1 !! (X_dir ++ [CONFIG]) = Some (CConf (config_of Y_coll))) by (apply lookup_insert).
  assert (Hop : openable Y_coll s1).
  { split; [exact Y_declared|]. split; [right; exists [lit "pass"], (DSeq [lit "int64"]); vm_compute; reflexivity|]. split; [|exact Es]. eexists. split; vm_compute; reflexivity. }
  destruct (C64_open the_registry Y_coll s1 (lit "r") default_registry_ok Hop ltac:(left)) as (c' & Eo & Hro & Hc' & Hr' & Hrep).
  assert (Eo' : exec (open_collection the_registry X_dir (Some (lit "r"))) s1 = (Ok W_opened, s1)).
  { unfold open_collection, from_config. rewrite exec_bind, exec_exists.
    assert (empty_at (X_dir ++ [CONFIG]) s1 = false) as -> by (apply empty_at_false; eexists _, _; split; [apply under_refl|exact Es]).
    cbn [negb]. rewrite exec_bind, exec_read_file, Es. cbv iota beta. rewrite exec_bind. cbn [config_of cc_dataset cc_part cc_axis exec].
    assert (md_from_config (md_get_config (c_meta Y_coll)) = Ok (c_meta W_opened)) as -> by (vm_compute; reflexivity).
    cbn [exec]. rewrite exec_bind. assert (get_codecs the_registry (p_get_config (c_part Y_coll)) = Ok X_part) as -> by (vm_compute; reflexivity). cbn [exec].
    unfold make_collection. rewrite exec_bind. assert (new_collection (c_axis Y_coll) (c_meta W_opened) X_part X_dir (Some (default (lit "r") (Some (lit "r")))) = Ok W_opened) as -> by (vm_compute; reflexivity). done. }
  assert (c' = W_opened) as ->. { change (c_dir Y_coll) with X_dir in Eo. rewrite Eo' in Eo. by injection Eo. }
  split; [exact Eo'|split; [|split; [|split; [|split; [|split; [|split; [|split]]]]]]].
  - eapply reopened_viewable; [exact Hro|exact Hc'|exact Hr'|]. destruct W_viewable as [A1 A2 A3 A4 A5 A6 A7]. split; try done. apply NoDup_nil_2.
  - intros q Hq. unfold s1. rewrite lookup_insert_ne; [by rewrite prune_lookup, decide_True|]. intros <-. by apply (Hap (X_dir ++ [CONFIG])); [apply under_app|].
  - by apply Hrep.
  - intros x ds Hx. eapply reopened_made; [exact Hro|]. by apply (W_made M x ds HM).
  - exact X_filterable.
  - destruct HM as (p1 & p2 & H1 & H2 & H3 & _). intros x [d Hd]. destruct (decide (x = [1%Z])) as [->|N1]; [exact (X_says 1)|]. destruct (decide (x = [2%Z])) as [->|N2]; [exact (X_says 2)|]. by rewrite H3 in Hd.
  - destruct HM as (p1 & p2 & H1 & _). by eexists.
  - destruct HM as (p1 & p2 & _ & H2 & _). by eexists.
Qed.

(** ** C63: the variables of a view *)
Section variables.
  Context (v : venv) (w : view) (M : list Z -> option dataset) (I : option dataset) (V : list Z -> option vpart) (s : store).
  Context (Hw : viewable v w) (Hs : represents (w_ref w) M I s) (Hmo : forall x ds, M x = Some ds -> made_of (w_ref w) ds) (Hv : holds_view v w V s).

(** The variable is added to every partition of the view, at the end, with the
    sizes of the reference and nothing but its fill value; nothing else changes. *)
Theorem C63_add mv sched sched' : follows w M V -> addable w mv ->
  exists m s' V', exec (view_add_variable v sched sched' w mv) s = (Ok (View (w_dir w) (w_ref w) m (w_filters w), None), s') /\
    md_vars m = md_vars (w_meta w) ++ [(mv_name mv, mv)] /\ viewable v (View (w_dir w) (w_ref w) m (w_filters w)) /\ holds_view v (View (w_dir w) (w_ref w) m (w_filters w)) V' s' /\ represents (w_ref w) M I s' /\
    (forall q, ~ under (w_dir w) q -> s' !! q = s !! q) /\
    ((exists x, is_Some (V x)) -> s' !! (w_dir w ++ [VIEW_CONFIG]) = Some (CView (vconfig_of v (View (w_dir w) (w_ref w) m (w_filters w))))) /\
    (forall x, V x = None -> V' x = None) /\ (forall x p ds, V x = Some p -> M x = Some ds -> exists p', V' x = Some p' /\ gains mv ds p p').
Proof using All.
  intros Hfo Hmv. destruct (add_ok v w Hw M I V s Hs Hv) with (mv := mv) (sched := sched) (sched' := sched') as (m & s' & V' & H1 & H2 & H3 & H4 & H5 & H6 & H7 & _ & H8 & H9); [|done..|].
  { intros x [p Hp]. destruct (Hfo _ _ Hp) as (ds & Hds & _). by eexists. }
  by exists m, s', V'.
Qed.
(** A view without partitions: the variable is not saved, a view opened
    afterwards does not have it. *)
Theorem C66_unsaved_refuted mv sched sched' : (forall x, V x = None) -> addable w mv ->
  exists m, exec (view_add_variable v sched sched' w mv) s = (Ok (View (w_dir w) (w_ref w) m (w_filters w), None), s) /\ mv_name mv ∈ dkeys (md_vars m).
Proof using All.
  intros Hn Hmv. destruct (add_ok v w Hw M I V s Hs Hv) with (mv := mv) (sched := sched) (sched' := sched') as (m & s' & V' & H1 & H2 & H3 & H4 & H5 & H6 & H7 & H8 & _); [|by intros x p Hp; rewrite Hn in Hp|done..|].
  { intros x [p Hp]. by rewrite Hn in Hp. }
  exists m. rewrite (H8 Hn) in H1. split; [done|]. rewrite H2. unfold dkeys. rewrite map_app. apply elem_of_app. right. left.
Qed.
(** What is refused, without any change. *)
Theorem C63_add_refused mv sched sched' :
  mv_name mv ∈ dkeys (md_vars (w_meta w)) \/ mv_name mv ∈ dkeys (md_vars (c_meta (w_ref w))) \/ (exists d, d ∈ mv_dims mv /\ d ∉ md_dims (w_meta w)) ->
  exec (view_add_variable v sched sched' w mv) s = (Raise ValueError, s).
Proof.
  intros H. unfold view_add_variable. destruct (dmem (md_vars (c_meta (w_ref w))) (mv_name mv)) eqn:E1; [done|]. destruct (dmem (md_vars (w_meta w)) (mv_name mv)) eqn:E2; [done|]. cbn [orb].
  apply dmem_false in E1, E2. destruct H as [H|[H|H]]; [done..|]. destruct (C47_add_variable (w_meta w) mv) as (_ & Hd & _). rewrite exec_bind, (Hd H). done.
Qed.
(** When no variable of the reference has the same dimensions the call fails,
    but the view has the variable all the same: the same call fails for another
    reason afterwards, and the next one that succeeds saves it. *)
Theorem C66_rollback_refuted mv sched sched' :
  mv_name mv ∉ dkeys (md_vars (w_meta w)) -> mv_name mv ∉ dkeys (md_vars (c_meta (w_ref w))) -> (forall d, d ∈ mv_dims mv -> d ∈ md_dims (w_meta w)) ->
  (forall n mv', dget (md_vars (c_meta (w_ref w))) n = Some mv' -> mv_dims mv' <> mv_dims mv) ->
  exists m, exec (view_add_variable v sched sched' w mv) s = (Ok (View (w_dir w) (w_ref w) m (w_filters w), Some ValueError), s) /\ dget (md_vars m) (mv_name mv) = Some mv /\
    exec (view_add_variable v sched sched' (View (w_dir w) (w_ref w) m (w_filters w)) mv) s = (Raise ValueError, s).
Proof using Hw.
  intros H1 H2 H3 H4. destruct (C47_add_variable (w_meta w) mv) as (_ & _ & H). destruct (H H1 H3) as (m & Em & Ev & _). exists m.
  assert (Hg : dget (md_vars m) (mv_name mv) = Some mv) by (rewrite Ev, dget_snoc, decide_True; done).
  assert (Et : md_search_same_dimensions_as (c_meta (w_ref w)) mv = Raise ValueError).
  { pose proof (C47_same_dimensions (c_meta (w_ref w)) mv) as Ht. destruct (md_search_same_dimensions_as (c_meta (w_ref w)) mv) as [tm|ex] eqn:E.
    - destruct Ht as (bef & aft & Hi & Hd & _). exfalso. assert (Hi' : tm ∈ dvals (md_vars (c_meta (w_ref w)))) by (rewrite Hi; apply elem_of_app; right; left). apply elem_dvals in Hi' as (n & Hi'). eapply H4; [apply elem_dget; [apply (vw_ref _ _ Hw)|exact Hi']|]. exact Hd.
    - by destruct Ht as [-> _]. }
  split; [|split; [done|]].
  - unfold view_add_variable. rewrite (proj2 (dmem_false _ _) H1), (proj2 (dmem_false _ _) H2). cbn [orb]. rewrite exec_bind, Em. cbn [exec]. cbv zeta.
    rewrite exec_bind, exec_attempt, exec_bind. cbn [exec]. by rewrite Et.
  - unfold view_add_variable. cbn [with_vmeta w_ref w_meta]. assert (dmem (md_vars m) (mv_name mv) = true) as -> by (apply dmem_true, dget_is_Some; by eexists). by rewrite orb_true_r.
Qed.

(** Removal: the variable leaves every partition, the others stay as they are. *)
Theorem C63_drop name sched : name ∈ dkeys (md_vars (w_meta w)) -> (forall x, is_Some (V x) -> is_Some (M x)) ->
  exists m s', exec (view_drop_variable v sched w name) s = (Ok (View (w_dir w) (w_ref w) m (w_filters w), None), s') /\
    md_vars m = ddel (md_vars (w_meta w)) name /\ viewable v (View (w_dir w) (w_ref w) m (w_filters w)) /\ holds_view v (View (w_dir w) (w_ref w) m (w_filters w)) (fun x => option_map (loses name) (V x)) s' /\
    represents (w_ref w) M I s' /\ (forall q, ~ under (w_dir w) q -> s' !! q = s !! q) /\
    s' !! (w_dir w ++ [VIEW_CONFIG]) = Some (CView (vconfig_of v (View (w_dir w) (w_ref w) m (w_filters w)))).
Proof using Hw Hs Hv.
  intros Hn Hor. destruct (drop_ok v w Hw M I V s Hs Hv Hor sched name Hn) as (s' & H). eexists _, s'. split; [apply H|]. split; [done|]. apply H.
Qed.
Theorem C63_drop_refused name sched : name ∉ dkeys (md_vars (w_meta w)) \/ name ∈ dkeys (md_vars (c_meta (w_ref w))) ->
  exec (view_drop_variable v sched w name) s = (Raise ValueError, s).
Proof.
  intros H. unfold view_drop_variable. rewrite exec_bind. assert (assert_handled w name = Raise ValueError) as ->; [|done].
  unfold assert_handled. destruct (dmem (md_vars (c_meta (w_ref w))) name) eqn:E1; [done|]. destruct (dmem (md_vars (w_meta w)) name) eqn:E2; [|done].
  apply dmem_false in E1. apply dmem_true in E2. by destruct H.
Qed.
End variables.

(** A case: the view of C36 once synchronised. *)
Definition W_wind : mvar := MVar (lit "wind") (lit "float64") [lit "time"; lit "x"] [] None (Some (Num 0)) [].
Lemma W_addable : addable W_view W_wind.
Proof.
  split.
  - split; apply (bool_decide_unpack _); vm_compute; done.
  - split; [done|]. unfold plain_name. apply (bool_decide_unpack _). vm_compute. done.
  - split; [apply (bool_decide_unpack _); vm_compute; done|]. split; [left|]. intros d Hd. exact Hd.
  - exists (lit "height"). eexists. split; vm_compute; reflexivity.
Qed.
Example C63_case : exists M s V, viewable W_env W_view /\ represents (w_ref W_view) M None s /\ (forall x ds, M x = Some ds -> made_of (w_ref W_view) ds) /\
  holds_view W_env W_view V s /\ follows W_view M V /\ addable W_view W_wind /\ lit "speed" ∈ dkeys (md_vars (w_meta W_view)) /\ is_Some (V [1%Z]) /\ is_Some (V [2%Z]).
Proof.
  destruct W_filled as (M & s & Hs & HM & Hv & Hc). pose proof (fun x d => W_made M x d HM) as Hmo.
  destruct HM as (p1 & p2 & H1 & H2 & H3 & _).
  destruct (C36_sync W_env W_view M None W_parts s W_viewable Hs Hmo Hv Hc ltac:(exists [1%Z]; by rewrite H1) [] []) as (s' & V' & ch & _ & _ & Hs' & Hv' & _ & A & B & St).
  exists M, s', V'. split; [exact W_viewable|]. split; [exact Hs'|]. split; [exact Hmo|]. split; [exact Hv'|]. split; [|split; [exact W_addable|split; [left|split]]].
  - intros x p Hp. destruct (M x) as [ds|] eqn:Ex.
    + exists ds. split; [done|]. destruct (St x ds Ex) as (p' & Hp' & Ha). rewrite Hp in Hp'. injection Hp' as <-. exact Ha.
    + destruct (B x Ex) as [_ E]. rewrite E in Hp. unfold W_parts in Hp. destruct (decide (x = [1%Z])) as [->|]; [|done]. by rewrite H1 in Ex.
  - destruct (St _ _ H1) as (p & -> & _). by eexists.
  - destruct (St _ _ H2) as (p & -> & _). by eexists.
Qed.

Print Assumptions C62_create.
Print Assumptions C62_exists.
Print Assumptions C62_open.
Print Assumptions C67_moved_refuted.
Print Assumptions C63_add.
Print Assumptions C66_unsaved_refuted.
Print Assumptions C63_add_refused.
Print Assumptions C66_rollback_refuted.
Print Assumptions C63_drop.
Print Assumptions C63_drop_refused.
