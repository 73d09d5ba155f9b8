(** * Properties of the changes of the variables of a view that are interrupted *)
From Verif Require Import Py Dict NdArray_Model NdArray_Spec NdArray_Proofs Dataset_Model Dataset_Spec Dataset_Proofs Meta_Model Meta_Spec Meta_Props PartPath_Model PartPath_Proofs PartPath_Props
  Split_Spec FS_Model FS_Proofs Pool_Model Pool_Proofs Storage_Model Storage_Spec Storage_Chunks Storage_Proofs Storage_Change
  Listing_Model Listing_Spec Listing_Proofs Collection_Model Collection_Spec Collection_Proofs Collection_State Collection_Select Collection_Load Collection_Example Crash_Spec Collection_Crash Crash_Props Update_Model Update_Example Validate_Props
  Index_Model View_Model View_Spec View_State View_Proofs View_Sync View_Init View_Vars View_Example View_Props View_Props2 ViewStop_Props.

(** The arrays [name] of the partitions of the view. *)
Definition arrays_of (w : view) (name : str) (r : path) : Prop := exists x, length x = length (p_keys (c_part (w_ref w))) /\ under (vdir w x ++ [name]) r.

Lemma within_create_array w (R W : path -> Prop) tn mv a : (forall q, under ((w_dir w ++ a.1) ++ [mv_name mv]) q -> W q) -> within R W (create_zarr_array w tn mv a).
Proof.
  intros H. unfold create_zarr_array. apply within_bind; [done|]. intros z. cbv zeta.
  apply within_bind; [by apply within_rmtree|]. intros _.
  apply within_bind; [apply within_write, H; exists [ZARRAY]; by rewrite <-!app_assoc|]. intros _. apply within_write, H. exists [ZATTRS]. by rewrite <-!app_assoc.
Qed.
Lemma within_drop_one w (R W : path -> Prop) name ign q : (forall r, under ((w_dir w ++ q) ++ [name]) r -> W r) -> within R W (drop_array w name ign q).
Proof.
  intros H. unfold drop_array. rewrite app_assoc. assert (within R W (rm ((w_dir w ++ q) ++ [name]) : program unit)) by (by apply within_rm).
  destruct ign; [|done]. apply within_catch; [done|]. by intros.
Qed.


Section C115.
Context (v : venv) (w : view) (M : list Z -> option dataset) (I : option dataset) (s : store).
Context (Hw : viewable v w) (Hs : represents (w_ref w) M I s).
Local Notation config := (w_dir w ++ [VIEW_CONFIG]).
Local Notation keys := (p_keys (c_part (w_ref w))).
Local Notation kd := (key_dirs (c_part (w_ref w))).

Lemma config_part x r : length x = length keys -> vdir w x ++ r <> config.
Proof using Hw.
  intros Hl E. unfold vdir in E. rewrite <-app_assoc in E. apply app_inv_head in E.
  destruct (key_head (ve_env v) (w_ref w) (vw_regular _ _ Hw) x Hl) as (a & k & Ea & _ & Hd). rewrite Ea in E. injection E as -> _. apply Hd. by exists (lit "view").
Qed.
Lemma arrays_config name : ~ arrays_of w name config.
Proof using Hw. intros (x & Hl & (r & E)). rewrite <-app_assoc in E. by eapply (config_part x). Qed.
Lemma arrays_other name x n r : length x = length keys -> n <> name -> ~ arrays_of w name (vdir w x ++ n :: r).
Proof.
  intros Hl N (y & Hy & U). destruct (decide (y = x)) as [->|Ny].
  - destruct U as (t & E). rewrite <-app_assoc in E. apply app_inv_head in E. injection E as <- _. done.
  - eapply (vdirs_apart w y x); [done|done|done|by eapply under_more|apply under_app].
Qed.
Lemma arrays_inside name r : arrays_of w name r -> under (w_dir w) r.
Proof. intros (x & _ & U). unfold vdir in U. rewrite <-app_assoc in U. by eapply under_more. Qed.

(** The partitions that are listed, as long as only the view has changed. *)
Lemma parts_listed u parts u' : (forall q, ~ under (w_dir w) q -> u !! q = s !! q) -> exec (view_parts v w NoFilter) u = (Ok parts, u') ->
  u' = u /\ forall q, q ∈ parts -> exists x, length x = length keys /\ q = kd x.
Proof using Hw Hs.
  intros Hu E. assert (Hsu : represents (w_ref w) M I u).
  { eapply (represents_frame w); [exact Hs|]. intros q Hq. apply Hu. intros U. by eapply (vw_apart _ _ Hw). }
  destruct (select_all (ve_env v) (w_ref w) (vw_regular _ _ Hw) M I u Hsu) as (all & _ & Hall & Esel). pose proof (exec_ref_parts v w NoFilter u all Esel) as Er.
  unfold view_parts in E. rewrite exec_bind, Er in E. cbv iota beta in E. rewrite (exec_pfilter _ (fun q => negb (empty_at (w_dir w ++ q) u))) in E by (intros; apply exec_exists).
  injection E as <- <-. split; [done|]. intros q Hq. apply elem_of_list_In, filter_In in Hq as [Hq _]. apply in_map_iff in Hq as (x & <- & Hx%elem_of_list_In).
  apply Hall in Hx as [ds Hx]. destruct (rp_part _ _ _ _ Hs _ _ Hx) as (Hl & _). by exists x.
Qed.
Lemma within_drops w1 name ign sched parts : w_dir w1 = w_dir w -> (forall q, q ∈ parts -> exists x, length x = length keys /\ q = kd x) ->
  within (fun _ => True) (arrays_of w name) (execute_transaction CTorn sched (map (drop_array w1 name ign) parts)).
Proof.
  intros Ew Hp. apply within_transaction. intros p H. apply elem_of_list_In, in_map_iff in H as (q & <- & Hq%elem_of_list_In). destruct (Hp q Hq) as (x & Hl & ->).
  apply within_drop_one. intros r Hr. exists x. split; [done|]. unfold vdir. by rewrite <-Ew.
Qed.

(** ** C115: a change of the variables of a view that is interrupted changes that variable only *)

(** Wherever [add_variable] is stopped, nothing has changed outside the view, nor
    for the other variables; and the call was over, or the configuration is the
    former one, or it is incomplete. *)
Theorem C115_add mv sched sched' r s' u : exec (view_add_variable v sched sched' w mv) s = (r, s') -> stopped_at (view_add_variable v sched sched' w mv) s u ->
  (forall q, ~ under (w_dir w) q -> u !! q = s !! q) /\
  (forall x n f, length x = length keys -> n <> mv_name mv -> u !! (vdir w x ++ n :: f) = s !! (vdir w x ++ n :: f)) /\
  (u !! config = s !! config \/ u !! config = Some CTorn \/ u = s').
Proof using Hw Hs.
  intros Eall [p' H].
  set (Psi := fun u : store => (forall q, q <> config -> ~ arrays_of w (mv_name mv) q -> u !! q = s !! q) /\ (u !! config = s !! config \/ u !! config = Some CTorn \/ u = s')).
  set (Psi0 := fun u : store => forall q, ~ arrays_of w (mv_name mv) q -> u !! q = s !! q).
  assert (H0 : forall t, Psi0 t -> Psi t) by (intros t Ht; split; [by intros q _; apply Ht|left; apply Ht; by apply arrays_config]).
  assert (Hs0 : Psi0 s) by done.
  assert (Hout : forall t, Psi0 t -> forall q, ~ under (w_dir w) q -> t !! q = s !! q) by (intros t Ht q Hq; apply Ht; intros X; by apply Hq, (arrays_inside _ _ X)).
  assert (Ha : always CTorn Psi (view_add_variable v sched sched' w mv) s).
  { unfold view_add_variable in *. destruct (_ || _); [cbn; split; [by apply H0|done]|]. rewrite exec_bind in Eall.
    apply always_bind; [cbn; split; [by apply H0|done]|]. intros m s1 E. rewrite E in Eall. cbn [exec] in E. injection E as _ <-. cbv zeta in *. cbv iota beta in Eall. set (w1 := with_vmeta w m) in *.
    rewrite exec_bind, exec_attempt in Eall.
    lazymatch type of Eall with context [exec ?m s] => set (body := m) in * end.
    assert (Eend : (exec body s).2 = s') by (cbn in Eall; by injection Eall). clear Eall.
    assert (Hb : always CTorn Psi body s).
    { unfold body in *. clear body. apply always_bind; [cbn; split; [by apply H0|done]|]. intros tm s1 E. rewrite exec_bind, E in Eend. cbn [exec] in E. injection E as _ <-.
      cbv iota beta in Eend. rewrite exec_bind in Eend. change (view_parts v w1 NoFilter) with (view_parts v w NoFilter) in *.
      apply always_bind; [apply always_read; [apply within_view_parts|by apply H0]|]. intros l s1 E. destruct (parts_listed s l s1 (fun _ _ => eq_refl) E) as [-> Hl]. rewrite E in Eend. cbv iota beta in Eend.
      destruct l as [|q0 l0]; [cbn; split; [by apply H0|done]|]. set (l := q0 :: l0) in *.
      rewrite exec_bind in Eend. apply always_bind; [apply always_read; [apply within_iterate|by apply H0]|]. intros gs s1 Eg. rewrite Eg in Eend.
      assert (s1 = s) as ->.
      { pose proof (always_sound CTorn _ _ _ _ _ (always_read (fun t => t = s) (iterate_on_records v w1) s (within_iterate v w1 _) eq_refl) (exec_steps CTorn (iterate_on_records v w1) s)) as Hst. by rewrite Eg in Hst. }
      cbv zeta iota beta in Eend. rewrite exec_bind, exec_attempt in Eend. cbv zeta.
      set (tasks := execute_transaction CTorn sched _) in *.
      assert (Hwt : within (fun _ => True) (arrays_of w (mv_name mv)) tasks).
      { unfold tasks. apply within_transaction. intros p Hp. apply elem_of_list_In, in_map_iff in Hp as (g & <- & Hg). apply filter_In in Hg as [_ Hg]. unfold memb in Hg. apply bool_decide_eq_true in Hg.
        destruct (Hl _ Hg) as (x & Hx & Ex). apply within_create_array. intros q Hq. exists x. split; [done|]. unfold vdir. rewrite <-Ex. exact Hq. }
      pose proof (exec_steps CTorn tasks s) as Hst. pose proof (steps_outside _ _ _ _ _ Hwt Hst) as Hpt.
      destruct (exec tasks s) as [rt st] eqn:Et. cbn [fst snd] in *.
      assert (Hbt : always CTorn Psi tasks s) by (eapply (always_within (arrays_of w (mv_name mv)) _ _ _ s); [exact Hwt|done|]; intros t Ht; by apply H0).
      apply always_bind; [by apply always_attempt|]. intros r0 s1 E0. rewrite exec_attempt, Et in E0. injection E0 as <- <-. cbv iota beta in Eend.
      destruct rt as [l1|ex].
      - unfold write_vconfig in *. rewrite exec_write in Eend. cbn in Eend. change (w_dir w1) with (w_dir w) in *.
        cbn. split; [by apply H0|]. split; [|split; [|done]].
        + split; [|right; left; apply lookup_insert]. intros q Nq Ha. rewrite lookup_insert_ne by (by apply not_eq_sym). by apply Hpt.
        + split; [|right; right; exact Eend]. intros q Nq Ha. rewrite lookup_insert_ne by (by apply not_eq_sym). by apply Hpt.
      - apply always_bind; [apply always_read; [apply within_view_parts|by apply H0]|]. intros parts s1 E1.
        destruct (parts_listed st parts s1 (Hout st Hpt) E1) as [-> Hparts].
        assert (Hwd := within_drops w1 (mv_name mv) true sched' parts eq_refl Hparts).
        assert (Hd : forall t p2, rtc (step CTorn) (execute_transaction CTorn sched' (map (drop_array w1 (mv_name mv) true) parts), st) (p2, t) -> Psi0 t).
        { intros t p2 Ht q Hq. rewrite (steps_outside _ _ _ _ _ Hwd Ht q Hq). by apply Hpt. }
        apply always_bind; [eapply (always_within (arrays_of w (mv_name mv)) _ _ _ st); [exact Hwd|done|]; intros t Ht; apply H0; intros q Hq; rewrite (Ht q Hq); by apply Hpt|].
        intros r1 s1 E2. cbn. split; [|done]. apply H0. pose proof (exec_steps CTorn (execute_transaction CTorn sched' (map (drop_array w1 (mv_name mv) true) parts)) st) as Hst2.
        unfold mv_set_for_insertion in E2. cbn in E2. rewrite E2 in Hst2. exact (Hd _ _ Hst2). }
    apply always_bind; [by apply always_attempt|]. intros r0 s1 E. rewrite exec_attempt in E. injection E as _ <-. cbn. split; [|done].
    exact (always_sound CTorn _ _ _ _ _ Hb (exec_steps CTorn body s)). }
  pose proof (always_sound CTorn _ _ p' s u Ha H) as [H1 H2]. split; [|split; [|exact H2]].
  - intros q Nq. apply H1; [intros ->; apply Nq, under_app|]. intros X. by apply Nq, (arrays_inside _ _ X).
  - intros x n f Hx N. apply H1; [by apply config_part|by apply arrays_other].
Qed.

(** Wherever [drop_variable] is stopped, nothing has changed outside the view, nor
    for the other variables; and nothing at all was changed, or the configuration
    is incomplete, or it is that of the view without the variable. *)
Theorem C115_drop name sched u : stopped_at (view_drop_variable v sched w name) s u ->
  (forall q, ~ under (w_dir w) q -> u !! q = s !! q) /\
  (forall x n f, length x = length keys -> n <> name -> u !! (vdir w x ++ n :: f) = s !! (vdir w x ++ n :: f)) /\
  (u = s \/ u !! config = Some CTorn \/ u !! config = Some (CView (vconfig_of v (with_vmeta w (md_del_variable (w_meta w) name))))).
Proof using Hw Hs.
  intros [p' H]. set (w1 := with_vmeta w (md_del_variable (w_meta w) name)).
  set (Psi := fun u : store => (forall q, q <> config -> ~ arrays_of w name q -> u !! q = s !! q) /\ (u = s \/ u !! config = Some CTorn \/ u !! config = Some (CView (vconfig_of v w1)))).
  assert (Hs0 : Psi s) by (split; [done|by left]).
  assert (Ha : always CTorn Psi (view_drop_variable v sched w name) s).
  { unfold view_drop_variable. apply always_bind; [by cbn|]. intros [] s1 E. cbn [exec] in E. injection E as _ <-. cbv zeta. fold w1.
    lazymatch goal with |- context [attempt ?m] => set (body := m) end.
    assert (Hb : always CTorn Psi body s).
    { unfold body, write_vconfig. change (w_dir w1) with (w_dir w). set (s1 := <[config := CView (vconfig_of v w1)]> s).
      assert (H1 : forall q, q <> config -> s1 !! q = s !! q) by (intros q Nq; by apply lookup_insert_ne, not_eq_sym).
      assert (Hps : forall t, (forall q, ~ arrays_of w name q -> t !! q = s1 !! q) -> Psi t).
      { intros t Ht. split; [intros q Nq Ha; rewrite (Ht q Ha); by apply H1|]. right. right. rewrite Ht by apply arrays_config. apply lookup_insert. }
      apply always_bind.
      - cbn. split; [done|]. split; [|split; [by apply Hps|done]]. split; [|right; left; apply lookup_insert]. intros q Nq _. by apply lookup_insert_ne, not_eq_sym.
      - intros r0 s2 E. rewrite exec_write in E. injection E as _ <-. fold s1. change (view_parts v w1 NoFilter) with (view_parts v w NoFilter).
        apply always_bind; [apply always_read; [apply within_view_parts|by apply Hps]|]. intros parts s2 E.
        destruct (parts_listed s1 parts s2) as [-> Hparts]; [|exact E|].
        { intros q Hq. apply H1. intros ->. apply Hq, under_app. }
        eapply (always_within (arrays_of w name) _ _ _ s1); [by apply within_drops|done|exact Hps]. }
    apply always_bind; [by apply always_attempt|]. intros r0 s1 E. rewrite exec_attempt in E. injection E as _ <-. cbn. split; [|done].
    exact (always_sound CTorn _ _ _ _ _ Hb (exec_steps CTorn body s)). }
  pose proof (always_sound CTorn _ _ p' s u Ha H) as [H1 H2]. split; [|split; [|exact H2]].
  - intros q Nq. apply H1; [intros ->; apply Nq, under_app|]. intros X. by apply Nq, (arrays_inside _ _ X).
  - intros x n f Hx N. apply H1; [by apply config_part|by apply arrays_other].
Qed.
End C115.
Print Assumptions C115_add.
Print Assumptions C115_drop.

(** ** C116: a view can be opened after a change of its variables that was interrupted *)

(** The claim is false of the code: the configuration is written in place. A view
    that could be opened cannot be any more, whatever the variable. *)
Theorem C116_opened_refuted v reg sched w name s : dmem (md_vars (w_meta w)) name = true -> dmem (md_vars (c_meta (w_ref w))) name = false ->
  exec (open_collection reg (c_dir (w_ref w)) (Some (lit "r"))) s = (Ok (w_ref w), s) ->
  s !! (w_dir w ++ [VIEW_CONFIG]) = Some (CView (vconfig_of v w)) -> well_formed (w_meta w) -> ve_unpickle v (ve_pickle v (w_filters w)) = w_filters w ->
  (exists w', exec (open_view v reg sched (w_dir w)) s = (Ok w', s)) /\
  exists u, stopped_at (view_drop_variable v sched w name) s u /\ forall reg' sched', exec (open_view v reg' sched' (w_dir w)) u = (Raise ValueError, u).
Proof.
  intros Hn Hr Eo Ec Hm Hf. split; [destruct (C62_open v reg sched w s Eo Ec Hm Hf) as (m & E & _); by eexists|].
  exists (<[w_dir w ++ [VIEW_CONFIG] := CTorn]> s). split; [|intros; apply open_torn, lookup_insert].
  unfold view_drop_variable. eapply stopped_then; [cbn [exec]; unfold assert_handled; rewrite Hr, Hn; reflexivity|]. cbv zeta.
  apply stopped_first, stopped_attempt, stopped_first. unfold write_vconfig. eexists. eapply rtc_l; [apply step_tear|apply rtc_refl].
Qed.
Print Assumptions C116_opened_refuted.
(** Nor after an addition, when the view has a partition; C63_case meets the
    hypotheses. *)
Theorem C116_added_refuted v w M I V s mv sched sched' : viewable v w -> represents (w_ref w) M I s -> (forall x ds, M x = Some ds -> made_of (w_ref w) ds) -> holds_view v w V s ->
  follows w M V -> addable w mv -> (exists x, is_Some (V x)) ->
  exists u, stopped_at (view_add_variable v sched sched' w mv) s u /\ forall reg sched'', exec (open_view v reg sched'' (w_dir w)) u = (Raise ValueError, u).
Proof.
  intros Hw Hs Hmo Hv Hfo Hmv [x0 Hx0]. destruct (C63_add v w M I V s Hw Hs Hmo Hv mv sched sched' Hfo Hmv) as (m' & s' & V' & Eall & _).
  destruct (view_listed v w Hw M I V s Hs Hv) as (vs & _ & Hvs & _ & Eparts & _).
  { intros x [p Hp]. destruct (Hfo _ _ Hp) as (ds & -> & _). by eexists. }
  cut (exists u, stopped_at (view_add_variable v sched sched' w mv) s u /\ u !! (w_dir w ++ [VIEW_CONFIG]) = Some CTorn).
  { intros (u & Hu & Ht). exists u. split; [exact Hu|]. intros. by apply open_torn. }
  unfold view_add_variable in *. destruct (_ || _); [discriminate|]. rewrite exec_bind in Eall.
  destruct (md_add_variable (w_meta w) mv) as [m|ex] eqn:Em; [|discriminate]. cbn [exec] in Eall. cbv zeta iota beta in Eall. set (w1 := with_vmeta w m) in *.
  rewrite exec_bind, exec_attempt in Eall. cbn [exec pret] in Eall.
  lazymatch type of Eall with context [exec ?b s] => set (body := b) in * end.
  assert (Hok : exists l, (exec body s).1 = Ok l).
  { destruct (exec body s) as [[l|ex] sb] eqn:Eb; [by exists l|]. cbn in Eall. discriminate. }
  clear Eall. destruct Hok as [l Hok].
  cut (exists u, stopped_at body s u /\ u !! (w_dir w ++ [VIEW_CONFIG]) = Some CTorn).
  { intros (u & Hu & Ht). exists u. split; [|exact Ht]. eapply stopped_then; [reflexivity|]. cbv zeta. by apply stopped_first, stopped_attempt. }
  unfold body in *. clear body. rewrite exec_bind in Hok. destruct (md_search_same_dimensions_as (c_meta (w_ref w)) mv) as [tm|ex] eqn:Etm; [|discriminate]. cbn [exec] in Hok. cbv iota beta in Hok.
  change (view_parts v w1 NoFilter) with (view_parts v w NoFilter) in *. rewrite exec_bind, Eparts in Hok. cbv iota beta in Hok.
  destruct (map (key_dirs (c_part (w_ref w))) vs) as [|q0 l0] eqn:El.
  { exfalso. apply map_eq_nil in El. subst vs. eapply elem_of_nil, Hvs, Hx0. }
  rewrite exec_bind in Hok. destruct (exec (iterate_on_records v w1) s) as [[gs|ex] s1] eqn:Eg; [|discriminate]. cbv zeta iota beta in Hok.
  rewrite exec_bind, exec_attempt in Hok. set (tasks := execute_transaction CTorn sched _) in *.
  destruct (exec tasks s1) as [[rs|ex] st] eqn:Et; cbn [fst snd] in Hok; cbv iota beta in Hok.
  - exists (<[w_dir w ++ [VIEW_CONFIG] := CTorn]> st). split; [|apply lookup_insert].
    eapply stopped_then; [reflexivity|]. eapply stopped_then; [exact Eparts|]. cbv iota beta. eapply stopped_then; [exact Eg|]. cbv zeta.
    eapply stopped_then; [rewrite exec_attempt; fold tasks; rewrite Et; reflexivity|]. cbn [fst snd]. cbv iota beta.
    unfold write_vconfig. eexists. eapply rtc_l; [apply step_tear|apply rtc_refl].
  - exfalso. rewrite exec_bind in Hok. destruct (exec (view_parts v w NoFilter) st) as [[ps|ex1] s2]; [|discriminate]. cbv iota beta in Hok.
    rewrite exec_bind in Hok. destruct (exec (execute_transaction CTorn sched' _) s2) as [[?|?] ?] in Hok; discriminate.
Qed.
Print Assumptions C116_added_refuted.

(** A case: the view of C63, a variable added to it and one removed from it. *)
Example C115_case : exists M s V u1 u2 w1 w2, viewable W_env W_view /\ represents (w_ref W_view) M None s /\ is_Some (V [1%Z]) /\ holds_view W_env W_view V s /\
  (exists s', exec (view_add_variable W_env [] [] W_view W_wind) s = (Ok (w1, None), s')) /\
  stopped_at (view_add_variable W_env [] [] W_view W_wind) s u1 /\ u1 !! (W_dir ++ [VIEW_CONFIG]) = Some (CView (vconfig_of W_env w1)) /\
  stopped_at (view_drop_variable W_env [] W_view (lit "speed")) s u2 /\ u2 !! (W_dir ++ [VIEW_CONFIG]) = Some (CView (vconfig_of W_env w2)).
Proof.
  destruct C63_case as (M & s & V & Hw & Hs & Hmo & Hv & Hfo & Ha & Hn & H1 & _).
  destruct (C63_add _ _ M None V s Hw Hs Hmo Hv W_wind [] [] Hfo Ha) as (m & s1 & V1 & E1 & _ & _ & _ & _ & _ & Hc & _).
  destruct (C63_drop _ _ M None V s Hw Hs Hv (lit "speed") [] Hn) as (m2 & s2 & E2 & _ & _ & _ & _ & _ & Hc2).
  { intros x [p Hp]. destruct (Hfo _ _ Hp) as (ds & -> & _). by eexists. }
  exists M, s, V, s1, s2. do 2 eexists. split; [done|]. split; [exact Hs|]. split; [done|]. split; [exact Hv|]. split; [eexists; exact E1|]. split; [by eapply stopped_end|].
  split; [apply Hc; by exists [1%Z]|]. split; [by eapply stopped_end|exact Hc2].
Qed.
Example C116_case : exists s, let w := View W_dir W_opened W_meta X_filter in
  dmem (md_vars (w_meta w)) (lit "speed") = true /\ dmem (md_vars (c_meta (w_ref w))) (lit "speed") = false /\
  exec (open_collection the_registry (c_dir (w_ref w)) (Some (lit "r"))) s = (Ok (w_ref w), s) /\ s !! (W_dir ++ [VIEW_CONFIG]) = Some (CView (vconfig_of W_env w)) /\
  well_formed (w_meta w) /\ ve_unpickle W_env (ve_pickle W_env (w_filters w)) = w_filters w.
Proof.
  destruct C62_case as (M & s & Eo & _). set (w := View W_dir W_opened W_meta X_filter).
  exists (<[W_dir ++ [VIEW_CONFIG] := CView (vconfig_of W_env w)]> s). cbv zeta. split; [vm_compute; reflexivity|]. split; [vm_compute; reflexivity|]. split; [|split; [apply lookup_insert|split]].
  - eapply open_same; [exact Eo|]. by rewrite lookup_insert_ne.
  - apply C17_well_formed.
  - vm_compute. reflexivity.
Qed.

(** ** C118: a drop_variable of a view that was interrupted can be called again *)

(** The claim is false of the code. Once the configuration is written, the view
    that is opened does not have the variable any more: the call is refused, and
    the files of the variable all remain, in every partition. *)
Theorem C118_again_refuted v reg sched w name s : dmem (md_vars (w_meta w)) name = true -> dmem (md_vars (c_meta (w_ref w))) name = false ->
  exec (open_collection reg (c_dir (w_ref w)) (Some (lit "r"))) s = (Ok (w_ref w), s) -> w_dir w ++ [VIEW_CONFIG] <> c_dir (w_ref w) ++ [CONFIG] ->
  well_formed (w_meta w) -> ve_unpickle v (ve_pickle v (w_filters w)) = w_filters w ->
  exists u, stopped_at (view_drop_variable v sched w name) s u /\ (forall q, q <> w_dir w ++ [VIEW_CONFIG] -> u !! q = s !! q) /\
    forall sched', exists w', exec (open_view v reg sched' (w_dir w)) u = (Ok w', u) /\ w_dir w' = w_dir w /\ w_ref w' = w_ref w /\
      forall sched'', exec (view_drop_variable v sched'' w' name) u = (Raise ValueError, u).
Proof.
  intros Hn Hr Eo Nc Hm Hf. set (w1 := with_vmeta w (md_del_variable (w_meta w) name)). set (u := <[w_dir w ++ [VIEW_CONFIG] := CView (vconfig_of v w1)]> s).
  assert (Hm1 : well_formed (w_meta w1)) by (by apply C17_well_formed).
  assert (Eu : exec (open_collection reg (c_dir (w_ref w1)) (Some (lit "r"))) u = (Ok (w_ref w1), u)) by (eapply open_same; [exact Eo|by apply lookup_insert_ne]).
  exists u. split; [|split].
  - unfold view_drop_variable. eapply stopped_then; [cbn [exec]; unfold assert_handled; rewrite Hr, Hn; reflexivity|]. cbv zeta.
    apply stopped_first, stopped_attempt. eapply stopped_then; [apply exec_write|]. eexists. apply rtc_refl.
  - intros q Nq. by apply lookup_insert_ne, not_eq_sym.
  - intros sched'. destruct (C62_open v reg sched' w1 u Eu (lookup_insert _ _ _) Hm1 Hf) as (m & E & Hsm). eexists. split; [exact E|]. split; [done|]. split; [done|].
    intros sched''. apply C63_drop_refused. left. cbn [w_meta]. intros H. apply (sm_names _ _ Hsm) in H. cbn in H. by apply ddel_elem in H as [? _].
Qed.
Print Assumptions C118_again_refuted.
(** A case: that of C116. *)
Example C118_case : exists s, let w := View W_dir W_opened W_meta X_filter in
  dmem (md_vars (w_meta w)) (lit "speed") = true /\ dmem (md_vars (c_meta (w_ref w))) (lit "speed") = false /\
  exec (open_collection the_registry (c_dir (w_ref w)) (Some (lit "r"))) s = (Ok (w_ref w), s) /\ w_dir w ++ [VIEW_CONFIG] <> c_dir (w_ref w) ++ [CONFIG] /\
  well_formed (w_meta w) /\ ve_unpickle W_env (ve_pickle W_env (w_filters w)) = w_filters w.
Proof. destruct C116_case as (s & H1 & H2 & H3 & _ & H5 & H6). exists s. cbv zeta in *. by split_and!. Qed.
