(** * Views: adding and removing variables *)
From Verif Require Import Py Dict NdArray_Model NdArray_Spec NdArray_Proofs Dataset_Model Dataset_Spec Dataset_Proofs Meta_Model Meta_Spec Meta_Props PartPath_Model PartPath_Proofs
  Split_Spec FS_Model FS_Proofs Pool_Model Pool_Proofs Storage_Model Storage_Spec Storage_Chunks Storage_Proofs Storage_Change
  Listing_Model Listing_Spec Listing_Proofs Collection_Model Collection_Spec Collection_Proofs Collection_State Collection_Select Collection_Load Update_Model
  Index_Model View_Model View_Spec View_State View_Proofs View_Sync View_Init.

Section vars.
  Context (v : venv) (w : view) (Hw : viewable v w) (M : list Z -> option dataset) (I : option dataset) (V : list Z -> option vpart) (s : store).
  Context (Hs : represents (w_ref w) M I s) (Hv : holds_view v w V s) (Hor : forall x, is_Some (V x) -> is_Some (M x)).
  Local Notation c := (w_ref w).
  Local Notation keys := (p_keys (c_part (w_ref w))).
  Local Notation kd := (key_dirs (c_part (w_ref w))).

  Lemma part_present x p : V x = Some p -> empty_at (vdir w x) s = false.
  Proof using Hv.
    intros Hp. destruct (hw_part _ _ _ _ Hv _ _ Hp) as (_ & K). destruct (kt_axis _ _ _ _ K) as (_ & dt & Ks). destruct (kp_array _ _ Ks) as (cs & _ & Hz & _).
    rewrite !sub_lookup in Hz. apply empty_at_false. eexists _, _. split; [|exact Hz]. apply under_app.
  Qed.
  Lemma part_exists x : length x = length keys -> negb (empty_at (vdir w x) s) = match V x with Some _ => true | None => false end.
  Proof using Hv Hw.
    intros Hl. destruct (V x) as [p|] eqn:Ep; [by rewrite (part_present x p Ep)|]. by rewrite (proj1 (nothing_empty _ _) (view_nothing v w Hw V s x Hv Hl Ep)).
  Qed.
  Lemma exec_view_parts f vs : exec (ref_parts v w f) s = (Ok (map kd vs), s) -> (forall x, x ∈ vs -> length x = length keys) ->
    exec (view_parts v w f) s = (Ok (map kd (List.filter (fun x => match V x with Some _ => true | None => false end) vs)), s).
  Proof using Hv Hw.
    intros E Hl. unfold view_parts. rewrite exec_bind, E. cbv iota beta. rewrite (exec_pfilter _ (fun q => negb (empty_at (w_dir w ++ q) s))).
    2: { intros q _. apply exec_exists. }
    f_equal. f_equal. clear E. induction vs as [|x l IH]; [done|]. cbn [map List.filter]. change (w_dir w ++ kd x) with (vdir w x). rewrite part_exists by (apply Hl; left).
    destruct (V x); cbn [map]; rewrite IH; try done; intros y Hy; apply Hl; by right.
  Qed.
  (** The partitions of the view. *)
  Lemma view_listed : exists vs, StronglySorted row_lt vs /\ (forall x, x ∈ vs <-> is_Some (V x)) /\ (forall x, x ∈ vs -> length x = length keys) /\
    exec (view_parts v w NoFilter) s = (Ok (map kd vs), s) /\
    exists all, (forall x, x ∈ all <-> is_Some (M x)) /\ exec (ref_parts v w NoFilter) s = (Ok (map kd all), s) /\
      vs = List.filter (fun x => match V x with Some _ => true | None => false end) all.
  Proof using Hw Hs Hv Hor.
    destruct (select_all (ve_env v) c (vw_regular _ _ Hw) M I s Hs) as (all & Hso & Hall & Esel). pose proof (exec_ref_parts v w NoFilter s all Esel) as E.
    assert (Hl : forall x, x ∈ all -> length x = length keys).
    { intros x Hx. apply Hall in Hx as [ds Hds]. by destruct (rp_part _ _ _ _ Hs _ _ Hds) as (Hl & _). }
    assert (Hin : forall x, x ∈ List.filter (fun x => match V x with Some _ => true | None => false end) all <-> is_Some (V x)).
    { intros x. rewrite elem_of_list_In, filter_In, <-elem_of_list_In, Hall. split.
      - intros [_ H]. destruct (V x); [by eexists|done].
      - intros [p Hp]. rewrite Hp. split; [|done]. apply Hor. by eexists. }
    eexists. split; [by apply sorted_filter|]. split; [exact Hin|]. split; [|split; [by apply exec_view_parts|by exists all]].
    intros x Hx. apply Hin in Hx as [p Hp]. by destruct (hw_part _ _ _ _ Hv _ _ Hp).
  Qed.
  Lemma kd_inj x y : length x = length keys -> length y = length keys -> kd x = kd y -> x = y.
  Proof. intros H1 H2 E. destruct (key_dirs_prefix (c_part c) [] x y [] [] H1 H2) as [? _]; [by rewrite E|done]. Qed.

End vars.

Section dropping.
  Context (v : venv) (w : view) (Hw : viewable v w) (M : list Z -> option dataset) (I : option dataset) (V : list Z -> option vpart) (s : store).
  Context (Hs : represents (w_ref w) M I s) (Hv : holds_view v w V s) (Hor : forall x, is_Some (V x) -> is_Some (M x)).
  Local Notation c := (w_ref w).
  Local Notation keys := (p_keys (c_part (w_ref w))).
  Local Notation kd := (key_dirs (c_part (w_ref w))).

  (** *** Removal *)
  Lemma drop_part name t t' p : name ∈ dkeys (md_vars (w_meta w)) -> keeps_part v w t p -> t' = prune [name] t ->
    keeps_part v (with_vmeta w (md_del_variable (w_meta w) name)) t' (loses name p).
  Proof using Hw.
    intros Hn [K1 K2 K3 K4 K5 K6] ->.
    assert (Hsub : forall n, n <> name -> sub [n] (prune [name] t) = sub [n] t).
    { intros n N. apply map_eq. intros q. rewrite !sub_lookup, prune_lookup. rewrite decide_False; [done|]. intros (r & E). injection E as E _. congruence. }
    split; cbn [vp_axis vp_vars loses with_vmeta w_meta w_ref md_vars md_del_variable].
    - intros q y E. rewrite prune_lookup in E. destruct (decide _) as [|N]; [done|]. destruct (K1 q y E) as (n & f & -> & [->|Hn']); [by exists CHECKSUM, f; split; [|left]|].
      exists n, f. split; [done|right]. apply ddel_elem. split; [|done]. intros ->. apply N. by exists f.
    - destruct K2 as (K2 & dt & Ks). split; [done|]. exists dt. rewrite Hsub; [exact Ks|]. intros E.
      destruct (dget (md_vars (w_meta w)) name) as [mv|] eqn:Em; [|by apply dget_None in Em]. destruct (vw_vars _ _ Hw _ _ Em) as (_ & N & _). congruence.
    - by apply ddel_NoDup.
    - intros n. rewrite !ddel_elem. by rewrite K4.
    - intros n a Hna. destruct (decide (n = name)) as [->|N]; [by rewrite dget_ddel_eq in Hna|]. rewrite dget_ddel_ne in Hna by done. rewrite dget_ddel_ne by done.
      destruct (K5 _ _ Hna) as (mv & Hmv & F & K). exists mv. rewrite Hsub by done. done.
    - intros n a k Hna. destruct (decide (n = name)) as [->|N]; [by rewrite dget_ddel_eq in Hna|]. rewrite dget_ddel_ne in Hna by done. by eapply K6.
  Qed.
  Lemma drop_viewable name : viewable v (with_vmeta w (md_del_variable (w_meta w) name)).
  Proof using Hw.
    destruct Hw as [H1 H2 H3 H4 H5 H6 H7]. split; try done; cbn [with_vmeta w_meta w_ref md_vars md_del_variable].
    - by apply ddel_NoDup.
    - intros n mv Hn. destruct (decide (n = name)) as [->|N]; [by rewrite dget_ddel_eq in Hn|]. rewrite dget_ddel_ne in Hn by done. by apply H6.
  Qed.
  Lemma drop_ok sched name : name ∈ dkeys (md_vars (w_meta w)) ->
    let w1 := with_vmeta w (md_del_variable (w_meta w) name) in
    exists s', exec (view_drop_variable v sched w name) s = (Ok (w1, None), s') /\ viewable v w1 /\
      holds_view v w1 (fun x => option_map (loses name) (V x)) s' /\ represents c M I s' /\ (forall q, ~ under (w_dir w) q -> s' !! q = s !! q) /\
      s' !! (w_dir w ++ [VIEW_CONFIG]) = Some (CView (vconfig_of v w1)).
  Proof using Hw Hs Hv Hor.
    intros Hn w1. pose proof (drop_viewable name) as Hw1. fold w1 in Hw1.
    assert (Hh : assert_handled w name = Ok tt).
    { unfold assert_handled. rewrite (proj2 (dmem_true _ _) Hn). destruct (dget (md_vars (w_meta w)) name) as [mv|] eqn:Em; [|by apply dget_None in Em].
      destruct (vw_vars _ _ Hw _ _ Em) as (_ & _ & _ & _ & _ & N & _). by rewrite (proj2 (dmem_false _ _) N). }
    set (s0 := <[w_dir w ++ [VIEW_CONFIG] := CView (vconfig_of v w1)]> s).
    assert (Hv0 : holds_view v w V s0) by (by apply (holds_view_config v w Hw)).
    assert (Hs0 : represents c M I s0) by (by apply (represents_config v w Hw)).
    destruct (view_listed v w Hw M I V s0 Hs0 Hv0 Hor) as (vs & Hso & Hvs & Hlen & Eparts & _).
    assert (Hper : forall x, x ∈ vs -> exec (drop_array w1 name false (kd x)) s0 = (Ok tt, prune (vdir w x ++ [name]) s0)).
    { intros x Hx. apply Hvs in Hx as [p Hp]. unfold drop_array. rewrite exec_rm. change (w_dir w1) with (w_dir w). rewrite app_assoc. change (w_dir w ++ kd x) with (vdir w x).
      destruct (hw_part _ _ _ _ Hv0 _ _ Hp) as (_ & K). apply (kt_same _ _ _ _ K) in Hn. destruct (dget (vp_vars p) name) as [a|] eqn:Ea; [|by apply dget_None in Ea].
      destruct (kt_vars _ _ _ _ K _ _ Ea) as (_ & _ & _ & Ka). destruct (kp_array _ _ Ka) as (cs & _ & Hz & _). rewrite !sub_lookup in Hz.
      replace (empty_at (vdir w x ++ [name]) s0) with false; [done|]. symmetry. apply empty_at_false. eexists _, _. split; [|exact Hz]. by exists [ZARRAY]; rewrite <-app_assoc. }
    destruct (exec_view_tasks v w Hw sched (drop_array w1 name false) (fun _ => tt) vs s0) as (s1 & E1 & S1 & O1).
    { by apply sorted_nodup_rows. } { done. }
    { intros x _. unfold drop_array. apply within_rm. intros q Hq. change (w_dir w1) with (w_dir w) in Hq. rewrite app_assoc in Hq. by eapply under_snoc. }
    { intros x Hx. by rewrite Hper. }
    exists s1. split.
    { unfold view_drop_variable. rewrite exec_bind, Hh. cbn [exec]. cbv zeta. fold w1. rewrite exec_bind, exec_attempt, exec_bind. unfold write_vconfig. rewrite exec_write.
      change (w_dir w1) with (w_dir w). fold s0. rewrite exec_bind. change (view_parts v w1 NoFilter) with (view_parts v w NoFilter). rewrite Eparts, E1. done. }
    split; [done|].
    assert (Hout : forall q, ~ under (w_dir w) q -> s1 !! q = s0 !! q) by (intros q Hq; apply O1; intros x Hx U; apply Hq; by eapply under_more).
    split; [|split; [|split]].
    - split.
      + intros q y E. destruct (decide (Exists (fun x => under (vdir w x) (w_dir w ++ q)) vs)) as [X|X].
        * apply Exists_exists in X as (x & Hx & (r & Er)). right. exists x, r. apply Hvs in Hx as [p Hp]. rewrite Hp. split; [by eexists|].
          unfold vdir in Er. rewrite <-app_assoc in Er. by apply app_inv_head in Er.
        * change (w_dir w1) with (w_dir w) in E. rewrite O1 in E; [|intros x Hx U; apply X, Exists_exists; by exists x]. destruct (hw_files _ _ _ _ Hv0 _ _ E) as [?|(x & r & Hx & ->)]; [by left|].
          exfalso. apply X, Exists_exists. exists x. split; [by apply Hvs|]. unfold vdir. rewrite app_assoc. apply under_app.
      + intros x p' Hp'. destruct (V x) as [p|] eqn:Ep; [|done]. injection Hp' as <-. destruct (hw_part _ _ _ _ Hv0 _ _ Ep) as (Hl & K). split; [done|].
        change (vdir w1 x) with (vdir w x). assert (Hx : x ∈ vs) by (apply Hvs; by eexists). rewrite S1, Hper by done. cbn [snd].
        apply (drop_part name (sub (vdir w x) s0)); [done..|]. apply map_eq. intros q. rewrite !sub_lookup, !prune_lookup, !sub_lookup.
        destruct (decide (under [name] q)) as [U|N]; [rewrite decide_True; [done|]|rewrite decide_False; [done|]].
        * destruct U as (r & ->). exists r. by rewrite <-app_assoc.
        * intros (r & Er). apply N. rewrite <-app_assoc in Er. apply app_inv_head in Er. by exists r.
    - eapply (represents_frame w); [exact Hs0|]. intros q Hq. apply Hout. intros U. by apply (vw_apart _ _ Hw q).
    - intros q Hq. rewrite Hout by done. unfold s0. apply lookup_insert_ne. intros <-. apply Hq, under_app.
    - rewrite O1; [apply lookup_insert|]. intros x Hx (r & Er). unfold vdir in Er. rewrite <-app_assoc in Er. apply app_inv_head in Er.
      destruct (key_head (ve_env v) c (vw_regular _ _ Hw) x (Hlen _ Hx)) as (a & l & Ea & _ & Hd). rewrite Ea in Er. injection Er as <- _. apply Hd. by exists (lit "view").
  Qed.

End dropping.

Section adding.
  Context (v : venv) (w : view) (Hw : viewable v w) (M : list Z -> option dataset) (I : option dataset) (V : list Z -> option vpart) (s : store).
  Context (Hs : represents (w_ref w) M I s) (Hv : holds_view v w V s) (Hor : forall x, is_Some (V x) -> is_Some (M x)).
  Local Notation c := (w_ref w).
  Local Notation keys := (p_keys (c_part (w_ref w))).
  Local Notation kd := (key_dirs (c_part (w_ref w))).

  (** *** Addition *)
  Context (Hfo : follows w M V).
  Context (mv : mvar) (Hmv : addable w mv).
  Lemma add_meta : exists m, md_add_variable (w_meta w) mv = Ok m /\ md_vars m = md_vars (w_meta w) ++ [(mv_name mv, mv)] /\ md_dims m = md_dims (w_meta w) /\
    md_attrs m = md_attrs (w_meta w) /\ md_chunks m = md_chunks (w_meta w) /\ md_block m = md_block (w_meta w).
  Proof using Hmv.
    destruct (C47_add_variable (w_meta w) mv) as (_ & _ & H). destruct H as (m & H1 & H2 & H3 & H4 & H5 & H6 & _); [apply (ad_new _ _ Hmv)|apply (ad_dims _ _ Hmv)|]. by exists m.
  Qed.
  Lemma dget_snoc {A} (l : list (str * A)) n x k : n ∉ dkeys l -> dget (l ++ [(n, x)]) k = if decide (k = n) then Some x else dget l k.
  Proof.
    intros Hn. rewrite dget_app. destruct (decide (k = n)) as [->|N].
    - apply dget_None in Hn. rewrite Hn. cbn. by rewrite decide_True.
    - destruct (dget l k); [done|]. cbn. by rewrite decide_False.
  Qed.
  Lemma add_viewable m : md_vars m = md_vars (w_meta w) ++ [(mv_name mv, mv)] -> viewable v (with_vmeta w m).
  Proof using Hw Hmv.
    intros E. destruct Hw as [H1 H2 H3 H4 H5 H6 H7]. split; try done; cbn [with_vmeta w_meta w_ref].
    - rewrite E. unfold dkeys. rewrite map_app. apply NoDup_app. split; [done|]. split; [|apply NoDup_singleton].
      intros x Hx Hx'. apply elem_of_list_singleton in Hx' as ->. exact (proj1 (ad_new _ _ Hmv) Hx).
    - intros n mv' Hn. rewrite E, dget_snoc in Hn by apply (ad_new _ _ Hmv). destruct (decide (n = mv_name mv)) as [->|N]; [|by apply H6]. injection Hn as <-.
      destruct Hmv as [[A1 A2] [B1 B2] (C1 & C2 & C3) D]. split_and!; done.
  Qed.
  Context (Hmo : forall x ds, M x = Some ds -> made_of (w_ref w) ds).
  Lemma add_part ds p t t' m : md_vars m = md_vars (w_meta w) ++ [(mv_name mv, mv)] -> sound ds -> made_of c ds -> axis_is c ds (vp_axis p) -> keeps_part v w t p ->
    (forall q, ~ under [mv_name mv] q -> t' !! q = t !! q) -> keeps (sub [mv_name mv] t') (blank_var (mv_set_for_insertion mv) (shape_of ds (mv_set_for_insertion mv))) ->
    let a := blank_var (mv_set_for_insertion mv) (shape_of ds (mv_set_for_insertion mv)) in
    let p' := VPart (vp_axis p) (vp_vars p ++ [(mv_name mv, a)]) in keeps_part v (with_vmeta w m) t' p' /\ gains mv ds p p'.
  Proof using Hw Hmv.
    intros Em Hso Hm Ha [K1 K2 K3 K4 K5 K6] Ho Ka a p'.
    assert (Hnew : mv_name mv ∉ dkeys (vp_vars p)) by (rewrite K4; apply (ad_new _ _ Hmv)).
    assert (Hsub : forall n, n <> mv_name mv -> sub [n] t' = sub [n] t).
    { intros n N. apply map_eq. intros q. rewrite !sub_lookup. apply Ho. intros (r & E). injection E as E _. congruence. }
    destruct Hmv as [[A1 A2] [B1 B2] (C1 & C2 & C3) D].
    assert (Hdims : Forall2 (fun d k => dget (d_dims ds) d = Some k) (mv_dims mv) (shape_of ds mv)) by (by apply (dims_sized v w Hw ds Hso Hm)).
    split.
    - split; cbn [vp_axis vp_vars p' with_vmeta w_meta w_ref].
      + intros q y E. destruct (decide (under [mv_name mv] q)) as [(r & ->)|N].
        * exists (mv_name mv), r. split; [done|right]. rewrite Em. unfold dkeys. rewrite map_app. apply elem_of_app. right. left.
        * rewrite Ho in E by done. destruct (K1 q y E) as (n & f & -> & [->|Hn]); [by exists CHECKSUM, f; split; [|left]|]. exists n, f. split; [done|right].
          rewrite Em. unfold dkeys. rewrite map_app. apply elem_of_app. by left.
      + destruct K2 as (K2 & dt & Ks). split; [done|]. exists dt. rewrite Hsub by (by apply not_eq_sym). exact Ks.
      + unfold dkeys. rewrite map_app. apply NoDup_app. split; [done|]. split; [|apply NoDup_singleton]. intros x Hx Hx'. apply elem_of_list_singleton in Hx' as ->. done.
      + intros n. rewrite Em. unfold dkeys. rewrite !map_app, !elem_of_app. change (map fst (vp_vars p)) with (dkeys (vp_vars p)). by rewrite K4.
      + intros n x Hn. rewrite dget_snoc in Hn by done. rewrite Em. setoid_rewrite dget_snoc; [|done]. destruct (decide (n = mv_name mv)) as [->|N].
        * injection Hn as <-. exists mv. split_and!; done.
        * destruct (K5 _ _ Hn) as (mv' & Hmv' & F & K). exists mv'. split_and!; [done..|]. by rewrite Hsub.
      + intros n x k Hn Hk. rewrite dget_snoc in Hn by done. destruct (decide (n = mv_name mv)) as [->|N]; [|by eapply K6]. injection Hn as <-.
        change (v_dims a) with (mv_dims mv) in Hk. change (v_shape a) with (shape_of ds mv).
        destruct (Forall2_lookup_l _ _ _ _ _ Hdims Hk) as (n' & En & Ed). rewrite En. f_equal.
        destruct (mo_axis _ _ Hm) as (y & Ey & Edy). destruct (axis_size w ds Hso y Ey Edy) as (n2 & _ & E2 & E3). destruct Ha as (y' & Ey' & <-). rewrite Ey in Ey'. injection Ey' as <-. congruence.
    - exists a. split_and!; [done|done|exact Hdims|]. apply blank_items.
  Qed.
  Lemma add_ok sched sched' : exists m s' V', exec (view_add_variable v sched sched' w mv) s = (Ok (with_vmeta w m, None), s') /\
    md_vars m = md_vars (w_meta w) ++ [(mv_name mv, mv)] /\ viewable v (with_vmeta w m) /\ holds_view v (with_vmeta w m) V' s' /\ represents c M I s' /\
    (forall q, ~ under (w_dir w) q -> s' !! q = s !! q) /\
    ((exists x, is_Some (V x)) -> s' !! (w_dir w ++ [VIEW_CONFIG]) = Some (CView (vconfig_of v (with_vmeta w m)))) /\
    ((forall x, V x = None) -> s' = s) /\
    (forall x, V x = None -> V' x = None) /\ (forall x p ds, V x = Some p -> M x = Some ds -> exists p', V' x = Some p' /\ gains mv ds p p').
  Proof using Hw Hs Hv Hor Hfo Hmv Hmo.
    destruct add_meta as (m & Em & Ev & Ed & _). pose proof (add_viewable m Ev) as Hw1. set (w1 := with_vmeta w m) in *. exists m.
    destruct (view_listed v w Hw M I V s Hs Hv Hor) as (vs & Hso & Hvs & Hlen & Eparts & all & Hall & Eref & Efil).
    assert (Hla : forall x, x ∈ all -> length x = length keys).
    { intros x Hx. apply Hall in Hx as [ds Hds]. by destruct (rp_part _ _ _ _ Hs _ _ Hds) as (Hl & _). }
    assert (Htm : exists tm, md_search_same_dimensions_as (c_meta c) mv = Ok tm /\ forall ds, made_of c ds -> exists x, dget (d_vars ds) (mv_name tm) = Some x /\ v_dims x = mv_dims mv).
    { destruct (md_search_same_dimensions_as (c_meta c) mv) as [tm|] eqn:Et.
      - exists tm. split; [done|]. intros ds Hm. destruct (find_template_ref v w Hw ds Hm mv (ad_like _ _ Hmv)) as (tm' & x & Et' & Ex & Edx); [by apply (ad_dims _ _ Hmv)|].
        rewrite Et in Et'. injection Et' as <-. by exists x.
      - pose proof (C47_same_dimensions (c_meta c) mv) as H. rewrite Et in H. destruct H as [_ H]. destruct (ad_like _ _ Hmv) as (n' & mv' & En & Edm). exfalso. eapply H; [|exact Edm].
        apply elem_dvals. exists n'. by apply dget_elem. }
    destruct Htm as (tm & Etm & Htm). set (var := mv_set_for_insertion mv).
    set (g := fun q => (sub (c_dir c ++ q) s, metas (sub (c_dir c ++ q) s))).
    assert (Hgr : exec (iterate_on_records v w1) s = (Ok (map (fun q => (q, g q)) (map kd all)), s)).
    { unfold iterate_on_records. change (ref_parts v w1 NoFilter) with (ref_parts v w NoFilter). rewrite exec_bind, Eref. cbv iota beta. apply exec_pseq_pure.
      rewrite Forall2_fmap. apply Forall_Forall2_diag, Forall_forall. intros q Hq. apply elem_of_list_In, in_map_iff in Hq as (x & <- & Hx). apply elem_of_list_In, Hall in Hx as [ds Hds].
      destruct (rp_part _ _ _ _ Hs _ _ Hds) as (_ & _ & Hh). rewrite exec_bind. change (open_group w1 (kd x)) with (open_group w (kd x)). by rewrite (exec_open_group w ds (kd x) s _ eq_refl Hh). }
    assert (Hargs : List.filter (fun gr => memb gr.1 (map kd vs)) (map (fun q => (q, g q)) (map kd all)) = map (fun q => (q, g q)) (map kd vs)).
    { assert (Hb : forall x, x ∈ all -> memb (kd x) (map kd vs) = match V x with Some _ => true | None => false end).
      { intros x Hx. unfold memb. destruct (V x) as [p|] eqn:Ep.
        - apply bool_decide_eq_true, elem_of_list_In, in_map_iff. exists x. split; [done|]. apply elem_of_list_In, Hvs. by eexists.
        - apply bool_decide_eq_false. intros Hin. apply elem_of_list_In, in_map_iff in Hin as (y & Ey & Hy). apply elem_of_list_In in Hy.
          apply (kd_inj w) in Ey; [|by apply Hlen|by apply Hla]. subst y. apply Hvs in Hy as [p' ?]. congruence. }
      revert Hb. generalize (map kd vs) at 1 2. intros L Hb. rewrite Efil. clear -Hb. induction all as [|x l IH]; [done|]. cbn [map List.filter fst]. rewrite Hb by left.
      destruct (V x); cbn [map]; rewrite IH; try done; intros y Hy; apply Hb; by right. }
    destruct (decide (vs = [])) as [Hnil|Hne].
    - assert (Hnone : forall x, V x = None) by (intros x; destruct (V x) eqn:Ex; [|done]; assert (x ∈ vs) as Hin by (apply Hvs; by eexists); rewrite Hnil in Hin; by apply elem_of_nil in Hin).
      exists s, V. split.
      + unfold view_add_variable. destruct (ad_new _ _ Hmv) as [N1 N2]. rewrite (proj2 (dmem_false _ _) N1), (proj2 (dmem_false _ _) N2). cbn [orb]. rewrite exec_bind, Em. cbn [exec]. cbv zeta.
        fold w1. rewrite exec_bind, exec_attempt, exec_bind. cbn [exec]. rewrite Etm. cbv iota beta. rewrite exec_bind. change (view_parts v w1 NoFilter) with (view_parts v w NoFilter). rewrite Eparts, Hnil. done.
      + split; [done|]. split; [done|]. split.
        { split; [apply (hw_files _ _ _ _ Hv)|]. intros x p Hp. by rewrite Hnone in Hp. }
        split; [done|]. split; [done|]. split; [intros [x [p Hp]]; by rewrite Hnone in Hp|]. split; [done|]. split; [done|]. intros x p ds Hp. by rewrite Hnone in Hp.
    - set (task := fun q => create_zarr_array w (mv_name tm) var (q, g q)).
      assert (Hper : forall x p, V x = Some p -> exists ds s1, M x = Some ds /\ sound ds /\ axis_is c ds (vp_axis p) /\ exec (task (kd x)) s = (Ok tt, s1) /\ same_out (vdir w x ++ [mv_name mv]) s s1 /\
        keeps (sub (vdir w x ++ [mv_name mv]) s1) (blank_var var (shape_of ds var))).
      { intros x p Hp. destruct (Hfo _ _ Hp) as (ds & Hds & Ha). destruct (rp_part _ _ _ _ Hs _ _ Hds) as (_ & Hsd & Hh). destruct (Htm ds (Hmo _ _ Hds)) as (y & Ey & Edy).
        destruct (exec_create w ds Hsd _ (kd x) var (mv_name tm) y s Hh Ey Edy) as (s1 & E1 & E2 & E3). exists ds, s1. split_and!; done. }
      destruct (exec_view_tasks v w Hw sched task (fun _ => tt) vs s) as (s1 & E1 & S1 & O1).
      { by apply sorted_nodup_rows. } { done. } { intros x _. by apply within_create. }
      { intros x Hx. apply Hvs in Hx as [p Hp]. destruct (Hper x p Hp) as (ds & s1 & _ & _ & _ & E & _). by rewrite E. }
      destruct (choose vs (fun x p' => exists p ds, V x = Some p /\ M x = Some ds /\ keeps_part v w1 (sub (vdir w x) s1) p' /\ gains mv ds p p') (fun _ => VPart (Arr [] []) [])) as (F & HF & _).
      { intros x Hx. apply Hvs in Hx as [p Hp]. destruct (Hper x p Hp) as (ds & s2 & Hds & Hsd & Ha & E & O & K). destruct (hw_part _ _ _ _ Hv _ _ Hp) as (_ & Kp).
        destruct (add_part ds p (sub (vdir w x) s) (sub (vdir w x) s1) m Ev Hsd (Hmo _ _ Hds) Ha Kp) as [G1 G2].
        - intros q Hq. rewrite S1 by (apply Hvs; by eexists). rewrite E. cbn [snd]. rewrite !sub_lookup. apply O. intros (r & Er). apply Hq. rewrite <-app_assoc in Er. apply app_inv_head in Er. exists r. done.
        - rewrite S1 by (apply Hvs; by eexists). rewrite E. cbn [snd]. rewrite sub_sub. exact K.
        - eexists. exists p, ds. split_and!; [done|done|exact G1|exact G2]. }
      set (V' := fun x => match V x with Some _ => Some (F x) | None => None end).
      set (s2 := <[w_dir w ++ [VIEW_CONFIG] := CView (vconfig_of v w1)]> s1).
      assert (Hv1 : holds_view v w1 V' s1).
      { split.
        - intros q y E. destruct (decide (Exists (fun x => under (vdir w x) (w_dir w ++ q)) vs)) as [X|X].
          + apply Exists_exists in X as (x & Hx & (r & Er)). right. exists x, r. apply Hvs in Hx as [p Hp]. unfold V'. rewrite Hp. split; [by eexists|].
            unfold vdir in Er. rewrite <-app_assoc in Er. by apply app_inv_head in Er.
          + change (w_dir w1) with (w_dir w) in E. rewrite O1 in E; [|intros x Hx U; apply X, Exists_exists; by exists x]. destruct (hw_files _ _ _ _ Hv _ _ E) as [?|(x & r & Hx & ->)]; [by left|].
            exfalso. apply X, Exists_exists. exists x. split; [by apply Hvs|]. unfold vdir. rewrite app_assoc. apply under_app.
        - intros x p' Hp'. unfold V' in Hp'. destruct (V x) as [p|] eqn:Ep; [|done]. injection Hp' as <-. destruct (hw_part _ _ _ _ Hv _ _ Ep) as (Hl & _). split; [done|].
          destruct (HF x) as (p0 & ds & _ & _ & K & _); [apply Hvs; by eexists|]. exact K. }
      assert (Hout : forall q, ~ under (w_dir w) q -> s1 !! q = s !! q) by (intros q Hq; apply O1; intros x Hx U; apply Hq; by eapply under_more).
      assert (Hs1 : represents c M I s1) by (eapply (represents_frame w); [exact Hs|]; intros q Hq; apply Hout; intros U; by apply (vw_apart _ _ Hw q)).
      exists s2, V'. split.
      + unfold view_add_variable. destruct (ad_new _ _ Hmv) as [N1 N2]. rewrite (proj2 (dmem_false _ _) N1), (proj2 (dmem_false _ _) N2). cbn [orb]. rewrite exec_bind, Em. cbn [exec]. cbv zeta.
        fold w1. rewrite exec_bind, exec_attempt, exec_bind. cbn [exec]. rewrite Etm. cbv iota beta. rewrite exec_bind. change (view_parts v w1 NoFilter) with (view_parts v w NoFilter). rewrite Eparts.
        cbv iota beta. destruct (map kd vs) as [|q l] eqn:El; [by destruct vs|]. rewrite exec_bind, Hgr. cbv iota beta. rewrite exec_bind, exec_attempt. rewrite <-El in *. rewrite Hargs, map_map.
        change (exec (execute_transaction CTorn sched (map (fun q => create_zarr_array w1 (mv_name tm) (mv_set_for_insertion mv) (q, g q)) (map kd vs))) s)
          with (exec (execute_transaction CTorn sched (map task (map kd vs))) s). rewrite E1. done.
      + split; [done|]. split; [done|]. split; [by apply (holds_view_config v w1 Hw1)|]. split; [by apply (represents_config v w Hw)|]. split.
        { intros q Hq. unfold s2. rewrite lookup_insert_ne; [by apply Hout|]. intros <-. apply Hq, under_app. }
        split; [intros _; apply lookup_insert|]. split; [intros Hnone; destruct vs as [|x l]; [done|]; destruct (proj1 (Hvs x)) as [p Hp]; [left|]; by rewrite Hnone in Hp|].
        split; [intros x Hx; unfold V'; by rewrite Hx|]. intros x p ds Hp Hds. unfold V'. rewrite Hp. exists (F x). split; [done|].
        destruct (HF x) as (p0 & ds0 & Hp0 & Hds0 & _ & G); [apply Hvs; by eexists|]. rewrite Hp in Hp0. injection Hp0 as <-. rewrite Hds in Hds0. by injection Hds0 as <-.
  Qed.
End adding.
