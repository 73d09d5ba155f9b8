(** * Properties of the synchronisation of a view whose creation was interrupted *)
From Verif Require Import Py Dict NdArray_Model NdArray_Proofs Dataset_Model Dataset_Spec Meta_Model Meta_Spec Meta_Props PartPath_Model PartPath_Proofs PartPath_Props Validate_Props Variable_Props
  Split_Spec FS_Model FS_Proofs Pool_Model Pool_Proofs Storage_Model Storage_Spec Storage_Chunks Storage_Proofs
  Listing_Model Listing_Spec Listing_Proofs Collection_Model Collection_Spec Collection_Proofs Collection_State Collection_Select Collection_Example Crash_Spec Collection_Crash Crash_Props
  Update_Model Update_Spec Update_Proofs Update_Example Variable_Crash Index_Model View_Model View_Spec View_State View_Proofs View_Sync View_Init View_Vars View_Example Reopen_Spec Reopen_Props View_Props View_Props2 CopyStop_Props ViewStop_Props.

(** There are files in the directory [d] of a partition of a view, but the digest
    of the axis is not written. *)
Definition undigested (d : path) (u : store) : Prop :=
  ~ nothing_at d u /\ forall a dims, u !! (d ++ [CHECKSUM; ZATTRS]) = Some (CMeta (MAttrs a dims)) -> dget a CHECKSUM_ATTR = None.

(** The synchronisation of such a partition raises. *)
Lemma sync_undigested v w dry q u : undigested (w_dir w ++ q) u -> exists ex, (exec (sync_one v w dry q) u).1 = Raise ex.
Proof.
  intros [Hn Hu]. unfold sync_one. cbv zeta. rewrite exec_bind, exec_exists.
  assert (empty_at (w_dir w ++ q) u = false) as -> by (destruct (empty_at _ u) eqn:E; [apply nothing_empty in E; done|done]). cbn [negb]. cbv iota.
  rewrite exec_bind. unfold open_array. rewrite exec_bind, exec_read_file. cbv iota beta.
  assert (Hrest : forall z : zarray, exists ex, (exec (let! g <- open_group w q; let! ax <- Ret (axis_reference v w g); let! at_ <- array_attrs ((w_dir w ++ q) ++ [CHECKSUM]);
    match dget at_.1 CHECKSUM_ATTR with
    | None => praise KeyError
    | Some digest =>
        if bool_decide (ar_digest ax = digest) then pret None else
        let! t <- get_tree ((w_dir w ++ q) ++ [CHECKSUM]);
        let! old <- Ret (read_array z t);
        let! _ <- (if dry then pret tt
                   else if is_extended old (ar_array ax) then extend_partition v (w_dir w ++ q) ax
                   else let! _ <- rm (w_dir w ++ q); sync_partition v w q);
        pret (Some q)
    end) u).1 = Raise ex).
  { intros z. rewrite exec_bind. unfold open_group. rewrite exec_bind, exec_get_tree. cbv iota beta. rewrite exec_bind. cbn [exec].
    destruct (read_cons _) as [m|ex]; [|by exists ex]. cbn [exec pret]. rewrite exec_bind. cbn [exec]. destruct (axis_reference _ _ _) as [ax|ex]; [|by exists ex].
    rewrite exec_bind. unfold array_attrs. rewrite exec_bind, exec_read_file. cbv iota beta. rewrite <-app_assoc. cbn [app].
    destruct (u !! ((w_dir w ++ q) ++ [CHECKSUM; ZATTRS])) as [x|] eqn:Ex; [|cbn; by eexists].
    destruct x as [[|a dims|]| | | | | |]; try (cbn; by eexists). cbn [exec pret fst]. rewrite (Hu a dims eq_refl). cbn. by eexists. }
  destruct (u !! (((w_dir w ++ q) ++ [CHECKSUM]) ++ [ZARRAY])) as [x|]; [|cbn; by eexists]. destruct x as [[z| |]| | | | | |]; try (cbn; by eexists). apply (Hrest z).
Qed.

(** So does the synchronisation of the view, whatever the other partitions. *)
Section raises.
  Context (v : venv) (w : view) (Hw : viewable v w).
  Local Notation c := (w_ref w).
  Local Notation keys := (p_keys (c_part (w_ref w))).
  Local Notation kd := (key_dirs (c_part (w_ref w))).

  Lemma view_tasks_independent {B : Type} (f : path -> program B) vs : NoDup vs -> (forall x, x ∈ vs -> length x = length keys) ->
    (forall x, x ∈ vs -> within (under (part_dir c x)) (under (vdir w x)) (f (kd x))) ->
    independent (map f (map kd vs)) (fun i q => match vs !! i with Some x => under (part_dir c x) q | None => False end)
      (fun i q => match vs !! i with Some x => under (vdir w x) q | None => False end).
  Proof using Hw.
    intros Hnd Hlen Hwi.
    assert (Hlk : forall i p, map f (map kd vs) !! i = Some p -> exists x, vs !! i = Some x /\ p = f (kd x)).
    { intros i p. rewrite map_map. change (map ?f vs) with (f <$> vs). rewrite list_lookup_fmap. destruct (vs !! i) as [x|]; [|done]. intros [= <-]. eauto. }
    split.
    - intros i p E. apply Hlk in E as (x & Ei & ->). eapply within_impl; [..|apply Hwi; by eapply elem_of_list_lookup_2]; intros q Hq; by rewrite Ei.
    - intros i j p p' Ei Ej N q Wi HRW. apply Hlk in Ei as (x & Ei & _), Ej as (y & Ej & _). rewrite Ei in Wi. rewrite Ej in HRW.
      destruct HRW as [Hq|Hq]; [by apply (vdir_part v w Hw x y q)|].
      refine (vdirs_apart w x y _ _ _ q Wi Hq); try (apply Hlen; by eapply elem_of_list_lookup_2). intros ->. apply N. by eapply NoDup_lookup.
  Qed.

  Lemma tasks_raise {B : Type} sched (f : path -> program B) vs s x ex : NoDup vs -> (forall x, x ∈ vs -> length x = length keys) ->
    (forall x, x ∈ vs -> within (under (part_dir c x)) (under (vdir w x)) (f (kd x))) ->
    x ∈ vs -> (exec (f (kd x)) s).1 = Raise ex -> exists ex' s', exec (execute_transaction CTorn sched (map f (map kd vs))) s = (Raise ex', s').
  Proof using Hw.
    intros Hnd Hlen Hwi Hx Ex. pose proof (view_tasks_independent f vs Hnd Hlen Hwi) as Hind.
    lazymatch type of Hind with independent ?ps ?R ?W =>
      assert (Hdec : forall i q, Decision (W i q)) by (intros i q; cbv beta; destruct (vs !! i); apply _);
      rewrite (exec_transaction CTorn sched ps R W s Hdec Hind); destruct (exec_all_spec CTorn ps R W s Hind) as (E1 & _ & _) end.
    rewrite E1. destruct (first_error _) as [l|ex'] eqn:Ef; [|by eexists _, _]. exfalso. apply first_error_Ok in Ef. rewrite !map_map in Ef.
    apply elem_of_list_lookup in Hx as [i Hi]. assert (Hl : (map (fun y => (exec (f (kd y)) s).1) vs) !! i = Some (Raise ex)).
    { change (map ?g vs) with (g <$> vs). rewrite list_lookup_fmap, Hi. cbn. by rewrite Ex. }
    rewrite Ef in Hl. change (map Ok l) with (Ok <$> l) in Hl. rewrite list_lookup_fmap in Hl. destruct (l !! i); done.
  Qed.

  Lemma sync_raises sched sched' M I s x : represents c M I s -> is_Some (M x) -> undigested (vdir w x) s ->
    exists ex s', exec (sync v sched sched' w NoFilter) s = (Raise ex, s').
  Proof using Hw.
    intros Hs Hx Hu. destruct (select_all (ve_env v) c (vw_regular _ _ Hw) M I s Hs) as (vs & Hso & Hvs & Esel). pose proof (exec_ref_parts v w NoFilter s vs Esel) as Eref.
    destruct (sync_undigested v w false (kd x) s Hu) as [ex Ex]. apply Hvs in Hx.
    destruct (tasks_raise sched' (sync_one v w false) vs s x ex) as (ex' & s' & E); [by apply sorted_nodup_rows| | |done|done|].
    { intros y Hy. apply Hvs in Hy as [ds Hds]. by destruct (rp_part _ _ _ _ Hs _ _ Hds) as (Hl & _). }
    { intros y _. apply within_sync_one; [by left|done]. }
    exists ex', s'. unfold sync. rewrite exec_bind. cbn [exec pret]. rewrite exec_bind, Eref. cbv iota beta.
    destruct (map kd vs) as [|q l] eqn:El; [by destruct vs; [apply elem_of_nil in Hx|]|]. rewrite exec_bind, E. done.
  Qed.
End raises.

(** Where the creation of a partition of a view may be stopped. *)
Section sums.
  Context (v : venv) (w : view) (Hw : viewable v w).
  Local Notation c := (w_ref w).

  Lemma undigested_local d (u u' : store) : (forall q, under d q -> u' !! q = u !! q) -> undigested d u -> undigested d u'.
  Proof.
    intros H [H1 H2]. split.
    - intros Hn. apply H1. intros q Hq. rewrite <-H by done. by apply Hn.
    - intros a dims. rewrite H by apply under_app. apply H2.
  Qed.

  Lemma always_sums ds q s : sound ds -> made_of c ds -> nothing_at (w_dir w ++ q) s -> holds_dataset (sub (c_dir c ++ q) s) ds ->
    always CTorn (fun u => nothing_at (w_dir w ++ q) u \/ undigested (w_dir w ++ q) u \/ exists a, axis_is c ds a /\ bare v w (sub (w_dir w ++ q) u) a) (write_checksum v w q) s.
  Proof using Hw.
    intros Hso Hm Hn Ht. destruct (exec_write_checksum v w Hw ds q s Hso Hm Hn Ht) as (s1 & a & Eall & _ & Ha & Hb). set (d := w_dir w ++ q) in *.
    set (Phi := fun u : store => nothing_at d u \/ undigested d u \/ exists a, axis_is c ds a /\ bare v w (sub d u) a).
    assert (Hend : Phi s1) by (right; right; by exists a).
    assert (Hz : forall (u : store) r, is_Some (u !! (d ++ r)) -> ~ nothing_at d u) by (intros u r [y Hy] X; rewrite X in Hy; [done|apply under_app]).
    revert Eall. unfold write_checksum. fold d. rewrite exec_bind. intros Eall.
    apply always_bind; [apply always_read; [apply within_view_group; auto|by left]|]. intros g s' Eg. rewrite Eg in Eall.
    assert (s' = s) as -> by (rewrite (exec_open_group w ds q s _ eq_refl Ht) in Eg; by injection Eg). cbv iota beta in Eall. rewrite exec_bind in Eall.
    apply always_bind; [cbn; split; [by left|done]|]. intros ax s' Ex. rewrite Ex in Eall. cbn in Ex. injection Ex as Ex <-. cbv iota beta in Eall.
    unfold write_checksum_array in *. cbv zeta in *. rewrite exec_bind in Eall.
    assert (Hnc : empty_at (d ++ [CHECKSUM]) s = true) by (apply nothing_empty; intros y Hy; apply Hn; by eapply under_more).
    apply always_bind; [apply always_read; [apply within_exists; auto|by left]|]. intros b s' Eb. rewrite exec_exists, Hnc in Eb, Eall. injection Eb as <- <-. cbn [negb] in *. cbv iota beta in Eall.
    rewrite exec_bind in Eall. set (z := ZArr _ _ _ _ _ _) in *.
    set (u1 := <[(d ++ [CHECKSUM]) ++ [ZARRAY] := CMeta (MArray z)]> s) in *. set (u2 := <[(d ++ [CHECKSUM]) ++ [ZATTRS] := CMeta (MAttrs [] (Some [ar_dim ax]))]> u1) in *.
    assert (Hu : forall (x : content), Phi (<[(d ++ [CHECKSUM]) ++ [ZARRAY] := x]> s)).
    { intros x. right. left. split; [apply (Hz _ [CHECKSUM; ZARRAY]); rewrite <-app_assoc; cbn [app]; rewrite lookup_insert; by eexists|].
      intros a' dims. rewrite lookup_insert_ne; [rewrite Hn by apply under_app; done|]. rewrite <-app_assoc. intros E. apply app_inv_head in E. discriminate E. }
    assert (Hu2 : forall x : content, (forall a' dims, x = CMeta (MAttrs a' dims) -> dget a' CHECKSUM_ATTR = None) -> forall t, Phi (<[(d ++ [CHECKSUM]) ++ [ZATTRS] := x]> t)).
    { intros x Hx t. right. left. split; [apply (Hz _ [CHECKSUM; ZATTRS]); rewrite <-app_assoc; cbn [app]; rewrite lookup_insert; by eexists|].
      intros a' dims. rewrite <-app_assoc. cbn [app]. rewrite lookup_insert. intros [= ->]. by eapply Hx. }
    apply always_bind.
    { apply always_bind; [cbn; split; [by left|]; split; [apply Hu|split; [apply Hu|done]]|]. intros ? s' E. rewrite exec_write in E. injection E as _ <-.
      apply always_bind; [cbn; split; [apply Hu|]; split; [apply Hu2; done|split; [apply Hu2; by intros ?? [= <- _]|done]]|]. intros ? s' E. rewrite exec_write in E. injection E as _ <-.
      cbn. split; [apply Hu2; by intros ?? [= <- _]|done]. }
    intros z' s' Ez. rewrite Ez in Eall. cbv iota beta in Eall.
    assert (s' = u2) as -> by (rewrite !exec_bind, exec_write in Ez; cbv iota beta in Ez; rewrite exec_bind, exec_write in Ez; cbn in Ez; by injection Ez).
    rewrite exec_bind in Eall.
    assert (Hset : within (fun _ => True) (fun y => under d y /\ y <> d ++ [CHECKSUM; ZATTRS]) (set_array (d ++ [CHECKSUM]) z' (ar_array ax))).
    { unfold set_array. case_bool_decide; [|done]. apply within_pfor. intros ci _. cbv zeta. cbn [andb]. apply within_write. rewrite <-app_assoc. split; [apply under_app|].
      intros E. apply app_inv_head in E. injection E as E. revert E. apply chunk_key_not_meta. set_solver. }
    assert (Hchunks : always CTorn (fun u => Phi u /\ u !! (d ++ [CHECKSUM; ZATTRS]) = Some (CMeta (MAttrs [] (Some [ar_dim ax])))) (set_array (d ++ [CHECKSUM]) z' (ar_array ax)) u2).
    { eapply (always_within (fun y => under d y /\ y <> d ++ [CHECKSUM; ZATTRS]) _ _ _ u2); [exact Hset|reflexivity|]. intros u0 Hu0.
      assert (E0 : u0 !! (d ++ [CHECKSUM; ZATTRS]) = Some (CMeta (MAttrs [] (Some [ar_dim ax])))).
      { rewrite Hu0; [unfold u2; rewrite <-!app_assoc; apply lookup_insert|]. intros [_ X]. done. }
      split; [|exact E0]. right. left. split; [apply (Hz _ [CHECKSUM; ZATTRS]); by rewrite E0|]. intros a' dims. rewrite E0. by intros [= <- _]. }
    apply always_bind; [eapply always_impl; [|exact Hchunks]; by intros ? [? _]|]. intros ? s' Es. rewrite Es in Eall. cbv iota beta in Eall.
    pose proof (exec_steps CTorn (set_array (d ++ [CHECKSUM]) z' (ar_array ax)) u2) as Hst. rewrite Es in Hst. destruct (always_sound CTorn _ _ _ _ _ Hchunks Hst) as [Hp Hat]. cbn [snd] in Hp, Hat.
    rewrite exec_bind in Eall. apply always_bind; [apply always_read; [apply within_array_attrs; auto|exact Hp]|]. intros at_ s2 Ea. rewrite Ea in Eall.
    assert (s2 = s') as -> by (rewrite (exec_array_attrs (d ++ [CHECKSUM]) s' [] (Some [ar_dim ax])) in Ea by (rewrite <-app_assoc; exact Hat); by injection Ea).
    cbv iota beta in Eall. rewrite exec_write in Eall. injection Eall as Eend. cbn. split; [exact Hp|]. split; [apply Hu2; done|]. rewrite <-Eend in Hend. exact (conj Hend Logic.I).
  Qed.
End sums.

Lemma all_or_one {A : Type} (P Q : A -> Prop) (l : list A) : (forall x, x ∈ l -> P x \/ Q x) -> (exists x, x ∈ l /\ P x) \/ forall x, x ∈ l -> Q x.
Proof.
  induction l as [|x l IH]; intros H; [right; intros x Hx; by apply elem_of_nil in Hx|]. destruct (H x) as [Hx|Hx]; [left|left; exists x; split; [left|done]|].
  destruct IH as [(y & Hy & Py)|IH]; [intros y Hy; apply H; by right|left; exists y; split; [by right|done]|]. right. intros y Hy. apply elem_of_cons in Hy as [->|Hy]; [done|by apply IH].
Qed.

Section C111.
Context (v : venv) (reg : registry) (d ref : path) (f : filter) (c : collection).
Context (M : list Z -> option dataset) (I : option dataset) (P : list Z -> Prop) (s : store).
Local Notation config := (d ++ [VIEW_CONFIG]).
Local Notation empty_metadata := (mk_mdataset (md_dims (c_meta c)) [] [] [] None).
(** The view that is asked for. *)
Local Notation w := (View d c empty_metadata f).
Context (Eo : exec (open_collection reg ref (Some (lit "r"))) s = (Ok c, s)) (Hw : viewable v w) (Hn : nothing_at d s) (Hf : ve_unpickle v (ve_pickle v f) = f)
  (Hs : represents c M I s) (Hmo : forall x ds, M x = Some ds -> made_of c ds) (Hfi : f = NoFilter \/ filterable c) (HP : forall x, is_Some (M x) -> says (c_part c) f x (P x)).
Local Notation conf := (CView (vconfig_of v w)).
Local Notation kd := (key_dirs (c_part c)).

(** The partitions of a view whose creation is stopped. *)
Definition begun (vs : list (list Z)) (u : store) : Prop :=
  u !! config = Some conf /\
  (forall x, x ∈ vs -> nothing_at (vdir w x) u \/ undigested (vdir w x) u \/ exists ds a, M x = Some ds /\ axis_is c ds a /\ bare v w (sub (vdir w x) u) a) /\
  (forall q, q <> config -> (forall x, x ∈ vs -> ~ under (vdir w x) q) -> u !! q = s !! q).

Lemma create_begun sched : exists vs, StronglySorted row_lt vs /\ (forall x, x ∈ vs <-> is_Some (M x) /\ P x) /\
  exec (ref_parts v w f) (<[config := conf]> s) = (Ok (map kd vs), <[config := conf]> s) /\
  (forall x, x ∈ vs -> nothing_at (vdir w x) (<[config := conf]> s)) /\
  always CTorn (fun u => u = s \/ u = <[config := CTorn]> s \/ begun vs u) (create_view v reg sched d ref f) s.
Proof using Eo Hw Hn Hs Hmo Hfi HP.
  assert (Ed : c_dir c = ref) by (by eapply open_dir). set (s0 := <[config := conf]> s).
  assert (Hs0 : represents c M I s0) by (by apply (represents_config v w Hw)).
  destruct (select_chosen (ve_env v) c M I s0 f P (vw_regular _ _ Hw) Hs0 Hfi HP) as (vs & Hso & Hvs & Esel).
  assert (Hlen : forall x, x ∈ vs -> length x = length (p_keys (c_part c))).
  { intros x Hx. apply Hvs in Hx as [[ds Hds] _]. by destruct (rp_part _ _ _ _ Hs _ _ Hds) as (Hl & _). }
  assert (Hvc : forall x r, x ∈ vs -> kd x ++ r <> [VIEW_CONFIG]).
  { intros x r Hx Ex. destruct (key_head (ve_env v) c (vw_regular _ _ Hw) x (Hlen x Hx)) as (a & k & Ea & _ & Hd). rewrite Ea in Ex. injection Ex as -> _. apply Hd. by exists (lit "view"). }
  assert (Hnc : forall x, x ∈ vs -> ~ under (vdir w x) config).
  { intros x Hx (r & Ex). unfold vdir in Ex. rewrite <-app_assoc in Ex. apply app_inv_head in Ex. symmetry in Ex. by eapply Hvc. }
  assert (Hnx : forall x, x ∈ vs -> nothing_at (vdir w x) s0).
  { intros x Hx q Hq. unfold s0. rewrite lookup_insert_ne by (intros <-; by apply (Hnc x Hx)). apply Hn. by eapply under_more. }
  pose proof (exec_ref_parts v w f s0 vs Esel) as Eref. cbn [w_ref] in Eref.
  exists vs. split; [done|]. split; [done|]. split; [done|]. split; [done|].
  assert (Ee : empty_at d s = true) by (by apply nothing_empty). set (Psi := fun u : store => u = s \/ u = <[config := CTorn]> s \/ begun vs u).
  assert (Hb0 : begun vs s0).
  { split; [apply lookup_insert|]. split; [intros x Hx; left; by apply Hnx|]. intros q Nq _. by apply lookup_insert_ne. }
  unfold create_view. apply always_bind; [apply always_read; [apply within_exists; auto|by left]|]. intros x s' E. rewrite exec_exists, Ee in E. injection E as <- <-. cbn [negb].
  unfold make_view. apply always_bind.
  { unfold open_collection. apply always_open; [by eapply open_found|by left]. }
  intros c' s' E. rewrite Eo in E. injection E as <- <-. cbv zeta. cbn [default].
  apply always_bind; [apply always_read; [apply within_exists; auto|by left]|]. intros x s' E. rewrite exec_exists, Ee in E. injection E as <- <-. cbn [negb].
  apply always_bind.
  { unfold write_vconfig, write_file. cbn. split; [by left|]. split; [by right; left|]. split; [|done]. right. right. exact Hb0. }
  intros x' s' E. unfold write_vconfig in E. rewrite exec_write in E. injection E as <- <-. cbn [w_dir]. fold s0.
  assert (Hin : always CTorn (begun vs) (init_partitions v sched w f) s0).
  { unfold init_partitions. apply always_bind; [apply always_read; [apply within_ref_parts|exact Hb0]|]. intros l s' E. rewrite Eref in E. injection E as <- <-.
    assert (Efil : exec (pfilter (fun q => let! x <- exists_path (w_dir w ++ q); pret (negb x)) (map kd vs)) s0 = (Ok (map kd vs), s0)).
    { rewrite (exec_pfilter _ (fun _ => true)); [f_equal; f_equal; clear; induction (map kd vs) as [|q l IH]; [done|]; cbn; by rewrite IH|].
      intros q Hq. apply elem_of_list_In, in_map_iff in Hq as (x & <- & Hx%elem_of_list_In). rewrite exec_bind, exec_exists. change (w_dir w ++ kd x) with (vdir w x). rewrite (proj1 (nothing_empty _ _) (Hnx x Hx)). done. }
    apply always_bind.
    { apply always_read; [|exact Hb0]. apply within_pfilter. intros q. apply within_bind; [apply within_exists; auto|]. by intros. }
    intros l s' E. rewrite Efil in E. injection E as <- <-.
    assert (Hnd : NoDup vs) by (by apply sorted_nodup_rows).
    assert (Hind : forall x, x ∈ vs -> within (under (part_dir c x)) (under (vdir w x)) (write_checksum v w (kd x))) by (intros x _; apply within_write_checksum; [by left|done]).
    pose proof (view_tasks_independent v w Hw (write_checksum v w) vs Hnd Hlen Hind) as Hi.
    assert (Htr : always CTorn (begun vs) (execute_transaction CTorn sched (map (write_checksum v w) (map kd vs))) s0).
    { eapply always_impl; [|apply (always_transaction CTorn sched _ _ _ (fun i u => match vs !! i with Some x =>
        nothing_at (vdir w x) u \/ undigested (vdir w x) u \/ exists ds a, M x = Some ds /\ axis_is c ds a /\ bare v w (sub (vdir w x) u) a | None => True end) s0 Hi)].
      - intros u [H1 H2]. rewrite !map_length in H1. rewrite !map_length in H2. split; [|split].
        + rewrite H2; [apply lookup_insert|]. intros i _ Hu. destruct (vs !! i) as [x|] eqn:Ex; [|done]. apply (Hnc x); [by eapply elem_of_list_lookup_2|exact Hu].
        + intros x Hx. apply elem_of_list_lookup in Hx as [i Ex]. specialize (H1 i (lookup_lt_Some _ _ _ Ex)). by rewrite Ex in H1.
        + intros q Nq Hq. rewrite H2; [unfold s0; by apply lookup_insert_ne|]. intros i _ Hu. destruct (vs !! i) as [x|] eqn:Ex; [|done]. apply (Hq x); [by eapply elem_of_list_lookup_2|exact Hu].
      - intros i _ u u' Hag. destruct (vs !! i) as [x|]; [|done]. assert (Hu : forall q, under (vdir w x) q -> u' !! q = u !! q) by (intros q Hq; symmetry; apply Hag; by right).
        intros [H|[H|(ds & a & H1 & H2 & H3)]].
        + left. intros q Hq. rewrite Hu by done. by apply H.
        + right. left. by eapply undigested_local.
        + right. right. exists ds, a. split; [done|]. split; [done|]. replace (sub (vdir w x) u') with (sub (vdir w x) u); [done|]. apply map_eq. intros q. rewrite !sub_lookup. symmetry. apply Hu, under_app.
      - intros i p Ei. rewrite map_map in Ei. change (map ?g vs) with (g <$> vs) in Ei. rewrite list_lookup_fmap in Ei. destruct (vs !! i) as [x|] eqn:Ex; [|done]. injection Ei as <-.
        assert (Hx : x ∈ vs) by (by eapply elem_of_list_lookup_2). pose proof Hx as Hx'. apply Hvs in Hx' as [[ds Hds] _]. destruct (rp_part _ _ _ _ Hs0 _ _ Hds) as (_ & Hsd & Hh).
        eapply always_impl; [|apply (always_sums v w Hw ds (kd x) s0 Hsd (Hmo _ _ Hds) (Hnx x Hx) Hh)]. intros u [H|[H|(a & H1 & H2)]]; [by left|by right; left|]. right. right. by exists ds, a. }
    apply always_bind; [exact Htr|]. intros r s' E. cbn. split; [|done]. pose proof (exec_steps CTorn (execute_transaction CTorn sched (map (write_checksum v w) (map kd vs))) s0) as Hst.
    rewrite E in Hst. exact (always_sound CTorn _ _ _ _ _ Htr Hst). }
  assert (Hin' : always CTorn Psi (init_partitions v sched w f) s0) by (eapply always_impl; [|exact Hin]; intros u Hu; by right; right).
  apply always_bind; [exact Hin'|]. intros y s'' E. cbn. split; [|done]. pose proof (exec_steps CTorn (init_partitions v sched w f) s0) as Hst.
  rewrite E in Hst. exact (always_sound CTorn _ _ _ _ _ Hin' Hst).
Qed.

(** ** C111: the synchronisation of a view whose creation was interrupted raises or completes it *)

(** The view is opened where its creation was stopped: [sync()] raises, or the
    view has afterwards all the partitions of the reference, with their axis. *)
Theorem C111_sync sched u sched0 w' sched1 sched2 : (exists x, is_Some (M x)) -> stopped_at (create_view v reg sched d ref f) s u ->
  exec (open_view v reg sched0 d) u = (Ok w', u) ->
  (exists ex u', exec (sync v sched1 sched2 w' NoFilter) u = (Raise ex, u')) \/
  exists u' V changed, exec (sync v sched1 sched2 w' NoFilter) u = (Ok (w', changed), u') /\ represents c M I u' /\ holds_view v w' V u' /\ in_step w' M V.
Proof using Eo Hw Hn Hf Hs Hmo Hfi HP.
  intros Hne [p' H] Ew. assert (Ed : c_dir c = ref) by (by eapply open_dir).
  assert (Hap : forall q, under ref q -> under d q -> False) by (rewrite <-Ed; intros q U1 U2; exact (vw_apart _ _ Hw q U2 U1)).
  destruct (create_begun sched) as (vs & Hso & Hvs & _ & _ & Ha). pose proof (always_sound CTorn _ _ p' s u Ha H) as Hu. cbn beta in Hu. destruct Hu as [->|[->|(Hc & Hx & Ho)]].
  - exfalso. revert Ew. unfold open_view. rewrite exec_bind, exec_exists. rewrite (proj1 (nothing_empty config s)); [done|]. intros q Hq. apply Hn. by eapply under_more.
  - exfalso. rewrite open_torn in Ew by apply lookup_insert. done.
  - assert (Hout : forall q, ~ under d q -> u !! q = s !! q).
    { intros q Nq. apply Ho; [intros ->; apply Nq, under_app|]. intros x _ U. apply Nq. by eapply under_more. }
    destruct (C62_open v reg sched0 w u) as (m & Em & Hsm); [|exact Hc|apply C17_well_formed|exact Hf|].
    { cbn [w_ref]. rewrite Ed. apply (open_same reg ref _ s); [done|]. apply Hout. intros U. exact (Hap _ (under_app _ _) U). }
    cbn [w_dir w_ref w_filters] in Em. rewrite Em in Ew. injection Ew as <-.
    assert (Hm : md_vars m = []).
    { destruct (md_vars m) as [|[n mv] l] eqn:El; [done|]. exfalso. assert (n ∈ dkeys (md_vars empty_metadata)) as X by (apply (sm_names _ _ Hsm); rewrite El; left). by apply elem_of_nil in X. }
    set (w' := View d c m f). assert (Hw' : viewable v w').
    { destruct Hw as [H1 H2 H3 H4 H5 H6 H7]. split; try done; unfold w'; cbn [w_meta]; rewrite Hm; [constructor|done]. }
    assert (Hsu : represents c M I u).
    { eapply (represents_frame w); [exact Hs|]. intros q Hq. apply Hout. intros U. cbn [w_ref] in Hq. rewrite Ed in Hq. exact (Hap _ Hq U). }
    destruct (all_or_one (fun x => undigested (vdir w x) u) (fun x => nothing_at (vdir w x) u \/ exists ds a, M x = Some ds /\ axis_is c ds a /\ bare v w (sub (vdir w x) u) a) vs) as [(x & Hi & Hux)|Hgood].
    { intros x Hi. destruct (Hx x Hi) as [?|[?|?]]; [by right; left|by left|by right; right]. }
    + left. apply (sync_raises v w' Hw' sched1 sched2 M I u x); [exact Hsu|by apply Hvs in Hi as [? _]|exact Hux].
    + right. destruct (choose vs (fun x p => (nothing_at (vdir w x) u /\ p = None) \/ exists a ds, M x = Some ds /\ p = Some (VPart a []) /\ axis_is c ds a /\ bare v w (sub (vdir w x) u) a) (fun _ => None)) as (V & HV & HV').
      { intros x Hi. destruct (Hgood x Hi) as [?|(ds & a & ? & ? & ?)]; [exists None; by left|]. exists (Some (VPart a [])). right. by exists a, ds. }
      assert (Hbare : forall t a, bare v w t a -> bare v w' t a) by (intros t a [B1 B2 B3]; by split).
      assert (Hsome : forall x p, V x = Some p -> x ∈ vs /\ exists a ds, M x = Some ds /\ p = VPart a [] /\ axis_is c ds a /\ bare v w (sub (vdir w x) u) a).
      { intros x p Hp. destruct (decide (x ∈ vs)) as [Hi|Hi]; [|by rewrite HV' in Hp]. split; [done|]. destruct (HV x Hi) as [[_ ?]|(a & ds & ? & E & ? & ?)]; [congruence|]. rewrite Hp in E. injection E as ->. by exists a, ds. }
      assert (HVu : holds_view v w' V u).
      { split.
        - intros q y Ey. cbn [w_dir] in Ey. destruct (decide (q = [VIEW_CONFIG])) as [->|Nq]; [by left|]. right. destruct (decide (Exists (fun x => under (vdir w x) (d ++ q)) vs)) as [X|X].
          + apply Exists_exists in X as (x & Hi & (r & Er)). exists x, r. split.
            * destruct (HV x Hi) as [[Hno _]|(a & ds & _ & -> & _)]; [|by eexists]. rewrite Hno in Ey by (by exists r). done.
            * unfold vdir in Er. cbn [w_dir w_ref] in Er. rewrite <-app_assoc in Er. by apply app_inv_head in Er.
          + exfalso. rewrite Ho in Ey; [rewrite Hn in Ey; [done|apply under_app]|intros E; apply app_inv_head in E; done|]. intros x Hi U. apply X, Exists_exists. by exists x.
        - intros x p Hp. destruct (Hsome x p Hp) as (_ & a & ds & Hds & -> & _ & Hb). split; [by destruct (rp_part _ _ _ _ Hs _ _ Hds) as (Hl & _)|].
          apply bare_part; [exact Hm|]. apply Hbare. exact Hb. }
      assert (Hcol : no_collision v w' M V).
      { intros x ds p a Hds Hp Hax _. destruct (Hsome x p Hp) as (_ & a' & ds' & Hds' & -> & Hax' & _). rewrite Hds in Hds'. injection Hds' as <-. cbn [vp_axis].
        destruct Hax as (y & Ey & <-), Hax' as (y' & Ey' & <-). change (dget (d_vars ds) (c_axis c) = Some y) in Ey. rewrite Ey in Ey'. by injection Ey' as <-. }
      destruct (C36_sync v w' M I V u Hw' Hsu Hmo HVu Hcol Hne sched1 sched2) as (u' & V' & changed & E & _ & H1 & H2 & _ & _ & _ & H3). by exists u', V', (map (zip (p_keys (c_part (w_ref w')))) changed).
Qed.

(** ** C112: the synchronisation completes a view whose creation was interrupted *)

(** The claim is false of the code: the creation of any view with a partition may
    be stopped where the view can be opened and [sync()] raises. *)
Theorem C112_completed_refuted : (exists x, is_Some (M x) /\ P x) ->
  exists u, stopped_at (create_view v reg [] d ref f) s u /\
    forall sched0, exists w', exec (open_view v reg sched0 d) u = (Ok w', u) /\
      forall sched1 sched2, exists ex u', exec (sync v sched1 sched2 w' NoFilter) u = (Raise ex, u').
Proof using Eo Hw Hn Hf Hs Hmo Hfi HP.
  intros (x0 & Hx0 & Px0). assert (Ed : c_dir c = ref) by (by eapply open_dir).
  assert (Hap : forall q, under ref q -> under d q -> False) by (rewrite <-Ed; intros q U1 U2; exact (vw_apart _ _ Hw q U2 U1)).
  destruct (create_begun []) as (vs & Hso & Hvs & Eref & Hnx & _). destruct vs as [|x vs]; [exfalso; by eapply elem_of_nil, Hvs|].
  set (s0 := <[config := conf]> s) in *. set (u := <[((d ++ kd x) ++ [CHECKSUM]) ++ [ZARRAY] := CTorn]> s0).
  assert (Hin : x ∈ x :: vs) by left. pose proof Hin as Hx. apply Hvs in Hx as [[ds Hds] _].
  assert (Hs0 : represents c M I s0) by (by apply (represents_config v w Hw)). destruct (rp_part _ _ _ _ Hs0 _ _ Hds) as (Hl & Hsd & Hh).
  assert (Hst : stopped_at (create_view v reg [] d ref f) s u).
  { unfold create_view. eapply stopped_then; [apply exec_exists|]. rewrite (proj1 (nothing_empty d s) Hn). cbn [negb]. unfold make_view.
    eapply stopped_then; [exact Eo|]. cbv zeta. cbn [default]. eapply stopped_then; [apply exec_exists|]. rewrite (proj1 (nothing_empty d s) Hn). cbn [negb].
    eapply stopped_then; [apply exec_write|]. apply stopped_first. cbn [w_dir]. fold s0. unfold init_partitions. eapply stopped_then; [exact Eref|].
    eapply stopped_then.
    { apply (exec_pfilter _ (fun _ => true)). intros q Hq. apply elem_of_list_In, in_map_iff in Hq as (y & <- & Hy%elem_of_list_In). rewrite exec_bind, exec_exists. change (w_dir w ++ kd y) with (vdir w y).
      rewrite (proj1 (nothing_empty _ _) (Hnx y Hy)). done. }
    apply stopped_first. cbn [map List.filter]. unfold execute_transaction. apply stopped_first. cbn [interleave run_all map]. apply stopped_first, stopped_attempt.
    unfold write_checksum. eapply stopped_then; [exact (exec_open_group w ds (kd x) s0 _ eq_refl Hh)|]. destruct (tree_axis v w ds (Hmo _ _ Hds) _ Hh) as (y & _ & _ & Eax).
    eapply stopped_then; [cbn [exec]; change (c_dir (w_ref w) ++ kd x) with (part_dir c x); rewrite Eax; reflexivity|]. unfold write_checksum_array. cbv zeta. eapply stopped_then; [apply exec_exists|].
    rewrite (proj1 (nothing_empty _ _)); [|intros q Hq; apply (Hnx x Hin); by eapply under_more]. cbn [negb]. apply stopped_first, stopped_first.
    eexists. apply rtc_once. apply (step_tear CTorn). }
  exists u. split; [exact Hst|]. intros sched0.
  assert (Nc : ((d ++ kd x) ++ [CHECKSUM]) ++ [ZARRAY] <> config).
  { intros E. rewrite <-!app_assoc in E. apply app_inv_head in E. destruct (kd x) as [|a [|b l]]; discriminate E. }
  assert (Hout : forall q, ~ under d q -> u !! q = s !! q).
  { intros q Nq. unfold u, s0. rewrite !lookup_insert_ne; [done|intros <-; apply Nq, under_app|intros <-; apply Nq; rewrite <-!app_assoc; apply under_app]. }
  destruct (C62_open v reg sched0 w u) as (m & Em & Hsm); [|cbn [w_dir]; unfold u; rewrite lookup_insert_ne by done; apply lookup_insert|apply C17_well_formed|exact Hf|].
  { cbn [w_ref]. rewrite Ed. apply (open_same reg ref _ s); [done|]. apply Hout. intros U. exact (Hap _ (under_app _ _) U). }
  exists (View d c m f). split; [exact Em|]. intros sched1 sched2.
  assert (Hm : md_vars m = []).
  { destruct (md_vars m) as [|[n mv] l] eqn:El; [done|]. exfalso. assert (n ∈ dkeys (md_vars empty_metadata)) as X by (apply (sm_names _ _ Hsm); rewrite El; left). by apply elem_of_nil in X. }
  assert (Hw' : viewable v (View d c m f)).
  { destruct Hw as [H1 H2 H3 H4 H5 H6 H7]. split; try done; cbn [w_meta]; rewrite Hm; [constructor|done]. }
  apply (sync_raises v (View d c m f) Hw' sched1 sched2 M I u x); [|by exists ds|].
  - eapply (represents_frame w); [exact Hs|]. intros q Hq. apply Hout. intros U. cbn [w_ref] in Hq. rewrite Ed in Hq. exact (Hap _ Hq U).
  - split.
    + intros X. assert (E : u !! (((d ++ kd x) ++ [CHECKSUM]) ++ [ZARRAY]) = None) by (apply X; unfold vdir; cbn [w_dir w_ref]; rewrite <-!app_assoc; rewrite app_assoc; apply under_app). unfold u in E. by rewrite lookup_insert in E.
    + intros a dims. unfold u. rewrite lookup_insert_ne; [rewrite (Hnx x Hin); [done|apply under_app]|]. unfold vdir. cbn [w_dir w_ref]. rewrite <-!app_assoc. intros E. apply app_inv_head, app_inv_head in E. discriminate E.
Qed.
End C111.
Print Assumptions C111_sync.
Print Assumptions C112_completed_refuted.

(** A case: the view of the example of C62, with the filter "pass == 2". *)
Example C111_case : exists s u, stopped_at (create_view W_env the_registry [] W_dir X_dir X_filter) s u /\
  exists w, exec (open_view W_env the_registry [] W_dir) u = (Ok w, u) /\ exists ex u', exec (sync W_env [] [] w NoFilter) u = (Raise ex, u').
Proof.
  destruct C62_case as (M & s & Eo & Hw & Hn & Hs & Hmo & Hfi & HP & H1 & H2).
  destruct (C112_completed_refuted W_env the_registry W_dir X_dir X_filter W_opened M None (fun x => hd 0%Z x = 2%Z) s Eo Hw Hn eq_refl Hs Hmo (or_intror Hfi) HP ltac:(exists [2%Z]; by split)) as (u & Hu & H).
  exists s, u. split; [exact Hu|]. destruct (H []) as (w & Ew & Hsync). exists w. split; [exact Ew|]. apply Hsync.
Qed.
(** Another point: the creation is stopped when the configuration is written; the
    view can be opened. *)
Example C111_case2 : exists M s u w, stopped_at (create_view W_env the_registry [] W_dir X_dir X_filter) s u /\ exec (open_view W_env the_registry [] W_dir) u = (Ok w, u) /\
  is_Some (M [1%Z]) /\ represents W_opened M None s /\ nothing_at W_dir s.
Proof.
  destruct C62_case as (M & s & Eo & Hw & Hn & Hs & Hmo & Hfi & HP & H1 & H2).
  destruct (C103_complete_refuted W_env the_registry W_dir X_dir X_filter W_opened [] s M None (fun x => hd 0%Z x = 2%Z) Eo Hw Hn eq_refl Hs Hmo (or_intror Hfi) HP ltac:(exists [2%Z]; by split))
    as (u & s' & parts & Hu & Ho & _). destruct (Ho []) as (m & Em & _). exists M, s, u, (View W_dir W_opened m X_filter). split; [exact Hu|]. split; [exact Em|]. done.
Qed.
