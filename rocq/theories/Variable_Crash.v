(** * What an interrupted addition or removal of a variable leaves *)
From Verif Require Import Py Dict NdArray_Model NdArray_Spec NdArray_Proofs Dataset_Model Dataset_Spec Dataset_Proofs Meta_Model Meta_Spec PartPath_Model PartPath_Proofs
  Split_Spec DaskUtils_Model DaskUtils_Proofs FS_Model FS_Proofs Pool_Model Pool_Proofs Storage_Model Storage_Chunks Storage_Spec Storage_Proofs
  Listing_Model Listing_Spec Listing_Proofs Collection_Model Collection_Spec Collection_Split Collection_Proofs Collection_State Collection_Select Collection_Load Collection_Crash
  Update_Model Update_Spec Storage_Change Update_State Update_Proofs Update_Crash Variable_Spec Variable_Proofs Crash_Spec Crash_Props.

(** ** Concurrent tasks on the partitions *)
Lemma parts_always e c (Hr : regular e c) (G : path -> program unit) (Phi : list Z -> store -> Prop) vs (s : store) sched :
  NoDup vs -> (forall v, v ∈ vs -> length v = length (p_keys (c_part c))) ->
  (forall d, within (fun _ => False) (fun q => under d q) (G d)) ->
  (forall v, v ∈ vs -> always CTorn (fun u : store => Phi v (sub (part_dir c v) u)) (G (part_dir c v)) s) ->
  always CTorn (fun u : store => (forall v, v ∈ vs -> Phi v (sub (part_dir c v) u)) /\ (forall q, (forall v, v ∈ vs -> ~ under (part_dir c v) q) -> u !! q = s !! q))
    (execute_transaction CTorn sched (map G (map (part_dir c) vs))) s.
Proof.
  intros Hnd Hlen Hw Ha. set (ps := map G (map (part_dir c) vs) : list (program unit)).
  set (W := fun i q => match vs !! i with Some v => under (part_dir c v) q | None => False end).
  assert (Hlk : forall i p, ps !! i = Some p -> exists v, vs !! i = Some v /\ p = G (part_dir c v)).
  { intros i p. unfold ps. rewrite map_map. change (map ?f vs) with (f <$> vs). rewrite list_lookup_fmap. destruct (vs !! i) as [v|]; [|done]. intros [= <-]. eauto. }
  assert (Hind : independent ps (fun _ _ => False) W).
  { split.
    - intros i p E. apply Hlk in E as (v & Ei & ->). eapply within_impl; [..|apply Hw]; [done|]. intros q Hq. unfold W. by rewrite Ei.
    - intros i j p p2 Ei Ej N q Wi [?|Wj]; [done|]. apply Hlk in Ei as (v & Ei & _), Ej as (v' & Ej & _). unfold W in *. rewrite Ei in Wi. rewrite Ej in Wj.
      refine (parts_apart c v v' _ _ _ q Wi Wj); try (apply Hlen; by eapply elem_of_list_lookup_2). intros ->. apply N. by eapply NoDup_lookup. }
  assert (Hle : length ps = length vs) by (unfold ps; by rewrite !map_length).
  eapply always_impl; [|apply (always_transaction CTorn sched ps (fun _ _ => False) W
    (fun i u => match vs !! i with Some v => Phi v (sub (part_dir c v) u) | None => True end) s Hind)].
  - intros w [Hw1 Hw2]. split.
    + intros v Hv. apply elem_of_list_lookup in Hv as [i Hi]. specialize (Hw1 i ltac:(rewrite Hle; by eapply lookup_lt_Some)). by rewrite Hi in Hw1.
    + intros q Hq. apply Hw2. intros i _ Hi. unfold W in Hi. destruct (vs !! i) as [v|] eqn:Ei; [|done]. apply (Hq v); [by eapply elem_of_list_lookup_2|done].
  - intros i _ w w' Hag H. destruct (vs !! i) as [v|] eqn:Ei; [|done].
    assert (sub (part_dir c v) w' = sub (part_dir c v) w) as ->; [|done]. apply map_eq. intros q. rewrite !sub_lookup. symmetry. apply Hag. right. unfold W. rewrite Ei. apply under_app.
  - intros i p Ei. apply Hlk in Ei as (v & Ei & ->). rewrite Ei. apply Ha. by eapply elem_of_list_lookup_2.
Qed.

(** ** Reading a group *)
(** The files of a variable that is not selected, or that is not in the
    consolidated metadata, do not matter. *)
Lemma read_group_apart (t t' : store) delayed sel n : n <> ZMETADATA -> (forall q, ~ under [n] q -> t' !! q = t !! q) ->
  (~ wanted sel n \/ forall m, t !! [ZMETADATA] = Some (CCons m) -> m !! [n; ZARRAY] = None) -> read_group t' delayed sel = read_group t delayed sel.
Proof.
  intros Hz Ht Hn. unfold read_group.
  assert (Em : t' !! [ZMETADATA] = t !! [ZMETADATA]) by (apply Ht; intros (f & E); injection E as E _; by apply Hz).
  assert (Hc : read_cons t' = read_cons t) by (unfold read_cons; by rewrite Em).
  rewrite Hc. destruct (read_cons t) as [m|] eqn:Er; [|done]. cbn [rbind]. f_equal. apply traverse_ext_in. intros k Hk.
  unfold open_zarr_array. destruct (array_meta m k) as [z|] eqn:Ea; [|done]. cbn [rbind].
  assert (k <> n).
  { intros ->. destruct Hn as [Hn|Hn].
    - apply Hn. destruct sel as [l|]; [|done]. apply elem_of_list_In, filter_In in Hk as [_ Hk]. by apply bool_decide_eq_true in Hk.
    - unfold read_cons in Er. destruct (t !! [ZMETADATA]) as [x|]; [|done]. destruct x; try done. case_bool_decide; [|done]. injection Er as ->.
      unfold array_meta in Ea. by rewrite (Hn m eq_refl) in Ea. }
  assert (sub [k] t' = sub [k] t) as ->; [|done]. apply map_eq. intros q. rewrite !sub_lookup. apply Ht. intros (f & E). cbn in E. injection E as E _. done.
Qed.

(** ** Adding a variable to a partition *)
(** The files [t] of a partition while the variable [n] is added to it: [t0]
    before, [t1] after. *)
Definition adding (t0 t1 : store) (n : str) (t : store) : Prop :=
  residue t0 n t /\ (t !! [ZMETADATA] = t0 !! [ZMETADATA] \/ t !! [ZMETADATA] = Some CTorn \/ t = t1).

Lemma always_write (Phi : store -> Prop) q x (s : store) : Phi s -> Phi (<[q := CTorn]> s) -> Phi (<[q := x]> s) -> always CTorn Phi (write_file q x) s.
Proof. intros H1 H2 H3. unfold write_file. cbn [always mid exec_op fst snd pret]. auto. Qed.
Lemma always_consolidate (Phi : store -> Prop) d (s : store) : clean (sub d s) -> sub d s !! [ZGROUP] = Some (CMeta MGroup) ->
  Phi s -> Phi (<[d ++ [ZMETADATA] := CTorn]> s) -> Phi (<[d ++ [ZMETADATA] := CCons (metas (sub d s))]> s) -> always CTorn Phi (consolidate d) s.
Proof.
  intros Hc Hg H1 H2 H3. unfold consolidate. apply always_bind; [apply always_read; [apply within_get_tree; auto|done]|].
  intros t s' E. rewrite exec_get_tree in E. injection E as <- <-. rewrite collect_clean by done.
  apply always_bind; [by cbn|]. intros m s' E. injection E as <- <-.
  apply always_bind; [by apply always_write|]. intros x s' E. rewrite exec_write in E. injection E as _ <-. by case_bool_decide.
Qed.

Lemma always_add_array d (s : store) attrs vars v template w chunks : holds_group (sub d s) attrs vars -> dget vars template = Some w ->
  plain_name (mv_name v) -> (forall q, under (d ++ [mv_name v]) q -> s !! q = None) ->
  always CTorn (fun u : store => adding (sub d s) (add_tree (sub d s) v (v_shape w) (add_chunks chunks v (v_shape w))) (mv_name v) (sub d u))
    (add_zarr_array d v template chunks) s.
Proof.
  intros H Ew Hp Hno. set (n := mv_name v) in *. set (t1 := add_tree _ _ _ _).
  assert (Hne : forall x, x ∈ [ZARRAY; ZATTRS; ZGROUP; ZMETADATA] -> n <> x) by (intros x Hx E; apply Hp; by rewrite E).
  assert (Hz : n <> ZMETADATA) by (apply Hne; set_solver).
  set (Phi := fun u : store => adding (sub d s) t1 n (sub d u)).
  assert (P0 : Phi s) by (split; [apply residue_self|by left]).
  unfold add_zarr_array. apply always_bind; [apply always_read; [apply within_read_file; auto|done]|].
  intros a s' E. rewrite exec_read_file in E. injection E as <- <-.
  destruct (hg_vars _ _ _ H _ _ Ew) as (_ & _ & [(cs & _ & Hza & _) _]). rewrite !sub_lookup in Hza. cbn [app] in Hza. rewrite Hza.
  apply always_bind; [apply always_read; [apply within_read_file; auto|done]|].
  intros a s' E. rewrite exec_read_file in E. injection E as <- <-. apply always_bind; [apply always_read; [apply within_read_file; auto|done]|].
  intros a s' E. rewrite exec_read_file in E. injection E as <- <-.
  assert (Hno' : forall x, s !! (d ++ [n; x]) = None).
  { intros x. apply Hno. exists [x]. by rewrite <-app_assoc. }
  rewrite !Hno'. rewrite bool_decide_eq_false_2 by (by intros []).
  cbn [z_shape zarr_for]. fold (add_chunks chunks v (v_shape w)).
  assert (Hw : forall x cx s1, sub d s1 !! [ZMETADATA] = sub d s !! [ZMETADATA] -> residue (sub d s) n (sub d s1) -> Phi (<[d ++ [n; x] := cx]> s1)).
  { intros x cx s1 Em [R1 R2]. unfold Phi. rewrite sub_insert_in. split; [split|].
    - intros q Hq Hm. rewrite lookup_insert_ne; [by apply R1|]. intros <-. apply Hq. by exists [x].
    - left. exists [n; x], cx. split; [by exists [x]|by rewrite lookup_insert].
    - left. by rewrite lookup_insert_ne. }
  apply always_bind; [apply always_write; [done|apply Hw; [done|apply residue_self]..]|].
  intros x s' E. rewrite exec_write in E. injection E as _ <-.
  match goal with |- always _ _ _ ?u => set (s1 := u) end.
  assert (P1 : Phi s1) by (apply Hw; [done|apply residue_self]).
  assert (E1 : sub d s1 !! [ZMETADATA] = sub d s !! [ZMETADATA]) by (unfold s1; rewrite sub_insert_in, lookup_insert_ne; done).
  assert (R1 : residue (sub d s) n (sub d s1)) by apply P1.
  unfold write_zattrs. apply always_bind; [apply always_write; [done|by apply Hw..]|].
  intros y s' E. rewrite exec_write in E. injection E as _ <-.
  match goal with |- always _ _ _ ?u => set (s2 := u) end.
  assert (P2 : Phi s2) by (by apply Hw). destruct P2 as [[R2a R2b] _].
  assert (Hfile : sub d s2 !! [n; ZATTRS] = Some (CMeta (zattrs_of (mv_attrs v) (mv_dims v)))).
  { unfold s2. rewrite sub_insert_in. apply lookup_insert. }
  assert (Hm : forall x, residue (sub d s) n (sub d (<[d ++ [ZMETADATA] := x]> s2))).
  { intros z. rewrite sub_insert_in. split.
    - intros q Hq Hqm. rewrite lookup_insert_ne by done. by apply R2a.
    - left. exists [n; ZATTRS]. eexists. split; [by exists [ZATTRS]|]. by rewrite lookup_insert_ne. }
  apply always_consolidate.
  - unfold s2, s1. rewrite !sub_insert_in. apply clean_insert; [|by intros; eexists]. apply clean_insert; [|by intros; eexists]. apply H.
  - unfold s2, s1. rewrite !sub_insert_in. assert (Hg : n <> ZGROUP) by (apply Hne; set_solver). rewrite !lookup_insert_ne by (intros [= Eq _]; congruence). apply H.
  - by apply Hw.
  - split; [apply Hm|]. right. left. by rewrite sub_insert_in, lookup_insert.
  - split; [apply Hm|]. right. right. unfold t1, add_tree. fold n. unfold s2, s1. by rewrite !sub_insert_in.
Qed.

(** The variable is not in the consolidated metadata of the partition before. *)
Lemma unlisted t attrs vars n m : holds_group t attrs vars -> (forall q, under [n] q -> t !! q = None) -> t !! [ZMETADATA] = Some (CCons m) -> m !! [n; ZARRAY] = None.
Proof.
  intros H Hno Em. pose proof (hg_cons _ _ _ H) as Ec. rewrite Ec in Em. injection Em as <-.
  rewrite metas_at by done. rewrite Hno; [done|]. by exists [ZARRAY].
Qed.

(** ** Removing a variable from a partition *)
(** Removing [n] again, wherever the previous removal or addition was stopped. *)
Lemma del_any d n (s t0 : store) attrs vars : holds_group t0 attrs vars -> plain_name n ->
  (forall q, ~ under [n] q -> q <> [ZMETADATA] -> sub d s !! q = t0 !! q) ->
  exec (del_zarr_array d n) s = (Ok tt, if empty_at (d ++ [n]) s then s else graft d (del_tree t0 n) (prune d s)).
Proof.
  intros H Hp Hout. unfold del_zarr_array. rewrite exec_bind, exec_exists. destruct (empty_at (d ++ [n]) s) eqn:E; cbn [negb]; [done|].
  rewrite exec_bind, exec_rm, E.
  assert (Hne : forall x, x ∈ [ZARRAY; ZATTRS; ZGROUP; ZMETADATA] -> n <> x) by (intros x Hx ->; by apply Hp).
  assert (Hq : forall q, q <> [ZMETADATA] -> sub d (prune (d ++ [n]) s) !! q = prune [n] t0 !! q).
  { intros q Nq. rewrite sub_prune_in, !prune_lookup. destruct (decide (under [n] q)) as [U|U]; [done|]. by apply Hout. }
  assert (Hz : forall q, is_zarr_key q = true -> sub d (prune (d ++ [n]) s) !! q = prune [n] t0 !! q).
  { intros q Hk. apply Hq. by intros ->. }
  rewrite exec_consolidate.
  - f_equal. rewrite (metas_same (prune [n] t0)) by done.
    apply map_eq. intros q. rewrite graft_lookup, prune_lookup. destruct (decide (q = d ++ [ZMETADATA])) as [->|N].
    + rewrite lookup_insert, strip_app. unfold del_tree. by rewrite lookup_insert.
    + rewrite lookup_insert_ne by done. destruct (strip d q) as [r|] eqn:Er.
      * apply strip_Some in Er as ->. rewrite decide_True by apply under_app. rewrite <-sub_lookup.
        assert (r <> [ZMETADATA]) by (by intros ->). unfold del_tree. rewrite lookup_insert_ne by done. rewrite Hq by done. by destruct (prune [n] t0 !! r).
      * apply strip_None in Er. rewrite decide_False by done. rewrite prune_lookup, decide_False; [done|]. intros U. apply Er. eapply under_trans; [apply under_app|done].
  - eapply clean_same; [exact Hz|]. apply prune_clean, H.
  - rewrite Hz by done. rewrite prune_lookup, decide_False; [apply H|]. apply not_under_one, Hne. set_solver.
Qed.

(** The files [t] of a partition while the variable [n] is removed from it. *)
Definition dropping (t0 : store) (n : str) (t : store) : Prop :=
  (forall q, ~ under [n] q -> q <> [ZMETADATA] -> t !! q = t0 !! q) /\ (forall q, under [n] q -> t !! q = t0 !! q \/ t !! q = None) /\
  (t !! [ZMETADATA] = t0 !! [ZMETADATA] \/ (forall q, under [n] q -> t !! q = None) /\ (t !! [ZMETADATA] = Some CTorn \/ t = del_tree t0 n)).
Lemma dropping_self t n : dropping t n t.
Proof. split; [done|]. split; by left. Qed.

Lemma always_del_array d n (s : store) attrs vars : holds_group (sub d s) attrs vars -> plain_name n ->
  always CTorn (fun u : store => dropping (sub d s) n (sub d u)) (del_zarr_array d n) s.
Proof.
  intros H Hp. set (Phi := fun u : store => dropping (sub d s) n (sub d u)). assert (P0 : Phi s) by apply dropping_self.
  assert (Hne : forall x, x ∈ [ZARRAY; ZATTRS; ZGROUP; ZMETADATA] -> n <> x) by (intros x Hx ->; by apply Hp).
  assert (Hzn : ~ under [n] [ZMETADATA]) by (apply not_under_one, Hne; set_solver).
  unfold del_zarr_array. apply always_bind; [by apply always_exists|]. intros b s' E. rewrite exec_exists in E. injection E as <- <-.
  destruct (empty_at (d ++ [n]) s) eqn:Ee; cbn [negb]; [by cbn|].
  assert (Hpart : forall u, partly_removed (d ++ [n]) s u -> Phi u).
  { intros u Hu. split; [|split].
    - intros q Hq _. rewrite !sub_lookup. destruct (Hu (d ++ q)) as [|[(r & Er) _]]; [done|]. exfalso. apply Hq. exists r. rewrite <-app_assoc in Er. by apply app_inv_head in Er.
    - intros q Hq. rewrite !sub_lookup. destruct (Hu (d ++ q)) as [|[_ ?]]; auto.
    - left. rewrite !sub_lookup. destruct (Hu (d ++ [ZMETADATA])) as [|[(r & Er) _]]; [done|]. exfalso. apply Hzn. exists r. rewrite <-app_assoc in Er. by apply app_inv_head in Er. }
  assert (Hall : partly_removed (d ++ [n]) s (prune (d ++ [n]) s)).
  { intros q. rewrite prune_lookup. destruct (decide _); [by right|by left]. }
  apply always_bind.
  - cbn [rm always mid exec_op fst snd]. rewrite Ee. cbn [fst snd pret always]. split; [done|]. split; [exact Hpart|]. split; [|done]. by apply Hpart.
  - intros x s' E. rewrite exec_rm, Ee in E. injection E as _ <-.
    assert (Hs : sub d (prune (d ++ [n]) s) = prune [n] (sub d s)) by apply sub_prune_in.
    assert (Hm : forall y, y = Some CTorn \/ y = Some (CCons (metas (prune [n] (sub d s)))) -> forall z, y = Some z -> Phi (<[d ++ [ZMETADATA] := z]> (prune (d ++ [n]) s))).
    { intros y Hy z ->. unfold Phi. rewrite sub_insert_in, Hs.
      assert (Hu : forall q, under [n] q -> <[[ZMETADATA] := z]> (prune [n] (sub d s)) !! q = None).
      { intros q U. rewrite lookup_insert_ne by (by intros <-). by rewrite prune_lookup, decide_True. }
      split; [|split].
      - intros q Hq Nq. rewrite lookup_insert_ne by done. by rewrite prune_lookup, decide_False.
      - intros q U. right. by apply Hu.
      - right. split; [exact Hu|]. rewrite lookup_insert. destruct Hy as [?|Hy]; [by left|right]. unfold del_tree. congruence. }
    apply always_consolidate; rewrite ?Hs.
    + apply prune_clean, H.
    + rewrite prune_lookup, decide_False; [apply H|]. apply not_under_one, Hne. set_solver.
    + by apply Hpart.
    + eapply Hm; [by left|done].
    + eapply Hm; [by right|done].
Qed.

(** Reading a partition whose metadata are whole, and from which the files of
    [n] are gone: each value of [n] is the fill value. *)
Definition blanked (v : variable) : arr := full (v_shape v) (default (Num 0) (v_fill v)).
Lemma read_blanked (t t' : store) ds n v delayed sel : sound ds -> holds_dataset t ds -> dget (d_vars ds) n = Some v ->
  (forall q, ~ under [n] q -> t' !! q = t !! q) -> (forall q, under [n] q -> t' !! q = None) ->
  sound (assign_all ds [(n, blanked v)]) /\ exists t1, holds_dataset t1 (assign_all ds [(n, blanked v)]) /\ read_group t' delayed sel = read_group t1 delayed sel.
Proof.
  intros Hso [H0 Hg] Ev Hout Hno.
  assert (Hp : proper ds) by (apply storable_proper; by apply sound_storable).
  assert (Hwf : arr_wf (blanked v)) by (unfold blanked, full; apply tabulate_wf).
  assert (Hsh : a_shape (blanked v) = v_shape v) by done.
  assert (Es : dget (stored_vars (d_vars ds)) n = Some (stored v)) by (by rewrite dget_stored, Ev).
  destruct (hg_vars _ _ _ Hg _ _ Es) as (_ & Hpl & [(cs & Hch & Hz & _) _]).
  assert (Hne : forall x, x ∈ [ZARRAY; ZATTRS; ZGROUP; ZMETADATA] -> n <> x) by (intros x Hx ->; by apply Hpl).
  split.
  { apply assign_sound; [done|]. intros m a. cbn. destruct (decide (m = n)) as [->|]; [|done]. intros [= <-]. split; [done|]. intros v' Ev'. congruence. }
  rewrite sub_lookup in Hz. cbn [app] in Hz.
  pose proof (holds_group_update t _ _ n (stored v) cs (blanked v) Hg Es Hch Hz Hwf Hsh) as Hg1. set (t1 := graft [n] _ t) in *. exists t1.
  assert (Hd : holds_dataset t1 (assign_all ds [(n, blanked v)])).
  { split.
    - unfold t1. rewrite graft_lookup_out; [done|]. intros (f & E). done.
    - cbn [d_attrs assign_all with_vars].
      assert (stored_vars (d_vars (assign_all ds [(n, blanked v)])) = dset (stored_vars (d_vars ds)) n (with_array (stored v) (blanked v))) as ->; [|exact Hg1].
      cbn [d_vars assign_all with_vars]. symmetry.
      rewrite dset_map_keys; [|rewrite keys_stored; apply Hp|rewrite keys_stored; apply dget_is_Some; by eexists].
      unfold stored_vars. rewrite !map_map. apply map_ext_in. intros [m w] Hin. unfold assign. cbn. f_equal. destruct (decide (m = n)) as [->|N]; [|done].
      apply elem_of_list_In in Hin. apply (elem_dget _ _ _ (proper_names _ Hp)) in Hin. assert (w = v) as -> by congruence. done. }
  split; [exact Hd|]. unfold read_group.
  assert (Hk : forall q, is_zarr_key q = true -> t1 !! q = t !! q) by (intros q; apply chunk_graft_zarr).
  assert (Hzm : ~ under [n] [ZMETADATA]) by (apply not_under_one, Hne; set_solver).
  assert (Hc1 : read_cons t1 = Ok (metas t)) by (rewrite (group_read_cons _ _ _ Hg1); by rewrite (metas_same t t1)).
  assert (Hc' : read_cons t' = Ok (metas t)).
  { rewrite <-(group_read_cons _ _ _ Hg). unfold read_cons. by rewrite Hout. }
  rewrite Hc1, Hc'. cbn [rbind]. f_equal. apply traverse_ext_in. intros k Hin.
  unfold open_zarr_array. destruct (decide (k = n)) as [->|N].
  - unfold array_meta. rewrite metas_at by done. rewrite Hz. cbn [meta_of rbind].
    assert (read_array (zarr_for (stored v) cs) (sub [n] t1) = Ok (blanked v)) as ->.
    { destruct (hg_vars _ _ _ Hg1 n (with_array (stored v) (blanked v)) ltac:(by rewrite dget_dset_eq)) as (_ & _ & [(cs' & _ & Hz' & Hread) _]).
      rewrite sub_lookup in Hz'. cbn [app] in Hz'. rewrite Hk, Hz in Hz' by done. injection Hz' as Ecs. cbn [v_array with_array] in Hread. rewrite <-Hread. f_equal.
      unfold zarr_for, v_shape. cbn. f_equal. exact Ecs. }
    assert (read_array (zarr_for (stored v) cs) (sub [n] t') = Ok (blanked v)) as ->; [|done].
    unfold read_array. rewrite (traverse_Ok _ (fun _ => default (Num 0) (v_fill v))); [done|].
    intros idx _. unfold read_item. rewrite sub_lookup, Hno by apply under_app. done.
  - assert (sub [k] t' = sub [k] t1) as ->; [|done]. apply map_eq. intros q. rewrite !sub_lookup.
    assert (~ under [n] ([k] ++ q)) by (intros (f & E); cbn in E; injection E as E _; by apply N).
    rewrite Hout by done. unfold t1. by rewrite graft_lookup_out.
Qed.

(** ** The whole calls *)
Section calls.
  Context (e : env) (c : collection) (Hr : regular e c).
  Local Notation keys := (p_keys (c_part c)).

  (** The files while [v] is added, once the configuration declares it. *)
  Definition under_addition (M : list Z -> option dataset) (s : store) (v : mvar) (u : store) : Prop :=
    u !! (c_dir c ++ [CONFIG]) = Some (CConf (config_of (with_meta c (added c v)))) /\ elsewhere_same c M s u /\
    exists template, forall values ds, M values = Some ds -> exists w, dget (d_vars ds) template = Some w /\ v_dims w = mv_dims v /\ mv_name v ∉ dkeys (d_vars ds) /\
      adding (sub (part_dir c values) s) (add_tree (sub (part_dir c values) s) (mv_set_for_insertion v) (v_shape w) (add_chunks (md_chunks (c_meta c)) v (v_shape w)))
        (mv_name v) (sub (part_dir c values) u).

  Lemma always_add M I s v sched sched' : declared c -> complete c M -> uniform c M I -> represents c M I s -> c_readonly c = false ->
    c_dim c ∈ mv_dims v -> (forall d, d ∈ mv_dims v -> d ∈ md_dims (c_meta c)) -> mv_name v ∉ dkeys (md_vars (c_meta c)) -> plain_name (mv_name v) ->
    (exists n mv, dget (md_vars (c_meta c)) n = Some mv /\ mv_dims mv = mv_dims v) -> (exists values, is_Some (M values)) ->
    (forall values q, is_Some (M values) -> under (part_dir c values ++ [mv_name v]) q -> s !! q = None) ->
    always CTorn (fun u : store => u = s \/ u = <[c_dir c ++ [CONFIG] := CTorn]> s \/ under_addition M s v u) (add_variable e sched sched' c v) s.
  Proof.
    intros Hdc Hcm Hu Hs Hw Hd Hdims Hn Hp (n0 & mv0 & Hmv0 & Hd0) Hex Hno.
    destruct (find_template c v Hdc Hn Hp) as (tm & Etm & Hdt & [Htm|[_ Habs]]); [|exfalso; by eapply Habs].
    destruct (add_variable_spec e c Hr M I s v sched sched' Hdc Hcm Hu Hs Hw Hd Hdims Hn Hp (ex_intro _ n0 (ex_intro _ mv0 (conj Hmv0 Hd0))) Hex Hno) as (s' & template & Eall & _).
    set (c1 := with_meta c (added c v)). set (s1 := <[c_dir c ++ [CONFIG] := CConf (config_of c1)]> s).
    assert (Hs1 : represents c M I s1) by (by apply (represents_config e c Hr)).
    destruct (select_all e c Hr M I s1 Hs1) as (vss & Hso & Hv & Hsel).
    assert (Hlen : forall v, v ∈ vss -> length v = length keys) by (intros x Hin; apply Hv in Hin as [d Hdd]; by apply (rp_part _ _ _ _ Hs) in Hdd as [? _]).
    assert (Htmpl : forall values ds, M values = Some ds -> exists w, dget (d_vars ds) (mv_name tm) = Some w /\ v_dims w = mv_dims v /\ mv_name v ∉ dkeys (d_vars ds)).
    { intros values ds E. destruct (Hcm values ds (mv_name tm) tm E Htm) as (w & Hwd & Hdw); [by rewrite Hdt|]. exists w. split; [done|]. split; [by rewrite Hdw|].
      intros Hin. apply Hn. by apply (un_declared _ _ _ Hu values ds). }
    assert (Hsub : forall values, is_Some (M values) -> sub (part_dir c values) s1 = sub (part_dir c values) s) by (intros values Hm; by apply (sub_config e c Hr M I s)).
    set (Phi := fun u : store => u = s \/ u = <[c_dir c ++ [CONFIG] := CTorn]> s \/ under_addition M s v u).
    assert (P0 : Phi s) by (by left).
    assert (Hpart : forall u, (forall values, values ∈ vss -> exists ds w, M values = Some ds /\ dget (d_vars ds) (mv_name tm) = Some w /\
        adding (sub (part_dir c values) s) (add_tree (sub (part_dir c values) s) (mv_set_for_insertion v) (v_shape w) (add_chunks (md_chunks (c_meta c)) v (v_shape w))) (mv_name v) (sub (part_dir c values) u)) ->
        (forall q, (forall v, v ∈ vss -> ~ under (part_dir c v) q) -> u !! q = s1 !! q) -> Phi u).
    { intros u Hin Hout. right. right. split; [|split].
      - rewrite Hout; [unfold s1; by rewrite lookup_insert|]. intros x Hx. apply (config_out e c Hr M I s x Hs). by apply Hv.
      - intros q Nq Hq. rewrite Hout; [unfold s1; by rewrite lookup_insert_ne|]. intros x Hx. apply Hq. by apply Hv.
      - exists (mv_name tm). intros values ds E. destruct (Htmpl values ds E) as (w & Hwd & Hdw & Hnn). exists w. split; [done|]. split; [done|]. split; [done|].
        destruct (Hin values) as (ds' & w' & E' & Hw' & Ha); [apply Hv; by eexists|]. assert (ds' = ds) as -> by congruence. assert (w' = w) as -> by congruence. done. }
    assert (P1 : Phi s1).
    { apply Hpart; [|done]. intros values Hin. apply Hv in Hin as [ds E]. destruct (Htmpl values ds E) as (w & Hwd & _). exists ds, w. split; [done|]. split; [done|].
      rewrite Hsub by (by eexists). split; [apply residue_self|by left]. }
    assert (Htx : always CTorn Phi (execute_transaction CTorn sched (map (fun q => add_zarr_array q (mv_set_for_insertion v) (mv_name tm) (md_chunks (added c v))) (map (part_dir c) vss))) s1).
    {
      eapply always_impl; [|apply (parts_always e c Hr (fun q => add_zarr_array q (mv_set_for_insertion v) (mv_name tm) (md_chunks (added c v)))
         (fun values t => exists ds w, M values = Some ds /\ dget (d_vars ds) (mv_name tm) = Some w /\
            adding (sub (part_dir c values) s) (add_tree (sub (part_dir c values) s) (mv_set_for_insertion v) (v_shape w) (add_chunks (md_chunks (c_meta c)) v (v_shape w))) (mv_name v) t) vss s1 sched)].
      + intros u [H1 H2]. by apply Hpart.
      + by apply sorted_nodup_rows.
      + done.
      + intros d. by apply within_add_array.
      + intros values Hin. apply Hv in Hin as Hm. pose proof Hm as [ds E]. destruct (Htmpl values ds E) as (w & Hwd & _).
        destruct (rp_part _ _ _ _ Hs1 _ _ E) as (_ & _ & Hh).
        eapply always_impl; [|apply (always_add_array (part_dir c values) s1 _ _ (mv_set_for_insertion v) (mv_name tm) (stored w) (md_chunks (added c v)) (proj2 Hh))].
        * intros u Ha. exists ds, w. split; [done|]. split; [done|]. rewrite <-Hsub by done. exact Ha.
        * by rewrite dget_stored, Hwd.
        * exact Hp.
        * intros q U. unfold s1. rewrite lookup_insert_ne; [by apply (Hno values)|]. intros <-. apply (config_out e c Hr M I s values Hs Hm). eapply under_trans; [apply under_app|exact U]. }
    unfold add_variable in *. rewrite Hw in *. assert (memb (c_dim c) (mv_dims v) = true) as Em by (by apply bool_decide_eq_true). rewrite Em in *. cbn [negb] in *.
    rewrite add_metadata in * by done. apply always_bind; [by cbn|]. intros m s0 E. injection E as <- <-. fold c1 in Eall |- *. rewrite exec_bind in Eall. cbn [exec] in Eall.
    apply always_bind.
    { unfold write_config. apply always_bind; [apply always_read; [apply within_exists; auto|done]|]. intros b s0 E. rewrite exec_exists in E. injection E as <- <-.
      rewrite andb_false_r. change (c_dir c1) with (c_dir c). apply always_write; [done|by right; left|exact P1]. }
    intros x s0 E. unfold write_config in E, Eall. rewrite exec_bind, exec_exists, andb_false_r in E. rewrite exec_write in E. injection E as _ <-. change (c_dir c1) with (c_dir c). fold s1.
    rewrite exec_bind, exec_bind, exec_exists, andb_false_r, exec_write in Eall. change (c_dir c1) with (c_dir c) in Eall. fold s1 in Eall.
    rewrite Etm in *. rewrite exec_bind, exec_attempt in Eall.
    assert (Ebag : forall B (g : path -> B), bag_map (map (part_dir c) vss) g = Ok (map g (map (part_dir c) vss))).
    { intros B g. destruct vss; [|done]. destruct Hex as [z Hz]. apply Hv in Hz. by apply elem_of_nil in Hz. }
    apply always_bind.
    - apply always_attempt. change (select_parts e c1 NoFilter) with (select_parts e c NoFilter). apply always_bind; [by cbn|].
      intros parts s0 E. rewrite Hsel in E. injection E as <- <-. rewrite Ebag. apply always_bind; [by cbn|]. intros tasks s0 E. injection E as <- <-.
      exact Htx.
    - intros r s0 E. rewrite exec_attempt in E.
      set (tx := execute_transaction CTorn sched (map (fun q => add_zarr_array q (mv_set_for_insertion v) (mv_name tm) (md_chunks (added c v))) (map (part_dir c) vss))) in *.
      pose proof (exec_steps CTorn tx s1) as Hst.
      match type of E with context [fst (exec ?P ?w)] => assert (E2 : exec P w = exec tx s1) end.
      { rewrite exec_bind. change (select_parts e c1 NoFilter) with (select_parts e c NoFilter). rewrite Hsel, exec_bind, Ebag. done. }
      fold c1 in Eall. change (c_dir c1) with (c_dir c) in Eall. fold s1 in Eall. rewrite E2 in E, Eall. destruct (exec tx s1) as [[l|ex] s2]; cbn [fst snd] in *; injection E as <- <-.
      + split; [|done]. exact (always_sound CTorn _ _ _ _ _ Htx Hst).
      + exfalso. rewrite exec_bind, exec_attempt in Eall. destruct (exec (drop_variable _ _ _ _) _) as [[c2|ex'] s3]; cbn in Eall; discriminate Eall.
  Qed.
  (** The files while [n] is dropped: the configuration is written last. *)
  Definition under_removal (M : list Z -> option dataset) (s : store) (n : str) (u : store) : Prop :=
    elsewhere_same c M s u /\
    (u !! (c_dir c ++ [CONFIG]) = s !! (c_dir c ++ [CONFIG]) /\ (forall values, is_Some (M values) -> dropping (sub (part_dir c values) s) n (sub (part_dir c values) u)) \/
     (u !! (c_dir c ++ [CONFIG]) = Some CTorn \/ u !! (c_dir c ++ [CONFIG]) = Some (CConf (config_of (with_meta c (md_del_variable (c_meta c) n))))) /\
     (forall values, is_Some (M values) -> sub (part_dir c values) u = del_tree (sub (part_dir c values) s) n)).

  Lemma always_drop M I s n sched : represents c M I s -> c_readonly c = false -> n ∉ p_variables (c_part c) -> n ∈ dkeys (md_vars (c_meta c)) ->
    (c_immutable c = true -> is_Some I) -> (forall i, I = Some i -> n ∉ dkeys (d_vars i)) -> plain_name n -> (exists v, is_Some (M v)) ->
    always CTorn (under_removal M s n) (drop_variable e sched c n) s.
  Proof.
    intros Hs Hw Hk Hn Hi Hni Hp Hex. destruct (select_all e c Hr M I s Hs) as (vss & Hso & Hv & Hsel).
    assert (Hlen : forall v, v ∈ vss -> length v = length keys) by (intros v Hin; apply Hv in Hin as [d Hd]; by apply (rp_part _ _ _ _ Hs) in Hd as [? _]).
    set (Phi := under_removal M s n).
    assert (Hpart : forall u : store, (forall v, v ∈ vss -> dropping (sub (part_dir c v) s) n (sub (part_dir c v) u)) ->
       (forall q, (forall v, v ∈ vss -> ~ under (part_dir c v) q) -> u !! q = s !! q) -> Phi u).
    { intros u H1 H2. split; [|left; split].
      - intros q _ Hq. apply H2. intros v Hin. apply Hq. by apply Hv.
      - apply H2. intros v Hin. apply (config_out e c Hr M I s v Hs). by apply Hv.
      - intros v Hm. apply H1. by apply Hv. }
    assert (P0 : Phi s) by (apply Hpart; [intros; apply dropping_self|done]).
    assert (Htx : always CTorn Phi (execute_transaction CTorn sched (map (fun q => del_zarr_array q n) (map (part_dir c) vss))) s).
    { eapply always_impl; [|apply (parts_always e c Hr (fun q => del_zarr_array q n) (fun v t => dropping (sub (part_dir c v) s) n t) vss s sched)].
      - intros u [H1 H2]. by apply Hpart.
      - by apply sorted_nodup_rows.
      - done.
      - intros d. by apply within_del_array.
      - intros v Hin. apply Hv in Hin as [d Hd]. destruct (rp_part _ _ _ _ Hs _ _ Hd) as (_ & _ & Hh). eapply always_del_array; [exact (proj2 Hh)|exact Hp]. }
    destruct (each_transaction e c Hr (fun q => del_zarr_array q n) (fun v t => exists ds, M v = Some ds /\ holds_dataset t ds)
       (fun v t t' r => r = Ok tt /\ t' = del_tree t n) vss s sched) as (r & s2 & rs & Et & Er & HF & Hout).
    { by apply sorted_nodup_rows. }
    { done. }
    { intros d. by apply within_del_array. }
    { intros v s1 Hin (ds & E & Hh). destruct (del_array_spec (part_dir c v) n s1 _ _ (proj2 Hh) Hp) as (s1' & E1 & Es). exists (Ok tt), s1'. split; [done|]. subst s1'. split.
      + intros q Hq. rewrite graft_lookup_out by done. rewrite prune_lookup, decide_False; done.
      + split; [done|]. apply sub_graft_prune. }
    { intros v Hin. apply Hv in Hin as [d Hd]. exists d. split; [done|]. by apply (rp_part _ _ _ _ Hs) in Hd as (_ & _ & ?). }
    assert (Hdone : forall x, x = CTorn \/ x = CConf (config_of (with_meta c (md_del_variable (c_meta c) n))) -> Phi (<[c_dir c ++ [CONFIG] := x]> s2)).
    { intros x Hx. split; [|right; split].
      - intros q Nq Hq. rewrite lookup_insert_ne by done. apply Hout. intros v Hin. apply Hq. by apply Hv.
      - rewrite lookup_insert. destruct Hx as [-> | ->]; auto.
      - intros v Hm. apply Hv in Hm as Hin. destruct (Forall2_elem_l _ _ _ _ HF Hin) as (r' & _ & _ & Ed). rewrite <-Ed.
        apply map_eq. intros q. rewrite !sub_lookup. apply lookup_insert_ne. intros E. apply (config_out e c Hr M I s v Hs Hm). rewrite E. apply under_app. }
    unfold drop_variable. rewrite Hw. assert (memb n (p_variables (c_part c)) = false) as -> by (by apply bool_decide_eq_false).
    assert (dmem (md_vars (c_meta c)) n = true) as -> by (by apply dmem_true). cbn [negb].
    apply always_bind.
    { apply always_read; [|done]. destruct (immutable_path c); [|done]. apply within_bind; [apply open_reads|]. intros i. by destruct (dmem _ _). }
    intros x s0 E.
    assert (s0 = s) as ->.
    { destruct (immutable_path c) as [q|]; [|by injection E]. rewrite exec_bind in E. destruct (open_pure q true None s) as [r1 E1]. rewrite E1 in E.
      destruct r1 as [i|]; [|by injection E]. destruct (dmem _ _); by injection E. }
    apply always_bind; [by cbn|]. intros parts s0 E'. rewrite Hsel in E'. injection E' as <- <-.
    assert (Ebag : forall B (g : path -> B), bag_map (map (part_dir c) vss) g = Ok (map g (map (part_dir c) vss))).
    { intros B g. destruct vss; [|done]. destruct Hex as [z Hz]. apply Hv in Hz. by apply elem_of_nil in Hz. }
    rewrite Ebag. apply always_bind; [by cbn|]. intros tasks s0 E'. injection E' as <- <-.
    apply always_bind; [exact Htx|]. intros l s0 E'. rewrite Et in E'. assert (s0 = s2) as -> by congruence. clear E'.
    assert (P2 : Phi s2).
    { pose proof (exec_steps CTorn (execute_transaction CTorn sched (map (fun q => del_zarr_array q n) (map (part_dir c) vss))) s) as Hst. rewrite Et in Hst.
      exact (always_sound CTorn _ _ _ _ _ Htx Hst). }
    cbv zeta. apply always_bind.
    - unfold write_config. apply always_bind; [by apply always_exists|]. intros b s0 E'. rewrite exec_exists in E'. injection E' as <- <-.
      rewrite andb_false_r. cbn [with_meta c_dir]. apply always_write; [done|apply Hdone; by left|apply Hdone; by right].
    - intros y s0 E'. unfold write_config in E'. rewrite exec_bind, exec_exists, andb_false_r in E'. cbn [with_meta c_dir] in E'. rewrite exec_write in E'. injection E' as _ <-.
      split; [|done]. apply Hdone. by right.
  Qed.

  Lemma sub_config_any M I (s s2 : store) v x : represents c M I s -> is_Some (M v) -> sub (part_dir c v) (<[c_dir c ++ [CONFIG] := x]> s2) = sub (part_dir c v) s2.
  Proof.
    intros Hs Hm. apply map_eq. intros q. rewrite !sub_lookup. apply lookup_insert_ne. intros E. apply (config_out e c Hr M I s v Hs Hm). rewrite E. apply under_app.
  Qed.

  (** Dropping [n] from files that an addition or a removal of [n] has left. *)
  Lemma drop_again M I s u n sched : represents c M I s -> c_readonly c = false -> n ∉ p_variables (c_part c) -> n ∈ dkeys (md_vars (c_meta c)) ->
    (c_immutable c = true -> is_Some I) -> (forall i, I = Some i -> n ∉ dkeys (d_vars i)) -> plain_name n -> (exists v, is_Some (M v)) -> is_Some (u !! (c_dir c ++ [CONFIG])) ->
    elsewhere_same c M s u -> (forall v, is_Some (M v) -> forall q, ~ under [n] q -> q <> [ZMETADATA] -> sub (part_dir c v) u !! q = sub (part_dir c v) s !! q) ->
    exists s', exec (drop_variable e sched c n) u = (Ok (with_meta c (md_del_variable (c_meta c) n)), s') /\
      s' !! (c_dir c ++ [CONFIG]) = Some (CConf (config_of (with_meta c (md_del_variable (c_meta c) n)))) /\ elsewhere_same c M s s' /\
      (forall v, is_Some (M v) -> sub (part_dir c v) s' = if empty_at [n] (sub (part_dir c v) u) then sub (part_dir c v) u else del_tree (sub (part_dir c v) s) n).
  Proof.
    intros Hs Hw Hk Hn Hi Hni Hp Hex [y Hy] Hels Hin1.
    assert (Hne : forall x, x ∈ [ZARRAY; ZATTRS; ZGROUP; ZMETADATA] -> n <> x) by (intros x Hx ->; by apply Hp).
    assert (Hgrp : forall values, is_Some (M values) -> exists ds, M values = Some ds /\ holds_dataset (sub (part_dir c values) s) ds).
    { intros values [ds E]. exists ds. split; [done|]. by apply (rp_part _ _ _ _ Hs) in E as (_ & _ & ?). }
    set (s0 := <[c_dir c ++ [CONFIG] := y]> s).
    assert (Hs0 : represents c M I s0) by (by apply (represents_config e c Hr)).
    assert (Hout0 : forall q, (forall v, is_Some (M v) -> ~ under (part_dir c v) q) -> u !! q = s0 !! q).
    { intros q Hq. unfold s0. destruct (decide (q = c_dir c ++ [CONFIG])) as [->|N]; [by rewrite lookup_insert|]. rewrite lookup_insert_ne by done. by apply Hels. }
    destruct (select_same e c Hr M I s0 u Hs0 Hout0) as (vss & Hso & Hv & Hsel).
    { intros values Hm. destruct (Hgrp values Hm) as (ds & _ & H0 & Hg). split.
      - rewrite <-(app_nil_r (part_dir c values)), <-sub_lookup. rewrite (Hin1 values Hm); [done| |done]. intros (f & E). done.
      - exists ZGROUP, [], (CMeta MGroup). rewrite <-sub_lookup. rewrite (Hin1 values Hm); [apply Hg| |done]. apply not_under_one, Hne. set_solver. }
    assert (Hlen : forall v, v ∈ vss -> length v = length keys) by (intros x Hin; apply Hv in Hin as [d Hdd]; by apply (rp_part _ _ _ _ Hs) in Hdd as [? _]).
    assert (Hne0 : vss <> []).
    { intros ->. destruct Hex as [x Hx]. apply Hv in Hx. by apply elem_of_nil in Hx. }
    destruct (each_transaction e c Hr (fun q => del_zarr_array q n)
       (fun values t => is_Some (M values) /\ forall q, ~ under [n] q -> q <> [ZMETADATA] -> t !! q = sub (part_dir c values) s !! q)
       (fun values t t' r => r = Ok tt /\ t' = if empty_at [n] t then t else del_tree (sub (part_dir c values) s) n) vss u sched)
      as (r & s2 & rs & Et & Er & HF & Hout).
    { by apply sorted_nodup_rows. }
    { done. }
    { intros d. by apply within_del_array. }
    { intros values w Hin [Hm Hq]. destruct (Hgrp values Hm) as (ds & Eds & H0 & Hg).
      eexists _, _. split; [apply (del_any (part_dir c values) n w _ _ _ Hg Hp Hq)|].
      assert (empty_at (part_dir c values ++ [n]) w = empty_at [n] (sub (part_dir c values) w)) as <-.
      { unfold empty_at. apply bool_decide_ext. assert (sub [n] (sub (part_dir c values) w) = sub (part_dir c values ++ [n]) w) as ->; [|done].
        apply map_eq. intros q. rewrite !sub_lookup. by rewrite <-app_assoc. }
      destruct (empty_at (part_dir c values ++ [n]) w); [by split|]. split.
      - intros q Nq. rewrite graft_lookup_out by done. rewrite prune_lookup, decide_False; done.
      - split; [done|]. apply sub_graft_prune. }
    { intros values Hin. apply Hv in Hin. split; [done|by apply Hin1]. }
    assert (exists l, first_error rs = Ok l) as [l El].
    { exists (map (fun _ => tt) vss). apply first_error_Ok. clear -HF. induction HF as [|x r vs rs [-> _] _ IH]; [done|]. cbn. by rewrite IH. }
    rewrite El in Er. subst r. set (c2 := with_meta c (md_del_variable (c_meta c) n)).
    exists (<[c_dir c ++ [CONFIG] := CConf (config_of c2)]> s2). split; [|split; [by rewrite lookup_insert|split]].
    - apply (drop_steps_at e c u vss l s2 n sched); try done.
      intros q Hq. destruct (immutable_names e c Hr M I s0 u n q Hs0 Hout0 Hi Hq) as (i & o & Ei & Eo & Hno).
      exists o. split; [done|]. rewrite Hno. by apply Hni.
    - intros q Nq Hq. rewrite lookup_insert_ne by done. rewrite Hout by (intros x Hx; apply Hq; by apply Hv). by apply Hels.
    - intros values Hm. apply Hv in Hm as Hin. destruct (Forall2_elem_l _ _ _ _ HF Hin) as (r' & _ & _ & Ed). rewrite <-Ed.
      by apply (sub_config_any M I s).
  Qed.
End calls.
