(** * Properties of interrupted calls: add_variable and drop_variable *)
From Verif Require Import Py Dict NdArray_Model NdArray_Spec NdArray_Proofs Dataset_Model Dataset_Spec Dataset_Proofs Meta_Model Meta_Spec PartPath_Model PartPath_Proofs
  Split_Spec DaskUtils_Model DaskUtils_Proofs FS_Model FS_Proofs Pool_Model Pool_Proofs Storage_Model Storage_Chunks Storage_Spec Storage_Proofs
  Listing_Model Listing_Spec Listing_Proofs Collection_Model Collection_Spec Collection_Split Collection_Proofs Collection_State Collection_Select Collection_Load
  Crash_Spec Collection_Crash Crash_Props Collection_Example Update_Model Update_Spec Storage_Change Update_State Update_Proofs Update_Example Update_Crash
  Variable_Spec Variable_Proofs Variable_Props Variable_Crash Validate_Props Reopen_Spec Reopen_Props.

(** A collection with at least one partition, all of whose variables are where
    they are declared. *)
Record settled (e : env) (c : collection) (M : list Z -> option dataset) (I : option dataset) (s : store) : Prop := {
  st_regular : regular e c;
  st_represents : represents c M I s;
  st_uniform : uniform c M I;
  st_complete : complete c M;
  st_some : exists values, is_Some (M values);
  st_open : openable c s;
  st_write : c_readonly c = false;
}.
(** [v] can be added: its name is new, its dimensions are those of another
    variable, and no file of the partitions is in the way. *)
Record addable (c : collection) (M : list Z -> option dataset) (s : store) (v : mvar) : Prop := {
  ad_dim : c_dim c ∈ mv_dims v;
  ad_dims : NoDup (mv_dims v) /\ forall d, d ∈ mv_dims v -> d ∈ md_dims (c_meta c);
  ad_new : mv_name v ∉ dkeys (md_vars (c_meta c));
  ad_plain : plain_name (mv_name v);
  ad_like : exists n mv, dget (md_vars (c_meta c)) n = Some mv /\ mv_dims mv = mv_dims v;
  ad_free : forall values q, is_Some (M values) -> under (part_dir c values ++ [mv_name v]) q -> s !! q = None;
}.
(** [name] can be dropped. *)
Record droppable (c : collection) (name : str) : Prop := {
  dr_declared : exists mv, dget (md_vars (c_meta c)) name = Some mv /\ c_dim c ∈ mv_dims mv;
  dr_key : name ∉ p_variables (c_part c);
  dr_axis : name <> c_axis c;
}.
(** The files of the partition [values] are the same, except those of the
    variable [name] and the consolidated metadata. *)
Definition others_same (c : collection) (name : str) (values : list Z) (s u : store) : Prop :=
  forall q, under (part_dir c values) q -> ~ under (part_dir c values ++ [name]) q -> q <> part_dir c values ++ [ZMETADATA] -> u !! q = s !! q.

Lemma reopened_represents mode c c' M I s : reopened mode c c' -> represents c M I s -> represents c' M I s.
Proof.
  intros Ho [H1 H2 H3]. assert (Hk : forall values, key_dirs (c_part c') values = key_dirs (c_part c) values).
  { intros values. pose proof (ro_path _ _ _ Ho values) as E. unfold part_dir in E. rewrite (ro_dir _ _ _ Ho) in E. by apply app_inv_head in E. }
  split.
  - intros q x E. rewrite (ro_dir _ _ _ Ho) in E. destruct (H1 q x E) as [?|[?|(values & f & Hv & ->)]]; [by left|by right; left|]. right; right. exists values, f. by rewrite Hk.
  - intros values ds E. rewrite (proj1 (ro_keys _ _ _ Ho)), (ro_path _ _ _ Ho). by apply H2.
  - intros ds E. rewrite (ro_dir _ _ _ Ho). by apply H3.
Qed.
Lemma reopened_elsewhere mode c c' M s u : reopened mode c c' -> elsewhere_same c M s u <-> elsewhere_same c' M s u.
Proof.
  intros Ho. unfold elsewhere_same. rewrite (ro_dir _ _ _ Ho). split; intros H q N Hq; apply H; try done; intros v Hv; [rewrite <-(ro_path _ _ _ Ho)|rewrite (ro_path _ _ _ Ho)]; by apply Hq.
Qed.
Lemma reopened_writable c c' : reopened (lit "w") c c' -> c_readonly c' = false.
Proof. intros Ho. destruct (c_readonly c') eqn:E; [|done]. apply (ro_mode _ _ _ Ho) in E. discriminate E. Qed.
Lemma reopened_meta mode c m c' m' : reopened mode (with_meta c m) c' -> same_metadata (c_meta c) m' -> reopened mode c (with_meta c' m').
Proof. intros [O1 O2 O3 O4 O5 O6 O7 O8 O9] H. by split. Qed.
Lemma same_del m m' n : same_metadata m m' -> same_metadata (md_del_variable m n) (md_del_variable m' n).
Proof.
  intros [S1 S2 S3 S4 S5 S6]. split; try done.
  - intros k. cbn [md_del_variable md_vars]. rewrite (ddel_elem (md_vars m)), (ddel_elem (md_vars m')). by rewrite S5.
  - intros k x y. cbn. destruct (decide (k = n)) as [->|N]; [by rewrite dget_ddel_eq|]. rewrite !dget_ddel_ne by done. apply S6.
Qed.
Lemma del_tree_self t attrs vars n : holds_group t attrs vars -> (forall q, under [n] q -> t !! q = None) -> del_tree t n = t.
Proof.
  intros H Hno. assert (Ep : prune [n] t = t).
  { apply map_eq. intros q. rewrite prune_lookup. destruct (decide (under [n] q)) as [U|U]; [by rewrite Hno|done]. }
  unfold del_tree. rewrite Ep. apply insert_id, H.
Qed.
Lemma others_sub c name values s u : others_same c name values s u <->
  forall q, ~ under [name] q -> q <> [ZMETADATA] -> sub (part_dir c values) u !! q = sub (part_dir c values) s !! q.
Proof.
  split.
  - intros H q N1 N2. rewrite !sub_lookup. apply H; [apply under_app| |].
    + intros (f & E). rewrite <-app_assoc in E. apply app_inv_head in E. apply N1. by exists f.
    + intros E. by apply app_inv_head in E.
  - intros H q (f & ->) N1 N2. specialize (H f). rewrite !sub_lookup in H. apply H.
    + intros (r & ->). apply N1. exists r. by rewrite <-app_assoc.
    + by intros ->.
Qed.
Lemma under_sub (u : store) d n : (forall q, under (d ++ [n]) q -> u !! q = None) -> forall q, under [n] q -> sub d u !! q = None.
Proof. intros H q (f & ->). rewrite sub_lookup. apply H. exists f. by rewrite <-app_assoc. Qed.
Lemma open_sub (u : store) d delayed sel : exec (open_zarr_group d delayed sel) u = (read_group (sub d u) delayed sel, u).
Proof. unfold open_zarr_group. rewrite exec_bind, exec_get_tree. done. Qed.

(** ** C79: an interrupted addition of a variable *)
Section C79.
Context (e : env) (c : collection) (M : list Z -> option dataset) (I : option dataset) (s : store) (v : mvar) (sched sched' : schedule).
Context (Hst : settled e c M I s) (Had : addable c M s v).
Local Notation config := (c_dir c ++ [CONFIG]).

Lemma add_stopped u : stopped_at (add_variable e sched sched' c v) s u ->
  u = s \/ u = <[config := CTorn]> s \/ under_addition c M s v u.
Proof using Hst Had.
  intros [p' Hp]. destruct Hst as [Hr Hs Hu Hcm Hex (Hdc & _) Hw]. destruct Had as [A1 [A2 A3] A4 A5 A6 A7].
  exact (always_sound CTorn _ _ _ _ _ (always_add e c Hr M I s v sched sched' Hdc Hcm Hu Hs Hw A1 A3 A4 A5 A6 Hex A7) Hp).
Qed.
Lemma added_declared : declared (with_meta c (added c v)).
Proof using Hst Had.
  destruct Hst as [Hr Hs Hu Hcm Hex (Hdc & _) Hw]. destruct Had as [A1 [A2 A3] A4 A5 A6 A7].
  destruct (C27_add e c M I s v [] [] Hr Hdc Hs Hu Hcm Hex Hw A1 A2 A3 A4 A5 A6 A7) as (c' & M' & s' & E & _ & _ & _ & _ & _ & _ & Hd & _).
  destruct (add_variable_spec e c Hr M I s v [] [] Hdc Hcm Hu Hs Hw A1 A3 A4 A5 A6 Hex A7) as (s'' & t & E' & _). rewrite E in E'. injection E' as <- _. done.
Qed.
Lemma added_openable u : u !! config = Some (CConf (config_of (with_meta c (added c v)))) -> openable (with_meta c (added c v)) u.
Proof using Hst Had.
  intros E. destruct (st_open _ _ _ _ _ Hst) as (Hdc & Hcs & (mv & Hmv & Hh) & _). split; [exact added_declared|]. split; [exact Hcs|]. split; [|exact E].
  exists mv. split; [|exact Hh]. cbn. by rewrite dget_app, Hmv.
Qed.

(** Wherever the call was stopped: nothing has changed; or the configuration was
    being written; or it declares the variable, and each partition can be read
    as before, or with the variable, or cannot be read. No other file has
    changed. *)
Theorem C79_states u : stopped_at (add_variable e sched sched' c v) s u ->
  u = s \/ u = <[config := CTorn]> s \/
  (exists c1, same_otherwise c c1 /\ md_vars (c_meta c1) = md_vars (c_meta c) ++ [(mv_name v, v)] /\ u !! config = Some (CConf (config_of c1))) /\
  elsewhere_same c M s u /\
  forall values old, M values = Some old -> others_same c (mv_name v) values s u /\
    (readable_as u (part_dir c values) old \/ unreadable u (part_dir c values) \/ exists new, with_variable v old new /\ readable_as u (part_dir c values) new).
Proof using Hst Had.
  intros Hp. destruct (add_stopped u Hp) as [?|[?|(Hcf & Hels & tm & Hpart)]]; [by left|by right; left|right; right].
  split; [by exists (with_meta c (added c v))|]. split; [done|]. intros values old E. destruct (Hpart values old E) as (w & Ew & Hdw & Hnn & [Hres Hzm]).
  destruct (rp_part _ _ _ _ (st_represents _ _ _ _ _ Hst) _ _ E) as (_ & Hso & Hh).
  split; [apply others_sub; apply Hres|].
  assert (Hno : forall q, under [mv_name v] q -> sub (part_dir c values) s !! q = None) by (apply under_sub; intros q; apply (ad_free _ _ _ _ Had); by eexists).
  destruct Hzm as [Hzm|[Hzm|Ht]].
  - left. intros delayed sel. destruct (readable_sub s (part_dir c values) old Hso Hh delayed sel) as (ds' & Eo & Ho). exists ds'. split; [|done].
    rewrite open_sub in Eo |- *. f_equal. assert (read_group (sub (part_dir c values) s) delayed sel = Ok ds') as <- by congruence.
    apply (read_group_apart _ _ _ _ (mv_name v)).
    + intros Ez. apply (ad_plain _ _ _ _ Had). rewrite Ez. set_solver.
    + intros q Nq. destruct (decide (q = [ZMETADATA])) as [->|N]; [done|]. by apply Hres.
    + right. intros m Em. by eapply unlisted; [apply Hh|..].
  - right. left. apply unreadable_cons. right. by rewrite <-sub_lookup.
  - right. right. exists (grow v tm old). split; [by eapply grow_with|].
    apply readable_sub; [by eapply grow_sound; [..|apply Had]|]. rewrite Ht. eapply (grow_holds _ v tm old w); [exact Hh|exact Ew|exact Hnn|apply Had| |exact Hno].
    apply add_chunks_ok. rewrite <-Hdw. apply (storable_rank _ (sound_storable _ Hso)). eapply vals_elem. by apply dget_elem.
Qed.

(** Unless the configuration was being written, opening the collection and
    dropping the variable, if it is declared, gives back all the files and the
    collection. *)
Theorem C79_undo reg sched'' u : default_registry = Ok reg -> stopped_at (add_variable e sched sched' c v) s u -> u !! config <> Some CTorn ->
  exists c', exec (open_collection reg (c_dir c) (Some (lit "w"))) u = (Ok c', u) /\
   (u = s /\ reopened (lit "w") c c' \/
    mv_name v ∈ dkeys (md_vars (c_meta c')) /\
    exists c2, exec (drop_variable e sched'' c' (mv_name v)) u = (Ok c2, <[config := CConf (config_of c2)]> s) /\ reopened (lit "w") c c2).
Proof using Hst Had.
  intros Hreg Hp Hnt. destruct (add_stopped u Hp) as [->|[->|(Hcf & Hels & tm & Hpart)]].
  - destruct (C64_open reg c s (lit "w") Hreg (st_open _ _ _ _ _ Hst)) as (c' & Eo & Hro & _); [right; left|]. exists c'. split; [exact Eo|]. by left.
  - exfalso. apply Hnt. by rewrite lookup_insert.
  - destruct (C64_open reg _ u (lit "w") Hreg (added_openable u Hcf)) as (c' & Eo & Hro & Hdc' & Hr' & _); [right; left|].
    change (c_dir (with_meta c (added c v))) with (c_dir c) in Eo. exists c'. split; [exact Eo|]. right.
    destruct Hst as [Hr Hs Hu Hcm Hex (Hdc & Hcs & Hax & Hcfg) Hw]. set (n := mv_name v) in *. set (c1 := with_meta c (added c v)) in *.
    assert (Hs1 : represents c1 M I s) by (destruct Hs; by split). assert (Hr1 : regular e c1) by (destruct Hr; by split).
    assert (Hin : n ∈ dkeys (md_vars (c_meta c'))).
    { apply (sm_names _ _ (ro_meta _ _ _ Hro)). cbn. unfold dkeys. rewrite map_app. apply elem_of_app. right. left. }
    split; [exact Hin|].
    pose proof (reopened_represents _ _ _ _ _ _ Hro Hs1) as Hs'.
    assert (Hni : forall i, I = Some i -> n ∉ dkeys (d_vars i)) by (intros i Hi Hx; apply (ad_new _ _ _ _ Had); by apply (un_fixed_declared _ _ _ Hu i)).
    assert (Hkeys : n ∉ p_variables (c_part c')).
    { rewrite (proj2 (ro_keys _ _ _ Hro)). intros Hk. apply (dc_keys _ Hdc) in Hk as (mv & Hmv & _). apply (ad_new _ _ _ _ Had). apply dget_is_Some. by eexists. }
    destruct (drop_again e c' (Hr' e Hr1) M I s u n sched'' Hs' (reopened_writable _ _ Hro) Hkeys Hin) as (s2 & E2 & Hcf2 & Hels2 & Hsub).
    + rewrite (ro_fixed _ _ _ Hro). intros Hi. by apply (un_immutable _ _ _ Hu Hi).
    + exact Hni.
    + apply Had.
    + exact Hex.
    + rewrite (ro_dir _ _ _ Hro). by eexists.
    + by apply (reopened_elsewhere _ _ _ _ _ _ Hro).
    + intros values [old E] q N1 N2. rewrite (ro_path _ _ _ Hro). destruct (Hpart values old E) as (_ & _ & _ & _ & [Hres _]). by apply Hres.
    + set (c2 := with_meta c' (md_del_variable (c_meta c') n)) in *. exists c2.
      assert (Hpd : forall values, part_dir c' values = part_dir c values) by apply (ro_path _ _ _ Hro).
      rewrite (ro_dir _ _ _ Hro) in Hcf2. change (c_dir c1) with (c_dir c) in Hcf2.
      split.
      * rewrite E2. f_equal. apply map_eq. intros q. destruct (decide (q = config)) as [->|N]; [by rewrite lookup_insert|]. rewrite lookup_insert_ne by done.
        destruct (select_all e c Hr M I s Hs) as (vss & _ & Hv & _).
        destruct (decide (Exists (fun x => under (part_dir c x) q) vss)) as [X|X].
        -- apply Exists_exists in X as (x & Hx & f & ->). apply Hv in Hx as [old Ho]. rewrite <-!sub_lookup.
           specialize (Hsub x ltac:(by eexists)). rewrite Hpd in Hsub. rewrite Hsub. destruct (Hpart x old Ho) as (_ & _ & _ & _ & [[_ Hres] _]).
           destruct (rp_part _ _ _ _ Hs _ _ Ho) as (_ & _ & _ & Hh).
           destruct (empty_at [n] (sub (part_dir c x) u)) eqn:Ee.
           ++ destruct Hres as [(q & y & U & Ey)| -> ]; [|done]. apply empty_at_true with (q := q) in Ee; [congruence|done].
           ++ rewrite (del_tree_self _ _ _ _ Hh); [done|]. apply under_sub. intros q. apply (ad_free _ _ _ _ Had). by eexists.
        -- apply (proj2 (reopened_elsewhere _ _ _ M s s2 Hro)); [exact Hels2|exact N|]. intros x Hx U. apply X, Exists_exists. exists x. split; [by apply Hv|done].
      * apply (reopened_meta _ c (added c v)); [exact Hro|]. assert (md_del_variable (added c v) n = c_meta c) as <-.
        { pose proof (del_added e c Hr v (ad_new _ _ _ _ Had)) as E. apply (f_equal c_meta) in E. exact E. }
        apply same_del. apply (ro_meta _ _ _ Hro).
Qed.

Lemma after_config u : stopped_at (write_config (with_meta c (added c v)) false) s u -> stopped_at (add_variable e sched sched' c v) s u.
Proof using Hst Had.
  intros Hu. unfold add_variable. rewrite (st_write _ _ _ _ _ Hst). assert (memb (c_dim c) (mv_dims v) = true) as Em by (apply bool_decide_eq_true, Had). rewrite Em. cbn [negb].
  eapply stopped_then; [rewrite add_metadata by (try apply Had; by apply (ad_dims _ _ _ _ Had)); reflexivity|]. cbv zeta. by apply stopped_first.
Qed.
Lemma config_there : empty_at config s = false.
Proof using Hst.
  destruct (st_open _ _ _ _ _ Hst) as (_ & _ & _ & E). apply empty_at_false. eexists _, _. split; [apply under_refl|exact E].
Qed.
(** The call may be stopped while the configuration is written: then the
    collection cannot be opened. *)
Theorem C81_torn_refuted : exists u, stopped_at (add_variable e sched sched' c v) s u /\ forall reg mode, exec (open_collection reg (c_dir c) mode) u = (Raise ValueError, u).
Proof using Hst Had.
  exists (<[config := CTorn]> s). split.
  - apply after_config. unfold write_config. eapply stopped_then; [apply exec_exists|]. rewrite andb_false_r. eexists. eapply rtc_l; [|apply rtc_refl]. unfold write_file. apply step_tear.
  - intros reg mode. apply C64_absent. right. apply lookup_insert.
Qed.
(** It may be stopped just after: the variable is declared, no partition has it,
    and calling add_variable again on the collection, once opened, raises. *)
Theorem C81_again_refuted reg : default_registry = Ok reg -> exists u c', stopped_at (add_variable e sched sched' c v) s u /\
  exec (open_collection reg (c_dir c) (Some (lit "w"))) u = (Ok c', u) /\ mv_name v ∈ dkeys (md_vars (c_meta c')) /\
  represents c' M I u /\ (forall values ds, M values = Some ds -> mv_name v ∉ dkeys (d_vars ds)) /\
  forall sched1 sched2, exec (add_variable e sched1 sched2 c' v) u = (Raise ValueError, u).
Proof using Hst Had.
  intros Hreg. set (c1 := with_meta c (added c v)). set (u := <[config := CConf (config_of c1)]> s).
  assert (Hcf : u !! config = Some (CConf (config_of c1))) by apply lookup_insert.
  destruct (C64_open reg _ u (lit "w") Hreg (added_openable u Hcf)) as (c' & Eo & Hro & Hdc' & Hr' & _); [right; left|]. change (c_dir (with_meta c (added c v))) with (c_dir c) in Eo.
  destruct Hst as [Hr Hs Hu Hcm Hex (Hdc & Hcs & Hax & Hcfg) Hw].
  assert (Hu0 : represents c M I u) by (by apply (represents_config e c Hr)).
  assert (Hu1 : represents c1 M I u) by (destruct Hu0; by split). assert (Hr1 : regular e c1) by (destruct Hr; by split).
  assert (Hin : mv_name v ∈ dkeys (md_vars (c_meta c'))).
  { apply (sm_names _ _ (ro_meta _ _ _ Hro)). cbn. unfold dkeys. rewrite map_app. apply elem_of_app. right. left. }
  pose proof (reopened_represents _ _ _ _ _ _ Hro Hu1) as Hs'.
  exists u, c'. split_and!; [|exact Eo|exact Hin|exact Hs'| |].
  - apply after_config. unfold write_config. eapply stopped_then; [apply exec_exists|]. rewrite andb_false_r. eapply stopped_end. apply exec_write.
  - intros values ds E Hk. apply (ad_new _ _ _ _ Had). by apply (un_declared _ _ _ Hu values ds).
  - intros sched1 sched2. apply (C27_refused e c' M I u sched1 sched2 (mv_name v) v (Hr' e Hr1) Hs' (reopened_writable _ _ Hro)). right. by left.
Qed.
End C79.
Print Assumptions C79_states.
Print Assumptions C79_undo.
Print Assumptions C81_torn_refuted.
Print Assumptions C81_again_refuted.

(** ** C80: an interrupted removal of a variable *)
Section C80.
Context (e : env) (c : collection) (M : list Z -> option dataset) (I : option dataset) (s : store) (name : str).
Context (Hst : settled e c M I s) (Hdr : droppable c name).
Local Notation config := (c_dir c ++ [CONFIG]).
Local Notation c1 := (with_meta c (md_del_variable (c_meta c) name)).

Lemma drop_facts : name ∈ dkeys (md_vars (c_meta c)) /\ plain_name name /\ (forall i, I = Some i -> name ∉ dkeys (d_vars i)) /\ (c_immutable c = true -> is_Some I) /\
  forall values old, M values = Some old -> is_Some (dget (d_vars old) name).
Proof using Hst Hdr.
  destruct Hst as [Hr Hs Hu Hcm Hex (Hdc & _) Hw]. destruct Hdr as [(mv & Hmv & Hd) Hk Hax].
  assert (Hall : forall values old, M values = Some old -> is_Some (dget (d_vars old) name)).
  { intros values old Ho. destruct (Hcm values old name mv Ho Hmv Hd) as (w & Hw' & _). by eexists. }
  destruct (dc_name _ Hdc _ _ Hmv) as (_ & Hp & _). split_and!; [apply dget_is_Some; by eexists|done| |intros Hc; by apply (un_immutable _ _ _ Hu Hc)|done].
  intros i Hi Hin. apply dget_is_Some in Hin as [x Hx]. destruct Hex as [values [old Ho]]. destruct (Hall values old Ho) as [w Hwd].
  by destruct (un_fixed _ _ _ Hu values old i Ho Hi name w name x Hwd Hx) as [? _].
Qed.
Lemma drop_stopped sched u : stopped_at (drop_variable e sched c name) s u -> under_removal c M s name u.
Proof using Hst Hdr.
  intros [p' Hp]. destruct drop_facts as (Hn & Hpl & Hni & Hi & _). destruct Hst as [Hr Hs Hu Hcm Hex (Hdc & _) Hw].
  exact (always_sound CTorn _ _ _ _ _ (always_drop e c Hr M I s name sched Hs Hw (dr_key _ _ Hdr) Hn Hi Hni Hpl Hex) Hp).
Qed.
Lemma dropped_readable u values old : M values = Some old -> sub (part_dir c values) u = del_tree (sub (part_dir c values) s) name ->
  exists new, without_variable name old new /\ readable_as u (part_dir c values) new.
Proof using Hst Hdr.
  intros E Es. destruct drop_facts as (_ & Hpl & _). destruct (rp_part _ _ _ _ (st_represents _ _ _ _ _ Hst) _ _ E) as (_ & Hso & Hh).
  exists (lack name old). split; [apply lack_without|]. apply readable_sub; [by apply lack_sound|]. rewrite Es. by apply lack_holds.
Qed.

(** Wherever the call was stopped, the configuration is the last file that it
    writes, and only the files of the variable and the consolidated metadata of
    the partitions may have changed; a partition whose metadata are whole can be
    read, without the variable, as before. *)
Theorem C80_states sched u : stopped_at (drop_variable e sched c name) s u ->
  elsewhere_same c M s u /\
  (u !! config = s !! config \/
   (u !! config = Some CTorn \/ exists c', same_otherwise c c' /\ (forall n, dget (md_vars (c_meta c')) n = if decide (n = name) then None else dget (md_vars (c_meta c)) n) /\
      u !! config = Some (CConf (config_of c'))) /\
   forall values old, M values = Some old -> exists new, without_variable name old new /\ readable_as u (part_dir c values) new) /\
  forall values old, M values = Some old -> others_same c name values s u /\
    (forall q, under (part_dir c values ++ [name]) q -> u !! q = s !! q \/ u !! q = None) /\
    ((forall delayed sel, ~ wanted sel name -> exists ds', exec (open_zarr_group (part_dir c values) delayed sel) u = (Ok ds', u) /\ reads_as delayed sel old ds') \/
     unreadable u (part_dir c values) \/ exists new, without_variable name old new /\ readable_as u (part_dir c values) new).
Proof using Hst Hdr.
  intros Hp. destruct (drop_stopped sched u Hp) as [Hels H]. destruct drop_facts as (_ & Hpl & _). split; [done|].
  assert (Hget : forall n, dget (md_vars (c_meta c1)) n = if decide (n = name) then None else dget (md_vars (c_meta c)) n).
  { intros n. cbn. destruct (decide (n = name)) as [->|N]; [apply dget_ddel_eq|by apply dget_ddel_ne]. }
  assert (Hne : forall x, x ∈ [ZARRAY; ZATTRS; ZGROUP; ZMETADATA] -> name <> x) by (intros x Hx ->; by apply Hpl).
  assert (Hdone : forall values, is_Some (M values) -> sub (part_dir c values) u = del_tree (sub (part_dir c values) s) name ->
     dropping (sub (part_dir c values) s) name (sub (part_dir c values) u)).
  { intros values _ ->. unfold del_tree. set (t := sub (part_dir c values) s). assert (Hz : ~ under [name] [ZMETADATA]) by (apply not_under_one, Hne; set_solver).
    assert (Hno : forall q, under [name] q -> <[[ZMETADATA] := CCons (metas (prune [name] t))]> (prune [name] t) !! q = None).
    { intros q U. rewrite lookup_insert_ne by (by intros <-). by rewrite prune_lookup, decide_True. }
    split; [|split].
    - intros q U N. rewrite lookup_insert_ne by done. by rewrite prune_lookup, decide_False.
    - intros q U. right. by apply Hno.
    - right. split; [exact Hno|by right]. }
  assert (Hall : forall values, is_Some (M values) -> dropping (sub (part_dir c values) s) name (sub (part_dir c values) u)).
  { intros values Hm. destruct H as [[_ H]|[_ H]]; [by apply H|]. apply Hdone; [done|by apply H]. }
  split.
  - destruct H as [[H _]|[H Hpart]]; [by left|right]. split.
    + destruct H as [H|H]; [by left|right]. by exists c1.
    + intros values old E. apply (dropped_readable u values old E). apply Hpart. by eexists.
  - intros values old E. destruct (Hall values ltac:(by eexists)) as (D1 & D2 & D3). destruct (rp_part _ _ _ _ (st_represents _ _ _ _ _ Hst) _ _ E) as (_ & Hso & Hh).
    split; [by apply others_sub|]. split.
    { intros q (f & ->). rewrite <-app_assoc. specialize (D2 ([name] ++ f) (under_app _ _)). rewrite !sub_lookup in D2. exact D2. }
    destruct D3 as [D3|[D3 [D4|D4]]].
    + left. intros delayed sel Hw. destruct (readable_sub s (part_dir c values) old Hso Hh delayed sel) as (ds' & Eo & Ho). exists ds'. split; [|done].
      rewrite open_sub in Eo |- *. f_equal. assert (read_group (sub (part_dir c values) s) delayed sel = Ok ds') as <- by congruence.
      apply (read_group_apart _ _ _ _ name).
      * apply Hne. set_solver.
      * intros q Nq. destruct (decide (q = [ZMETADATA])) as [->|N]; [done|]. by apply D1.
      * by left.
    + right. left. apply unreadable_cons. right. by rewrite <-sub_lookup.
    + right. right. by apply dropped_readable.
Qed.

(** Unless the configuration was being written, opening the collection and
    dropping the variable again, if it is declared, succeeds; the collection and
    the files are then those of a call that is not stopped, except maybe the
    consolidated metadata of some partitions. *)
Theorem C80_retry_partial reg sched sched' c' s' u : default_registry = Ok reg -> exec (drop_variable e sched c name) s = (Ok c', s') ->
  stopped_at (drop_variable e sched c name) s u -> u !! config <> Some CTorn ->
  exists c0, exec (open_collection reg (c_dir c) (Some (lit "w"))) u = (Ok c0, u) /\
   (u = s' /\ reopened (lit "w") c' c0 \/
    exists c2 s2, exec (drop_variable e sched' c0 name) u = (Ok c2, s2) /\ reopened (lit "w") c' c2 /\ s2 !! config = Some (CConf (config_of c2)) /\
      forall q, q <> config -> s2 !! q = s' !! q \/ exists values, is_Some (M values) /\ q = part_dir c values ++ [ZMETADATA] /\ s2 !! q = u !! q).
Proof using Hst Hdr.
  intros Hreg Ed Hp Hnt. destruct (drop_stopped sched u Hp) as [Hels H]. destruct drop_facts as (Hn & Hpl & Hni & Hi & Hall).
  destruct (C80_states sched u Hp) as (_ & _ & Hparts).
  destruct Hst as [Hr Hs Hu Hcm Hex Hop Hw]. pose proof Hop as (Hdc & Hcs & (amv & Hamv & Hahd) & Hcfg).
  destruct (drop_variable_spec e c Hr M I s name sched Hs Hw (dr_key _ _ Hdr) Hn Hi Hni Hpl Hex) as (s1 & E1 & _ & Hcf1 & Hels1 & Hsub1).
  rewrite Ed in E1. injection E1 as -> <-.
  destruct (select_all e c Hr M I s Hs) as (vss & _ & Hv & _).
  assert (Hcases : forall q, (exists x f, is_Some (M x) /\ q = part_dir c x ++ f) \/ forall x, is_Some (M x) -> ~ under (part_dir c x) q).
  { intros q. destruct (decide (Exists (fun x => under (part_dir c x) q) vss)) as [X|X].
    - apply Exists_exists in X as (x & Hx & f & ->). left. exists x, f. split; [by apply Hv|done].
    - right. intros x Hx U. apply X, Exists_exists. exists x. split; [by apply Hv|done]. }
  destruct H as [[Hcfu Hdp]|[[Hcfu|Hcfu] Hdp]]; [|done|].
  - rewrite Hcfg in Hcfu. assert (Hopu : openable c u) by (split; [done|]; split; [done|]; split; [by exists amv|done]).
    destruct (C64_open reg c u (lit "w") Hreg Hopu) as (c0 & Eo & Hro & Hdc0 & Hr0 & _); [right; left|]. exists c0. split; [exact Eo|]. right.
    pose proof (reopened_represents _ _ _ _ _ _ Hro Hs) as Hs0.
    assert (Hpd : forall values, part_dir c0 values = part_dir c values) by apply (ro_path _ _ _ Hro).
    destruct (drop_again e c0 (Hr0 e Hr) M I s u name sched' Hs0 (reopened_writable _ _ Hro)) as (s2 & E2 & Hcf2 & Hels2 & Hsub2).
    + rewrite (proj2 (ro_keys _ _ _ Hro)). apply Hdr.
    + by apply (sm_names _ _ (ro_meta _ _ _ Hro)).
    + by rewrite (ro_fixed _ _ _ Hro).
    + exact Hni.
    + exact Hpl.
    + exact Hex.
    + rewrite (ro_dir _ _ _ Hro). by eexists.
    + by apply (reopened_elsewhere _ _ _ _ _ _ Hro).
    + intros values Hm. rewrite Hpd. apply (Hdp values Hm).
    + exists (with_meta c0 (md_del_variable (c_meta c0) name)), s2. split; [exact E2|]. rewrite (ro_dir _ _ _ Hro) in Hcf2. split; [|split; [exact Hcf2|]].
      * destruct Hro as [O1 O2 O3 O4 O5 O6 O7 O8 O9]. split; try done. by apply same_del.
      * intros q Nq. destruct (Hcases q) as [(x & f & Hx & ->)|Hq].
        -- rewrite <-!sub_lookup. specialize (Hsub2 x Hx). rewrite Hpd in Hsub2. rewrite Hsub2, (Hsub1 x Hx).
           destruct (empty_at [name] (sub (part_dir c x) u)) eqn:Ee; [|by left].
           destruct (decide (f = [ZMETADATA])) as [->|Nf]; [right; exists x; by rewrite sub_lookup|left].
           destruct (Hdp x Hx) as (D1 & _). unfold del_tree. rewrite lookup_insert_ne by done. rewrite prune_lookup. destruct (decide (under [name] f)) as [U|U]; [|by apply D1].
           by apply empty_at_true with (q := f) in Ee.
        -- left. rewrite (Hels1 q Nq Hq). by apply (proj2 (reopened_elsewhere _ _ _ M s s2 Hro)).
  - assert (u = s') as ->.
    { apply map_eq. intros q. destruct (decide (q = config)) as [->|Nq]; [by rewrite Hcf1|]. destruct (Hcases q) as [(x & f & Hx & ->)|Hq].
      - rewrite <-!sub_lookup. by rewrite (Hdp x Hx), (Hsub1 x Hx).
      - by rewrite (Hels q Nq Hq), (Hels1 q Nq Hq). }
    assert (Hop1 : openable c1 s').
    { destruct Hdr as [(mv & Hmv & Hd) Hk Hax].
      destruct (C27_drop e c M I s name mv sched Hr Hdc Hs Hu Hcm Hex Hw Hmv Hd Hk Hax) as (c'' & M' & s'' & E & _ & _ & _ & _ & _ & _ & _ & Hdc' & _).
      rewrite Ed in E. injection E as <- <-. split; [done|]. split; [done|]. split; [|done]. exists amv. split; [|done]. cbn. rewrite dget_ddel_ne; [done|]. first [exact Hax|exact (fun E => Hax (eq_sym E))]. }
    destruct (C64_open reg c1 s' (lit "w") Hreg Hop1) as (c0 & Eo & Hro & _); [right; left|]. exists c0. split; [exact Eo|]. by left.
Qed.

(** The full claim is false: when the call was stopped between the removal of
    the files of a variable from a partition and the writing of the consolidated
    metadata, dropping it again succeeds, and the variable can still be loaded
    from the partition, with the fill value everywhere. *)
Theorem C80_retry_refuted reg : default_registry = Ok reg -> exists u c0 values old, stopped_at (drop_variable e [] c name) s u /\ M values = Some old /\
  exec (open_collection reg (c_dir c) (Some (lit "w"))) u = (Ok c0, u) /\
  forall sched', exists c2 s2, exec (drop_variable e sched' c0 name) u = (Ok c2, s2) /\ name ∉ dkeys (md_vars (c_meta c2)) /\
  forall delayed, exists ds w, exec (open_zarr_group (part_dir c values) delayed None) s2 = (Ok ds, s2) /\ dget (d_vars ds) name = Some w /\
    forall x, x ∈ a_flat (v_array w) -> x = default (Num 0) (v_fill w).
Proof using Hst Hdr.
  intros Hreg. destruct drop_facts as (Hn & Hpl & Hni & Hi & Hall). pose proof Hst as [Hr Hs Hu Hcm Hex Hop Hw]. pose proof Hop as (Hdc & Hcs & (amv & Hamv & Hahd) & Hcfg).
  destruct (select_all e c Hr M I s Hs) as (vss & _ & Hv & Hsel).
  destruct vss as [|v0 vss]; [destruct Hex as [x Hx]; apply Hv in Hx; by apply elem_of_nil in Hx|].
  assert (is_Some (M v0)) as [old E0] by (apply Hv; left). destruct (Hall v0 old E0) as [va Eva].
  destruct (rp_part _ _ _ _ Hs _ _ E0) as (_ & Hso & Hh). pose proof Hh as [_ Hg].
  set (d := part_dir c v0) in *. set (u := prune (d ++ [name]) s).
  assert (Hne : empty_at (d ++ [name]) s = false).
  { destruct (hg_vars _ _ _ Hg name (stored va)) as (_ & _ & [(cs & _ & Hz & _) _]); [by rewrite dget_stored, Eva|]. rewrite !sub_lookup in Hz. cbn [app] in Hz.
    apply empty_at_false. exists (d ++ [name; ZARRAY]). eexists. split; [|exact Hz]. exists [ZARRAY]. by rewrite <-app_assoc. }
  assert (Hsu : sub d u = prune [name] (sub d s)) by apply sub_prune_in.
  assert (Hstop : stopped_at (drop_variable e [] c name) s u).
  { unfold drop_variable. rewrite Hw.
    assert (memb name (p_variables (c_part c)) = false) as -> by (apply bool_decide_eq_false, Hdr).
    assert (dmem (md_vars (c_meta c)) name = true) as -> by (by apply dmem_true). cbn [negb].
    assert (Eq : exec (match immutable_path c with
            | None => pret tt
            | Some q => let! i <- open_zarr_group q true None; if dmem (d_vars i) name then praise ValueError else pret tt
            end) s = (Ok tt, s)).
    { destruct (immutable_path c) as [q|] eqn:Eq; [|done]. destruct (immutable_names e c Hr M I s s name q Hs (fun _ _ => eq_refl) Hi Eq) as (i & o & Ei & Eo & Hno).
      rewrite exec_bind, Eo. assert (name ∉ dkeys (d_vars o)) as Ho by (rewrite Hno; by apply Hni). apply dmem_false in Ho. by rewrite Ho. }
    eapply stopped_then; [exact Eq|]. eapply stopped_then; [exact Hsel|]. cbn [map bag_map]. eapply stopped_then; [reflexivity|].
    apply stopped_first. unfold execute_transaction. apply stopped_first. cbn [map interleave run_all]. apply stopped_first, stopped_attempt. fold d.
    unfold del_zarr_array. eapply stopped_then; [apply exec_exists|]. rewrite Hne. cbn [negb]. apply stopped_first. eapply stopped_end. rewrite exec_rm, Hne. reflexivity. }
  destruct (drop_stopped [] u Hstop) as [Hels Hrem].
  assert (Hcfu : u !! config = Some (CConf (config_of c))).
  { unfold u. rewrite prune_lookup, decide_False; [done|]. intros U. apply (config_out e c Hr M I s v0 Hs ltac:(by eexists)). eapply under_trans; [apply under_app|exact U]. }
  assert (Hdp : forall values, is_Some (M values) -> forall q, ~ under [name] q -> q <> [ZMETADATA] -> sub (part_dir c values) u !! q = sub (part_dir c values) s !! q).
  { intros values [x Hx]. destruct (C80_states [] u Hstop) as (_ & _ & Hp). destruct (Hp values x Hx) as [Ho _]. by apply others_sub. }
  assert (Hopu : openable c u) by (split; [done|]; split; [done|]; split; [by exists amv|done]).
  destruct (C64_open reg c u (lit "w") Hreg Hopu) as (c0 & Eo & Hro & Hdc0 & Hr0 & _); [right; left|].
  exists u, c0, v0, old. split; [exact Hstop|]. split; [done|]. split; [exact Eo|]. intros sched'.
  assert (Hpd : forall values, part_dir c0 values = part_dir c values) by apply (ro_path _ _ _ Hro).
  destruct (drop_again e c0 (Hr0 e Hr) M I s u name sched' (reopened_represents _ _ _ _ _ _ Hro Hs) (reopened_writable _ _ Hro)) as (s2 & E2 & Hcf2 & Hels2 & Hsub2).
  + rewrite (proj2 (ro_keys _ _ _ Hro)). apply Hdr.
  + by apply (sm_names _ _ (ro_meta _ _ _ Hro)).
  + by rewrite (ro_fixed _ _ _ Hro).
  + exact Hni.
  + exact Hpl.
  + exact Hex.
  + rewrite (ro_dir _ _ _ Hro). by eexists.
  + by apply (reopened_elsewhere _ _ _ _ _ _ Hro).
  + intros values Hm. rewrite Hpd. by apply Hdp.
  + exists (with_meta c0 (md_del_variable (c_meta c0) name)), s2. split; [exact E2|]. split.
    { cbn [with_meta c_meta md_del_variable md_vars]. rewrite ddel_elem. by intros [? _]. }
    intros delayed. specialize (Hsub2 v0 ltac:(by eexists)). rewrite Hpd in Hsub2. fold d in Hsub2.
    assert (Hgone : forall q, under [name] q -> sub d u !! q = None) by (intros q U; by rewrite Hsu, prune_lookup, decide_True).
    assert (empty_at [name] (sub d u) = true) as Ee.
    { destruct (empty_at [name] (sub d u)) eqn:Ee; [done|]. apply empty_at_false in Ee as (q & x & U & Ex). by rewrite Hgone in Ex. }
    rewrite Ee in Hsub2.
    destruct (read_blanked (sub d s) (sub d u) old name va delayed None Hso Hh Eva) as (Hso1 & t1 & Ht1 & Er).
    { intros q U. by rewrite Hsu, prune_lookup, decide_False. }
    { exact Hgone. }
    assert (Et : sub [] t1 = t1) by (apply map_eq; intros q; by rewrite sub_lookup).
    destruct (readable_sub t1 [] _ Hso1 ltac:(by rewrite Et) delayed None) as (ds & Eds & Hrd). rewrite open_sub, Et in Eds. injection Eds as Eds.
    exists ds, (with_delayed (stored (with_array va (blanked va))) delayed). split; [by rewrite open_sub; fold d; rewrite Hsub2, Er, Eds|]. split.
    * apply (reads_vars _ _ _ _ Hrd). split; [done|]. exists (with_array va (blanked va)). split; [|done]. rewrite assign_get, Eva. cbn. by rewrite decide_True.
    * cbn [with_delayed stored with_attrs with_array v_array v_fill]. intros x Hx. unfold blanked, full in Hx.
      apply elem_of_list_In in Hx. cbn in Hx. apply in_map_iff in Hx as (? & <- & _). done.
Qed.
End C80.
Print Assumptions C80_states.
Print Assumptions C80_retry_partial.
Print Assumptions C80_retry_refuted.

(** The collection with two partitions: "height" can be dropped; once it is
    dropped, another variable with this name can be added. *)
Example C80_case : exists M s, settled X_env Y_coll M None s /\ is_Some (M [1%Z]) /\ is_Some (M [2%Z]) /\ droppable Y_coll (lit "height").
Proof.
  destruct Y_filled as (M & s & Hs & Hu & HM). exists M, (<[c_dir Y_coll ++ [CONFIG] := CConf (config_of Y_coll)]> s).
  assert (Hp : constructed X_part) by (right; exists [lit "pass"], (DSeq [lit "int64"]); vm_compute; reflexivity).
  assert (Hex : is_Some (M [1%Z]) /\ is_Some (M [2%Z])) by (destruct HM as (p1 & p2 & H1 & H2 & _); split; by eexists).
  split; [|split; [apply Hex|]; split; [apply Hex|]].
  - split; [apply Y_regular|by apply (represents_config X_env Y_coll Y_regular)|exact Hu|by apply Y_complete|exists [1%Z]; apply Hex| |reflexivity].
    split; [exact Y_declared|]. split; [exact Hp|]. split; [|apply lookup_insert]. eexists. split; vm_compute; reflexivity.
  - split; [eexists; split; [vm_compute; reflexivity|cbn; left]|by apply (bool_decide_unpack _)|discriminate].
Qed.
Example C79_case : exists c M s, settled X_env c M None s /\ is_Some (M [1%Z]) /\ is_Some (M [2%Z]) /\ addable c M s Y_new.
Proof.
  destruct C80_case as (M & s & [Hr Hs Hu Hcm Hex Hop Hw] & [x1 E1] & [x2 E2] & [(mv & Hmv & Hd) Hk Hax]).
  destruct (C27_drop X_env Y_coll M None s (lit "height") mv [] Hr Y_declared Hs Hu Hcm Hex Hw Hmv Hd Hk Hax)
    as (c1 & M1 & s1 & _ & So1 & Hg1 & Hcfg1 & Hs1 & Hpw1 & _ & Hno & Hdc1 & Hu1 & Hcm1).
  destruct c1 as [ax1 m1 pt1 dir1 dim1 imm1 ro1]. destruct So1 as (A1 & A2 & A3 & A4 & A5 & A6 & A7 & _). cbn [c_axis c_meta c_part c_dir c_dim c_immutable c_readonly] in A1, A2, A3, A4, A5, A6. subst ax1 pt1 dir1 dim1 imm1 ro1.
  set (c1 := Coll _ _ _ _ _ _ _) in *.
  assert (Hsome : forall values, is_Some (M values) <-> is_Some (M1 values)).
  { intros values. specialize (Hpw1 values). destruct (M values), (M1 values); try done; split; intros []; done. }
  exists c1, M1, s1. split; [|split; [apply Hsome; by eexists|]; split; [apply Hsome; by eexists|]].
  - split; [destruct Hr; by split|exact Hs1|exact Hu1|exact Hcm1|exists [1%Z]; apply Hsome; by eexists| |reflexivity].
    destruct Hop as (_ & Hcs & (amv & Hamv & Hah) & _). split; [exact Hdc1|]. split; [exact Hcs|]. split; [|exact Hcfg1].
    exists amv. split; [|exact Hah]. rewrite Hg1, decide_False; [exact Hamv|discriminate].
  - split.
    + left.
    + split; [apply NoDup_singleton|]. intros d Hdd. rewrite A7. apply elem_of_list_singleton in Hdd as ->. by apply (bool_decide_unpack _).
    + intros Hn. apply dget_is_Some in Hn as [x Hx]. by rewrite Hg1, decide_True in Hx.
    + apply (bool_decide_unpack _); vm_compute; done.
    + exists (lit "time"). rewrite Hg1, decide_False by discriminate. eexists. split; vm_compute; reflexivity.
    + intros values q Hm. apply Hno. by apply Hsome.
Qed.
