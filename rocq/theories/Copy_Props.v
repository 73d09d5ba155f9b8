(** * C30, C57: the copy of a collection *)
From Verif Require Import Py Dict NdArray_Model NdArray_Proofs Dataset_Model Dataset_Spec Meta_Model PartPath_Model PartPath_Proofs
  DaskUtils_Model Split_Spec FS_Model FS_Proofs Pool_Model Pool_Proofs Storage_Model Storage_Spec Storage_Proofs
  Listing_Model Listing_Spec Listing_Proofs Collection_Model Collection_Spec Collection_Proofs Collection_State Collection_Insert Collection_Select Collection_Load Collection_Total
  Collection_Example Collection_Props Crash_Spec Crash_Props Update_Model Update_Spec Update_Proofs Update_Example DaskUtils_Proofs Variable_Proofs Validate_Props Copy_Spec Copy_Proofs.

Lemma open_moved reg mode d d' (s s' : store) x : s !! (d ++ [CONFIG]) = Some x -> s' !! (d' ++ [CONFIG]) = Some x ->
  exists r, exec (open_collection reg d mode) s = (r, s) /\ exec (open_collection reg d' mode) s' = (rmap (moved_to d') r, s').
Proof.
  intros Hx Hx'. unfold open_collection, from_config. rewrite !exec_bind, !exec_exists.
  assert (He : forall p (u : store), u !! p = Some x -> empty_at p u = false).
  { intros p u Hu. destruct (empty_at p u) eqn:E; [|done]. apply empty_at_true with (q := p) in E; [congruence|apply under_refl]. }
  rewrite (He _ _ Hx), (He _ _ Hx'). cbn [negb]. rewrite !exec_bind, !exec_read_file, Hx, Hx'.
  destruct x as [| | |cc| | |]; try (eexists; split; reflexivity). rewrite !exec_bind. destruct (md_from_config _) as [m|ex]; [|by exists (Raise ex)]. cbn [exec].
  rewrite !exec_bind. destruct (get_codecs _ _) as [p|ex]; [|by exists (Raise ex)]. cbn [exec]. unfold make_collection. rewrite !exec_bind.
  assert (En : new_collection (cc_axis cc) m p d' (Some (default (lit "r") mode)) = rmap (moved_to d') (new_collection (cc_axis cc) m p d (Some (default (lit "r") mode)))).
  { unfold new_collection. destruct (dget _ _) as [v|]; [|done]. destruct (negb _); [done|]. destruct (negb _); [done|]. by destruct (mv_dims v). }
  rewrite En. destruct (new_collection _ m p d _) as [c|ex] eqn:Ec; [|by exists (Raise ex)]. cbn [rmap exec]. change (c_readonly (moved_to d' c)) with (c_readonly c).
  assert (Hd : c_dir c = d).
  { revert Ec. unfold new_collection. destruct (dget _ _) as [v|]; [|done]. destruct (negb _); [done|]. destruct (negb _); [done|]. destruct (mv_dims v); [done|]. by intros [= <-]. }
  exists (Ok c). destruct (c_readonly c); [done|]. rewrite !exec_bind. unfold write_config. rewrite !exec_bind, !exec_exists. change (c_dir (moved_to d' c)) with d'. rewrite Hd, (He _ _ Hx), (He _ _ Hx'). done.
Qed.

Section C30.
Context (e : env) (c : collection) (filt : filter) (P : list Z -> bool) (target : path).
Local Notation copied := (moved_to target c).

Lemma root_files M I s n x : regular e c -> represents c M I s -> s !! (c_dir c ++ [n]) = Some x -> n = CONFIG.
Proof.
  intros Hr Hs Hx. destruct (rp_files _ _ _ _ Hs _ _ Hx) as [[= ->]|[([i HI] & f & E)|(v & f & [d Hd] & E)]]; [done|exfalso..].
  - injection E as -> <-. destruct (rp_immutable _ _ _ _ Hs _ HI) as (_ & Hn & _). rewrite sub_lookup, app_nil_r in Hn. congruence.
  - destruct (rp_part _ _ _ _ Hs _ _ Hd) as (Hl & _ & Hn & _). destruct (key_head e c Hr v Hl) as (a & r & Ea & _). rewrite Ea in E. cbn in E. injection E as -> E.
    symmetry in E. apply app_eq_nil in E as [-> ->]. rewrite sub_lookup, app_nil_r in Hn. unfold part_dir in Hn. rewrite Ea in Hn. congruence.
Qed.

(** A copy of the selected partitions, at least one, to a directory that is not
    there: each selected partition is in the copy with the same files, beside the
    configuration, and nothing else is; the rest of the store, the source among
    it, does not change. The call returns what opening the source would give,
    with the directory of the copy. *)
Theorem C30_copy M I s sched workers reg mode np conf :
  regular e c -> represents c M I s -> filterable c -> (forall v, is_Some (M v) -> says (c_part c) filt v (P v = true)) ->
  apart (c_dir c) target -> nothing_at target s -> s !! (c_dir c ++ [CONFIG]) = Some conf ->
  (exists v, is_Some (M v) /\ P v = true) -> (0 < workers)%Z -> (forall n, np = Some n -> (0 <= n)%Z) ->
  exists r s', exec (open_collection reg (c_dir c) (Some mode)) s = (r, s) /\
    exec (copy e sched workers reg c target filt mode np) s = (rmap (moved_to target) r, s') /\
    s' !! (target ++ [CONFIG]) = Some conf /\
    (forall v f, is_Some (M v) -> P v = true -> s' !! (part_dir copied v ++ f) = s !! (part_dir c v ++ f)) /\
    (forall q x, under target q -> s' !! q = Some x -> q = target ++ [CONFIG] \/ exists v, is_Some (M v) /\ P v = true /\ under (part_dir copied v) q) /\
    (forall q, ~ under target q -> s' !! q = s !! q).
Proof.
  intros Hr Hs Hfi HP Hap Hno Hconf (v0 & Hv0 & HPv0) Hw Hnp.
  destruct (select_filter e c Hr M I s filt (fun v => P v = true) Hs Hfi HP) as (vss & Hso & Hin & Esel). assert (Hnd : NoDup vss) by (by apply sorted_nodup_rows).
  unfold copy. set (n := match np with Some n => if (n =? 0)%Z then workers else n | None => workers end).
  assert (Hn : (0 < n)%Z).
  { unfold n. destruct np as [k|]; [|done]. specialize (Hnp k eq_refl). destruct (k =? 0)%Z eqn:E; [done|]. lia. }
  assert (Eargs : map (fun q => (q, target ++ drop (length (c_dir c)) q)) (map (part_dir c) vss) = map (fun v => (part_dir c v, part_dir copied v)) vss).
  { rewrite map_map. apply map_ext. intros v. f_equal. unfold part_dir. by rewrite drop_app. }
  assert (exists bs, split_sequence (map (fun v => (part_dir c v, part_dir copied v)) vss) (Some n) = Ok bs) as [bs Ebs].
  { unfold split_sequence. rewrite map_length. destruct (n <=? 0)%Z eqn:E; [lia|]. destruct (_ =? 0) eqn:E0; [|by eexists]. exfalso. apply Nat.eqb_eq in E0.
    assert (v0 ∈ vss) by (by apply Hin). destruct vss; [by apply (not_elem_of_nil v0)|]. cbn [length] in E0. lia. }
  destruct (split_map _ _ _ _ Ebs) as (bs' & _ & -> & Hcat).
  destruct (exec_batches c target Hap sched bs' s) as (rs & s1 & E1 & A1 & A2).
  { by rewrite Hcat. }
  { rewrite Hcat. intros v Hv. apply Hin in Hv as [[d Hd] _]. split; [by apply (rp_part _ _ _ _ Hs) in Hd as [? _]|]. intros q U. apply Hno. eapply under_trans; [apply under_app|exact U]. }
  rewrite Hcat in A1, A2.
  assert (Hout : forall q, ~ under target q -> s1 !! q = s !! q).
  { intros q Hq. apply A2. intros (v & _ & U)%Exists_exists. apply Hq. eapply under_trans; [apply under_app|exact U]. }
  assert (Hin_src : forall q, s1 !! (c_dir c ++ q) = s !! (c_dir c ++ q)).
  { intros q. apply Hout. intros U. exact (Hap _ (under_app _ _) U). }
  assert (Hfiles : List.filter (fun n => bool_decide (is_Some (sub (c_dir c) s1 !! [n]))) (children (e_order e) [] (sub (c_dir c) s1)) = [CONFIG]).
  { set (l := List.filter _ _). assert (Hl : forall n, n ∈ l <-> n = CONFIG).
    { intros m. unfold l. rewrite elem_of_list_In, filter_In, <-elem_of_list_In, bool_decide_eq_true, (children_elem _ (rg_order _ _ Hr)). rewrite sub_lookup, Hin_src. split.
      - intros [_ [x Hx]]. by eapply root_files.
      - intros ->. split; [|by eexists]. exists [], conf. cbn. by rewrite sub_lookup, Hin_src. }
    assert (Hndl : NoDup l) by (unfold l; apply NoDup_ListNoDup, List.NoDup_filter, NoDup_ListNoDup, children_nodup, Hr). clearbody l.
    destruct l as [|a l]; [exfalso; by apply (not_elem_of_nil CONFIG), Hl|]. assert (a = CONFIG) as -> by (apply Hl; left). destruct l as [|b l]; [done|].
    exfalso. assert (b = CONFIG) as -> by (apply Hl; right; left). inversion Hndl as [|? ? Hx _]. apply Hx. left. }
  set (s2 := <[target ++ [CONFIG] := conf]> s1).
  destruct (open_moved reg (Some mode) (c_dir c) target s s2 conf Hconf ltac:(unfold s2; apply lookup_insert)) as (r & Er & Er').
  exists r, s2. split; [exact Er|]. split; [|split; [unfold s2; apply lookup_insert|split; [|split]]].
  - rewrite exec_bind, Esel, Eargs, exec_bind, Ebs. cbn [exec]. rewrite exec_bind. rewrite map_map. unfold batch in E1. rewrite E1.
    rewrite exec_bind, exec_get_tree, exec_bind, Hfiles. cbn [map]. unfold copy_files, pfor. cbn [map pseq].
    rewrite exec_bind, exec_bind, exec_bind, exec_read_file, Hin_src, Hconf, last_snoc, exec_write. cbn [exec pbind pret]. fold s2. exact Er'.
  - intros v f Hv HPv. unfold s2. rewrite lookup_insert_ne; [apply A1; by apply Hin|]. intros Eq. unfold part_dir in Eq. rewrite <-app_assoc in Eq. apply app_inv_head in Eq.
    change (c_part copied) with (c_part c) in Eq. destruct Hv as [d Hd]. destruct (rp_part _ _ _ _ Hs _ _ Hd) as (Hl & _). destruct (key_head e c Hr v Hl) as (a & r' & Ea & Ha & _). rewrite Ea in Eq. cbn in Eq. injection Eq as <- _. done.
  - intros q x U Hx. destruct (decide (q = target ++ [CONFIG])) as [->|N]; [by left|]. right. unfold s2 in Hx. rewrite lookup_insert_ne in Hx by done.
    destruct (decide (region_of copied vss q)) as [(v & Hv & U')%Exists_exists|Hq]; [apply Hin in Hv as [? ?]; by exists v|]. rewrite A2, Hno in Hx by done. done.
  - intros q Hq. unfold s2. rewrite lookup_insert_ne; [by apply Hout|]. intros <-. apply Hq, under_app.
Qed.

Lemma copy_represents M I (s s' : store) : represents c M I s ->
  (forall v f, is_Some (M v) -> P v = true -> s' !! (part_dir copied v ++ f) = s !! (part_dir c v ++ f)) ->
  (forall q x, under target q -> s' !! q = Some x -> q = target ++ [CONFIG] \/ exists v, is_Some (M v) /\ P v = true /\ under (part_dir copied v) q) ->
  represents copied (only P M) None s'.
Proof.
  intros Hs Hparts Hnone. assert (Honly : forall v d, only P M v = Some d <-> M v = Some d /\ P v = true).
  { intros v d. unfold only. destruct (P v); split; [done|by intros [? _]|done|by intros [_ ?]]. }
  split.
  - intros q x Hx. destruct (decide (q = [CONFIG])) as [->|N]; [by left|]. right. right.
    destruct (Hnone _ _ (under_app target q) Hx) as [Eq|(v & [d Hd] & HPv & (f & U))]; [by apply app_inv_head in Eq|]. exists v, f. split; [exists d; by apply Honly|].
    unfold part_dir in U. rewrite <-app_assoc in U. by apply app_inv_head in U.
  - intros v d Hd. apply Honly in Hd as [Hd HPv]. destruct (rp_part _ _ _ _ Hs _ _ Hd) as (Hl & Hso & Hh). split; [done|]. split; [done|].
    assert (sub (part_dir copied v) s' = sub (part_dir c v) s) as ->; [|done]. apply map_eq. intros q. rewrite !sub_lookup. apply Hparts; [by eexists|done].
  - done.
Qed.

(** Without immutable variables, the copy is the collection of the selected
    partitions, and loading it is loading these from the source. *)
Theorem C30_loads M s sched workers reg mode np conf :
  regular e c -> represents c M None s -> c_immutable c = false -> filterable c -> (forall v, is_Some (M v) -> says (c_part c) filt v (P v = true)) ->
  plain_path target -> apart (c_dir c) target -> nothing_at target s -> s !! (c_dir c ++ [CONFIG]) = Some conf ->
  (exists v, is_Some (M v) /\ P v = true) -> (0 < workers)%Z -> (forall n, np = Some n -> (0 <= n)%Z) ->
  exists r s', exec (copy e sched workers reg c target filt mode np) s = (r, s') /\
    represents copied (only P M) None s' /\ represents c M None s' /\
    forall delayed sel, exists res, exec (load e c delayed filt sel) s = (res, s) /\ exec (load e copied delayed NoFilter sel) s' = (res, s').
Proof.
  intros Hr Hs Him Hfi HP Hpp Hap Hno Hconf Hex Hw Hnp.
  destruct (C30_copy M None s sched workers reg mode np conf Hr Hs Hfi HP Hap Hno Hconf Hex Hw Hnp) as (r & s' & _ & E & Hc' & Hparts & Hnone & Hout).
  exists (rmap (moved_to target) r), s'. split; [exact E|].
  assert (Honly : forall v d, only P M v = Some d <-> M v = Some d /\ P v = true).
  { intros v d. unfold only. destruct (P v); split; [done|by intros [? _]|done|by intros [_ ?]]. }
  pose proof (copy_represents M None s s' Hs Hparts Hnone) as Hs'.
  split; [exact Hs'|]. split.
  { assert (Hsrc : forall q, s' !! (c_dir c ++ q) = s !! (c_dir c ++ q)) by (intros q; apply Hout; intros U; exact (Hap _ (under_app _ _) U)).
    split.
    - intros q x Hx. rewrite Hsrc in Hx. exact (rp_files _ _ _ _ Hs _ _ Hx).
    - intros v d Hd. destruct (rp_part _ _ _ _ Hs _ _ Hd) as (Hl & Hso & Hh). split; [done|]. split; [done|].
      assert (sub (part_dir c v) s' = sub (part_dir c v) s) as ->; [|done]. apply map_eq. intros q. rewrite !sub_lookup. unfold part_dir. rewrite <-app_assoc. apply Hsrc.
    - done. }
  assert (Hr' : regular e copied) by (split; [apply Hr|exact Hpp|apply Hr|apply Hr]).
  intros delayed sel. destruct (select_filter e c Hr M None s filt (fun v => P v = true) Hs Hfi HP) as (vss & Hso & Hin & Esel).
  destruct (select_all e copied Hr' (only P M) None s' Hs') as (vss' & Hso' & Hin' & Esel').
  assert (vss' = vss) as ->.
  { apply (sorted_rows_unique (length (p_keys (c_part c)))); [done|done|intros v [d [Hd _]%Honly]%Hin'; by apply (rp_part _ _ _ _ Hs) in Hd as [? _]|]. intros v. rewrite Hin, Hin'. split.
    - intros [d [Hd ?]%Honly]. split; [by eexists|done].
    - intros [[d Hd] ?]. exists d. by apply Honly. }
  unfold load. rewrite !exec_bind, Esel, Esel'. destruct vss as [|v vss]; [by eexists|].
  assert (exists os, Forall2 (fun w o => exec (open_zarr_group (part_dir c w) delayed sel) s = (Ok o, s) /\ exec (open_zarr_group (part_dir copied w) delayed sel) s' = (Ok o, s')) (v :: vss) os) as [os Hos].
  { assert (Hall : Forall (fun w => is_Some (M w) /\ P w = true) (v :: vss)) by (apply Forall_forall; intros w Hw'; by apply Hin).
    clear -Hall Hs Hparts. induction Hall as [|w l [[d Hd] HPw] _ [os IH]]; [by exists []|].
    destruct (rp_part _ _ _ _ Hs _ _ Hd) as (_ & Hso & Hh). destruct (open_opens (part_dir c w) s d delayed sel Hso Hh) as (o & Eo & _). exists (o :: os). constructor; [|done]. split; [done|].
    unfold open_zarr_group in *. rewrite exec_bind, exec_get_tree in *. cbn [exec] in *. assert (sub (part_dir copied w) s' = sub (part_dir c w) s) as ->; [|congruence].
    apply map_eq. intros q. rewrite !sub_lookup. apply Hparts; [by eexists|done]. }
  assert (Ep : exec (pseq (map (fun q => open_zarr_group q delayed sel) (map (part_dir c) (v :: vss)))) s = (Ok os, s)).
  { apply exec_pseq_pure. clear -Hos. induction Hos as [|w o l os [Ho _] _ IH]; [constructor|]. cbn [map]. by constructor. }
  assert (Ep' : exec (pseq (map (fun q => open_zarr_group q delayed sel) (map (part_dir copied) (v :: vss)))) s' = (Ok os, s')).
  { apply exec_pseq_pure. clear -Hos. induction Hos as [|w o l os [_ Ho] _ IH]; [constructor|]. cbn [map]. by constructor. }
  destruct (map (part_dir c) (v :: vss)) as [|p1 l1] eqn:El1; [done|]. destruct (map (part_dir copied) (v :: vss)) as [|p2 l2] eqn:El2; [done|].
  rewrite (exec_bind (pseq (map _ (p1 :: l1)))), (exec_bind (pseq (map _ (p2 :: l2)))), Ep, Ep'. unfold load_immutable, immutable_path. change (c_immutable copied) with (c_immutable c). rewrite Him. cbn [exec pbind pret].
  change (assemble copied os None) with (assemble c os None). destruct (assemble c os None) as [ds|ex]; by eexists.
Qed.

(** With immutable variables, these are not copied: every attempt to load the
    copy raises. *)
Theorem C57_immutable M i s sched workers reg mode np conf :
  regular e c -> represents c M (Some i) s -> c_immutable c = true -> filterable c -> (forall v, is_Some (M v) -> says (c_part c) filt v (P v = true)) ->
  plain_path target -> apart (c_dir c) target -> nothing_at target s -> s !! (c_dir c ++ [CONFIG]) = Some conf ->
  (exists v, is_Some (M v) /\ P v = true) -> (0 < workers)%Z -> (forall n, np = Some n -> (0 <= n)%Z) ->
  exists r s', exec (copy e sched workers reg c target filt mode np) s = (r, s') /\ nothing_at (target ++ [IMMUTABLE]) s' /\
    forall delayed sel, exec (load e copied delayed NoFilter sel) s' = (Raise KeyError, s').
Proof.
  intros Hr Hs Him Hfi HP Hpp Hap Hno Hconf Hex Hw Hnp.
  destruct (C30_copy M (Some i) s sched workers reg mode np conf Hr Hs Hfi HP Hap Hno Hconf Hex Hw Hnp) as (r & s' & _ & E & Hc' & Hparts & Hnone & Hout).
  exists (rmap (moved_to target) r), s'. split; [exact E|].
  assert (Hr' : regular e copied) by (split; [apply Hr|exact Hpp|apply Hr|apply Hr]).
  pose proof (copy_represents M (Some i) s s' Hs Hparts Hnone) as Hs'.
  assert (Himm : nothing_at (target ++ [IMMUTABLE]) s').
  { intros q (f & ->). destruct (s' !! ((target ++ [IMMUTABLE]) ++ f)) as [x|] eqn:Ex; [|done]. exfalso. rewrite <-app_assoc in Ex. cbn in Ex.
    destruct (Hnone _ _ (under_app _ _) Ex) as [Eq|(v & [d Hd] & HPv & (g & U))]; [by apply app_inv_head in Eq|].
    unfold part_dir in U. rewrite <-app_assoc in U. apply app_inv_head in U. destruct (rp_part _ _ _ _ Hs _ _ Hd) as (Hl & _). destruct (key_head e c Hr v Hl) as (a & r' & Ea & Ha & _).
    change (c_part copied) with (c_part c) in U. rewrite Ea in U. cbn in U. injection U as <- _. done. }
  split; [exact Himm|]. intros delayed sel.
  destruct (select_all e copied Hr' (only P M) None s' Hs') as (vss & Hso & Hin & Esel).
  unfold load. rewrite exec_bind, Esel. destruct vss as [|v vss].
  { exfalso. destruct Hex as (v & [d Hd] & HPv). apply (not_elem_of_nil v), Hin. exists d. unfold only. by rewrite HPv. }
  assert (exists os, Forall2 (fun w o => exec (open_zarr_group (part_dir copied w) delayed sel) s' = (Ok o, s')) (v :: vss) os) as [os Hos].
  { assert (Hall : Forall (fun w => is_Some (only P M w)) (v :: vss)) by (apply Forall_forall; intros w Hw'; by apply Hin).
    clear -Hall Hs'. induction Hall as [|w l [d Hd] _ [os IH]]; [by exists []|].
    destruct (rp_part _ _ _ _ Hs' _ _ Hd) as (_ & Hso & Hh). destruct (open_opens (part_dir copied w) s' d delayed sel Hso Hh) as (o & Eo & _). exists (o :: os). by constructor. }
  assert (Ep : exec (pseq (map (fun q => open_zarr_group q delayed sel) (map (part_dir copied) (v :: vss)))) s' = (Ok os, s')).
  { apply exec_pseq_pure. clear -Hos. induction Hos as [|w o l os Ho _ IH]; [constructor|]. cbn [map]. by constructor. }
  destruct (map (part_dir copied) (v :: vss)) as [|p2 l2] eqn:El2; [done|]. rewrite (exec_bind (pseq (map _ (p2 :: l2)))), Ep.
  unfold load_immutable, immutable_path. change (c_immutable copied) with (c_immutable c). rewrite Him. rewrite exec_bind. unfold open_zarr_group at 1. rewrite exec_bind, exec_bind, exec_get_tree. cbn [exec].
  assert (read_group (sub (c_dir copied ++ [IMMUTABLE]) s') delayed sel = Raise KeyError) as ->; [|done].
  unfold read_group, read_cons. rewrite sub_lookup. rewrite Himm; [done|]. change (c_dir copied) with target. apply under_app.
Qed.

(** No partition is selected: the call raises, and copies nothing, not even the
    configuration. *)
Theorem C57_nothing M I s sched workers reg mode np :
  regular e c -> represents c M I s -> filterable c -> (forall v, is_Some (M v) -> says (c_part c) filt v (P v = true)) ->
  (forall v, is_Some (M v) -> P v = false) -> (0 < workers)%Z -> (forall n, np = Some n -> (0 <= n)%Z) ->
  exec (copy e sched workers reg c target filt mode np) s = (Raise ZeroDivisionError, s).
Proof.
  intros Hr Hs Hfi HP Hnone Hw Hnp. destruct (select_filter e c Hr M I s filt (fun v => P v = true) Hs Hfi HP) as (vss & Hso & Hin & Esel).
  assert (vss = []) as ->. { destruct vss as [|v vss]; [done|]. destruct (proj1 (Hin v) ltac:(left)) as [Hv HPv]. rewrite (Hnone v Hv) in HPv. done. }
  unfold copy. rewrite exec_bind, Esel. cbn [map]. rewrite exec_bind. set (n := match np with Some n => if (n =? 0)%Z then workers else n | None => workers end).
  assert (Hn : (0 < n)%Z).
  { unfold n. destruct np as [k|]; [|done]. specialize (Hnp k eq_refl). destruct (k =? 0)%Z eqn:E; [done|]. lia. }
  unfold split_sequence. destruct (n <=? 0)%Z eqn:E; [lia|]. assert (Z.to_nat (Z.min n (Z.of_nat (length (@nil (path * path))))) = 0) as -> by (cbn; lia). done.
Qed.
End C30.
Print Assumptions C30_copy.
Print Assumptions C30_loads.
Print Assumptions C57_immutable.
Print Assumptions C57_nothing.

(** ** Concrete cases *)

(** The files of the collection alone, and its configuration. *)
Definition alone (c : collection) (s : store) : store :=
  <[c_dir c ++ [CONFIG] := CConf (config_of c)]> (graft (c_dir c) (sub (c_dir c) s) ∅).
Lemma alone_represents e c M I s : regular e c -> represents c M I s -> represents c M I (alone c s) /\ forall q x, alone c s !! q = Some x -> under (c_dir c) q.
Proof.
  intros Hr Hs. assert (Hq : forall q, graft (c_dir c) (sub (c_dir c) s) ∅ !! (c_dir c ++ q) = s !! (c_dir c ++ q)).
  { intros q. rewrite graft_lookup, strip_app, sub_lookup, lookup_empty. by destruct (s !! _). }
  split.
  - apply (represents_config e c Hr). split.
    + intros q x Hx. rewrite Hq in Hx. exact (rp_files _ _ _ _ Hs _ _ Hx).
    + intros v d Hd. destruct (rp_part _ _ _ _ Hs _ _ Hd) as (Hl & Hso & Hh). split; [done|]. split; [done|].
      assert (sub (part_dir c v) (graft (c_dir c) (sub (c_dir c) s) ∅) = sub (part_dir c v) s) as ->; [|done]. apply map_eq. intros q. rewrite !sub_lookup. unfold part_dir. rewrite <-app_assoc. apply Hq.
    + intros i Hi. destruct (rp_immutable _ _ _ _ Hs _ Hi) as (Hso & Hh). split; [done|].
      assert (sub (c_dir c ++ [IMMUTABLE]) (graft (c_dir c) (sub (c_dir c) s) ∅) = sub (c_dir c ++ [IMMUTABLE]) s) as ->; [|done]. apply map_eq. intros q. rewrite !sub_lookup, <-!app_assoc. apply Hq.
  - intros q x. unfold alone. destruct (decide (c_dir c ++ [CONFIG] = q)) as [<-|N]; [intros _; apply under_app|]. rewrite lookup_insert_ne by done. rewrite graft_lookup.
    destruct (strip (c_dir c) q) as [r|] eqn:E; [|by rewrite lookup_empty]. intros _. apply strip_Some in E as ->. apply under_app.
Qed.

Definition X_registry : registry := [(lit "Sequence", CSequence)].
Definition X_target : path := [lit "data"; lit "copy"].
Lemma alone_config c s : alone c s !! (c_dir c ++ [CONFIG]) = Some (CConf (config_of c)).
Proof. apply lookup_insert. Qed.
Lemma X_target_apart : apart X_dir X_target.
Proof. by apply (apart_app [lit "data"] (lit "c") (lit "copy") [] []). Qed.
Lemma alone_target e c M I s : c_dir c = X_dir -> regular e c -> represents c M I s -> nothing_at X_target (alone c s).
Proof.
  intros Hd Hr Hs q U. destruct (alone c s !! q) as [x|] eqn:E; [|done]. exfalso. apply (proj2 (alone_represents e c M I s Hr Hs)) in E. rewrite Hd in E. exact (X_target_apart q E U).
Qed.
Lemma X_target_plain : plain_path X_target.
Proof. repeat constructor; intros H; vm_compute in H; repeat (apply elem_of_cons in H as [H|H]; [discriminate H|]); by apply elem_of_nil in H. Qed.

(** The partition 2 alone of the collection of two partitions is copied, with two
    workers. *)
Example C30_case : exists M s s', represents Y_coll M None s /\ is_Some (M [1%Z]) /\ is_Some (M [2%Z]) /\
  (exec (copy X_env [] 2 X_registry Y_coll X_target (FFun (fun kv => Ok (bool_decide (kv = [(lit "pass", 2%Z)])))) (lit "r") None) s).2 = s' /\
  represents (moved_to X_target Y_coll) (only (fun v => bool_decide (v = [2%Z])) M) None s' /\ represents Y_coll M None s'.
Proof.
  destruct Y_filled as (M & s0 & Hs0 & _ & (p1 & p2 & H1 & H2 & H3 & _)).
  pose proof (proj1 (alone_represents X_env Y_coll M None s0 Y_regular Hs0)) as Hs.
  destruct (C30_loads X_env Y_coll (FFun (fun kv => Ok (bool_decide (kv = [(lit "pass", 2%Z)])))) (fun v => bool_decide (v = [2%Z])) X_target M (alone Y_coll s0) [] 2%Z X_registry (lit "r") None
    (CConf (config_of Y_coll)) Y_regular Hs eq_refl Y_filterable) as (r & s' & E & Hc & Hsrc & _).
  - intros v [d Hd]. destruct (decide (v = [1%Z])) as [->|N1]; [exists false; by vm_compute|]. destruct (decide (v = [2%Z])) as [->|N2]; [exists true; by vm_compute|].
    rewrite H3 in Hd by done. done.
  - exact X_target_plain.
  - exact X_target_apart.
  - exact (alone_target X_env Y_coll M None s0 eq_refl Y_regular Hs0).
  - apply alone_config.
  - exists [2%Z]. split; [by eexists|reflexivity].
  - reflexivity.
  - discriminate.
  - exists M, (alone Y_coll s0), s'. split; [exact Hs|]. split; [by eexists|]. split; [by eexists|]. split; [rewrite E; reflexivity|]. split; [exact Hc|exact Hsrc].
Qed.

(** The full claim is false: a copy does not have the immutable variables. The
    source is loaded, its copy cannot be. *)
Theorem C57_copy_refuted : exists e c target reg s r s' ds, regular e c /\ nothing_at target s /\
  exec (copy e [] 1 reg c target NoFilter (lit "r") None) s = (r, s') /\
  exec (load e c false NoFilter None) s = (Ok (Some ds), s) /\
  exec (load e (moved_to target c) false NoFilter None) s' = (Raise KeyError, s').
Proof.
  destruct (insert_total _ _ X_regular X_declared _ _ _ X_insertable None true ltac:(apply X_accepted; by intros k [=]) _ _ X_store (fun _ => []) X_inner X_empty ltac:(by left)) as (dirs & s & E).
  destruct (C19_insert_load X_env X_coll X_ds _ None None true X_store (fun _ => []) X_inner X_regular X_declared X_insertable ltac:(apply X_accepted; by intros k [=]) X_empty) as (dirs' & s' & E' & Hload).
  rewrite E in E'. injection E' as <- <-. destruct (Hload false None) as (ds & El & _).
  destruct (insert_spec _ _ X_regular X_declared _ _ _ X_insertable _ _ X_store _ _ _ _ _ s X_empty E) as (M & I & Hs & Hfr & (part & _ & Hins) & (i & -> & _) & _).
  clear E. assert (Hcfg : s !! (c_dir X_coll ++ [CONFIG]) = Some (CConf (config_of X_coll))) by (rewrite Hfr by (by right); apply lookup_insert).
  assert (Hno : nothing_at X_target s).
  { intros q U. rewrite Hfr by (left; intros U'; exact (X_target_apart q U' U)). unfold X_store. rewrite lookup_insert_ne; [apply lookup_empty|]. intros <-. exact (X_target_apart _ (under_app _ _) U). }
  destruct (C57_immutable X_env X_coll NoFilter (fun _ => true) X_target M i s [] 1%Z X_registry (lit "r") None (CConf (config_of X_coll)) X_regular Hs eq_refl X_filterable) as (r & s' & E & _ & Hbad).
  - intros v _. reflexivity.
  - exact X_target_plain.
  - exact X_target_apart.
  - exact Hno.
  - exact Hcfg.
  - exists [1%Z]. split; [|reflexivity]. destruct (proj1 (Hins [1%Z])) as (new & Hn & _); [unfold X_rows; left|]. by exists new.
  - reflexivity.
  - discriminate.
  - exists X_env, X_coll, X_target, X_registry, s, r, s', ds. split; [exact X_regular|]. split; [exact Hno|]. split; [exact E|]. split; [exact El|]. apply Hbad.
Qed.
Print Assumptions C57_copy_refuted.

(** A copy changes no file out of the directory of the copy, even if it is
    stopped: the source is safe (C29). *)
Theorem C29_copy e sched workers reg c target filt mode np s u :
  stopped_at (copy e sched workers reg c target filt mode np) s u -> forall q, ~ under target q -> u !! q = s !! q.
Proof.
  intros [p' H]. refine (steps_outside (under target) _ p' s u _ H). clear H p'.
  assert (Hread : forall (A : Type) (p : program A), within (fun _ => True) (fun _ => False) p -> within (fun _ => True) (under target) p) by (intros A p Hp; by eapply within_impl; [..|exact Hp]).
  unfold copy. apply within_bind; [apply Hread, reading_select|]. intros parts.
  destruct (split_sequence (map _ parts) _) as [bs|] eqn:E; [|done]. cbn [pbind]. apply split_sequence_lengths in E as (Hc & _).
  apply within_bind; [apply within_transaction; intros p Hp; apply elem_of_list_In, in_map_iff in Hp as (b & <- & Hb); apply within_pfor; intros st Hst|intros rs].
  { assert (Hin : st ∈ concat bs) by (apply elem_of_list_In, in_concat; exists b; split; [done|by apply elem_of_list_In]).
    rewrite Hc in Hin. apply elem_of_list_In, in_map_iff in Hin as (q & <- & _). cbn [fst snd]. apply within_copy_tree; [done|]. intros r U. eapply under_trans; [apply under_app|exact U]. }
  apply within_bind; [by apply within_get_tree; intros; left|]. intros t. apply within_bind; [|intros ?].
  - apply within_pfor. intros q _. apply within_bind; [by apply within_read_file; intros; left|]. intros [f|]; [|done]. destruct (last q); [|done]. apply within_write, under_app.
  - unfold from_config. apply within_bind; [by apply within_exists; intros; left|]. intros x. destruct (negb x); [done|].
    apply within_bind; [by apply within_read_file; intros; left|]. intros f. destruct f as [[]|]; try done. apply within_bind; [done|]. intros m. apply within_bind; [done|]. intros p.
    unfold make_collection. destruct (new_collection _ m p target _) as [c1|ex] eqn:En; [|done]. cbn [pbind]. destruct (c_readonly c1); [done|].
    apply within_bind; [|done]. unfold write_config. apply within_bind; [by apply within_exists; intros; left|]. intros x'. destruct (x' && true); [done|]. apply within_write.
    assert (c_dir c1 = target) as ->; [|apply under_app]. revert En. unfold new_collection. destruct (dget _ _) as [v|]; [|done]. destruct (negb _); [done|]. destruct (negb _); [done|]. destruct (mv_dims v); [done|]. by intros [= <-].
Qed.
Print Assumptions C29_copy.
