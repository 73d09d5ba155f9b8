(** * Properties of a validation of the partitions that is interrupted *)
From Verif Require Import Py Dict NdArray_Model NdArray_Proofs Dataset_Model Dataset_Spec Meta_Model PartPath_Model PartPath_Proofs
  Split_Spec FS_Model FS_Proofs Pool_Model Pool_Proofs Storage_Model Storage_Spec Storage_Proofs
  Listing_Model Listing_Spec Listing_Proofs Listing_Props Collection_Model Collection_Spec Collection_Proofs Collection_State Collection_Select Collection_Load
  Collection_Example Collection_Props Crash_Spec Collection_Crash Crash_Props Update_Model Update_Spec Update_Proofs Update_Example Validate_Spec Validate_Proofs Validate_Props.

Section stop.
Context (e : env) (c : collection) (filt : filter) (P : list Z -> Prop).

(** The checks write nothing. *)
Lemma checked finish s l s' : exec (validate_partitions e finish c filt false) s = (Ok l, s') ->
  exists parts checks, exec (select_parts e c filt) s = (Ok parts, s) /\ exec (pseq (map (check_partition c) (finish parts))) s = (Ok checks, s) /\
    l = map fst (List.filter (fun qb : path * bool => negb qb.2) checks).
Proof.
  unfold validate_partitions. rewrite exec_bind. destruct (exec (select_parts e c filt) s) as [[parts|ex] s1] eqn:E1; [|done].
  assert (s1 = s) as -> by (refine (reading_stopped _ s s1 (reading_select e c filt) (stopped_end _ _ _ _ E1))).
  rewrite exec_bind. destruct (exec (pseq (map (check_partition c) (finish parts))) s) as [[checks|ex] s2] eqn:E2; [|done].
  assert (s2 = s) as -> by (refine (reading_stopped _ s s2 _ (stopped_end _ _ _ _ E2)); apply reading_pseq; intros; apply reading_check).
  cbn. intros [= <- _]. by exists parts, checks.
Qed.

(** The removals, one after the other. *)
Definition removed_from (vs : list (list Z)) (s u : store) : Prop :=
  (forall q, u !! q = s !! q \/ (u !! q = None /\ exists v, v ∈ vs /\ under (part_dir c v) q)) /\
  exists v0, forall w, length w = length (p_keys (c_part c)) -> w <> v0 -> untouched s u (part_dir c w) \/ absent u (part_dir c w).
Lemma removed_none vs s : removed_from vs s s.
Proof. split; [intros q; by left|]. exists []. intros w _ _. by left. Qed.
Lemma removing vs : forall s, Forall (fun v => length v = length (p_keys (c_part c))) vs ->
  always CTorn (removed_from vs s) (pseq (map rm (map (part_dir c) vs))) s.
Proof.
  induction vs as [|v vs IH]; intros s Hl; [cbn; split; [apply removed_none|done]|].
  inversion Hl as [|? ? Hlv Hl']; subst.
  assert (Hpart : forall u, partly_removed (part_dir c v) s u -> removed_from (v :: vs) s u).
  { intros u Hu. split.
    - intros q. destruct (Hu q) as [|[U E]]; [by left|right]. split; [done|]. exists v. split; [left|done].
    - exists v. intros w Hw N. left. intros q U. destruct (Hu q) as [|[U' _]]; [done|]. exfalso. exact (parts_apart c v w Hlv Hw (not_eq_sym N) q U' U). }
  assert (Hstep : forall u, removed_from vs (prune (part_dir c v) s) u -> removed_from (v :: vs) s u).
  { intros u [H1 [v0 H2]]. assert (Hp : forall q, (under (part_dir c v) q -> prune (part_dir c v) s !! q = None) /\ (~ under (part_dir c v) q -> prune (part_dir c v) s !! q = s !! q)).
    { intros q. rewrite prune_lookup. split; intros U; case_decide; done. }
    split.
    - intros q. destruct (H1 q) as [E|(E & w & Hw & U)].
      + rewrite E. destruct (decide (under (part_dir c v) q)) as [U|U]; [right|left; by apply Hp]. split; [by apply Hp|]. exists v. split; [left|done].
      + right. split; [done|]. exists w. split; [by right|done].
    - exists v0. intros w Hw N. destruct (H2 w Hw N) as [H|H]; [|by right]. destruct (decide (w = v)) as [->|N'].
      + right. intros q U. rewrite H by done. by apply Hp.
      + left. intros q U. rewrite H by done. apply Hp. intros U'. exact (parts_apart c v w Hlv Hw (not_eq_sym N') q U' U). }
  cbn [map pseq]. unfold rm at 1. cbn [pbind always mid]. split; [apply removed_none|]. split; [intros u Hu; by apply Hpart|].
  cbn [exec_op]. destruct (empty_at (part_dir c v) s) eqn:Ee; cbn [fst snd pbind].
  - cbn. split; [apply removed_none|done].
  - cbn [pret pbind]. apply always_impl with (removed_from vs (prune (part_dir c v) s)); [apply Hstep|].
    pose proof (IH (prune (part_dir c v) s) Hl') as Ha. apply always_bind; [exact Ha|].
    intros a s' E. cbn. pose proof (exec_steps CTorn (pseq (map rm (map (part_dir c) vs))) (prune (part_dir c v) s)) as Hs. rewrite E in Hs.
    split; [|done]. exact (always_sound CTorn _ _ _ _ _ Ha Hs).
Qed.

(** A call that is stopped has only removed files of the selected partitions
    that cannot be read, and all the partitions but one are whole or gone. *)
Theorem C104_stopped finish s u :
  regular e c -> laid_out (c_part c) (c_dir c) s -> filterable c -> (forall v, stands c s v -> says (c_part c) filt v (P v)) ->
  (forall l, finish l ≡ₚ l) -> (forall v, stands c s v -> P v -> indexed (sub (part_dir c v) s)) ->
  stopped_at (validate_partitions e finish c filt true) s u ->
  (forall q, u !! q = s !! q \/
     (u !! q = None /\ exists v, stands c s v /\ P v /\ ~ readable (sub (part_dir c v) s) /\ under (part_dir c v) q)) /\
  (exists v0, forall w, length w = length (p_keys (c_part c)) -> w <> v0 -> untouched s u (part_dir c w) \/ absent u (part_dir c w)).
Proof.
  intros Hr Hlo Hfi HP Hperm Hi [p' Hu].
  destruct (C45_validate e c filt P finish s false Hr Hlo Hfi HP Hperm Hi) as (vs & s' & E & _ & Hvs & _).
  destruct (checked finish s _ _ E) as (parts & checks & E1 & E2 & Ei).
  assert (Ha : always CTorn (removed_from vs s) (validate_partitions e finish c filt true) s).
  { unfold validate_partitions. apply always_bind; [apply always_read; [apply reading_select|apply removed_none]|]. intros a s1 Ea. rewrite E1 in Ea. injection Ea as <- <-.
    apply always_bind; [apply always_read; [apply reading_pseq; intros; apply reading_check|apply removed_none]|]. intros a s1 Ea. rewrite E2 in Ea. injection Ea as <- <-.
    cbv zeta. rewrite <-Ei. assert (Hf : always CTorn (removed_from vs s) (pfor (map (part_dir c) vs) rm) s).
    { assert (Hl : Forall (fun v => length v = length (p_keys (c_part c))) vs) by (apply Forall_forall; intros v Hv; by apply Hvs in Hv as [[? _] _]).
      pose proof (removing vs s Hl) as Ha. unfold pfor. apply always_bind; [exact Ha|]. intros a s1 Ea. cbn. split; [|done].
      pose proof (exec_steps CTorn (pseq (map rm (map (part_dir c) vs))) s) as Hs. rewrite Ea in Hs. exact (always_sound CTorn _ _ _ _ _ Ha Hs). }
    apply always_bind; [exact Hf|]. intros a s1 Ea. cbn. split; [|done].
    pose proof (exec_steps CTorn (pfor (map (part_dir c) vs) rm) s) as Hs. rewrite Ea in Hs. exact (always_sound CTorn _ _ _ _ _ Hf Hs). }
  destruct (always_sound CTorn _ _ _ _ _ Ha Hu) as [H1 H2]. split; [|exact H2].
  intros q. destruct (H1 q) as [|(Eq & v & Hv & U)]; [by left|right]. split; [done|]. exists v. apply Hvs in Hv as (? & ? & ?). done.
Qed.
(** A partition that is reported may be left partly removed. *)
Lemma stopped_partly finish s s' v u : exec (validate_partitions e finish c filt false) s = (Ok [part_dir c v], s') -> empty_at (part_dir c v) s = false ->
  partly_removed (part_dir c v) s u -> stopped_at (validate_partitions e finish c filt true) s u.
Proof.
  intros E Hd Hu. destruct (checked finish s _ _ E) as (parts & checks & E1 & E2 & Ei).
  unfold validate_partitions. eapply stopped_then; [exact E1|]. eapply stopped_then; [exact E2|]. cbv zeta. rewrite <-Ei. apply stopped_first.
  unfold pfor. apply stopped_first. cbn [map pseq]. apply stopped_first. unfold rm. eexists. apply rtc_once. by apply step_rm.
Qed.

(** A collection where files of the partition [v] are missing. *)
Section missing.
Context (M : list Z -> option dataset) (I : option dataset) (s u : store) (v : list Z).
Context (Hr : regular e c) (Hs : represents c M I s) (Hv : is_Some (M v)).
Context (Hu : forall q, u !! q = s !! q \/ (under (part_dir c v) q /\ u !! q = None)).
Lemma len_of w : is_Some (M w) -> length w = length (p_keys (c_part c)).
Proof using Hs. intros [d Hd]. by apply (rp_part _ _ _ _ Hs) in Hd as [? _]. Qed.
Lemma missing_laid : laid_out (c_part c) (c_dir c) u.
Proof using Hr Hs Hu.
  assert (Hm : forall q x, u !! q = Some x -> s !! q = Some x) by (intros q x Hx; destruct (Hu q) as [E|[_ E]]; congruence).
  intros q x Hx. destruct (represents_laid_out c M I s Hs q x (Hm _ _ Hx)) as [(a & -> & Hn)|[?|?]]; [left|by right; left|by right; right].
  exists a. split; [done|]. intros (b & f & y & Hy). apply Hn. exists b, f, y. by apply Hm.
Qed.
Lemma missing_stands w : stands c u w -> is_Some (M w).
Proof using Hr Hs Hu.
  intros (Hl & a & f & x & Hx). apply (represents_directory e c Hr M I s w Hs). split; [done|]. exists a, f, x. destruct (Hu (c_dir c ++ key_dirs (c_part c) w ++ a :: f)) as [E|[_ E]];
    unfold part_dir in *; rewrite <-?app_assoc in *; congruence.
Qed.
Lemma missing_sub w : is_Some (M w) -> w <> v -> sub (part_dir c w) u = sub (part_dir c w) s.
Proof using Hs Hu Hv.
  intros Hw N. apply map_eq. intros q. rewrite !sub_lookup. destruct (Hu (part_dir c w ++ q)) as [|[U _]]; [done|]. exfalso.
  exact (parts_apart c v w (len_of v Hv) (len_of w Hw) (not_eq_sym N) _ U (under_app _ _)).
Qed.
End missing.

(** Taken for a valid one: the damaged chunk is removed first, and the call is
    stopped. The partition can now be read, its values being those of the fill
    value, and no call reports it any more. *)
Theorem C105_reported_refuted finish M I s v n z idx :
  regular e c -> represents c M I s -> filterable c -> (forall v, is_Some (M v) -> says (c_part c) filt v (P v)) -> (forall l, finish l ≡ₚ l) ->
  is_Some (M v) -> P v -> s !! (part_dir c v ++ [n; ZARRAY]) = Some (CMeta (MArray z)) -> idx ∈ NdArray_Model.indices (z_shape z) ->
  let chunk := part_dir c v ++ [n; chunk_key (chunk_of (z_chunks z) idx)] in
  let damaged := <[chunk := CTorn]> s in
  exists u, exec (validate_partitions e finish c filt false) damaged = (Ok [part_dir c v], damaged) /\
    stopped_at (validate_partitions e finish c filt true) damaged u /\
    u !! chunk = None /\ (forall q, q <> chunk -> u !! q = s !! q) /\
    stands c u v /\ readable (sub (part_dir c v) u) /\
    read_item z (sub (part_dir c v ++ [n]) u) idx = Ok (default (Num 0) (z_fill z)) /\
    forall finish' fix_, (forall l, finish' l ≡ₚ l) -> exec (validate_partitions e finish' c filt fix_) u = (Ok [], u).
Proof.
  intros Hr Hs Hfi HP Hperm Hv HPv Hz Hidx chunk damaged. set (u := delete chunk s : store).
  destruct (C45_damaged e c filt P finish M I s v n z idx false Hr Hs Hfi HP Hperm Hv HPv Hz Hidx) as (s' & E & Hs'). fold chunk damaged in E, Hs'.
  assert (s' = damaged) as -> by (apply map_eq; intros q; apply Hs').
  assert (Hne : forall q, q <> chunk -> u !! q = s !! q) by (intros q N; unfold u; by rewrite lookup_delete_ne).
  assert (Hat : u !! chunk = None) by apply lookup_delete.
  assert (Hch : under (part_dir c v) chunk) by apply under_app.
  assert (Hu : forall q, u !! q = s !! q \/ (under (part_dir c v) q /\ u !! q = None)).
  { intros q. destruct (decide (q = chunk)) as [->|N]; [by right|left; by apply Hne]. }
  assert (Hzc : part_dir c v ++ [ZMETADATA] <> chunk) by (unfold chunk; intros X; by apply app_inv_head in X).
  destruct (represents_readable c M I s v Hs Hv) as (m & Hm & Hg & Hall).
  assert (Hread : readable (sub (part_dir c v) u)).
  { exists m. split; [rewrite sub_lookup, Hne, <-sub_lookup by done; exact Hm|]. split; [exact Hg|]. intros n' x Hx. destruct (Hall n' x Hx) as (z' & -> & Hz').
    exists z'. split; [done|]. intros i Hi. specialize (Hz' i Hi). cbn zeta in Hz' |- *. rewrite sub_lookup in Hz' |- *.
    destruct (Hu (part_dir c v ++ [n'; chunk_key (chunk_of (z_chunks z') i)])) as [->|[_ ->]]; [done|by left]. }
  assert (Hall' : forall w, stands c u w -> readable (sub (part_dir c w) u)).
  { intros w Hw. apply (missing_stands M I s u v Hr Hs Hu) in Hw. destruct (decide (w = v)) as [->|N]; [done|].
    rewrite (missing_sub M I s u v Hs Hv Hu) by done. by apply (represents_readable c M I). }
  exists u. split; [exact E|]. split.
  { eapply stopped_partly; [exact E| |].
    - apply empty_at_false. exists chunk, CTorn. split; [done|]. apply lookup_insert.
    - intros q. destruct (decide (q = chunk)) as [->|N]; [by right|left]. rewrite Hne by done. unfold damaged. by rewrite lookup_insert_ne. }
  split; [done|]. split; [done|]. split.
  { split; [by apply (len_of M I s Hs)|]. rewrite sub_lookup in Hm. exists ZMETADATA, [], (CCons m). fold (part_dir c v). by rewrite Hne. }
  split; [done|]. split.
  { unfold read_item. rewrite sub_lookup, <-app_assoc. cbn [app]. fold chunk. by rewrite Hat. }
  intros finish' fix_ Hp'.
  destruct (C45_validate e c filt P finish' u fix_ Hr (missing_laid M I s u v Hr Hs Hu) Hfi) as (vs & u' & E' & _ & Hvs & Hq); [|done| |].
  { intros w Hw. apply HP. by apply (missing_stands M I s u v Hr Hs Hu). }
  { intros w Hw _. by apply readable_indexed, Hall'. }
  rewrite E'. destruct vs as [|w vs]; [|exfalso; destruct (proj1 (Hvs w) ltac:(left)) as (Hw & _ & Hno); by apply Hno, Hall'].
  f_equal. apply map_eq. intros q. apply Hq. right. intros w Hw. by apply elem_of_nil in Hw.
Qed.

(** Called again: the consolidated metadata are removed first, and the call is
    stopped. Every later call raises KeyError, and removes nothing. *)
Theorem C106_again_refuted finish M I s v n z idx :
  regular e c -> represents c M I s -> filterable c -> (forall v, is_Some (M v) -> says (c_part c) filt v (P v)) -> (forall l, finish l ≡ₚ l) ->
  is_Some (M v) -> P v -> s !! (part_dir c v ++ [n; ZARRAY]) = Some (CMeta (MArray z)) -> idx ∈ NdArray_Model.indices (z_shape z) ->
  let damaged := <[part_dir c v ++ [n; chunk_key (chunk_of (z_chunks z) idx)] := CTorn]> s in
  exists u, stopped_at (validate_partitions e finish c filt true) damaged u /\ stands c u v /\
    (forall q, q <> part_dir c v ++ [ZMETADATA] -> u !! q = damaged !! q) /\
    forall finish' fix_, (forall l, finish' l ≡ₚ l) -> exec (validate_partitions e finish' c filt fix_) u = (Raise KeyError, u).
Proof.
  intros Hr Hs Hfi HP Hperm Hv HPv Hz Hidx damaged. set (chunk := part_dir c v ++ [n; chunk_key (chunk_of (z_chunks z) idx)]) in *.
  set (meta := part_dir c v ++ [ZMETADATA]). set (u := delete meta damaged : store).
  destruct (C45_damaged e c filt P finish M I s v n z idx false Hr Hs Hfi HP Hperm Hv HPv Hz Hidx) as (s' & E & Hs'). fold chunk damaged in E, Hs'.
  assert (Hne : forall q, q <> meta -> u !! q = damaged !! q) by (intros q N; unfold u; by rewrite lookup_delete_ne).
  assert (Hzc : chunk <> meta) by (unfold chunk, meta; intros X; by apply app_inv_head in X).
  assert (Hst : forall w, stands c u w -> is_Some (M w)).
  { intros w (Hl & a & f & x & Hx). apply (represents_directory e c Hr M I s w Hs). split; [done|].
    destruct (decide (w = v)) as [->|N]; [by apply (represents_directory e c Hr M I s v Hs)|].
    exists a, f, x. change (c_dir c ++ key_dirs (c_part c) w) with (part_dir c w) in *.
    assert (Ho : ~ under (part_dir c v) (part_dir c w ++ a :: f)).
    { intros U. exact (parts_apart c v w (len_of M I s Hs v Hv) Hl (not_eq_sym N) _ U (under_app _ _)). }
    rewrite Hne in Hx by (intros X; apply Ho; rewrite X; apply under_app). unfold damaged in Hx. rewrite lookup_insert_ne in Hx; [done|]. intros X. apply Ho. rewrite <-X. apply under_app. }
  assert (Hlo : laid_out (c_part c) (c_dir c) u).
  { intros q x Hx. destruct (decide (chunk = c_dir c ++ q)) as [X|N].
    - right. right. unfold chunk, part_dir in X. rewrite <-app_assoc in X. apply app_inv_head in X as <-. exists v, n, [chunk_key (chunk_of (z_chunks z) idx)]. split; [by apply (len_of M I s Hs)|done].
    - assert (Hx' : s !! (c_dir c ++ q) = Some x).
      { destruct (decide (c_dir c ++ q = meta)) as [X|N']; [rewrite X in Hx; unfold u in Hx; by rewrite lookup_delete in Hx|]. rewrite Hne in Hx by done. unfold damaged in Hx. by rewrite lookup_insert_ne in Hx. }
      destruct (rp_files _ _ _ _ Hs _ _ Hx') as [->|[(_ & f & ->)|(w & f & Hw & ->)]].
      + right. left. exists CONFIG, []. split; [done|]. by eexists.
      + right. left. exists IMMUTABLE, f. split; [done|]. by eexists.
      + right. right. destruct Hw as [d Hd]. destruct (rp_part _ _ _ _ Hs _ _ Hd) as (Hl & _ & Hh). destruct f as [|a f]; [|by exists w, a, f].
        destruct Hh as [Hh _]. rewrite sub_lookup in Hh. unfold part_dir in Hh. rewrite app_nil_r in Hh, Hx'. congruence. }
  assert (Hsv : stands c u v).
  { split; [by apply (len_of M I s Hs)|]. exists n, [chunk_key (chunk_of (z_chunks z) idx)], CTorn. fold (part_dir c v). fold chunk. rewrite Hne by done. apply lookup_insert. }
  exists u. split.
  { eapply stopped_partly; [exact E| |].
    - apply empty_at_false. exists chunk, CTorn. split; [apply under_app|]. apply lookup_insert.
    - intros q. destruct (decide (q = meta)) as [->|N]; [right|left; by apply Hne]. split; [apply under_app|]. apply lookup_delete. }
  split; [done|]. split; [done|]. intros finish' fix_ Hp'.
  apply (C45_missing e c filt P finish' u fix_ v Hr Hlo Hfi); [|done..|].
  - intros w Hw. by apply HP, Hst.
  - apply lookup_delete.
Qed.
End stop.
Print Assumptions C104_stopped.
Print Assumptions C105_reported_refuted.
Print Assumptions C106_again_refuted.

(** ** A concrete case *)

(** The collection of two partitions; the chunk of "pass" in the first one is
    damaged. Stopped in one way, the call leaves a partition that no call
    reports; stopped in another, a partition that makes every call raise. *)
Example C104_case : exists M s damaged u u', represents Y_coll M None s /\ is_Some (M [1%Z]) /\ is_Some (M [2%Z]) /\
  damaged = <[part_dir Y_coll [1%Z] ++ [lit "pass"; lit "0"] := CTorn]> s /\
  stopped_at (validate_partitions X_env (fun l => rev l) Y_coll NoFilter true) damaged u /\
  exec (validate_partitions X_env id Y_coll NoFilter true) u = (Ok [], u) /\ u !! (part_dir Y_coll [1%Z] ++ [lit "pass"; lit "0"]) = None /\
  stopped_at (validate_partitions X_env (fun l => rev l) Y_coll NoFilter true) damaged u' /\
  exec (validate_partitions X_env id Y_coll NoFilter true) u' = (Raise KeyError, u').
Proof.
  destruct Y_filled as (M & s & Hs & Hu & (p1 & p2 & H1 & H2 & H3 & _ & Ht1 & Hp1 & _)).
  destruct (rp_part _ _ _ _ Hs _ _ H1) as (_ & _ & _ & Hh).
  destruct (hg_vars _ _ _ Hh (lit "pass") (stored (X_pass [1; 1]%Z))) as (_ & _ & (cs & [Hl Hc] & Hz & _) & _).
  { by rewrite dget_stored, Hp1. }
  rewrite !sub_lookup in Hz. cbn [app] in Hz.
  assert (Hrev : forall l : list path, rev l ≡ₚ l) by (intros l; symmetry; apply Permutation_rev).
  destruct (C105_reported_refuted X_env Y_coll NoFilter (fun _ => True) (fun l => rev l) M None s [1%Z] (lit "pass") (zarr_for (stored (X_pass [1; 1]%Z)) cs) [0] Y_regular Hs Y_filterable ltac:(done) Hrev)
    as (u & _ & Hst & Hat & _ & _ & _ & _ & Hok); [by eexists|exact Logic.I|exact Hz|left|].
  destruct (C106_again_refuted X_env Y_coll NoFilter (fun _ => True) (fun l => rev l) M None s [1%Z] (lit "pass") (zarr_for (stored (X_pass [1; 1]%Z)) cs) [0] Y_regular Hs Y_filterable ltac:(done) Hrev)
    as (u' & Hst' & _ & _ & Hko); [by eexists|exact Logic.I|exact Hz|left|].
  assert (Hk : chunk_key (chunk_of (z_chunks (zarr_for (stored (X_pass [1; 1]%Z)) cs)) [0]) = lit "0").
  { cbn in Hl. destruct cs as [|k [|]]; try done. change (chunk_of _ _) with [0 / k]. by rewrite Nat.div_0_l by (inversion Hc; lia). }
  rewrite Hk in Hst, Hst', Hat. exists M, s. eexists. exists u, u'. split; [exact Hs|]. split; [by eexists|]. split; [by eexists|]. split; [reflexivity|].
  split; [exact Hst|]. split; [by apply Hok|]. split; [exact Hat|]. split; [exact Hst'|]. by apply Hko.
Qed.
