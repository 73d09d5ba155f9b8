(** * C45, C29: the validation of the partitions, and the read-only mode *)
From Verif Require Import Py Dict NdArray_Model NdArray_Proofs Dataset_Model Dataset_Spec Meta_Model PartPath_Model PartPath_Proofs
  Split_Spec FS_Model FS_Proofs Pool_Model Pool_Proofs Storage_Model Storage_Spec Storage_Proofs
  Listing_Model Listing_Spec Listing_Proofs Listing_Props Collection_Model Collection_Spec Collection_Proofs Collection_State Collection_Select Collection_Load
  Collection_Example Collection_Props Crash_Spec Crash_Props Update_Model Update_Spec Update_Proofs Update_Example Validate_Spec Validate_Proofs.

(** ** C45: validate_partitions *)

Section C45.
Context (e : env) (c : collection) (filt : filter) (P : list Z -> Prop).

(** When each selected partition has its consolidated metadata, damaged or not,
    a call returns the directories of the selected partitions that cannot be
    read, once each, in any order; it removes these and nothing else if it is
    asked to fix the collection, and changes nothing otherwise. *)
Theorem C45_validate finish s fix_ :
  regular e c -> laid_out (c_part c) (c_dir c) s -> filterable c -> (forall v, stands c s v -> says (c_part c) filt v (P v)) ->
  (forall l, finish l ≡ₚ l) -> (forall v, stands c s v -> P v -> indexed (sub (part_dir c v) s)) ->
  exists invalid s', exec (validate_partitions e finish c filt fix_) s = (Ok (map (part_dir c) invalid), s') /\
    NoDup invalid /\ (forall v, v ∈ invalid <-> stands c s v /\ P v /\ ~ readable (sub (part_dir c v) s)) /\
    forall q, (fix_ = true /\ (exists v, v ∈ invalid /\ under (part_dir c v) q) -> s' !! q = None) /\
              (fix_ = false \/ (forall v, v ∈ invalid -> ~ under (part_dir c v) q) -> s' !! q = s !! q).
Proof.
  intros Hr Hlo Hfi HP Hperm Hi. destruct (select_filter_laid e c Hr s filt P Hlo Hfi HP) as (vss & Hso & Hin & Esel).
  assert (Hnd : NoDup vss) by (by apply sorted_nodup_rows).
  assert (exists ws, finish (map (part_dir c) vss) = map (part_dir c) ws /\ ws ≡ₚ vss) as (ws & Ews & Hws).
  { pose proof (Hperm (map (part_dir c) vss)) as Hp.
    apply Permutation_map_inv in Hp as (ws & Ew & Hp). exists ws. split; [done|]. by symmetry. }
  assert (Hw : forall v, v ∈ ws <-> stands c s v /\ P v) by (intros v; rewrite Hws; apply Hin).
  assert (exists bs, Forall2 (fun v b => check_group (sub (part_dir c v) s) = Ok b /\ (b = true <-> readable (sub (part_dir c v) s))) ws bs) as [bs Hbs].
  { assert (Hall : Forall (fun v => exists b, check_group (sub (part_dir c v) s) = Ok b /\ (b = true <-> readable (sub (part_dir c v) s))) ws).
    { apply Forall_forall. intros v Hv. apply Hw in Hv as [? ?]. apply check_group_indexed. by apply Hi. }
    clear -Hall. induction Hall as [|v l (b & Hb) _ [bs IH]]; [by exists []|]. exists (b :: bs). by constructor. }
  assert (Echeck : exec (pseq (map (check_partition c) (map (part_dir c) ws))) s = (Ok (zip (map (part_dir c) ws) bs), s)).
  { apply exec_pseq_pure. assert (Hl : forall v, v ∈ ws -> length v = length (p_keys (c_part c))) by (intros v Hv; apply Hw in Hv as [[? _] _]; done). clear -Hbs Hl Hr.
    induction Hbs as [|v b l bs [Hb _] _ IH]; [constructor|]. cbn. constructor; [|apply IH; intros; apply Hl; by right]. rewrite (exec_check e c Hr) by (apply Hl; left). by rewrite Hb. }
  set (invalid := (List.filter (fun vb : list Z * bool => negb vb.2) (zip ws bs)).*1).
  assert (Einv : map fst (List.filter (fun qb : path * bool => negb qb.2) (zip (map (part_dir c) ws) bs)) = map (part_dir c) invalid).
  { unfold invalid. clear -Hbs. induction Hbs as [|v b l bs _ _ IH]; [done|]. cbn. destruct b; cbn; [done|]. by rewrite IH. }
  assert (Hinv : forall v, v ∈ invalid <-> v ∈ ws /\ ~ readable (sub (part_dir c v) s)).
  { intros v. unfold invalid. clear -Hbs. induction Hbs as [|w b l bs [_ Hb] _ IH]; [cbn; rewrite elem_of_nil; tauto|]. cbn. destruct b; cbn.
    - rewrite IH, elem_of_cons. split; [intros [? ?]; split; [by right|done]|]. intros [[->|?] Hn]; [|done]. exfalso. apply Hn. by apply Hb.
    - rewrite !elem_of_cons, IH. split.
      + intros [->|[? ?]]; [|split; [by right|done]]. split; [by left|]. intros Hx. apply Hb in Hx. done.
      + intros [[->|?] Hn]; [by left|]. right. done. }
  assert (Hndi : NoDup invalid).
  { assert (Hnw : NoDup ws) by (by rewrite Hws). unfold invalid. clear -Hbs Hnw. induction Hbs as [|w b l bs _ Hf IH]; [constructor|]. inversion Hnw as [|? ? Hn Hnw']; subst. cbn. destruct b; cbn; [by apply IH|].
    constructor; [|by apply IH]. intros Hx. apply Hn. clear -Hx Hf. apply elem_of_list_fmap in Hx as ([v b] & -> & Hx). apply elem_of_list_In, filter_In in Hx as [Hx _].
    apply elem_of_list_In in Hx. by apply elem_of_zip_l in Hx. }
  exists invalid, (if fix_ then prune_all c s (rev invalid) else s).
  assert (Hst : forall v, v ∈ invalid -> stands c s v) by (intros v Hv; apply Hinv in Hv as [Hv _]; by apply Hw in Hv as [? _]).
  split; [|split; [done|split]].
  - unfold validate_partitions. rewrite exec_bind, Esel, Ews, exec_bind, Echeck, Einv, exec_bind. destruct fix_; [|done]. rewrite (exec_rm_seq c) by done. done.
  - intros v. rewrite Hinv, Hw. tauto.
  - intros q. destruct fix_.
    + split.
      * intros (_ & v & Hv & U). rewrite prune_all_lookup, decide_True; [done|]. apply Exists_exists. exists v. split; [|done]. by apply elem_of_list_In, in_rev, elem_of_list_In in Hv.
      * intros [|Hno]; [done|]. rewrite prune_all_lookup, decide_False; [done|]. intros (v & Hv & U)%Exists_exists. apply (Hno v); [|done]. apply elem_of_list_In, in_rev. by apply elem_of_list_In.
    + by split; [intros [? _]|].
Qed.

(** Right after the collection was fixed, a call reports nothing. *)
Theorem C45_fixed finish finish' s invalid s' :
  regular e c -> laid_out (c_part c) (c_dir c) s -> filterable c -> (forall v, length v = length (p_keys (c_part c)) -> says (c_part c) filt v (P v)) ->
  (forall l, finish l ≡ₚ l) -> (forall l, finish' l ≡ₚ l) -> (forall v, stands c s v -> P v -> indexed (sub (part_dir c v) s)) ->
  exec (validate_partitions e finish c filt true) s = (Ok invalid, s') ->
  exec (validate_partitions e finish' c filt false) s' = (Ok [], s').
Proof.
  intros Hr Hlo Hfi HP Hperm Hperm' Hi E.
  destruct (C45_validate finish s true Hr Hlo Hfi ltac:(intros v [Hl _]; by apply HP) Hperm Hi) as (vs & s1 & E1 & _ & Hvs & Hq). rewrite E1 in E. injection E as <- <-.
  assert (Hmono : forall q x, s1 !! q = Some x -> s !! q = Some x /\ forall v, v ∈ vs -> ~ under (part_dir c v) q).
  { intros q x Hx. assert (Hno : forall v, v ∈ vs -> ~ under (part_dir c v) q).
    { intros v Hv U. destruct (Hq q) as [H1 _]. rewrite H1 in Hx; [done|]. split; [done|]. by exists v. }
    split; [|done]. destruct (Hq q) as [_ H2]. rewrite <-H2; [done|by right]. }
  assert (Hlo' : laid_out (c_part c) (c_dir c) s1).
  { intros q x Hx. apply Hmono in Hx as [Hx _]. destruct (Hlo q x Hx) as [(n & -> & Hn)|[?|?]]; [left|by right; left|by right; right].
    exists n. split; [done|]. intros (a & f & y & Hy). apply Hn. apply Hmono in Hy as [Hy _]. by exists a, f, y. }
  assert (Hst : forall v, stands c s1 v -> stands c s v /\ v ∉ vs).
  { intros v (Hl & a & f & y & Hy). apply Hmono in Hy as [Hy Hno]. split; [split; [done|]; by exists a, f, y|]. intros Hv. apply (Hno v Hv), under_app. }
  assert (Hsub : forall v, stands c s1 v -> sub (part_dir c v) s1 = sub (part_dir c v) s).
  { intros v Hv. apply map_eq. intros q. rewrite !sub_lookup. apply Hq. right. intros w Hw U. apply Hst in Hv as [[Hl _] Hn].
    apply Hvs in Hw as Hw'. destruct Hw' as [[Hlw _] _]. refine (parts_apart c w v Hlw Hl _ _ U (under_app _ _)). by intros ->. }
  destruct (C45_validate finish' s1 false Hr Hlo' Hfi ltac:(intros v [Hl _]; by apply HP) Hperm') as (vs' & s2 & E2 & _ & Hvs' & Hq').
  { intros v Hv HPv. rewrite Hsub by done. apply Hst in Hv as [Hv _]. by apply Hi. }
  assert (s2 = s1) as -> by (apply map_eq; intros q; apply Hq'; by left).
  rewrite E2. destruct vs' as [|v vs']; [done|]. exfalso. destruct (proj1 (Hvs' v) ltac:(left)) as (Hv & HPv & Hno). apply Hno. rewrite Hsub by done.
  apply Hst in Hv as [Hv Hn]. destruct (check_group_indexed _ (Hi v Hv HPv)) as ([|] & _ & Hb); [by apply Hb|]. exfalso. apply Hn. apply Hvs. split; [done|]. split; [done|].
  intros Hx. by apply Hb in Hx.
Qed.

Lemma represents_readable M I s v : represents c M I s -> is_Some (M v) -> readable (sub (part_dir c v) s).
Proof.
  intros Hs [d Hd]. destruct (rp_part _ _ _ _ Hs _ _ Hd) as (_ & _ & _ & Hh). set (t := sub (part_dir c v) s) in *.
  exists (metas t). split; [apply Hh|]. split.
  - exists MGroup. rewrite metas_at by done. by rewrite (hg_group _ _ _ Hh).
  - intros n x Hx. rewrite metas_at in Hx by done. destruct (t !! [n; ZARRAY]) as [y|] eqn:Ey; [|done].
    apply (hg_only _ _ _ Hh) in Ey as Hn. apply dget_is_Some in Hn as [w Hw]. destruct (hg_vars _ _ _ Hh _ _ Hw) as (_ & _ & (cs & _ & Hz & Hread) & _).
    rewrite sub_lookup in Hz. cbn [app] in Hz. rewrite Ey in Hz. injection Hz as ->. cbn in Hx. injection Hx as <-. eexists. split; [reflexivity|].
    intros idx Hin. pose proof (read_array_res (zarr_for w cs) (sub [n] t)) as R. rewrite Hread in R. specialize (R idx Hin). cbn zeta in R |- *. by rewrite !sub_lookup in R.
Qed.
Lemma readable_indexed t : readable t -> indexed t.
Proof.
  intros (m & Hm & _ & Ha). split; [by eexists|]. intros m' n x Hm' Hx. assert (m' = m) as -> by congruence. destruct (Ha n x Hx) as (z & -> & _). by exists z.
Qed.

(** A collection that was not damaged is left as it is. *)
Theorem C45_sound finish M I s fix_ :
  regular e c -> represents c M I s -> filterable c -> (forall v, is_Some (M v) -> says (c_part c) filt v (P v)) -> (forall l, finish l ≡ₚ l) ->
  exec (validate_partitions e finish c filt fix_) s = (Ok [], s).
Proof.
  intros Hr Hs Hfi HP Hperm.
  assert (Hst : forall v, stands c s v <-> is_Some (M v)) by (intros v; by apply (represents_directory e c Hr M I s v)).
  assert (Hok : forall v, stands c s v -> readable (sub (part_dir c v) s)) by (intros v Hv; apply (represents_readable M I s v Hs); by apply Hst).
  assert (Hix : forall v, stands c s v -> P v -> indexed (sub (part_dir c v) s)) by (intros v Hv _; by apply readable_indexed, Hok).
  destruct (C45_validate finish s fix_ Hr (represents_laid_out c M I s Hs) Hfi ltac:(intros v Hv; by apply HP, Hst) Hperm Hix) as (vs & s1 & E & _ & Hvs & Hq).
  rewrite E. destruct vs as [|v vs]; [|exfalso; destruct (proj1 (Hvs v) ltac:(left)) as (Hv & _ & Hno); by apply Hno, Hok].
  f_equal. apply map_eq. intros q. apply Hq. right. intros v Hv. by apply elem_of_nil in Hv.
Qed.

(** A selected partition without consolidated metadata makes the call raise;
    nothing is reported, and nothing is removed. *)
Theorem C45_missing finish s fix_ v :
  regular e c -> laid_out (c_part c) (c_dir c) s -> filterable c -> (forall v, stands c s v -> says (c_part c) filt v (P v)) ->
  (forall l, finish l ≡ₚ l) -> stands c s v -> P v -> s !! (part_dir c v ++ [ZMETADATA]) = None ->
  exec (validate_partitions e finish c filt fix_) s = (Raise KeyError, s).
Proof.
  intros Hr Hlo Hfi HP Hperm Hv HPv Hno. destruct (select_filter_laid e c Hr s filt P Hlo Hfi HP) as (vss & Hso & Hin & Esel).
  unfold validate_partitions. rewrite exec_bind, Esel, exec_bind.
  assert (exists ws, finish (map (part_dir c) vss) = map (part_dir c) ws /\ ws ≡ₚ vss) as (ws & Ews & Hws).
  { pose proof (Hperm (map (part_dir c) vss)) as Hp. apply Permutation_map_inv in Hp as (ws & Ew & Hp). exists ws. split; [done|]. by symmetry. }
  rewrite Ews. assert (Hl : Forall (fun v => length v = length (p_keys (c_part c))) ws).
  { apply Forall_forall. intros w Hw. rewrite Hws in Hw. by apply Hin in Hw as [[? _] _]. }
  assert (Hvw : v ∈ ws) by (rewrite Hws; by apply Hin).
  assert (exec (pseq (map (check_partition c) (map (part_dir c) ws))) s = (Raise KeyError, s)) as ->; [|done].
  clear Ews Hws. induction Hl as [|w ws Hlw Hl IH]; [by apply elem_of_nil in Hvw|]. cbn [map pseq]. rewrite exec_bind, (exec_check e c Hr) by done.
  destruct (check_group (sub (part_dir c w) s)) as [b|ex] eqn:Eb; cbn [rmap].
  - apply elem_of_cons in Hvw as [->|Hvw]; [|by rewrite exec_bind, IH]. rewrite check_group_missing in Eb; [done|]. by rewrite sub_lookup.
  - by apply check_group_raises in Eb as ->.
Qed.

(** A damaged chunk of one of the partitions is found, and only this partition
    is removed. *)
Theorem C45_damaged finish M I s v n z idx fix_ :
  regular e c -> represents c M I s -> filterable c -> (forall v, is_Some (M v) -> says (c_part c) filt v (P v)) -> (forall l, finish l ≡ₚ l) ->
  is_Some (M v) -> P v -> s !! (part_dir c v ++ [n; ZARRAY]) = Some (CMeta (MArray z)) -> idx ∈ NdArray_Model.indices (z_shape z) ->
  let u := <[part_dir c v ++ [n; chunk_key (chunk_of (z_chunks z) idx)] := CTorn]> s in
  exists u', exec (validate_partitions e finish c filt fix_) u = (Ok [part_dir c v], u') /\
    forall q, u' !! q = if fix_ && bool_decide (under (part_dir c v) q) then None else u !! q.
Proof.
  intros Hr Hs Hfi HP Hperm Hv HPv Hz Hidx u. set (k := [n; chunk_key (chunk_of (z_chunks z) idx)]) in *.
  assert (Hkz : k <> [ZMETADATA]) by done.
  assert (Hlv : length v = length (p_keys (c_part c))) by (destruct Hv as [d Hd]; by apply (rp_part _ _ _ _ Hs) in Hd as [? _]).
  assert (Hst : forall w, stands c u w <-> is_Some (M w)).
  { intros w. rewrite <-(represents_directory e c Hr M I s w Hs). split; intros (Hl & a & f & x & Hx); (split; [done|]).
    - unfold u in Hx. destruct (decide (part_dir c v ++ k = part_dir c w ++ a :: f)) as [E|N]; [|rewrite lookup_insert_ne in Hx by done; by exists a, f, x].
      destruct (decide (w = v)) as [->|N]; [by apply (represents_directory e c Hr M I s v Hs)|]. exfalso.
      refine (parts_apart c v w Hlv Hl _ (part_dir c v ++ k) (under_app _ _) _); [by intros ->|]. rewrite E. apply under_app.
    - destruct (decide (part_dir c v ++ k = part_dir c w ++ a :: f)) as [E|N].
      + exists a, f, CTorn. change (c_dir c ++ key_dirs (c_part c) w) with (part_dir c w). unfold u. rewrite E. apply lookup_insert.
      + exists a, f, x. unfold u. by rewrite lookup_insert_ne. }
  assert (Hlo : laid_out (c_part c) (c_dir c) u).
  { intros q x Hx. unfold u in Hx. destruct (decide (part_dir c v ++ k = c_dir c ++ q)) as [E|N].
    - right. right. unfold part_dir in E. rewrite <-app_assoc in E. apply app_inv_head in E as <-. by exists v, n, [chunk_key (chunk_of (z_chunks z) idx)].
    - rewrite lookup_insert_ne in Hx by done. destruct (rp_files _ _ _ _ Hs _ _ Hx) as [->|[(_ & f & ->)|(w & f & Hw & ->)]].
      + right. left. exists CONFIG, []. split; [done|]. by eexists.
      + right. left. exists IMMUTABLE, f. split; [done|]. by eexists.
      + right. right. destruct Hw as [d Hd]. destruct (rp_part _ _ _ _ Hs _ _ Hd) as (Hl & _ & Hh). destruct f as [|a f]; [|by exists w, a, f].
        destruct Hh as [Hh _]. rewrite sub_lookup in Hh. unfold part_dir in Hh. rewrite app_nil_r in Hh, Hx. congruence. }
  assert (Hsub : forall w, is_Some (M w) -> w <> v -> sub (part_dir c w) u = sub (part_dir c w) s).
  { intros w [d Hd] N. apply map_eq. intros q. rewrite !sub_lookup. unfold u. apply lookup_insert_ne. intros E.
    destruct (rp_part _ _ _ _ Hs _ _ Hd) as (Hl & _). refine (parts_apart c v w Hlv Hl _ (part_dir c v ++ k) (under_app _ _) _); [by intros ->|]. rewrite E. apply under_app. }
  assert (Hcons : sub (part_dir c v) u !! [ZMETADATA] = sub (part_dir c v) s !! [ZMETADATA]).
  { rewrite !sub_lookup. unfold u. apply lookup_insert_ne. intros E. by apply app_inv_head in E. }
  destruct (represents_readable M I s v Hs Hv) as (m & Hm & Hg & Hall).
  assert (Hmz : m !! [n; ZARRAY] = Some (MArray z)).
  { destruct Hv as [d Hd]. destruct (rp_part _ _ _ _ Hs _ _ Hd) as (_ & _ & _ & Hh). pose proof (hg_cons _ _ _ Hh) as E. rewrite Hm in E. injection E as ->.
    rewrite metas_at by done. rewrite sub_lookup, Hz. done. }
  assert (Hbad : ~ readable (sub (part_dir c v) u)).
  { intros (m' & Hm' & _ & H). rewrite Hcons, Hm in Hm'. injection Hm' as <-. destruct (H _ _ Hmz) as (z' & [= <-] & Hz'). specialize (Hz' idx Hidx). cbn zeta in Hz'.
    rewrite sub_lookup in Hz'. unfold u in Hz'. fold k in Hz'. rewrite lookup_insert in Hz'. by destruct Hz' as [|[a Ha]]. }
  destruct (C45_validate finish u fix_ Hr Hlo Hfi) as (vs & u' & E & Hnd & Hvs & Hq).
  { intros w Hw. by apply HP, Hst. }
  { done. }
  { intros w Hw HPw. destruct (decide (w = v)) as [->|N]; [|rewrite Hsub by (done || by apply Hst); by apply readable_indexed, (represents_readable M I), Hst].
    split; [rewrite Hcons, Hm; by eexists|]. intros m' n' x Hm' Hx. rewrite Hcons, Hm in Hm'. injection Hm' as <-. destruct (Hall _ _ Hx) as (z' & -> & _). by exists z'. }
  assert (Hiff : forall w, w ∈ vs <-> w = v).
  { intros w. rewrite Hvs. split.
    - intros (Hw & HPw & Hn). destruct (decide (w = v)) as [|N]; [done|]. exfalso. apply Hn. apply Hst in Hw. rewrite Hsub by done. by apply (represents_readable M I).
    - intros ->. split; [by apply Hst|done]. }
  assert (vs = [v]) as ->.
  { destruct vs as [|a vs]; [exfalso; assert (Hn : v ∈ []) by (by apply Hiff); by apply elem_of_nil in Hn|]. assert (a = v) as -> by (apply Hiff; left).
    destruct vs as [|b vs]; [done|]. assert (b = v) as -> by (apply Hiff; right; left). inversion Hnd as [|? ? Hn _]; subst. exfalso. apply Hn. left. }
  exists u'. split; [exact E|]. intros q. destruct (Hq q) as [Q1 Q2]. destruct fix_; cbn [andb]; [|apply Q2; by left].
  destruct (bool_decide (under (part_dir c v) q)) eqn:U.
  - apply bool_decide_eq_true in U. apply Q1. split; [done|]. exists v. split; [left|done].
  - apply bool_decide_eq_false in U. apply Q2. right. intros w Hw. by apply elem_of_list_singleton in Hw as ->.
Qed.

(** Something that is listed as a partition and whose path does not say the keys
    (a foreign directory, for example) makes the call raise; nothing is reported,
    and nothing is removed. *)
Theorem C45_foreign finish s fix_ q :
  regular e c -> tree s -> listed (p_len (c_part c)) s (c_dir c) q -> (forall k, p_parse (c_part c) (path_str q) <> Ok k) ->
  exec (validate_partitions e finish c filt fix_) s = (Raise ValueError, s).
Proof.
  intros Hr Ht Hq Hp.
  assert (E : list_partitions (e_order e) (c_part c) s (c_dir c) = Raise ValueError).
  { pose proof (C06_listing (e_order e) (c_part c) (c_dir c) s (rg_order _ _ Hr) Ht (plain_some _ (rg_keys _ _ Hr))) as H.
    assert (Hf : forall l : list path, filter_res (fun item => if bool_decide (Some item = None) then Ok false
      else is_selected (c_part c) NoFilter (str_remove (path_str (c_dir c)) (path_str item))) l = Ok l).
    { induction l as [|x l IH]; [done|]. cbn [filter_res]. rewrite IH. done. }
    unfold partitions in H. destruct (list_partitions (e_order e) (c_part c) s (c_dir c)) as [l|ex]; cbn [rbind] in H.
    - rewrite Hf in H. destruct H as (_ & Hl & ks & Hks & _). apply Hl, elem_of_list_lookup in Hq as [i Hi].
      destruct (Forall2_lookup_l _ _ _ _ _ Hks Hi) as (k & _ & Hk). by apply Hp in Hk.
    - destruct H as [-> _]. done. }
  unfold validate_partitions, select_parts. rewrite exec_bind, exec_bind, exec_get_tree.
  unfold partitions. cbn [exec]. rewrite sub_root, E. reflexivity.
Qed.
End C45.
Print Assumptions C45_damaged.
Print Assumptions C45_validate.
Print Assumptions C45_fixed.
Print Assumptions C45_sound.
Print Assumptions C45_missing.
Print Assumptions C45_foreign.

(** ** A concrete case *)

(** The collection of two partitions; the chunk of "pass" in the first one is
    damaged. *)
Example C45_case : exists M s u u', represents Y_coll M None s /\ is_Some (M [1%Z]) /\ is_Some (M [2%Z]) /\ u = <[part_dir Y_coll [1%Z] ++ [lit "pass"; lit "0"] := CTorn]> s /\
  exec (validate_partitions X_env (fun l => rev l) Y_coll NoFilter true) u = (Ok [part_dir Y_coll [1%Z]], u') /\
  forall q, u' !! q = if bool_decide (under (part_dir Y_coll [1%Z]) q) then None else s !! q.
Proof.
  destruct Y_filled as (M & s & Hs & Hu & (p1 & p2 & H1 & H2 & H3 & _ & Ht1 & Hp1 & _)).
  destruct (rp_part _ _ _ _ Hs _ _ H1) as (_ & _ & _ & Hh).
  destruct (hg_vars _ _ _ Hh (lit "pass") (stored (X_pass [1; 1]%Z))) as (_ & _ & (cs & [Hl Hc] & Hz & _) & _).
  { by rewrite dget_stored, Hp1. }
  rewrite !sub_lookup in Hz. cbn [app] in Hz.
  destruct (C45_damaged X_env Y_coll NoFilter (fun _ => True) (fun l => rev l) M None s [1%Z] (lit "pass") (zarr_for (stored (X_pass [1; 1]%Z)) cs) [0] true Y_regular Hs Y_filterable ltac:(done))
    as (u' & E & Hq); [|by eexists|done|exact Hz|left|].
  { intros l. symmetry. apply Permutation_rev. }
  assert (Hk : chunk_key (chunk_of (z_chunks (zarr_for (stored (X_pass [1; 1]%Z)) cs)) [0]) = lit "0").
  { cbn in Hl. destruct cs as [|k [|]]; try done. change (chunk_of _ _) with [0 / k]. by rewrite Nat.div_0_l by (inversion Hc; lia). }
  rewrite Hk in E, Hq. exists M, s. eexists. exists u'. split; [exact Hs|]. split; [by eexists|]. split; [by eexists|]. split; [reflexivity|]. split; [exact E|].
  intros q. rewrite Hq. cbn [andb]. destruct (bool_decide _) eqn:U; [done|]. apply bool_decide_eq_false in U. apply lookup_insert_ne. intros <-. apply U, under_app.
Qed.

(** An empty collection, with a directory called "notes" beside its files. *)
Example C45_foreign_case : let s := <[X_dir ++ [lit "notes"; lit "todo"] := CBytes []]> X_store in
  tree s /\ listed (p_len (c_part Y_coll)) s (c_dir Y_coll) (X_dir ++ [lit "notes"]) /\
  exec (validate_partitions X_env id Y_coll NoFilter true) s = (Raise ValueError, s).
Proof.
  intros s. assert (Hf : forall q, is_Some (s !! q) -> q = X_dir ++ [lit "notes"; lit "todo"] \/ q = X_dir ++ [CONFIG]).
  { intros q [x Hx]. unfold s, X_store in Hx. apply lookup_insert_Some in Hx as [[<- _]|[_ Hx]]; [by left|]. apply lookup_insert_Some in Hx as [[<- _]|[_ Hx]]; [by right|done]. }
  assert (Ht : tree s).
  { intros q Hq (a & r & x & Hx). apply (mk_is_Some _ _) in Hx. apply Hf in Hx. apply Hf in Hq as [->| ->]; destruct Hx as [Hx|Hx]; discriminate Hx. }
  assert (Hl : listed (p_len (c_part Y_coll)) s (c_dir Y_coll) (X_dir ++ [lit "notes"])).
  { exists (lit "notes"), []. assert (Hd : directory s (X_dir ++ [lit "notes"])) by (exists (lit "todo"), [], (CBytes []); apply lookup_insert).
    split; [done|]. split; [by intros [? [=]]|]. split; [exact Hd|]. left. split; [done|]. by right. }
  split; [exact Ht|]. split; [exact Hl|].
  apply (C45_foreign _ _ _ id s true _ Y_regular Ht Hl). intros k. vm_compute. discriminate.
Qed.

(** Both partitions are removed, then written again by an insertion that is
    stopped just after the group of the first one is made: validate_partitions
    raises, although a partition is invalid, and does not remove it. *)
Theorem C55_interrupted_refuted : exists e c ds scheds inner s u v, regular e c /\ stopped_at (insert e scheds inner c ds None None true) s u /\
  stands c u v /\ ~ readable (sub (part_dir c v) u) /\
  forall finish fix_, (forall l, finish l ≡ₚ l) -> exec (validate_partitions e finish c NoFilter fix_) u = (Raise KeyError, u).
Proof.
  destruct (X_again _ _ _ X_empty) as (_ & s0 & M0 & I & _ & Hs0 & HM0 & HI).
  destruct (C28_drop X_env X_coll M0 I s0 [] NoFilter None (fun _ => True) X_regular eq_refl Hs0 X_filterable ltac:(done)) as (vs & s & _ & _ & Hin & _ & _ & M & Hrem & Hs & _).
  assert (HM : M [1%Z] = None) by (apply Hrem, Hin; done).
  destruct (X_again _ _ _ Hs) as (dirs & s' & _ & _ & E & _). clear Hs0 HM0 Hin Hrem M0 s0 vs.
  destruct (first_partition X_env X_coll X_ds [1%Z] [[1%Z]; [2%Z]] None X_inner true M I s dirs s' X_regular X_declared X_insertable Hs ltac:(by left) E)
    as (part & sl & _ & _ & _ & _ & _ & Hst).
  destruct (Hst s ltac:(intros q _; reflexivity)) as [Hst' _]. clear Hst E.
  pose proof (part_nothing X_env X_coll X_regular M I s [1%Z] Hs eq_refl HM) as Hno.
  set (d := part_dir X_coll [1%Z]) in *. set (u := <[d ++ [ZGROUP] := CMeta MGroup]> s).
  assert (Hz : u !! (d ++ [ZMETADATA]) = None).
  { unfold u. rewrite lookup_insert_ne; [apply Hno; apply under_app|]. intros Eq. apply app_inv_head in Eq. discriminate. }
  assert (Hsd : stands X_coll u [1%Z]).
  { split; [reflexivity|]. exists ZGROUP, [], (CMeta MGroup). unfold u. apply lookup_insert. }
  exists X_env, X_coll, X_ds, (fun _ => []), X_inner, s, u, [1%Z]. split; [exact X_regular|]. split; [|split; [exact Hsd|split]].
  - apply Hst'. unfold insert_partition. cbv zeta. cbn [fst snd]. change (c_dir X_coll ++ key_dirs (c_part X_coll) [1%Z]) with d.
    eapply stopped_then; [apply exec_exists|].
    assert (empty_at (d ++ [ZMETADATA]) s = true) as -> by (apply empty_at_true; intros q Hq; apply Hno; by eapply under_snoc). cbn [negb].
    apply stopped_catch. eapply stopped_then; [by apply exec_init_group|]. by exists (let! piece <- Ret (ds_isel part [(c_dim X_coll, ISlice (Some (Z.of_nat sl.1)) (Some (Z.of_nat sl.2)))]); write_zarr_group d piece (Some (X_inner d))).
  - intros (m & Hm & _). rewrite sub_lookup in Hm. fold d in Hm. rewrite Hz in Hm. discriminate Hm.
  - intros finish fix_ Hp. apply (C45_missing X_env X_coll NoFilter (fun _ => True) finish u fix_ [1%Z] X_regular); [|exact X_filterable|done|exact Hp|exact Hsd|done|exact Hz].
    intros q x Hx. unfold u in Hx. destruct (decide (d ++ [ZGROUP] = c_dir X_coll ++ q)) as [Eq|N].
    + right. right. unfold d, part_dir in Eq. rewrite <-app_assoc in Eq. apply app_inv_head in Eq as <-. exists [1%Z], ZGROUP, []. split; reflexivity.
    + rewrite lookup_insert_ne in Hx by done. destruct (represents_laid_out X_coll M I s Hs q x Hx) as [(n & -> & Hn)|[?|?]]; [left|by right; left|by right; right].
      exists n. split; [done|]. intros (a & f & y & Hy). apply Hn. unfold u in Hy. destruct (decide (d ++ [ZGROUP] = (c_dir X_coll ++ [n]) ++ a :: f)) as [Eq|N'].
      * exfalso. unfold d, part_dir in Eq. rewrite <-!app_assoc in Eq. apply app_inv_head in Eq. cbn in Eq. injection Eq as <- _ _.
        destruct (rp_files _ _ _ _ Hs _ _ Hx) as [[=]|[(_ & g & [=])|(w & g & [y' Hw] & Eg)]].
        destruct (rp_part _ _ _ _ Hs _ _ Hw) as (Hl & _). destruct w as [|w0 [|]]; try done. cbn in Eg. injection Eg as Eg <-.
        assert (Hd : s !! (part_dir X_coll [w0] ++ []) = Some x).
        { rewrite app_nil_r. unfold part_dir. cbn. unfold X_dir in Hx. cbn in Hx. rewrite Eg in Hx. exact Hx. }
        destruct (rp_part _ _ _ _ Hs _ _ Hw) as (_ & _ & Hn0 & _). rewrite sub_lookup in Hn0. congruence.
      * rewrite lookup_insert_ne in Hy by done. by exists a, f, y.
Qed.
Print Assumptions C55_interrupted_refuted.

(** ** C29: read-only collections *)

Notation reading := (within (fun _ => True) (fun _ => False)).
Ltac reading_step := first
  [apply within_bind; [|intros ?]
  |by apply within_get_tree; intros; left
  |by apply within_read_file; intros; left
  |by apply within_exists; intros; left
  |exact I].
Lemma reading_select e c f : reading (select_parts e c f).
Proof. unfold select_parts. repeat reading_step. Qed.
Lemma reading_open d delayed sel : reading (open_zarr_group d delayed sel).
Proof. unfold open_zarr_group. repeat reading_step. Qed.
Lemma reading_immutable c delayed sel : reading (load_immutable c delayed sel).
Proof. unfold load_immutable. destruct (immutable_path c); [apply within_bind; [apply reading_open|done]|done]. Qed.
Lemma reading_pseq {A B} (l : list A) (f : A -> program B) : (forall a, reading (f a)) -> reading (pseq (map f l)).
Proof. intros H. apply within_pseq. intros p Hp. apply elem_of_list_In, in_map_iff in Hp as (a & <- & _). apply H. Qed.
Lemma reading_load e c delayed f sel : reading (load e c delayed f sel).
Proof.
  unfold load. apply within_bind; [apply reading_select|]. intros parts. destruct parts as [|p parts]; [done|].
  apply within_bind; [apply reading_pseq; intros; apply reading_open|]. intros arrays. apply within_bind; [apply reading_immutable|]. intros i. by apply within_bind.
Qed.
Lemma reading_load_dataset c delayed sel d : reading (load_dataset c delayed sel d).
Proof.
  unfold load_dataset. apply within_bind; [apply reading_open|]. intros ds. destruct (immutable_path c); [|done]. apply within_bind; [apply reading_open|]. by intros i.
Qed.
Lemma reading_overlap c delayed depth parts sel d : reading (load_overlap c delayed depth parts sel d).
Proof.
  unfold load_overlap. destruct (where_is d parts); [|done]. apply within_bind; [apply reading_pseq; intros; apply reading_open|]. intros groups. apply within_bind; [done|]. intros ix.
  destruct groups as [|g others]; [done|]. apply within_bind; [done|]. intros ds. apply within_bind; [|done]. destruct (immutable_path c); [|done]. apply within_bind; [apply reading_open|]. by intros p.
Qed.
Lemma reading_map {B} e c (f : callback B) delayed filt sel : reading (map_partitions e c f delayed filt sel).
Proof.
  unfold map_partitions. apply within_bind; [apply reading_select|]. intros parts. apply reading_pseq. intros d. apply within_bind; [apply reading_load_dataset|]. intros ds.
  apply within_bind; [done|]. intros k. by apply within_bind.
Qed.
Lemma reading_map_overlap {B} e c (f : callback B) delayed depth filt sel : reading (map_overlap e c f delayed depth filt sel).
Proof.
  unfold map_overlap. apply within_bind; [apply reading_select|]. intros parts. apply reading_pseq. intros d. apply within_bind; [apply reading_overlap|]. intros ds.
  apply within_bind; [done|]. intros k. by apply within_bind.
Qed.
Lemma reading_check c d : reading (check_partition c d).
Proof.
  unfold check_partition. destruct (p_parse _ _) as [|[]]; try done. apply within_bind; [|done]. unfold check_zarr_group. by apply within_bind; [apply within_get_tree; intros; left|].
Qed.
Lemma reading_validate e finish c filt : reading (validate_partitions e finish c filt false).
Proof.
  unfold validate_partitions. apply within_bind; [apply reading_select|]. intros parts. apply within_bind; [apply reading_pseq; intros; apply reading_check|]. intros checks. by apply within_bind.
Qed.
Lemma steps_outside {A} W (p p' : program A) s u : within (fun _ => True) W p -> rtc (step CTorn) (p, s) (p', u) -> forall q, ~ W q -> u !! q = s !! q.
Proof.
  intros Hw H. remember (p, s) as x eqn:Ex. remember (p', u) as y eqn:Ey. revert p s Ex Hw. induction H as [x|x [p1 s1] y H1 H2 IH]; intros p s Ex Hw q Hq; subst.
  - by injection Ex as -> ->.
  - rewrite (IH eq_refl p1 s1 eq_refl); [exact (step_outside CTorn _ W p p1 s s1 q Hw H1 Hq)|exact (step_within CTorn _ W p p1 s s1 Hw H1)|done].
Qed.
Lemma reading_stopped {A} (p : program A) s u : reading p -> stopped_at p s u -> u = s.
Proof. intros Hp [p' H]. apply map_eq. intros q. exact (steps_outside _ p p' s u Hp H q (fun x => x)). Qed.
(** The end of a call is one of the points where it may be stopped. *)
Lemma stopped_end {A} (p : program A) s r s' : exec p s = (r, s') -> stopped_at p s s'.
Proof. intros E. exists (Ret r). pose proof (exec_steps CTorn p s) as H. by rewrite E in H. Qed.

(** A collection opened without a mode, or in mode 'r', is read-only, and
    opening it writes nothing. *)
Theorem C29_opened reg d mode s : mode = None \/ mode = Some (lit "r") ->
  (forall u, stopped_at (open_collection reg d mode) s u -> u = s) /\
  (forall c s', exec (open_collection reg d mode) s = (Ok c, s') -> c_readonly c = true /\ c_dir c = d).
Proof.
  intros Hm. assert (Em : Some (default (lit "r") mode) = Some (lit "r")) by (by destruct Hm as [->| ->]).
  assert (Hro : forall axis m p c, new_collection axis m p d (Some (lit "r")) = Ok c -> c_readonly c = true /\ c_dir c = d).
  { intros axis m p c. unfold new_collection. destruct (dget _ _) as [v|]; [|done]. destruct (negb _); [done|]. cbn [default from_option id negb memb].
    destruct (negb _); [done|]. destruct (mv_dims v); [done|]. by intros [= <-]. }
  unfold open_collection, from_config. rewrite Em. split.
  - intros u. apply reading_stopped. apply within_bind; [by apply within_exists; intros; left|]. intros x. destruct (negb x); [done|].
    apply within_bind; [by apply within_read_file; intros; left|]. intros f. destruct f as [[]|]; try done. apply within_bind; [done|]. intros m. apply within_bind; [done|]. intros p.
    unfold make_collection. destruct (new_collection _ m p d _) as [c0|ex] eqn:E; [|done]. cbn [pbind]. apply Hro in E as [E _]. by rewrite E.
  - intros c0 s'. rewrite exec_bind, exec_exists. destruct (negb (negb _)); [done|]. rewrite exec_bind, exec_read_file. destruct (s !! _) as [[]|]; try done.
    rewrite exec_bind. destruct (md_from_config _) as [m|]; [|done]. cbn [exec]. rewrite exec_bind. destruct (get_codecs _ _) as [p|]; [|done]. cbn [exec].
    unfold make_collection. rewrite exec_bind. destruct (new_collection _ m p d _) as [c'|ex] eqn:E; [|done]. cbn [exec]. apply Hro in E as E'. rewrite (proj1 E'). by intros [= <- <-].
Qed.
Print Assumptions C29_opened.

(** The methods that would change a read-only collection raise. *)
Theorem C29_refused c s : c_readonly c = true ->
  (forall e scheds inner ds merge np validate, exec (insert e scheds inner c ds merge np validate) s = (Raise UnsupportedOperation, s)) /\
  (forall e sched filt older, exec (drop_partitions e sched c filt older) s = (Raise UnsupportedOperation, s)) /\
  (forall e sched workers f delayed depth filt np sel trim variables,
     exec (update e sched workers c f delayed depth filt np sel trim variables) s = (Raise UnsupportedOperation, s)) /\
  (forall e sched name, exec (drop_variable e sched c name) s = (Raise UnsupportedOperation, s)) /\
  (forall e sched sched' v, exec (add_variable e sched sched' c v) s = (Raise UnsupportedOperation, s)).
Proof.
  intros H. split_and!; intros.
  - unfold insert. by rewrite H.
  - unfold drop_partitions. by rewrite H.
  - unfold update. by rewrite H.
  - unfold drop_variable. by rewrite H.
  - unfold add_variable. by rewrite H.
Qed.
Print Assumptions C29_refused.

(** The others change no file, even if they are stopped, whatever the
    collection; validate_partitions is in this case if it does not have to fix
    the collection. *)
Theorem C29_reads e c s u :
  (forall filt, stopped_at (select_parts e c filt) s u -> u = s) /\
  (forall delayed filt sel, stopped_at (load e c delayed filt sel) s u -> u = s) /\
  (forall B (f : callback B) delayed filt sel, stopped_at (map_partitions e c f delayed filt sel) s u -> u = s) /\
  (forall B (f : callback B) delayed depth filt sel, stopped_at (map_overlap e c f delayed depth filt sel) s u -> u = s) /\
  (forall finish filt, stopped_at (validate_partitions e finish c filt false) s u -> u = s).
Proof.
  split_and!; intros; (eapply reading_stopped; [|eassumption]).
  - apply reading_select.
  - apply reading_load.
  - apply reading_map.
  - apply reading_map_overlap.
  - apply reading_validate.
Qed.
Print Assumptions C29_reads.

(** A concrete case, the collection of two partitions opened for reading: an
    insertion raises and changes nothing, and a selection lists both partitions. *)
Definition Z_coll : collection :=
  Coll (c_axis Y_coll) (c_meta Y_coll) (c_part Y_coll) (c_dir Y_coll) (c_dim Y_coll) (c_immutable Y_coll) true.
Lemma Z_regular : regular X_env Z_coll.
Proof. split; apply Y_regular. Qed.
Lemma Z_filled : exists M s, represents Z_coll M None s /\ X_contents M.
Proof. destruct Y_filled as (M & s & [H1 H2 H3] & _ & Hc). exists M, s. split; [|exact Hc]. split; [exact H1|exact H2|exact H3]. Qed.
Example C29_case : exists M s, represents Z_coll M None s /\ is_Some (M [1%Z]) /\ is_Some (M [2%Z]) /\
  exec (select_parts X_env Z_coll NoFilter) s = (Ok [part_dir Z_coll [1%Z]; part_dir Z_coll [2%Z]], s) /\
  exec (insert X_env (fun _ => []) X_inner Z_coll X_ds None None true) s = (Raise UnsupportedOperation, s).
Proof.
  destruct Z_filled as (M & s & Hs & (p1 & p2 & H1 & H2 & H3 & _)). exists M, s. split; [exact Hs|]. split; [by eexists|]. split; [by eexists|]. split.
  - destruct (select_all X_env Z_coll Z_regular M None s Hs) as (vs & Hso & Hin & E). rewrite E. repeat f_equal.
    assert (Hp : vs ≡ₚ [[1%Z]; [2%Z]]).
    { apply NoDup_Permutation; [by apply sorted_nodup_rows|repeat constructor; set_solver|]. intros v. rewrite Hin. split.
      - intros [d Hd]. destruct (decide (v = [1%Z])) as [->|N1]; [left|]. destruct (decide (v = [2%Z])) as [->|N2]; [right; left|]. rewrite H3 in Hd by done. discriminate.
      - intros [->|[->|Hv%elem_of_nil]%elem_of_cons]%elem_of_cons; [by eexists|by eexists|done]. }
    change [part_dir Z_coll [1%Z]; part_dir Z_coll [2%Z]] with (map (part_dir Z_coll) [[1%Z]; [2%Z]]). f_equal.
    apply Permutation_sym, Permutation_length_2_inv in Hp as [->| ->]; [done|]. exfalso. inversion Hso as [|? ? _ Hf]. inversion Hf as [|? ? Hlt _]. destruct Hlt as (pp & x1 & y1 & r1 & r2 & E1 & E2 & Hxy).
    destruct pp as [|? [|]]; [|done|done]. injection E1 as <- _. injection E2 as <- _. lia.
  - by apply C29_refused.
Qed.

(** The full claim, with every method, is false: validate_partitions is not
    replaced in a read-only collection, and it removes the partitions it finds
    invalid. *)
Theorem C56_validate_refuted : exists e c s s' q, regular e c /\ c_readonly c = true /\ is_Some (s !! q) /\
  exec (validate_partitions e (fun l => l) c NoFilter true) s = (Ok [part_dir c [1%Z]], s') /\ s' !! q = None.
Proof.
  destruct Z_filled as (M & s & Hs & (p1 & p2 & H1 & H2 & H3 & _ & Ht1 & Hp1 & _)).
  destruct (rp_part _ _ _ _ Hs _ _ H1) as (_ & _ & _ & Hh).
  destruct (hg_vars _ _ _ Hh (lit "pass") (stored (X_pass [1; 1]%Z))) as (_ & _ & (cs & [Hl Hc] & Hz & _) & _).
  { by rewrite dget_stored, Hp1. }
  rewrite !sub_lookup in Hz. cbn [app] in Hz.
  destruct (C45_damaged X_env Z_coll NoFilter (fun _ => True) (fun l => l) M None s [1%Z] (lit "pass") (zarr_for (stored (X_pass [1; 1]%Z)) cs) [0] true Z_regular Hs Y_filterable ltac:(done))
    as (u' & E & Hq); [|by eexists|done|exact Hz|left|]; [done|].
  do 3 eexists. exists u', (part_dir Z_coll [1%Z] ++ [ZMETADATA]). split; [exact Z_regular|]. split; [reflexivity|]. split; [|split; [exact E|]].
  - rewrite lookup_insert_ne.
    + pose proof (hg_cons _ _ _ Hh) as Hm. rewrite sub_lookup in Hm. rewrite Hm. by eexists.
    + intros Eq. apply app_inv_head in Eq. discriminate Eq.
  - rewrite Hq. cbn [andb]. rewrite bool_decide_true; [done|]. apply under_app.
Qed.
Print Assumptions C56_validate_refuted.
