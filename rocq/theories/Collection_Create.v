(** * Creating a collection; histories *)
From Verif Require Import Py Dict NdArray_Model NdArray_Spec NdArray_Proofs Dataset_Model Dataset_Spec Dataset_Proofs Dataset_Props Dataset_Props2 Meta_Model Meta_Spec Meta_Props PartPath_Model PartPath_Proofs
  Split_Model Split_Spec DaskUtils_Model FS_Model FS_Proofs Pool_Model Pool_Proofs Storage_Model Storage_Chunks Storage_Spec Storage_Proofs
  Listing_Model Listing_Spec Listing_Proofs Listing_Props Collection_Model Collection_Spec Collection_Split Collection_Proofs Collection_State Collection_Prepare Collection_Insert Collection_Select Collection_Load Collection_Round Collection_Total.

Lemma new_collection_ok axis m p d mode c : new_collection axis m p d mode = Ok c ->
  c_axis c = axis /\ c_meta c = m /\ c_part c = p /\ c_dir c = d /\ (forall n, n ∈ p_variables p -> n ∈ dkeys (md_vars m)) /\
  (exists mv, dget (md_vars m) axis = Some mv /\ head (mv_dims mv) = Some (c_dim c)) /\ c_immutable c = has_immutable m (c_dim c) /\
  (c_readonly c = true <-> default (lit "w") mode = lit "r").
Proof.
  unfold new_collection. destruct (dget (md_vars m) axis) as [mv|]; [|done]. destruct (forallb _ _) eqn:Ef; [|done]. cbn [negb].
  destruct (negb _); [done|]. destruct (mv_dims mv) as [|dim dims] eqn:Ed; [done|]. intros [= <-]. cbn. split_and!; try done.
  - intros n Hn. rewrite forallb_forall in Ef. apply elem_of_list_In, Ef in Hn. by apply dmem_true in Hn.
  - exists mv. by rewrite Ed.
  - apply bool_decide_eq_true.
Qed.
Lemma has_immutable_ok m dim : NoDup (dkeys (md_vars m)) -> has_immutable m dim = true <-> exists n mv, dget (md_vars m) n = Some mv /\ dim ∉ mv_dims mv.
Proof.
  intros Hnd. unfold has_immutable, md_select_variables_by_dims. rewrite map_length, negb_true_iff, Nat.eqb_neq. split.
  - intros H. destruct (List.filter _ _) as [|[n mv] l] eqn:E; [done|].
    assert (Hin : In (n, mv) (List.filter (fun nv : str * mvar => dims_condition [dim] false (mv_dims nv.2)) (md_vars m))) by (rewrite E; by left).
    apply filter_In in Hin as [Hin Hc]. exists n, mv. split; [apply elem_dget; [done|by apply elem_of_list_In]|]. by apply dims_condition_one.
  - intros (n & mv & Hn & Hd) H. assert (Hin : In (n, mv) (List.filter (fun nv : str * mvar => dims_condition [dim] false (mv_dims nv.2)) (md_vars m))).
    { apply filter_In. split; [by apply elem_of_list_In, dget_elem|]. by apply dims_condition_one. }
    by destruct (List.filter _ _).
Qed.

Lemma create_ok axis ds p d s c s' : creatable axis ds p -> exec (create_collection axis ds p d) s = (Ok c, s') ->
  c_axis c = axis /\ c_meta c = ds_metadata ds /\ c_part c = p /\ c_dir c = d /\ c_readonly c = false /\
  declared c /\ represents c (fun _ => None) None s' /\ s' !! (d ++ [CONFIG]) = Some (CConf (config_of c)) /\
  forall q, ~ under d q -> s' !! q = s !! q.
Proof.
  intros Hcr. unfold create_collection. rewrite exec_bind, exec_exists. destruct (empty_at d s) eqn:Ee; [|done]. cbn [negb].
  unfold make_collection. rewrite exec_bind. destruct (new_collection _ _ _ _ _) as [c0|] eqn:En; [|done]. cbn [exec].
  apply new_collection_ok in En as (E1 & E2 & E3 & E4 & Hkeys & (mv & Hmv & Hhd) & Him & Hro).
  assert (Hw : c_readonly c0 = false).
  { destruct (c_readonly c0) eqn:Er; [|done]. exfalso. by apply proj1 in Hro; specialize (Hro eq_refl). }
  rewrite Hw. rewrite exec_bind. unfold write_config. rewrite exec_bind, exec_exists, E4.
  assert (Hno : nothing_at d s) by (by apply nothing_empty).
  rewrite (proj1 (nothing_empty (d ++ [CONFIG]) s)).
  2:{ intros q (t & ->). apply Hno. rewrite <-app_assoc. apply under_app. }
  cbn [negb andb]. rewrite exec_write. cbn [exec pret]. intros [= <- <-].
  destruct Hcr as [[Hst Hnr] Hck Hca]. pose proof (storable_proper _ Hst) as Hp.
  destruct (C17_of_dataset ds) as (G1 & G2 & G3 & G4 & G5); [|apply Hp..|].
  { intros k v Hv. by apply (proper_consistent _ Hp) in Hv as [? _]. }
  assert (Hnd : NoDup (dkeys (md_vars (ds_metadata ds)))) by apply C17_well_formed.
  assert (Hv : forall n mv, dget (md_vars (ds_metadata ds)) n = Some mv -> exists v, dget (d_vars ds) n = Some v /\ mv_dims mv = v_dims v /\ mv_name mv = n).
  { intros n mv0 Hn. rewrite G5 in Hn. destruct (dget (d_vars ds) n) as [v|]; [|done]. injection Hn as <-. by exists v. }
  destruct (Hv _ _ Hmv) as (a & Ha & Hda & _). rewrite Hda in Hhd.
  split_and!; try done.
  - split; rewrite ?E2, ?E1, ?E3.
    + done.
    + intros n mv0 Hn. destruct (Hv _ _ Hn) as (v & Hvn & -> & ->). split_and!; [done| |].
      * apply (storable_plain _ Hst), dget_is_Some. by eexists.
      * apply Hnr, elem_dvals. exists n. by apply dget_elem.
    + rewrite G3. apply Hp.
    + rewrite G4. apply Hp.
    + exists mv. split; [done|]. rewrite Hda. destruct (v_dims a); [done|]. injection Hhd as ->. by left.
    + intros n Hn. specialize (Hkeys n Hn). apply dget_is_Some in Hkeys as [mv0 Hm0]. exists mv0. split; [done|].
      destruct (Hv _ _ Hm0) as (v & Hvn & -> & _). destruct (Hck n v a Hn Hvn Ha) as (d0 & -> & Hd0). f_equal. congruence.
    + rewrite Him. by apply has_immutable_ok.
    + rewrite Him, has_immutable_ok by done. intros (n & mv0 & Hn & Hd0). destruct (Hv _ _ Hn) as (v & Hvn & Hd1 & _). rewrite Hd1 in Hd0. by apply (Hca n v a).
  - split.
    + intros q x. rewrite E4. destruct (decide (q = [CONFIG])) as [->|N]; [by left|]. rewrite lookup_insert_ne by (intros H; by apply app_inv_head in H).
      rewrite (Hno _ (under_app _ _)). done.
    + done.
    + done.
  - by rewrite lookup_insert.
  - intros q Hq. rewrite lookup_insert_ne; [done|]. intros <-. apply Hq, under_app.
Qed.

(** ** Histories *)
Section history.
  Context (e : env) (c : collection) (Hr : regular e c) (Hc : declared c).

  Lemma call_spec x M I s r s' : allowed e c x -> represents c M I s -> exec (run_call e c x) s = (r, s') ->
    exists M' I', represents c M' I' s' /\ effect c x r M M' /\ (forall q, ~ under (c_dir c) q \/ q = c_dir c ++ [CONFIG] -> s' !! q = s !! q) /\
      (forall i, I = Some i -> I' = Some i) /\
      match x, r with
      | Insert ds _ _ _ _ _ _, Ok _ => kept c ds I I'
      | Insert ds _ _ _ _ _ _, Raise _ => I' = I /\ (forall v, M' v = M v) \/ kept c ds I I'
      | Drop _ _ _, _ => I' = I
      end.
  Proof.
    intros Hal Hs E. destruct x as [ds rows merge np validate scheds inner|f older sched]; cbn [run_call allowed] in *.
    - destruct (insert_spec e c Hr Hc ds rows merge Hal M I s scheds inner np validate r s' Hs E) as (M' & I' & H1 & H2 & H3).
      exists M', I'. destruct r as [dirs|ex]; cbn [effect].
      + destruct H3 as (H3 & Hk & _). split_and!; [done..| |done]. intros i ->. exact Hk.
      + destruct H3 as (H3 & Hk). split_and!; [done..| |done]. intros i ->. destruct Hk as [[-> _]|Hk]; [done|exact Hk].
    - pose proof (drop_spec e c Hr M I s sched f older r s' Hs E) as H. destruct r as [dirs|ex]; cbn [effect].
      + destruct H as (vs & -> & H2 & H3 & H4 & H5). exists (without M vs), I. split_and!; try done.
        * exists vs. split_and!; try done.
          -- intros v Hv. pose proof (H2 v Hv) as Hsome. split; [done|]. destruct Hsome as [d Hd]. by apply (rp_part _ _ _ _ Hs) in Hd as [? _].
          -- intros v. unfold without. split; intros Hv; [by rewrite decide_True|by rewrite decide_False].
          -- intros Hfi P HP. destruct (drop_filter e c Hr M I s sched f older P) as (vs' & s2 & E' & Hin); try done.
             { unfold drop_partitions in E. by destruct (c_readonly c). }
             assert (Heq : map (part_dir c) vs' = map (part_dir c) vs) by congruence.
             assert (Hl : forall v, is_Some (M v) -> length v = length (p_keys (c_part c))).
             { intros v [d Hd]. by apply (rp_part _ _ _ _ Hs) in Hd as [? _]. }
             assert (Hinj : forall a b, is_Some (M a) -> is_Some (M b) -> part_dir c a = part_dir c b -> a = b).
             { intros a b Ha Hb Hab. destruct (decide (a = b)) as [|N]; [done|]. exfalso.
               apply (parts_apart c a b (Hl a Ha) (Hl b Hb) N (part_dir c a)); [exists []; by rewrite app_nil_r|rewrite Hab; exists []; by rewrite app_nil_r]. }
             intros v. rewrite <-Hin. split; intros Hv.
             ++ assert (Hd : part_dir c v ∈ map (part_dir c) vs') by (rewrite Heq; by apply elem_of_list_In, in_map, elem_of_list_In).
                apply elem_of_list_In, in_map_iff in Hd as (w & Hw & Hw'). apply elem_of_list_In in Hw'.
                assert (w = v) as <-; [|done]. apply Hinj; [by apply Hin|by apply H2|done].
             ++ assert (Hd : part_dir c v ∈ map (part_dir c) vs) by (rewrite <-Heq; by apply elem_of_list_In, in_map, elem_of_list_In).
                apply elem_of_list_In, in_map_iff in Hd as (w & Hw & Hw'). apply elem_of_list_In in Hw'.
                assert (w = v) as <-; [|done]. apply Hinj; [by apply H2|by apply Hin|done].
        * intros q Hq. apply H5. intros (v & Hv & U). apply H2 in Hv as [d Hd]. apply (rp_part _ _ _ _ Hs) in Hd as [Hl _].
          destruct U as (t & ->). destruct Hq as [Hq|Hq].
          -- apply Hq. unfold part_dir. rewrite <-app_assoc. apply under_app.
          -- unfold part_dir in Hq. rewrite <-app_assoc in Hq. apply app_inv_head in Hq. destruct (key_head e c Hr v Hl) as (a & r0 & Ea & Ha & Hd').
             rewrite Ea in Hq. injection Hq as -> _. done.
      + subst s'. exists M, I. by split_and!.
  Qed.
  Lemma calls_spec h : forall M I s rs s', Forall (allowed e c) h -> represents c M I s -> run_calls e c h s = (rs, s') ->
    exists M' I', represents c M' I' s' /\ explains c h rs M M' /\ (forall q, ~ under (c_dir c) q \/ q = c_dir c ++ [CONFIG] -> s' !! q = s !! q) /\
      (forall i, I = Some i -> I' = Some i).
  Proof.
    induction h as [|x h IH]; intros M I s rs s' Hal Hs E; cbn [run_calls] in E.
    - injection E as <- <-. exists M, I. split_and!; try done. constructor.
    - inversion Hal as [|? ? Hx Hal']; subst. destruct (exec (run_call e c x) s) as [r s1] eqn:E1. destruct (run_calls e c h s1) as [rs1 s2] eqn:E2. injection E as <- <-.
      destruct (call_spec x M I s r s1 Hx Hs E1) as (M1 & I1 & H1 & H2 & H3 & H4 & _).
      destruct (IH M1 I1 s1 rs1 s2 Hal' H1 E2) as (M2 & I2 & K1 & K2 & K3 & K4). exists M2, I2. split_and!; [done|by econstructor| |].
      + intros q Hq. by rewrite K3, H3.
      + intros i Hi. by apply K4, H4.
  Qed.

  Lemma explains_untouched h : forall rs M M' v, explains c h rs M M' ->
    (forall i x r, h !! i = Some x -> rs !! i = Some r -> ~ touches c x r v) -> M' v = M v.
  Proof.
    induction h as [|x h IH]; intros rs M M' v Hex Hno; inversion Hex as [|? ? r rs' ? M1 ? Heff Hex']; subst; [done|].
    rewrite (IH rs' M1 M' v Hex'); [|intros i y r' Hi Hj; apply (Hno (S i)); done].
    assert (Hn : ~ touches c x r v) by (by apply (Hno 0)). destruct x as [ds rows merge np va sch inn|f older sch]; cbn [touches effect] in *.
    - destruct r as [dirs|ex].
      + destruct Heff as (part & _ & H). by apply H.
      + destruct (Heff v) as [?|[? _]]; done.
    - destruct r as [dirs|ex]; [|done]. destruct Heff as (vs & -> & _ & H & _). apply H. intros Hin. apply Hn. eexists. split; [done|].
      by apply elem_of_list_In, in_map, elem_of_list_In.
  Qed.
  Lemma explains_app h1 : forall h2 rs1 rs2 M M', length h1 = length rs1 -> explains c (h1 ++ h2) (rs1 ++ rs2) M M' ->
    exists M1, explains c h1 rs1 M M1 /\ explains c h2 rs2 M1 M'.
  Proof.
    induction h1 as [|x h1 IH]; intros h2 [|r rs1] rs2 M M' Hl Hex; try done.
    - exists M. split; [constructor|done].
    - cbn in Hex. inversion Hex as [|? ? ? ? ? M1 ? Heff Hex']; subst. cbn in Hl. destruct (IH h2 rs1 rs2 M1 M') as (M2 & A & B); [lia|done|].
      exists M2. split; [by econstructor|done].
  Qed.

  (** ** Schedules *)
  Lemma insert_schedules ds rows merge np validate M I s scheds inner scheds' inner' : insertable e c ds rows merge -> represents c M I s ->
    exec (insert e scheds inner c ds merge np validate) s = exec (insert e scheds' inner' c ds merge np validate) s.
  Proof.
    intros Hi Hs. unfold insert. destruct (c_readonly c); [done|]. rewrite !exec_bind.
    destruct (prepare c ds validate) as [out|ex] eqn:Ep; cbn [exec]; [|done]. rewrite !exec_bind.
    destruct (exec_insert_immutable e c Hr Hc ds (in_sound _ _ _ _ _ Hi) (in_conforms _ _ _ _ _ Hi) M I s validate out Ep Hs)
      as (part & I' & s1 & E & Hp & Hf & Hs1 & Hout & HI). rewrite E. rewrite !exec_bind.
    destruct (split_dataset (c_part c) part) as [parts|ex] eqn:Es; cbn [exec]; [|done].
    rewrite !exec_bind. destruct (batches_of parts np) as [bs|ex] eqn:Eb; cbn [exec]; [|done].
    destruct (part_rows e c Hr Hc ds rows merge Hi part Hp Hf) as [Hrk Hn].
    destruct (split_sound _ _ _ _ (rg_keys _ _ Hr) Hrk (in_size _ _ _ _ _ Hi) Es) as (kparts & -> & Hk & Hlz).
    apply batches_concat in Eb as [Ec Hne]. apply concat_map_inv in Ec as (kbs & -> & Ec).
    assert (Hfit : fit e c (length rows) (concat kbs)) by (rewrite Ec; by eapply kparts_fit).
    rewrite !exec_bind.
    pose proof (exec_batches e c Hr part (length rows) merge Hp Hn (in_merge _ _ _ _ _ Hi) I' scheds inner kbs M s1 (fun i => i) Hs1 Hfit) as H1.
    pose proof (exec_batches e c Hr part (length rows) merge Hp Hn (in_merge _ _ _ _ _ Hi) I' scheds' inner' kbs M s1 (fun i => i) Hs1 Hfit) as H2.
    match goal with |- match exec ?p s1 with _ => _ end = match exec ?p' s1 with _ => _ end =>
      replace (exec p s1) with (run_batches c part merge s1 kbs) by (symmetry; exact H1); replace (exec p' s1) with (run_batches c part merge s1 kbs) by (symmetry; exact H2) end.
    done.
  Qed.
  Lemma insert_batches ds rows merge np np' validate M I s scheds inner scheds' inner' dirs s' : insertable e c ds rows merge -> represents c M I s ->
    (forall k, np' = Some k -> (1 <= k)%Z) ->
    exec (insert e scheds inner c ds merge np validate) s = (Ok dirs, s') ->
    exec (insert e scheds' inner' c ds merge np' validate) s = (Ok dirs, s').
  Proof.
    intros Hi Hs Hnp'. unfold insert. destruct (c_readonly c); [done|]. rewrite !exec_bind.
    destruct (prepare c ds validate) as [out|ex] eqn:Ep; cbn [exec]; [|done]. rewrite !exec_bind.
    destruct (exec_insert_immutable e c Hr Hc ds (in_sound _ _ _ _ _ Hi) (in_conforms _ _ _ _ _ Hi) M I s validate out Ep Hs)
      as (part & I' & s1 & E & Hp & Hf & Hs1 & Hout & HI). rewrite E. rewrite !exec_bind.
    destruct (split_dataset (c_part c) part) as [parts|ex] eqn:Es; cbn [exec]; [|done].
    rewrite !exec_bind. destruct (batches_of parts np) as [bs|ex] eqn:Eb; cbn [exec]; [|done].
    destruct (part_rows e c Hr Hc ds rows merge Hi part Hp Hf) as [Hrk Hn].
    destruct (split_sound _ _ _ _ (rg_keys _ _ Hr) Hrk (in_size _ _ _ _ _ Hi) Es) as (kparts & -> & Hk & Hlz).
    apply batches_concat in Eb as [Ec Hne]. apply concat_map_inv in Ec as (kbs & -> & Ec).
    destruct (batches_total _ np' Hne Hnp') as [bs' Eb']. rewrite Eb'. cbn [exec].
    apply batches_concat in Eb' as [Ec' _]. apply concat_map_inv in Ec' as (kbs' & -> & Ec').
    pose proof (kparts_fit e c ds rows merge Hi part kparts Hp Hf Hk) as Hfit.
    assert (Hfit1 : fit e c (length rows) (concat kbs)) by (by rewrite Ec). assert (Hfit2 : fit e c (length rows) (concat kbs')) by (by rewrite Ec').
    rewrite !exec_bind.
    pose proof (exec_batches e c Hr part (length rows) merge Hp Hn (in_merge _ _ _ _ _ Hi) I' scheds inner kbs M s1 (fun i => i) Hs1 Hfit1) as H1.
    pose proof (exec_batches e c Hr part (length rows) merge Hp Hn (in_merge _ _ _ _ _ Hi) I' scheds' inner' kbs' M s1 (fun i => i) Hs1 Hfit2) as H2.
    match goal with |- match exec ?p s1 with _ => _ end = _ -> match exec ?p' s1 with _ => _ end = _ =>
      replace (exec p s1) with (run_batches c part merge s1 kbs) by (symmetry; exact H1); replace (exec p' s1) with (run_batches c part merge s1 kbs') by (symmetry; exact H2) end.
    destruct (run_batches_spec e c part (length rows) merge kbs s1 Hfit1) as (k & E2 & E1).
    destruct (run_batches c part merge s1 kbs) as [[u|ex] s2] eqn:Er; [|done]. cbn [fst snd] in *. destruct E1 as [Et Hok].
    rewrite (run_batches_ok e c part (length rows) merge kbs' s1 Hfit2); [|rewrite Ec'; intros ks Hks; apply Hok; by rewrite Ec].
    rewrite Et, Ec in E2. rewrite Ec', <-E2. done.
  Qed.
  Lemma drop_schedules f older sched sched' M I s : represents c M I s ->
    exec (drop_partitions e sched c f older) s = exec (drop_partitions e sched' c f older) s.
  Proof.
    intros Hs. unfold drop_partitions. destruct (c_readonly c); [done|]. rewrite !exec_bind.
    destruct (select_any e c Hr M I s f Hs) as (vss & H1 & H2 & _ & ->).
    destruct (filter_res _ _) as [l|ex] eqn:Ef; [|done]. apply filter_res_sub in Ef as (g & -> & _). rewrite filter_map.
    set (vs := List.filter (fun x => g (part_dir c x)) vss). destruct (map (part_dir c) vs) as [|x l] eqn:Em; [done|]. rewrite <-Em.
    set (vs' := match older with None => vs | Some o => List.filter (fun v => o (part_dir c v)) vs end).
    assert (E : match older with None => map (part_dir c) vs | Some o => List.filter o (map (part_dir c) vs) end = map (part_dir c) vs').
    { subst vs'. destruct older; [by rewrite filter_map|done]. }
    rewrite E, !exec_bind.
    assert (Hnd : NoDup vs').
    { apply sorted_nodup_rows. subst vs'. destruct older; [apply sorted_filter|]; by apply sorted_filter. }
    assert (Hv : forall v, v ∈ vs' -> is_Some (M v)).
    { intros v Hv. apply H2. assert (v ∈ vs) as Hv'.
      - subst vs'. destruct older; [|done]. apply elem_of_list_In, filter_In in Hv as [Hv _]. by apply elem_of_list_In.
      - subst vs. apply elem_of_list_In, filter_In in Hv' as [Hv' _]. by apply elem_of_list_In. }
    rewrite !(exec_rm_all e c Hr M I s) by done. done.
  Qed.
  Lemma calls_schedules h h' : forall M I s, Forall (allowed e c) h -> Forall2 same_call h h' -> represents c M I s ->
    run_calls e c h s = run_calls e c h' s.
  Proof.
    intros M I s Hal Hsame. revert M I s. induction Hsame as [|x y h h' Hxy _ IH]; intros M I s Hs; [done|]. inversion Hal as [|? ? Hx Hal']; subst.
    cbn [run_calls]. assert (E : exec (run_call e c y) s = exec (run_call e c x) s).
    { destruct x as [ds rows m np va sc inn|f o sc], y as [ds' rows' m' np' va' sc' inn'|f' o' sc']; cbn in Hxy; try done.
      - destruct Hxy as (-> & -> & -> & -> & ->). by apply (insert_schedules ds rows m np va M I).
      - destruct Hxy as (-> & ->). by apply (drop_schedules f o sc' sc M I). }
    rewrite E. destruct (exec (run_call e c x) s) as [r s1] eqn:E1. destruct (call_spec x M I s r s1 Hx Hs E1) as (M1 & I1 & H1 & _).
    by rewrite (IH Hal' M1 I1 s1 H1).
  Qed.
End history.
