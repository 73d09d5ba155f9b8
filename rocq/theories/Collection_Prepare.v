(** * The dataset that an insertion stores *)
From Verif Require Import Py Dict NdArray_Model NdArray_Spec NdArray_Proofs Dataset_Model Dataset_Spec Dataset_Proofs Dataset_Props Dataset_Props2 Meta_Model Meta_Spec Meta_Props PartPath_Model PartPath_Proofs
  Split_Spec FS_Model FS_Proofs Pool_Model Pool_Proofs Storage_Model Storage_Chunks Storage_Spec Storage_Proofs
  Listing_Model Listing_Spec Listing_Proofs Collection_Model Collection_Spec Collection_Split Collection_Proofs Collection_State.

Lemma sound_new vs attrs b chunks delayed ds' : new_dataset vs attrs (Some b) chunks delayed = Ok ds' ->
  NoDup (map v_name vs) -> b <> 0%Z -> NoDup (dkeys chunks) ->
  (forall v, v ∈ vs -> arr_wf (v_array v) /\ length (v_dims v) = length (v_shape v) /\ plain_name (v_name v) /\ NoDup (v_dims v)) ->
  sound ds' /\ d_vars ds' = map (fun v => (v_name v, v)) vs /\ d_attrs ds' = attrs /\ d_chunks ds' = chunks /\ d_block ds' = b.
Proof.
  intros E Hn Hb Hc Hv. apply new_dataset_ok in E as (E1 & E2 & E3 & E4 & _ & E5). rewrite names_nodup in E1 by done.
  rewrite dict_of_id in E3 by done. unfold block_or_default in E4. rewrite (proj2 (Z.eqb_neq _ _)) in E4 by done.
  assert (Hvals : dvals (d_vars ds') = vs) by (rewrite E1; unfold dvals; rewrite map_map; cbn; apply map_id).
  split_and!; try done. split; [split|].
  - split; [|by rewrite E3|by rewrite E4| |done].
    + rewrite E1. unfold dkeys. by rewrite map_map.
    + intros v Hin. rewrite Hvals in Hin. by apply Hv.
  - intros v Hin. rewrite Hvals in Hin. by apply Hv.
  - intros k Hk. rewrite E1 in Hk. unfold dkeys in Hk. rewrite map_map in Hk.
    apply elem_of_list_In, in_map_iff in Hk as (v & <- & Hin). cbn. apply Hv. by apply elem_of_list_In.
  - intros v Hin. rewrite Hvals in Hin. by apply Hv.
Qed.

(** The variable added when it is missing. *)
Definition filler (ds : dataset) (mv : mvar) (f : val) : variable :=
  Var (mv_name mv) (d_delayed ds) (full (map (fun d => default 0 (dget (d_dims ds) d)) (mv_dims mv)) f) (mv_dtype mv) (mv_dims mv)
      (mv_attrs mv) (mv_compressor mv) (mv_fill mv) (mv_filters mv).
Definition add_missing (m : mdataset) (ds : dataset) (n : str) : res dataset :=
  match dget (md_vars m) n with Some v => ds_add_variable ds v None | None => Raise KeyError end.
Lemma add_missing_ok m ds n ds' : add_missing m ds n = Ok ds' ->
  exists mv f, dget (md_vars m) n = Some mv /\ mv_fill mv = Some f /\ (forall d, d ∈ mv_dims mv -> is_Some (dget (d_dims ds) d)) /\
    ds' = with_vars ds (dset (d_vars ds) (mv_name mv) (filler ds mv f)).
Proof.
  unfold add_missing. destruct (dget (md_vars m) n) as [mv|]; [|done]. unfold ds_add_variable.
  destruct (forallb _ (mv_dims mv)) eqn:Ef; [|done]. cbn [negb]. unfold fill_or_raise. destruct (mv_fill mv) as [f|] eqn:Em; [|done]. cbn [rbind].
  intros [= <-]. exists mv, f. split_and!; [done..| |].
  - intros d Hd. rewrite forallb_forall in Ef. apply dget_is_Some, dmem_true, Ef. by apply elem_of_list_In.
  - unfold with_vars, filler. by rewrite Em.
Qed.
Lemma add_missing_total m ds n mv f : dget (md_vars m) n = Some mv -> mv_fill mv = Some f ->
  (forall d, d ∈ mv_dims mv -> is_Some (dget (d_dims ds) d)) -> exists ds', add_missing m ds n = Ok ds'.
Proof.
  intros E Ef Hd. unfold add_missing. rewrite E. unfold ds_add_variable. rewrite (proj2 (forallb_forall _ _)).
  - cbn [negb]. rewrite Ef. cbn. eauto.
  - intros d Hin. apply dmem_true, dget_is_Some, Hd. by apply elem_of_list_In.
Qed.

Section prepare.
  Context (c : collection) (Hc : declared c).
  Local Notation m := (c_meta c).

  (** [ds'] is [ds] with the variables [names] filled. *)
  Definition grown (ds : dataset) (names : list str) (ds' : dataset) : Prop :=
    exists l, ds' = with_vars ds (d_vars ds ++ l) /\
      Forall2 (fun n nv => nv.1 = n /\ exists mv f, dget (md_vars m) n = Some mv /\ mv_fill mv = Some f /\
        (forall d, d ∈ mv_dims mv -> is_Some (dget (d_dims ds) d)) /\ nv.2 = filler ds mv f) names l.
  Lemma fold_missing names : forall ds ds', NoDup names -> (forall n, n ∈ names -> n ∉ dkeys (d_vars ds)) ->
    foldM (add_missing m) ds names = Ok ds' -> grown ds names ds'.
  Proof.
    induction names as [|n names IH]; intros ds ds' Hnd Hno H; cbn [foldM] in H.
    - injection H as <-. exists []. split; [|constructor]. rewrite app_nil_r. by destruct ds.
    - destruct (add_missing m ds n) as [ds1|] eqn:E; [|done]. cbn [rbind] in H.
      apply add_missing_ok in E as (mv & f & E1 & E2 & E3 & ->). destruct (dc_name _ Hc _ _ E1) as (En & _).
      rewrite dset_new in H by (rewrite En; apply Hno; left). inversion Hnd as [|? ? Hn Hnd']; subst.
      apply IH in H as (l & -> & Hl); [|done|].
      + exists ((mv_name mv, filler ds mv f) :: l). split; [unfold with_vars; cbn; by rewrite <-app_assoc|].
        constructor; [split; [done|]; exists mv, f; by rewrite E1|].
        eapply Forall2_impl; [exact Hl|]. intros x [k v] (? & mv' & f' & ?). split; [done|]. exists mv', f'. exact H0.
      + intros x Hx. unfold dkeys, with_vars. cbn. rewrite map_app, elem_of_app. intros [Hin|Hin].
        * apply (Hno x); [by right|done].
        * cbn in Hin. apply elem_of_list_singleton in Hin as ->. done.
  Qed.
  Lemma fold_missing_total names : forall ds, (forall n, n ∈ names -> exists mv f, dget (md_vars m) n = Some mv /\ mv_fill mv = Some f /\
      forall d, d ∈ mv_dims mv -> is_Some (dget (d_dims ds) d)) -> exists ds', foldM (add_missing m) ds names = Ok ds'.
  Proof.
    induction names as [|n names IH]; intros ds H; [by eexists|]. cbn [foldM].
    destruct (H n ltac:(left)) as (mv & f & E1 & E2 & E3). destruct (add_missing_total m ds n mv f E1 E2 E3) as [ds1 E]. rewrite E. cbn [rbind].
    apply add_missing_ok in E as (? & ? & _ & _ & _ & ->). apply IH. intros n' Hn'. apply H. by right.
  Qed.

  Lemma missing_ok ds names : sound ds -> md_missing_variables m (ds_metadata ds) = Ok names ->
    NoDup names /\ (forall n, n ∈ dkeys (d_vars ds) -> n ∈ dkeys (md_vars m)) /\
    (forall n, n ∈ names <-> n ∈ dkeys (md_vars m) /\ n ∉ dkeys (d_vars ds)).
  Proof.
    intros [Hst _] E. pose proof (storable_proper _ Hst) as Hp.
    assert (Hk : forall n, n ∈ dkeys (md_vars (ds_metadata ds)) <-> n ∈ dkeys (d_vars ds)).
    { intros n. rewrite <-!dget_is_Some. destruct (C17_of_dataset ds) as (_ & _ & _ & _ & G); [|apply Hp..|].
      - intros k v Hv. by apply (proper_consistent _ Hp) in Hv as [? _].
      - rewrite G. destruct (dget (d_vars ds) n); split; intros [? ?]; try done; by eexists. }
    unfold md_missing_variables in E. destruct (forallb _ _) eqn:Ef; [|done]. cbn in E. injection E as <-.
    rewrite forallb_forall in Ef. split_and!.
    - apply NoDup_ListNoDup, List.NoDup_filter, NoDup_ListNoDup, Hc.
    - intros n Hn. apply Hk, elem_of_list_In, Ef in Hn. by apply bool_decide_eq_true in Hn.
    - intros n. rewrite elem_of_list_In, filter_In, <-elem_of_list_In, negb_true_iff. unfold memb. rewrite bool_decide_eq_false, Hk. done.
  Qed.
  Lemma complete_ok ds ds' : sound ds -> complete c ds = Ok ds' ->
    exists names, grown ds names ds' /\ NoDup names /\ (forall n, n ∈ dkeys (d_vars ds) -> n ∈ dkeys (md_vars m)) /\
      (forall n, n ∈ names <-> n ∈ dkeys (md_vars m) /\ n ∉ dkeys (d_vars ds)).
  Proof.
    intros Hs H. unfold complete in H. destruct (md_missing_variables _ _) as [names|] eqn:E; [|done]. cbn [rbind] in H.
    apply missing_ok in E as (H1 & H2 & H3); [|done]. exists names. split_and!; try done.
    apply fold_missing; [done| |exact H]. intros n Hn. by apply H3 in Hn as [_ ?].
  Qed.

  Lemma grown_keys ds names ds' : grown ds names ds' -> dkeys (d_vars ds') = dkeys (d_vars ds) ++ names.
  Proof.
    intros (l & -> & Hl). unfold dkeys. cbn. rewrite map_app. f_equal. clear -Hl. induction Hl as [|n [k v] names l (E & _) Hl IH]; [done|].
    cbn in *. by rewrite E, IH.
  Qed.
  Lemma grown_get ds names ds' n : grown ds names ds' -> NoDup names ->
    dget (d_vars ds') n = match dget (d_vars ds) n with Some v => Some v | None =>
      if decide (n ∈ names) then match dget (md_vars m) n with Some mv => match mv_fill mv with Some f => Some (filler ds mv f) | None => None end | None => None end else None end.
  Proof.
    intros (l & -> & Hl) Hnd. cbn. rewrite dget_app. destruct (dget (d_vars ds) n) as [|] eqn:En; [done|].
    clear En. induction Hl as [|k [k' v] names l (E & mv & f & E1 & E2 & E3 & E4) Hl IH]; [done|]. cbn in E. subst k'.
    inversion Hnd as [|? ? Hno Hnd']; subst. cbn [dget]. cbn in E4. destruct (decide (n = k)) as [->|N].
    - rewrite decide_True by left. by rewrite E1, E2, E4.
    - rewrite IH by done. destruct (decide (n ∈ names)) as [Hin|Hni].
      + rewrite decide_True by (by right). done.
      + rewrite decide_False by (intros [?|?]%elem_of_cons; done). done.
  Qed.
  Lemma filler_ok ds mv f n : dget (md_vars m) n = Some mv -> mv_fill mv = Some f -> (forall d, d ∈ mv_dims mv -> is_Some (dget (d_dims ds) d)) ->
    filled ds mv (with_attrs (filler ds mv f) []) /\ sized (d_dims ds) (filler ds mv f) /\ v_delayed (filler ds mv f) = d_delayed ds /\
    arr_wf (v_array (filler ds mv f)) /\ length (v_dims (filler ds mv f)) = length (v_shape (filler ds mv f)).
  Proof.
    intros E Ef Hd. assert (Hw : arr_wf (v_array (filler ds mv f))) by apply tabulate_wf.
    assert (Hf2 : Forall2 (fun d n => dget (d_dims ds) d = Some n) (mv_dims mv) (map (fun d => default 0 (dget (d_dims ds) d)) (mv_dims mv))).
    { clear -Hd. induction (mv_dims mv) as [|d l IH]; cbn; [constructor|]. constructor.
      - destruct (Hd d ltac:(left)) as [k ->]. done.
      - apply IH. intros d' Hd'. apply Hd. by right. }
    split_and!; try done.
    - exists f. split_and!; [done|done| |done|by unfold filler; cbn; rewrite Ef].
      apply Forall_forall. intros x Hx. cbn in Hx. unfold full, tabulate in Hx. cbn in Hx.
      apply elem_of_list_In, in_map_iff in Hx as (? & <- & _). done.
    - intros k d Hk. destruct (Forall2_lookup_l _ _ _ _ _ Hf2 Hk) as (x & Hx & Hdx). exists x. split; [exact Hx|done].
    - cbn. by rewrite map_length.
  Qed.

  Lemma grown_vars ds names ds' : sound ds -> grown ds names ds' -> NoDup names -> (forall n, n ∈ names -> n ∉ dkeys (d_vars ds)) ->
    (forall n, n ∈ dkeys (d_vars ds') -> n ∈ dkeys (md_vars m)) -> conforms c ds ->
    proper ds' /\ forall v, v ∈ dvals (d_vars ds') -> length (v_dims v) = length (v_shape v) /\ plain_name (v_name v) /\ NoDup (v_dims v).
  Proof.
    intros Hs Hg Hnd Hno Hsub Hco. destruct Hs as [Hst Hnr]. pose proof (storable_proper _ Hst) as Hp.
    assert (Hnd' : NoDup (dkeys (d_vars ds'))).
    { rewrite (grown_keys _ _ _ Hg). apply NoDup_app. split_and!; [apply Hp| |done]. intros x Hx Hx'. by apply (Hno x). }
    assert (Hv : forall n v, dget (d_vars ds') n = Some v ->
      v_name v = n /\ v_delayed v = d_delayed ds /\ sized (d_dims ds) v /\ arr_wf (v_array v) /\
      length (v_dims v) = length (v_shape v) /\ NoDup (v_dims v)).
    { intros n v. rewrite (grown_get _ _ _ n Hg Hnd). destruct (dget (d_vars ds) n) as [v0|] eqn:E0.
      - intros [= <-]. assert (Hin : v0 ∈ dvals (d_vars ds)) by (eapply vals_elem; by apply dget_elem).
        destruct (proper_consistent _ Hp _ _ E0) as (? & ? & ?). split_and!; try done; [by apply Hp|by apply (storable_rank _ Hst)|by apply Hnr].
      - destruct (decide (n ∈ names)) as [Hin|]; [|done]. destruct (dget (md_vars m) n) as [mv|] eqn:Em; [|done].
        destruct (mv_fill mv) as [f|] eqn:Ef; [|done]. intros [= <-].
        destruct (dc_name _ Hc _ _ Em) as (N1 & N2 & N3).
        assert (Hd : forall d, d ∈ mv_dims mv -> is_Some (dget (d_dims ds) d)).
        { destruct Hg as (l & _ & Hl). apply elem_of_list_lookup in Hin as [i Hi].
          destruct (Forall2_lookup_l _ _ _ _ _ Hl Hi) as ([k w] & _ & _ & mv' & f' & E1 & _ & E3 & _). assert (mv' = mv) as -> by congruence. done. }
        destruct (filler_ok ds mv f n Em Ef Hd) as (_ & F1 & F2 & F3 & F4). by split_and!. }
    assert (Hvv : forall v, v ∈ dvals (d_vars ds') -> exists n, dget (d_vars ds') n = Some v).
    { intros v Hin. apply elem_dvals in Hin as [n Hin]. exists n. by apply elem_dget. }
    assert (Es : d_chunks ds' = d_chunks ds /\ d_block ds' = d_block ds /\ d_dims ds' = d_dims ds /\ d_delayed ds' = d_delayed ds)
      by (by destruct Hg as (l & -> & _)). destruct Es as (Es1 & Es2 & Es3 & Es4).
    split; [split|].
    - done.
    - rewrite Es1. apply Hp.
    - rewrite Es2. apply Hp.
    - intros v [n Hn]%Hvv. by apply Hv in Hn as (_ & _ & _ & ? & _).
    - intros n v Hn. rewrite Es3, Es4. apply Hv in Hn as (? & ? & ? & _). done.
    - intros v [n Hn]%Hvv. destruct (Hv n v Hn) as (E & _ & _ & _ & ? & ?). split_and!; [done| |done].
      rewrite E. assert (Hk : n ∈ dkeys (d_vars ds')) by (apply dget_is_Some; eauto). apply Hsub, dget_is_Some in Hk as [mv Hmv].
      by apply (dc_name _ Hc) in Hmv as (_ & ? & _).
  Qed.

  Lemma declared_some ds names ds' : grown ds names ds' -> (forall n, n ∈ dkeys (d_vars ds) -> n ∈ dkeys (md_vars m)) ->
    (forall n, n ∈ names <-> n ∈ dkeys (md_vars m) /\ n ∉ dkeys (d_vars ds)) ->
    forall n, n ∈ dkeys (d_vars ds') <-> n ∈ dkeys (md_vars m).
  Proof.
    intros Hg H1 H2 n. rewrite (grown_keys _ _ _ Hg), elem_of_app, H2. destruct (decide (n ∈ dkeys (d_vars ds))); split; try tauto.
    intros [?|[? _]]; auto.
  Qed.

  Lemma prepare_ok ds validate out : sound ds -> conforms c ds -> prepare c ds validate = Ok out ->
    sound out /\ fitted c (fun _ => True) ds out /\ d_vars out <> [] /\ (forall d n, dget (d_dims out) d = Some n -> dget (d_dims ds) d = Some n).
  Proof.
    intros Hs Hco H. unfold prepare in H. destruct (complete c ds) as [ds1|] eqn:E; [|done]. cbn [rbind] in H.
    destruct (validate && _); [done|].
    apply complete_ok in E as (names & Hg & Hnd & H1 & H2); [|done].
    assert (H3 := declared_some _ _ _ Hg H1 H2).
    destruct (grown_vars ds names ds1 Hs Hg Hnd) as (Hp1 & Hv1); [intros n Hn; by apply H2 in Hn as [_ ?]|intros n Hn; by apply H3|done|].
    assert (Hne : d_vars ds1 <> []).
    { destruct (dc_axis _ Hc) as (mv & Hmv & _). intros Enil. assert (Hin : c_axis c ∈ dkeys (d_vars ds1)) by (apply H3, dget_is_Some; eauto).
      rewrite Enil in Hin. by apply elem_of_nil in Hin. }
    destruct (C48_insertion ds1 (md_chunks m) (md_block m) Hp1 (dc_cuts _ Hc) (dc_limit _ Hc) (or_intror Hne))
      as (out' & E' & Ea & Ec & Eb & Ed & Ev).
    assert (out' = out) as -> by congruence.
    unfold ds_set_for_insertion in E'. pose proof E' as E''.
    apply sound_new in E'' as (Hso & _); [| |apply Hc|apply Hc|].
    2:{ rewrite map_map. cbn. change (fun x => v_name x) with v_name. rewrite proper_names_eq by done. apply Hp1. }
    2:{ intros v Hin. apply elem_of_list_In, in_map_iff in Hin as (v0 & <- & Hin). apply elem_of_list_In in Hin. cbn.
        destruct (Hv1 _ Hin) as (? & ? & ?). split_and!; try done. by apply Hp1. }
    assert (Hget : forall n, dget (d_vars out) n = option_map (fun v => with_attrs v []) (dget (d_vars ds1) n)).
    { intros n. rewrite Ev. clear. induction (d_vars ds1) as [|[k v] l IH]; [done|]. cbn. by destruct (decide (n = k)). }
    assert (Ed1 : d_delayed ds1 = d_delayed ds) by (by destruct Hg as (l & -> & _)).
    assert (Es1 : d_dims ds1 = d_dims ds) by (by destruct Hg as (l & -> & _)).
    split_and!; [done| | |].
    - split; try done.
      + intros n. rewrite <-dget_is_Some, Hget. transitivity (n ∈ dkeys (md_vars m)); [rewrite <-H3, <-dget_is_Some|rewrite <-dget_is_Some]; cycle 1.
        * split; [intros [mv Hmv]; by exists mv|intros (mv & Hmv & _); eauto].
        * destruct (dget (d_vars ds1) n); cbn; split; intros [? ?]; try done; by eexists.
      + intros n v v' Hv. rewrite Hget, (grown_get _ _ _ n Hg Hnd), Hv. cbn. congruence.
      + intros n mv v' Hv Hm. rewrite Hget, (grown_get _ _ _ n Hg Hnd), Hv. destruct (decide (n ∈ names)) as [Hin|]; [|done]. rewrite Hm.
        destruct (mv_fill mv) as [f|] eqn:Ef; [|done]. cbn. intros [= <-].
        apply (filler_ok ds mv f n Hm Ef).
        destruct Hg as (l & _ & Hl). apply elem_of_list_lookup in Hin as [i Hi].
        destruct (Forall2_lookup_l _ _ _ _ _ Hl Hi) as ([k w] & _ & _ & mv' & f' & E1 & _ & E3 & _). assert (mv' = mv) as -> by congruence. done.
      + by rewrite Ed, Ed1.
    - rewrite Ev. by destruct (d_vars ds1).
    - intros d k Hd.
      destruct (new_dataset_total (fun d => dget (d_dims ds1) d) (d_delayed ds1) (map (fun v => with_attrs v []) (dvals (d_vars ds1))) [] (md_block m) (md_chunks m) None)
        as (out' & Eo & _ & _ & _ & _ & _ & _ & Hsz).
      + rewrite map_map. cbn. change (fun x => v_name x) with v_name. rewrite proper_names_eq by done. apply Hp1.
      + apply Hc.
      + apply Hc.
      + intros v' Hv'. apply elem_of_list_In, in_map_iff in Hv' as (v & <- & Hv%elem_of_list_In).
        destruct (proper_sized _ _ Hp1 Hv) as (? & ? & _). done.
      + right. split; [done|]. intros Hnil. exfalso. apply Hne. unfold dvals in Hnil. by destruct (d_vars ds1).
      + assert (out' = out) as -> by congruence. rewrite <-Es1. by apply Hsz.
  Qed.
End prepare.
