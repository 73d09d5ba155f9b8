(** * Loading a collection *)
From Verif Require Import Py Dict NdArray_Model NdArray_Spec NdArray_Proofs Dataset_Model Dataset_Spec Dataset_Proofs Dataset_Concat Dataset_Main Dataset_Props2 Assemble_Spec Assemble_Proofs Meta_Model Meta_Spec Meta_Props Calendar_Model PartPath_Model Split_Spec FS_Model FS_Proofs Pool_Model Storage_Model Storage_Spec Storage_Chunks Storage_Proofs Listing_Model Listing_Spec Listing_Props Collection_Model Collection_Spec Collection_Proofs Collection_State Collection_Select.

Lemma exec_pseq_pure {A : Type} (l : list (program A)) (s : store) (xs : list A) :
  Forall2 (fun p x => exec p s = (Ok x, s)) l xs -> exec (pseq l) s = (Ok xs, s).
Proof.
  induction 1 as [|p x l xs E _ IH]; [done|]. cbn [pseq]. rewrite exec_bind, E, exec_bind, IH. done.
Qed.

(** ** What is read of a group *)
Definition opens (delayed : bool) (sel : option (list str)) (ds o : dataset) : Prop :=
  reads_as delayed sel ds o /\ invariant o /\
  forall d m, dget (d_dims o) d = Some m -> exists n v k, dget (d_vars ds) n = Some v /\ v_dims v !! k = Some d /\ v_shape v !! k = Some m.

Lemma open_opens d s ds delayed sel : sound ds -> holds_dataset (sub d s) ds ->
  exists o, exec (open_zarr_group d delayed sel) s = (Ok o, s) /\ opens delayed sel ds o.
Proof.
  intros Hso Hh. destruct (holds_reads _ _ delayed sel Hso Hh) as (o & E & Hrd). exists o. split.
  { unfold open_zarr_group. rewrite exec_bind, exec_get_tree. cbn [exec]. by rewrite E. }
  split; [done|]. split.
  { unfold read_group in E. destruct (read_cons _) as [m|]; [|done]. cbn [rbind] in E. destruct (traverse _ _); [|done]. cbn [rbind] in E. by apply new_dataset_invariant in E. }
  destruct Hso as [Hs _]. pose proof (storable_proper _ Hs) as Hp.
  set (used := mjoin (map v_dims (dvals (d_vars ds)))).
  destruct Hh as [_ H].
  destruct (read_group_ok _ _ _ delayed sel (fun d => if decide (d ∈ used) then dget (d_dims ds) d else None) H) as (o' & E' & _ & _ & _ & _ & Hd & _).
  - intros n v Ev k d' Hk. destruct (agree_stored ds (proper_consistent _ Hp) n v Ev k d' Hk) as (m & H1 & H2). exists m. split; [done|].
    rewrite decide_True; [done|]. unfold used. apply elem_of_list_join.
    rewrite dget_stored in Ev.
    destruct (dget (d_vars ds) n) as [v0|] eqn:E0; [|done]. injection Ev as <-. exists (v_dims v0). split; [by eapply elem_of_list_lookup_2|].
    apply elem_of_list_In, in_map_iff. exists v0. split; [done|]. apply elem_of_list_In, elem_dvals. exists n. by apply dget_elem.
  - intros n v Ev. rewrite dget_stored in Ev.
    destruct (dget (d_vars ds) n) as [v0|] eqn:E0; [|done]. injection Ev as <-. change (arr_wf (v_array v0)). apply (proper_arrays _ Hp). apply elem_dvals. exists n. by apply dget_elem.
  - assert (o' = o) as -> by congruence. intros d' m Hm. apply Hd in Hm. destruct (decide (d' ∈ used)) as [Hu|]; [|done].
    unfold used in Hu. apply elem_of_list_join in Hu as (dims & Hin & Hv). apply elem_of_list_In, in_map_iff in Hv as (v & <- & Hv). apply elem_of_list_In, elem_dvals in Hv as [n Hv].
    apply (elem_dget _ _ _ (proper_names _ Hp)) in Hv. apply elem_of_list_lookup_1 in Hin as [k Hk].
    destruct (proper_consistent _ Hp _ _ Hv) as (_ & _ & Hs'). destruct (Hs' _ _ Hk) as (m' & H1 & H2). exists n, v, k. assert (m = m') as -> by congruence. done.
Qed.
Lemma opens_no_repeat delayed sel ds o : sound ds -> opens delayed sel ds o -> no_repeat o.
Proof.
  intros [_ Hn] [Hrd _] v Hv. apply elem_dvals in Hv as [n Hv]. apply (elem_dget _ _ _ (proper_names _ (reads_proper _ _ _ _ Hrd))) in Hv.
  apply (reads_vars _ _ _ _ Hrd) in Hv as (_ & v0 & E & ->). apply (Hn v0). apply elem_dvals. exists n. by apply dget_elem.
Qed.
Lemma opens_compatible delayed sel dim a b oa ob : same_layout dim a b -> opens delayed sel a oa -> opens delayed sel b ob -> compatible dim oa ob.
Proof.
  intros [Hn Hl] [Ha _] [Hb _]. split; [by rewrite (reads_delayed _ _ _ _ Ha), (reads_delayed _ _ _ _ Hb)|].
  intros n v Ev. apply (reads_vars _ _ _ _ Ha) in Ev as (Hw & v0 & E0 & ->).
  assert (exists w0, dget (d_vars b) n = Some w0) as [w0 W0].
  { apply dget_is_Some, Hn, dget_is_Some. by eexists. }
  destruct (Hl _ _ _ E0 W0) as (H1 & H2 & H3). exists (with_delayed (stored w0) delayed). split_and!; try done.
  apply (reads_vars _ _ _ _ Hb). split; [done|]. by exists w0.
Qed.
Lemma opens_records delayed sel dim n : forall ps os rss, Forall2 (opens delayed sel) ps os -> records_in dim n os rss -> records_in dim n ps rss.
Proof.
  intros ps os rss Hop. revert rss. induction Hop as [|p o ps os Ho _ IH]; intros rss H; inversion H as [|? rs ? rss' Hd Hr]; subst; constructor; [|by apply IH].
  destruct Hd as (v & Ev & Er). destruct Ho as [Hrd _]. apply (reads_vars _ _ _ _ Hrd) in Ev as (_ & v0 & E0 & ->). by exists v0.
Qed.

Section gather.
  Context (delayed : bool) (sel : option (list str)) (dim : str).
  Lemma gather_parts p ps o os : Forall sound (p :: ps) -> Forall (same_layout dim p) ps -> Forall2 (opens delayed sel) (p :: ps) (o :: os) ->
    exists ds, (match os with [] => Ok o | _ => ds_concat o os dim end) = Ok ds /\ proper ds /\ invariant ds /\ d_delayed ds = delayed /\
      (forall n, n ∈ dkeys (d_vars ds) <-> wanted sel n /\ n ∈ dkeys (d_vars p)) /\
      (forall n v', dget (d_vars ds) n = Some v' -> exists v, dget (d_vars p) n = Some v /\ same_but_records dim (with_delayed (stored v) delayed) v' /\
         (dim ∈ v_dims v -> exists rss, records_in dim n (p :: ps) rss /\ records v' dim = Some (mjoin rss))) /\
      (forall d m, d <> dim -> dget (d_dims ds) d = Some m -> exists n v k, dget (d_vars p) n = Some v /\ v_dims v !! k = Some d /\ v_shape v !! k = Some m).
  Proof.
    intros Hso Hla Hop. inversion Hop as [|? ? ? ? Ho Hos]; subst. inversion Hso as [|? ? Hp Hps]; subst.
    assert (Hkeys : forall n, n ∈ dkeys (d_vars o) <-> wanted sel n /\ n ∈ dkeys (d_vars p)).
    { intros n. rewrite <-!dget_is_Some. destruct Ho as [Hrd _]. split.
      - intros [v Ev]. apply (reads_vars _ _ _ _ Hrd) in Ev as (Hw & v0 & E & _). split; [done|by eexists].
      - intros [Hw [v0 E]]. eexists. apply (reads_vars _ _ _ _ Hrd). split; [done|]. by exists v0. }
    assert (Hrec : forall v, dim ∈ v_dims v -> exists rs, records v dim = Some rs).
    { intros v Hin. rewrite records_index. destruct (index_of dim (v_dims v)) eqn:E; [by eexists|]. exfalso. by apply index_of_None in E. }
    destruct os as [|o' os].
    - inversion Hos; subst. exists o. destruct Ho as (Hrd & Hinv & Hdim). split_and!; [done|apply Hrd|done|apply Hrd|done| |].
      + intros n v' Ev. apply (reads_vars _ _ _ _ Hrd) in Ev as (Hw & v0 & E & ->). exists v0. split_and!; [done|apply same_but_refl|].
        intros Hin. destruct (Hrec v0 Hin) as [rs Hrs]. exists [rs]. split; [|cbn; by rewrite app_nil_r].
        constructor; [|constructor]. by exists v0.
      + intros d m _ Hm. by apply Hdim.
    - destruct (concat_spec o (o' :: os) dim) as (ds & E & Hpr & Hnr & Hrel & _ & Hd).
      + done.
      + apply Ho.
      + by apply (opens_no_repeat delayed sel p).
      + intros x Hx. apply elem_of_list_lookup_1 in Hx as [i Hi]. destruct (Forall2_lookup_r _ _ _ _ _ Hos Hi) as (q & Hq & Hqx).
        split; [apply Hqx|]. eapply opens_compatible; [|done|done]. rewrite Forall_forall in Hla. apply Hla. by eapply elem_of_list_lookup_2.
      + exists ds. split_and!; [done|done| | | | |].
        * unfold ds_concat in E. destruct (_ =? 0); [done|]. destruct (negb _); [done|]. destruct (traverse _ _); [|done]. cbn [rbind] in E. by apply new_dataset_invariant in E.
        * destruct Hrel as (_ & _ & _ & _ & ->). apply Ho.
        * intros n. rewrite <-Hkeys, <-!dget_is_Some. destruct (related_get _ _ _ n Hrel) as [R1 R2]. split.
          -- intros [v' Ev]. destruct (R2 _ Ev) as (v & ? & _). by eexists.
          -- intros [v Ev]. destruct (R1 _ Ev) as (v' & ? & _). by eexists.
        * intros n v' Ev. destruct (related_get _ _ _ n Hrel) as [_ R2]. destruct (R2 _ Ev) as (v & Eo & Hsb & Hrs).
          destruct Ho as [Hrd _]. apply (reads_vars _ _ _ _ Hrd) in Eo as (Hw & v0 & E0 & ->). exists v0. split_and!; [done|done|].
          intros Hin. destruct (Hrec v0 Hin) as [rs Hr0]. destruct (Hrs rs Hr0) as (rss & Hri & Hr'). exists (rs :: rss). split; [|done].
          constructor; [by exists v0|]. by apply (opens_records delayed sel dim n ps (o' :: os)).
        * intros d m Hne Hm. apply (Hd d m Hne) in Hm. destruct Ho as (_ & _ & Hdim). by apply Hdim.
  Qed.
End gather.

Lemma merge_vars_total others : forall vars, NoDup (dkeys others) -> (forall n, n ∈ dkeys vars -> n ∉ dkeys others) -> merge_vars vars others = (vars ++ others, true).
Proof.
  induction others as [|[n v] others IH]; intros vars Hnd Hno; cbn [merge_vars]; [by rewrite app_nil_r|].
  inversion Hnd as [|? ? Hn Hnd']; subst. assert (Hnv : n ∉ dkeys vars) by (intros H; apply (Hno n H); by left).
  rewrite (proj2 (dmem_false vars n)) by done. rewrite dset_new by done. rewrite IH; [by rewrite <-app_assoc|done|].
  intros m Hm Hm'. unfold dkeys in Hm. rewrite map_app in Hm. apply elem_of_app in Hm as [Hm|Hm].
  - apply (Hno m Hm). by right.
  - cbn in Hm. apply elem_of_list_singleton in Hm as ->. done.
Qed.

Section loading.
  Context (c : collection) (delayed : bool) (sel : option (list str)).
  Local Notation dim := (c_dim c).

  (** What is put together from the datasets that are read. *)
  Lemma assemble_gathers p ps imm o os oi :
    Forall sound (p :: ps) -> Forall (same_layout dim p) ps -> Forall2 (opens delayed sel) (p :: ps) (o :: os) ->
    (forall n, n ∈ dkeys (d_vars p) -> n ∈ dkeys (md_vars (c_meta c))) ->
    match imm, oi with
    | None, None => True
    | Some i, Some oi => sound i /\ opens delayed sel i oi /\ disjoint p i /\ (forall n v, dget (d_vars i) n = Some v -> dim ∉ v_dims v) /\
                         (forall n, n ∈ dkeys (d_vars i) -> n ∈ dkeys (md_vars (c_meta c)))
    | _, _ => False
    end ->
    exists out, assemble c (o :: os) oi = Ok out /\ gathered c delayed sel (p :: ps) imm out.
  Proof.
    intros Hso Hla Hop Hdec Himm.
    destruct (gather_parts delayed sel dim p ps o os Hso Hla Hop) as (ds & E & Hpr & Hinv & Hdl & Hk & Hv & Hd).
    set (ivars := match oi with Some x => d_vars x | None => [] end).
    assert (exists ds2, (match oi with None => Ok ds | Some i => of_mut (ds_merge ds i) end) = Ok ds2 /\ proper ds2 /\ d_delayed ds2 = delayed /\
              d_vars ds2 = d_vars ds ++ ivars) as (ds2 & E2 & Hpr2 & Hdl2 & Hv2).
    { destruct imm as [i|], oi as [oi|]; try done.
      2: { exists ds. subst ivars. by rewrite app_nil_r. }
      destruct Himm as (Hsi & Ho & Hdis & Hno & _). destruct Ho as (Hrd & Hio & Hod).
      assert (Hnn : forall n, n ∈ dkeys (d_vars ds) -> n ∉ dkeys (d_vars oi)).
      { intros n Hn Hn'. apply Hk in Hn as [_ Hn]. apply dget_is_Some in Hn as [v Ev]. apply dget_is_Some in Hn' as [v' Ev'].
        apply (reads_vars _ _ _ _ Hrd) in Ev' as (_ & v0 & E0 & _). by destruct (Hdis _ _ _ _ Ev E0) as [? _]. }
      assert (Em : exists ds2, ds_merge ds oi = (ds2, None) /\ d_vars ds2 = d_vars ds ++ d_vars oi /\ d_delayed ds2 = d_delayed ds /\ d_chunks ds2 = d_chunks ds /\ d_block ds2 = d_block ds).
      { unfold ds_merge. rewrite Hdl, (reads_delayed _ _ _ _ Hrd), eqb_reflx. cbn [negb].
        rewrite merge_vars_total by (done || apply (reads_proper _ _ _ _ Hrd)). cbn [negb].
        rewrite (proj2 (forallb_forall _ _)); [eexists; split; [done|]; done|].
        intros [d m] Hin. apply elem_of_list_In in Hin. cbn [fst snd d_dims with_vars]. destruct (dget (d_dims ds) d) as [m0|] eqn:E0; [|done].
        apply (elem_dget _ _ _ (proj1 (proj2 Hio))) in Hin. apply Hod in Hin as (n' & v' & k' & Ev' & Hk' & Hs').
        assert (Hdd : d <> dim). { intros ->. apply (Hno _ _ Ev'). by eapply elem_of_list_lookup_2. }
        apply (Hd _ _ Hdd) in E0 as (n & v & k & Ev & Hkk & Hs). destruct (Hdis _ _ _ _ Ev Ev') as [_ Hag].
        specialize (Hag k k' d Hkk Hk'). apply Nat.eqb_eq. congruence. }
      destruct Em as (ds2 & Em & Ev2 & Ed2 & Ec2 & Eb2). exists ds2. split_and!.
      - unfold of_mut. by rewrite Em.
      - pose proof (merge_invariant _ _ _ Em Hinv Hio) as (Hc2 & _ & Hn2). split; [done|rewrite Ec2; apply Hpr|rewrite Eb2; apply Hpr| |done].
        intros v Hin. rewrite Ev2 in Hin. unfold dvals in Hin. rewrite map_app in Hin. apply elem_of_app in Hin as [Hin|Hin].
        + by apply (proper_arrays _ Hpr).
        + by apply (proper_arrays _ (reads_proper _ _ _ _ Hrd)).
      - congruence.
      - done. }
    assert (Hkeys : forall n, n ∈ dkeys (d_vars ds2) <-> wanted sel n /\ (n ∈ dkeys (d_vars p) \/ exists i, imm = Some i /\ n ∈ dkeys (d_vars i))).
    { intros n. rewrite Hv2. unfold dkeys. rewrite map_app, elem_of_app. change (map fst ?l) with (dkeys l). rewrite Hk.
      destruct imm as [i|], oi as [oi|]; try done.
      - destruct Himm as (_ & [Hrd _] & _).
        assert (n ∈ dkeys ivars <-> wanted sel n /\ n ∈ dkeys (d_vars i)) as ->; [|naive_solver].
        subst ivars. rewrite <-!dget_is_Some. split.
        + intros [v Ev]. apply (reads_vars _ _ _ _ Hrd) in Ev as (? & v0 & ? & _). split; [done|by eexists].
        + intros [Hw [v Ev]]. eexists. apply (reads_vars _ _ _ _ Hrd). split; [done|]. by exists v.
      - subst ivars. cbn. rewrite elem_of_nil. naive_solver. }
    assert (Hdecl : forall n, n ∈ dkeys (d_vars ds2) -> n ∈ dkeys (md_vars (c_meta c))).
    { intros n Hn. apply Hkeys in Hn as (_ & [Hn|(i & -> & Hn)]); [by apply Hdec|]. destruct oi; [|done]. by apply Himm. }
    destruct (C17_fill_attrs ds2 (c_meta c) Hdecl) as (out & Ef & Ea & Edm & Ech & Ebl & Ek & Eg).
    assert (Hdo : d_delayed out = delayed).
    { unfold ds_fill_attrs in Ef. destruct (traverse _ _) as [vs|]; [|done]. cbn [rbind] in Ef. injection Ef as <-. done. }
    assert (Hget : forall n v', dget (d_vars out) n = Some v' -> exists v2 mv, dget (d_vars ds2) n = Some v2 /\ dget (md_vars (c_meta c)) n = Some mv /\ v' = with_attrs v2 (mv_attrs mv)).
    { intros n v' Ev. assert (Hn : n ∈ dkeys (d_vars ds2)) by (rewrite <-Ek; apply dget_is_Some; by eexists).
      pose proof (Hdecl n Hn) as Hm. apply dget_is_Some in Hn as [v2 E2']. apply dget_is_Some in Hm as [mv Em]. exists v2, mv. rewrite (Eg _ _ _ E2' Em) in Ev. split_and!; [done..|congruence]. }
    exists out. split.
    { unfold assemble. rewrite E. cbn [rbind]. rewrite E2. cbn [rbind]. done. }
    split.
    - intros n. rewrite Ek, Hkeys. split; (intros [? H]; split; [done|]); destruct H as [H|H].
      + left. exists p. split; [by left|done].
      + by right.
      + left. destruct H as (q & [->|Hq]%elem_of_cons & Hn); [done|]. rewrite Forall_forall in Hla. by apply (Hla q Hq).
      + by right.
    - intros n v' p' v Ev [= <-] Ep. destruct (Hget n v' Ev) as (v2 & mv & E2' & Em & ->). rewrite Hv2, dget_app in E2'.
      destruct (dget (d_vars ds) n) as [v1|] eqn:E1.
      + injection E2' as <-. destruct (Hv n v1 E1) as (v0 & E0 & Hsb & Hr). assert (v0 = v) as -> by congruence.
        exists (with_attrs (with_delayed v delayed) (mv_attrs mv)).
        destruct (decide (dim ∈ v_dims v)) as [Hin|Hni].
        * destruct (Hr Hin) as (rss & H1 & H2). exists rss. split_and!; [by exists mv| |done].
          destruct Hsb as (A1 & A2 & A3 & A4). split_and!; [by rewrite A1|done..].
        * exists []. split_and!; [by exists mv| |done]. destruct Hsb as (A1 & A2 & A3 & A4). split_and!; [by rewrite A1|done|done|].
          intros H. by rewrite (A4 H).
      + exfalso. assert (Hn : n ∈ dkeys (d_vars ds)); [|apply dget_is_Some in Hn as [? ?]; congruence].
        apply Hk. split; [|apply dget_is_Some; by eexists]. apply Hkeys. rewrite <-Ek. apply dget_is_Some. by eexists.
    - intros n v' i v Ev -> Ei. destruct oi as [oi|]; [|done]. destruct Himm as (Hsi & (Hrd & _) & Hdis & _).
      destruct (Hget n v' Ev) as (v2 & mv & E2' & Em & ->). rewrite Hv2, dget_app in E2'.
      destruct (dget (d_vars ds) n) as [v1|] eqn:E1.
      + exfalso. destruct (Hv _ _ E1) as (v0 & E0 & _). by destruct (Hdis _ _ _ _ E0 Ei) as [? _].
      + subst ivars. apply (reads_vars _ _ _ _ Hrd) in E2' as (_ & v0 & E0 & ->). assert (v0 = v) as -> by congruence. by exists mv.
    - done.
    - done.
    - split; [rewrite Ek; apply Hpr2|rewrite Ech; apply Hpr2|rewrite Ebl; apply Hpr2| |].
      + intros v Hin. apply elem_dvals in Hin as [n Hin]. apply elem_dget in Hin; [|rewrite Ek; apply Hpr2].
        destruct (Hget _ _ Hin) as (v2 & mv & E2' & _ & ->). change (arr_wf (v_array v2)). apply (proper_arrays _ Hpr2), elem_dvals. exists n. by apply dget_elem.
      + intros n v Ev. destruct (Hget _ _ Ev) as (v2 & mv & E2' & _ & ->). rewrite Hdo, Edm, <-Hdl2. exact (proper_consistent _ Hpr2 n v2 E2').
  Qed.
End loading.

Section load.
  Context (e : env) (c : collection).

  Lemma load_ok M I s f delayed sel vs parts : represents c M I s -> uniform c M I ->
    exec (select_parts e c f) s = (Ok (map (part_dir c) vs), s) -> Forall2 (fun v d => M v = Some d) vs parts -> vs <> [] ->
    exists out, exec (load e c delayed f sel) s = (Ok (Some out), s) /\ gathered c delayed sel parts (if c_immutable c then I else None) out.
  Proof.
    intros Hs Hu Es Hp Hne.
    assert (Hopen : exists os, Forall2 (fun p x => exec p s = (Ok x, s)) (map (fun q => open_zarr_group q delayed sel) (map (part_dir c) vs)) os /\
              Forall2 (opens delayed sel) parts os).
    { clear Hne Es. induction Hp as [|v d vs parts Hv _ (os & H1 & H2)]; [exists []; split; constructor|].
      destruct (rp_part _ _ _ _ Hs _ _ Hv) as (_ & Hso & Hh). destruct (open_opens _ s d delayed sel Hso Hh) as (o & E & Ho).
      exists (o :: os). split; by constructor. }
    destruct Hopen as (os & Hos & Hop).
    assert (Hli : exists oi, exec (load_immutable c delayed sel) s = (Ok oi, s) /\
       match (if c_immutable c then I else None), oi with
       | None, None => True | Some i, Some oi => sound i /\ opens delayed sel i oi | _, _ => False end).
    { unfold load_immutable, immutable_path. destruct (c_immutable c) eqn:Ec; [|by exists None].
      destruct (un_immutable _ _ _ Hu Ec) as [i Hi].
      { inversion Hp; subst; [done|]. eexists. by eexists. }
      destruct (rp_immutable _ _ _ _ Hs _ Hi) as [Hsi Hh]. destruct (open_opens _ s i delayed sel Hsi Hh) as (o & E & Ho).
      exists (Some o). rewrite Hi. split; [|done]. rewrite exec_bind, E. done. }
    destruct Hli as (oi & Eli & Hoi).
    destruct parts as [|p ps]; [inversion Hp; subst; done|]. inversion Hop as [|? o ? os' Ho Hos']; subst.
    assert (Hmem : forall q, q ∈ p :: ps -> exists v, M v = Some q).
    { intros q Hq. apply elem_of_list_lookup_1 in Hq as [i Hi]. destruct (Forall2_lookup_r _ _ _ _ _ Hp Hi) as (v & _ & ?). by exists v. }
    destruct (Hmem p) as [vp Hvp]; [by left|].
    destruct (assemble_gathers c delayed sel p ps (if c_immutable c then I else None) o os' oi) as (out & Ea & Hg).
    - apply Forall_forall. intros q Hq. destruct (Hmem q Hq) as [v Hv]. by apply (rp_part _ _ _ _ Hs) in Hv as (_ & ? & _).
    - apply Forall_forall. intros q Hq. destruct (Hmem q) as [v Hv]; [by right|]. by apply (un_layout _ _ _ Hu vp v).
    - done.
    - intros n. by apply (un_declared _ _ _ Hu vp).
    - destruct (if c_immutable c then I else None) as [i|] eqn:Ei, oi as [oi|]; try done.
      assert (EI : I = Some i) by (by destruct (c_immutable c)). destruct Hoi as [Hsi Hoi]. split_and!; [done|done| | |].
      + by apply (un_fixed _ _ _ Hu vp).
      + intros n v. by apply (un_fixed_dims _ _ _ Hu).
      + intros n. by apply (un_fixed_declared _ _ _ Hu).
    - exists out. split; [|done]. unfold load. rewrite exec_bind, Es.
      destruct vs as [|v vs]; [done|]. cbn [map]. rewrite exec_bind.
      rewrite (exec_pseq_pure _ s (o :: os')) by exact Hos. rewrite exec_bind, Eli, exec_bind. cbn [exec]. rewrite Ea. done.
  Qed.
  Lemma load_none s f delayed sel : exec (select_parts e c f) s = (Ok [], s) -> exec (load e c delayed f sel) s = (Ok None, s).
  Proof. intros E. unfold load. rewrite exec_bind, E. done. Qed.
End load.
