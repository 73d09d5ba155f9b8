(** * Reading the partitions of a view, and their neighbours *)
From Verif Require Import Py Dict NdArray_Model NdArray_Spec Dataset_Model Dataset_Spec Dataset_Proofs Dataset_Props2 Assemble_Proofs
  Meta_Model PartPath_Model PartPath_Proofs Split_Spec FS_Model FS_Proofs Pool_Model Pool_Proofs
  Storage_Model Storage_Spec Storage_Proofs
  Listing_Model Listing_Spec Listing_Proofs Collection_Model Collection_Spec Collection_Proofs Collection_State Collection_Select Collection_Load
  Update_Model Update_Spec Overlap_Proofs View_Model View_Spec View_State View_Proofs View_Sync View_Vars View_Props2 View_Load View_Props3.

(** What is read of a partition. *)
Lemma opens_seen delayed sel old o : opens delayed sel old o -> seen delayed sel None old o.
Proof.
  intros [Hro _]. split; [|apply Hro|apply Hro]. intros n w. rewrite (reads_vars _ _ _ _ Hro). split.
  - intros (Hw & v0 & E0 & ->). split; [done|]. exists v0. split; [by left|done].
  - intros (Hw & v0 & [E0|(i & ? & _)] & ->); [|done]. split; [done|]. by exists v0.
Qed.

Section read.
  Context (v : venv) (w : view) (M : list Z -> option dataset) (I : option dataset) (V : list Z -> option vpart) (s : store).
  Local Notation c := (w_ref w).
  Local Notation keys := (p_keys (c_part c)).
  Local Notation kd := (key_dirs (c_part c)).
  Local Notation dim := (c_dim c).
  Context (Hw : viewable v w) (Hs : represents c M I s) (Hu : uniform c M I) (Hmo : forall x ds, M x = Some ds -> made_of c ds) (Hv : holds_view v w V s).
  Context (Hag : forall x ds p, M x = Some ds -> V x = Some p -> agrees ds p).
  Context (delayed : bool) (sel : option (list str)) (Hcov : covers w sel).

  Local Notation data_at := (data_at M V).
  Lemma data_at_some x d : data_at x = Some d <-> exists ds p, M x = Some ds /\ V x = Some p /\ d = combined ds p.
  Proof using.
    unfold data_at. split.
    - destruct (M x) as [ds|], (V x) as [p|]; try done. intros [= <-]. by exists ds, p.
    - intros (ds & p & -> & -> & ->). done.
  Qed.
  Lemma data_at_is x : is_Some (data_at x) <-> is_Some (M x) /\ is_Some (V x).
  Proof using.
    unfold data_at. destruct (M x) as [ds|], (V x) as [p|]; split; try (by intros [? ?]); try (by intros [[? ?] [? ?]]); eauto.
  Qed.
  Lemma data_sound x d : data_at x = Some d -> length x = length keys /\ sound d /\ measured dim sel d.
  Proof using Hw Hs Hmo Hv Hag Hcov.
    intros Hd. apply data_at_some in Hd as (ds & p & HM & HV & ->). destruct (rp_part _ _ _ _ Hs _ _ HM) as (Hl & Hso & _). destruct (hw_part _ _ _ _ Hv _ _ HV) as (_ & Hk).
    pose proof (Hag _ _ _ HM HV) as Hagx. pose proof (Hmo _ _ HM) as Hm. split; [done|]. split; [by apply (combined_sound v w Hw ds p s x Hso Hm Hk Hagx)|].
    unfold measured. destruct sel as [l|].
    - destruct Hcov as [[Hno (n & Hn & Hin)]|[(n & mv & Hn & Em & Hd) _]].
      + apply (kt_same _ _ _ _ Hk) in Hin. apply dget_is_Some in Hin as [a Ha]. destruct (kt_vars _ _ _ _ Hk _ _ Ha) as (mv & Em & Hf & _).
        destruct (part_name v w Hw ds p s x (Hmo _ _ HM) Hk n a Ha) as (_ & _ & Hnone).
        exists n, (with_delayed a (d_delayed ds)). split; [done|]. split; [by rewrite part_get, Hnone, Ha|].
        destruct (vw_vars _ _ Hw _ _ Em) as (_ & _ & _ & _ & Hdim & _). change (dim ∈ v_dims a). destruct Hf as (_ & _ & -> & _). exact Hdim.
      + destruct (mo_all _ _ (Hmo _ _ HM) _ _ Em Hd) as (a & Ha & Hda). exists n, a. split; [done|]. split; [by rewrite part_get, Ha|]. by rewrite Hda.
    - destruct (mo_axis _ _ (Hmo _ _ HM)) as (a & Ha & Hda). exists (c_axis c), a. split; [done|]. split; [by rewrite part_get, Ha|]. rewrite Hda. left.
  Qed.
  Lemma data_layout x y a b : data_at x = Some a -> data_at y = Some b -> same_layout dim a b.
  Proof using Hw Hs Hu Hmo Hv Hag.
    intros Ha Hb. apply data_at_some in Ha as (ds1 & p1 & M1 & V1 & ->), Hb as (ds2 & p2 & M2 & V2 & ->).
    destruct (rp_part _ _ _ _ Hs _ _ M1) as (_ & So1 & _). destruct (rp_part _ _ _ _ Hs _ _ M2) as (_ & So2 & _).
    destruct (hw_part _ _ _ _ Hv _ _ V1) as (_ & K1). destruct (hw_part _ _ _ _ Hv _ _ V2) as (_ & K2).
    eapply combined_layout; [exact Hw|done|done|by eapply Hmo|by eapply Hmo|done|done|by eapply Hag|by eapply Hag|]. by apply (un_layout _ _ _ Hu x y).
  Qed.
  Lemma load_part_data x d : data_at x = Some d -> exists o, exec (load_part w delayed sel (zip keys x, [])) s = (Ok (o, kd x), s) /\ opens delayed sel d o.
  Proof using Hw Hs Hmo Hv Hag Hcov.
    intros Hd. apply data_at_some in Hd as (ds & p & HM & HV & ->). destruct (rp_part _ _ _ _ Hs _ _ HM) as (Hl & Hso & Hh). destruct (hw_part _ _ _ _ Hv _ _ HV) as (_ & Hk).
    by apply (load_opens v w Hw ds p s x Hso Hh (Hmo _ _ HM) Hk (Hag _ _ _ HM HV) Hl delayed sel Hcov).
  Qed.
  Lemma data_held vs : (forall x, x ∈ vs -> is_Some (data_at x)) -> exists olds, Forall2 (fun x d => data_at x = Some d) vs olds.
  Proof using.
    induction vs as [|x vs IH]; intros H; [by exists []|]. destruct (H x ltac:(left)) as [d Hd]. destruct IH as [olds Ho]; [intros y Hy; apply H; by right|].
    exists (d :: olds). by constructor.
  Qed.
  Lemma load_parts vs olds : Forall2 (fun x d => data_at x = Some d) vs olds ->
    exists os, exec (pseq (map (fun k => load_part w delayed sel (k, [])) (map (zip keys) vs))) s = (Ok (zip os (map kd vs)), s) /\ Forall2 (opens delayed sel) olds os.
  Proof using Hw Hs Hmo Hv Hag Hcov.
    intros H. assert (exists os, Forall2 (fun p x => exec p s = (Ok x, s)) (map (fun k => load_part w delayed sel (k, [])) (map (zip keys) vs)) (zip os (map kd vs)) /\ Forall2 (opens delayed sel) olds os) as (os & H1 & H2).
    { induction H as [|x d vs olds Hd _ (os & H1 & H2)]; [exists []; split; constructor|]. destruct (load_part_data x d Hd) as (o & E & Ho).
      exists (o :: os). split; cbn [map zip zip_with]; by constructor. }
    exists os. split; [by apply exec_pseq_pure|done].
  Qed.
  (** The partitions that satisfy the filters, in the order of their keys. *)
  Lemma load_list_ok f (P : list Z -> Prop) : f = NoFilter \/ filterable c -> (forall x, is_Some (M x) -> says (c_part c) f x (P x)) ->
    exists vs olds os, StronglySorted row_lt vs /\ (forall x, x ∈ vs <-> is_Some (M x) /\ is_Some (V x) /\ P x) /\ (forall x, x ∈ vs -> length x = length keys) /\
      Forall2 (fun x d => data_at x = Some d) vs olds /\ Forall2 (opens delayed sel) olds os /\
      exec (load_list v w delayed f sel) s = (Ok (zip (map (zip keys) vs) (zip os (map kd vs))), s).
  Proof using Hw Hs Hmo Hv Hag Hcov.
    intros Hf HP. destruct (exec_view_keys v w M I V s Hw Hs Hv f P Hf HP) as (vs & Sv & Hvs & Hl & _ & Ek).
    destruct (data_held vs) as [olds Ho]. { intros x Hx. apply Hvs in Hx as (? & ? & _). by apply data_at_is. }
    destruct (load_parts vs olds Ho) as (os & E & Hop). exists vs, olds, os. split; [done|]. split; [done|]. split; [done|]. split; [done|]. split; [done|].
    unfold load_list. rewrite exec_bind, Ek. rewrite exec_bind, E. done.
  Qed.

  (** The datasets of the neighbours, put together. *)
  Lemma zip_split {A B} (l1 : list A) (l2 : list B) k1 k2 x y : length l1 = length l2 -> zip (l1 ++ x :: k1) (l2 ++ y :: k2) = zip l1 l2 ++ (x, y) :: zip k1 k2.
  Proof using. intros H. by rewrite zip_with_app. Qed.
  Lemma select_overlap_ok (depth : nat) pre x post pres old posts obs o oas : NoDup (pre ++ x :: post) -> 0 < depth -> pre <> [] \/ post <> [] ->
    Forall2 (fun x d => data_at x = Some d) pre pres -> data_at x = Some old -> Forall2 (fun x d => data_at x = Some d) post posts ->
    Forall2 (opens delayed sel) pres obs -> opens delayed sel old o -> Forall2 (opens delayed sel) posts oas ->
    exists ds range, select_overlap w (Z.of_nat depth) (zip (obs ++ o :: oas) (map kd (pre ++ x :: post))) (kd x) = Ok (ds, range) /\
      seen_around dim delayed sel (drop (length pre - depth) pres) old (take depth posts) ds range.
  Proof using Hw Hs Hu Hmo Hv Hag Hcov.
    intros Hnd Hpos Htwo Hpre Hx Hpost Hob Ho Hoa.
    set (c' := Coll (c_axis c) (c_meta c) (c_part c) [] dim false false).
    assert (Hlp : length pre = length pres /\ length pres = length obs) by (split; by eapply Forall2_length).
    assert (Hlo : length post = length posts /\ length posts = length oas) by (split; by eapply Forall2_length).
    assert (Hall : Forall2 (fun x d => data_at x = Some d) (pre ++ x :: post) (pres ++ old :: posts)) by (apply Forall2_app; [done|by constructor]).
    assert (Hlen : forall y, y ∈ pre ++ x :: post -> length y = length (p_keys (c_part c'))).
    { intros y Hy. apply elem_of_list_lookup_1 in Hy as [i Hi]. destruct (Forall2_lookup_l _ _ _ _ _ Hall Hi) as (d & _ & Hd). by apply data_sound in Hd as [? _]. }
    destruct (overlap_window c' depth pre x post Hnd Hlen) as ([Hw1 _] & Hin & Hne).
    unfold select_overlap.
    assert (Esnd : map snd (zip (obs ++ o :: oas) (map kd (pre ++ x :: post))) = map (part_dir c') (pre ++ x :: post)).
    { change (map snd ?l) with (l.*2). rewrite snd_zip; [done|]. rewrite map_length, !app_length. cbn. lia. }
    rewrite Esnd. change (kd x) with (part_dir c' x). rewrite Hw1.
    assert (Ez : zip (obs ++ o :: oas) (map kd (pre ++ x :: post)) = zip obs (map kd pre) ++ (o, kd x) :: zip oas (map kd post)).
    { rewrite map_app. cbn [map]. apply zip_split. rewrite map_length. lia. }
    rewrite Ez. assert (El : length pre = length (zip obs (map kd pre))) by (rewrite zip_with_length_l; [lia|rewrite map_length; lia]). rewrite El, window_around, <-El. cbv zeta.
    set (k := length pre - depth).
    assert (Ed : drop k (zip obs (map kd pre)) = zip (drop k obs) (map kd (drop k pre))) by (change (map kd ?l) with (kd <$> l); rewrite fmap_drop; apply zip_with_drop).
    assert (Et : take depth (zip oas (map kd post)) = zip (take depth oas) (map kd (take depth post))) by (change (map kd ?l) with (kd <$> l); rewrite fmap_take; apply zip_with_take).
    rewrite Ed, Et. rewrite <-zip_split by (rewrite map_length, !drop_length; lia).
    assert (Ech : zip (drop k obs ++ o :: take depth oas) (map kd (drop k pre) ++ kd x :: map kd (take depth post)) = zip (drop k obs ++ o :: take depth oas) (map (part_dir c') (drop k pre ++ x :: take depth post))).
    { by rewrite map_app. }
    rewrite Ech. set (dirs := map (part_dir c') (drop k pre ++ x :: take depth post)). set (os := drop k obs ++ o :: take depth oas).
    assert (Hlen2 : length os = length dirs).
    { unfold os, dirs. rewrite map_length, !app_length. cbn. rewrite !drop_length, !take_length. lia. }
    assert (Hf : map fst (zip os dirs) = os) by (change (map fst ?l) with (l.*1); rewrite fst_zip; [done|lia]).
    assert (Hsw : map (fun dq : dataset * path => (dq.2, dq.1)) (zip os dirs) = zip dirs os).
    { clearbody os dirs. clear. revert dirs. induction os as [|a os IH]; intros [|b dirs]; try done. cbn. f_equal. apply IH. }
    assert (Hsub : Forall2 (fun x d => data_at x = Some d) (drop k pre ++ x :: take depth post) (drop k pres ++ old :: take depth posts)).
    { apply Forall2_app; [by apply Forall2_drop|constructor; [done|by apply Forall2_take]]. }
    destruct (around_ok c' delayed sel (drop k pre) x (take depth post) (drop k pres) old (take depth posts) (drop k obs) o (take depth oas)) as (ds & range & E1 & (g & others & Eg & Eds) & Hsee).
    - apply Forall_forall. intros d Hd. apply elem_of_list_lookup_1 in Hd as [i Hi]. destruct (Forall2_lookup_r _ _ _ _ _ Hsub Hi) as (y & _ & Hy). by apply data_sound in Hy as (_ & ? & _).
    - apply Forall_forall. intros d Hd. apply elem_of_list_lookup_1 in Hd as [i Hi]. destruct (Forall2_lookup_r _ _ _ _ _ Hsub Hi) as (y & _ & Hy). by apply data_sound in Hy as (_ & _ & ?).
    - intros a b Ha Hb. apply elem_of_list_lookup_1 in Ha as [i Hi], Hb as [j Hj].
      destruct (Forall2_lookup_r _ _ _ _ _ Hsub Hi) as (y & _ & Hy), (Forall2_lookup_r _ _ _ _ _ Hsub Hj) as (z & _ & Hz). by apply (data_layout y z).
    - by apply Forall2_drop.
    - done.
    - by apply Forall2_take.
    - rewrite !drop_length. lia.
    - done.
    - fold os in Eg. rewrite Hf, Eg. destruct others as [|g2 others].
      + exfalso. assert (length os = 1) by (by rewrite Eg). unfold os in H. rewrite app_length in H. cbn in H. rewrite drop_length, take_length in H. destruct Htwo as [Ht|Ht]; [destruct pre|destruct post]; try done; cbn in *; lia.
      + exists ds, range. split; [|done]. change (c_dim c) with (c_dim c'). rewrite Eds. cbn [rbind]. rewrite <-Eg, Hsw. unfold dirs, os. setoid_rewrite E1. done.
  Qed.
  (** Without neighbours, nothing is put together. *)
  Lemma select_overlap_alone (depth : nat) pre x post obs o oas : NoDup (pre ++ x :: post) -> (forall y, y ∈ pre ++ x :: post -> length y = length keys) -> depth = 0 \/ pre = [] /\ post = [] ->
    length obs = length pre -> length oas = length post ->
    select_overlap w (Z.of_nat depth) (zip (obs ++ o :: oas) (map kd (pre ++ x :: post))) (kd x) = Raise ValueError.
  Proof using.
    intros Hnd Hlen Halone Hlb Hla.
    set (c' := Coll (c_axis c) (c_meta c) (c_part c) [] dim false false).
    destruct (overlap_window c' depth pre x post Hnd Hlen) as ([Hw1 _] & _).
    unfold select_overlap.
    assert (Esnd : map snd (zip (obs ++ o :: oas) (map kd (pre ++ x :: post))) = map (part_dir c') (pre ++ x :: post)).
    { change (map snd ?l) with (l.*2). rewrite snd_zip; [done|]. rewrite map_length, !app_length. cbn. lia. }
    rewrite Esnd. change (kd x) with (part_dir c' x). rewrite Hw1.
    assert (Ez : zip (obs ++ o :: oas) (map kd (pre ++ x :: post)) = zip obs (map kd pre) ++ (o, kd x) :: zip oas (map kd post)).
    { rewrite map_app. cbn [map]. apply zip_split. rewrite map_length. lia. }
    rewrite Ez. assert (El : length pre = length (zip obs (map kd pre))) by (rewrite zip_with_length_l; [lia|rewrite map_length; lia]). rewrite El, window_around, <-El. cbv zeta.
    assert (E1 : drop (length pre - depth) (zip obs (map kd pre)) = []) by (destruct Halone as [->|[-> ->]]; [rewrite Nat.sub_0_r, El; apply drop_all|by destruct obs]).
    assert (E2 : take depth (zip oas (map kd post)) = []) by (destruct Halone as [->|[-> ->]]; [done|destruct oas; [apply take_nil|done]]).
    rewrite E1, E2. cbn [app map]. done.
  Qed.
End read.
