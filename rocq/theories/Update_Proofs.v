(** * The update of the partitions *)
From Verif Require Import Py Dict NdArray_Model NdArray_Spec NdArray_Proofs Dataset_Model Dataset_Spec Dataset_Proofs Dataset_Props Dataset_Props2 Meta_Model PartPath_Model PartPath_Proofs
  Split_Spec DaskUtils_Model DaskUtils_Proofs FS_Model FS_Proofs Pool_Model Pool_Proofs Storage_Model Storage_Chunks Storage_Spec Storage_Proofs
  Listing_Model Listing_Spec Listing_Proofs Collection_Model Collection_Spec Collection_Split Collection_Proofs Collection_State Collection_Select Collection_Load
  Update_Model Update_Spec Storage_Change Update_State.

(** ** Reading one partition *)
Lemma open_pure d delayed sel s : exists r, exec (open_zarr_group d delayed sel) s = (r, s).
Proof. unfold open_zarr_group. rewrite exec_bind, exec_get_tree. cbn. by eexists. Qed.
Lemma load_dataset_pure c delayed sel q s : exists r, exec (load_dataset c delayed sel q) s = (r, s).
Proof.
  unfold load_dataset. rewrite exec_bind. destruct (open_pure q delayed sel s) as [[ds|ex] ->]; [|by eexists].
  destruct (immutable_path c) as [d|]; [|by eexists]. rewrite exec_bind. destruct (open_pure d delayed sel s) as [[i|ex] ->]; by eexists.
Qed.

(** Merging what is read of two groups whose variables differ. *)
Lemma merge_opened delayed sel p i o oi : sound p -> sound i -> disjoint p i -> opens delayed sel p o -> opens delayed sel i oi ->
  exists ds, of_mut (ds_merge o oi) = Ok ds /\ proper ds /\ d_delayed ds = delayed /\ d_vars ds = d_vars o ++ d_vars oi.
Proof.
  intros Hsp Hsi Hdis (Hrp & Hip & Hdp) (Hrd & Hio & Hod). pose proof (reads_delayed _ _ _ _ Hrp) as Hdl.
  assert (Hnn : forall n, n ∈ dkeys (d_vars o) -> n ∉ dkeys (d_vars oi)).
  { intros n Hn Hn'. apply dget_is_Some in Hn as [v Ev]. apply dget_is_Some in Hn' as [v' Ev'].
    apply (reads_vars _ _ _ _ Hrp) in Ev as (_ & w0 & W0 & _). apply (reads_vars _ _ _ _ Hrd) in Ev' as (_ & v0 & E0 & _). by destruct (Hdis _ _ _ _ W0 E0) as [? _]. }
  assert (Em : exists ds2, ds_merge o oi = (ds2, None) /\ d_vars ds2 = d_vars o ++ d_vars oi /\ d_delayed ds2 = d_delayed o /\ d_chunks ds2 = d_chunks o /\ d_block ds2 = d_block o).
  { unfold ds_merge. rewrite Hdl, (reads_delayed _ _ _ _ Hrd), eqb_reflx. cbn [negb].
    rewrite merge_vars_total by (done || apply (reads_proper _ _ _ _ Hrd)). cbn [negb].
    rewrite (proj2 (forallb_forall _ _)); [eexists; split; [done|]; done|].
    intros [d m] Hin. apply elem_of_list_In in Hin. cbn [fst snd d_dims with_vars]. destruct (dget (d_dims o) d) as [m0|] eqn:E0; [|done].
    apply (elem_dget _ _ _ (proj1 (proj2 Hio))) in Hin. apply Hod in Hin as (n' & v' & k' & Ev' & Hk' & Hs').
    apply Hdp in E0 as (n & v & k & Ev & Hkk & Hs). destruct (Hdis _ _ _ _ Ev Ev') as [_ Hag].
    specialize (Hag k k' d Hkk Hk'). apply Nat.eqb_eq. congruence. }
  destruct Em as (ds2 & Em & Ev2 & Ed2 & Ec2 & Eb2). exists ds2. split_and!.
  - unfold of_mut. by rewrite Em.
  - pose proof (merge_invariant _ _ _ Em Hip Hio) as (Hc2 & _ & Hn2). pose proof (reads_proper _ _ _ _ Hrp) as Hpr.
    split; [done|rewrite Ec2; apply Hpr|rewrite Eb2; apply Hpr| |done].
    intros v Hin. rewrite Ev2 in Hin. unfold dvals in Hin. rewrite map_app in Hin. apply elem_of_app in Hin as [Hin|Hin].
    + by apply (proper_arrays _ Hpr).
    + by apply (proper_arrays _ (reads_proper _ _ _ _ Hrd)).
  - congruence.
  - done.
Qed.
Lemma load_dataset_seen c M I s v old delayed sel : represents c M I s -> uniform c M I -> M v = Some old ->
  exists ds, exec (load_dataset c delayed sel (part_dir c v)) s = (Ok ds, s) /\ seen delayed sel (fixed_part c I) old ds.
Proof.
  intros Hs Hu Hv. destruct (rp_part _ _ _ _ Hs _ _ Hv) as (_ & Hso & Hh). destruct (open_opens _ s old delayed sel Hso Hh) as (o & E & Ho).
  unfold load_dataset, immutable_path, fixed_part. rewrite exec_bind, E. destruct (c_immutable c) eqn:Ec.
  - destruct (un_immutable _ _ _ Hu Ec) as [i Hi]; [exists v; by eexists|]. rewrite Hi. destruct (rp_immutable _ _ _ _ Hs _ Hi) as [Hsi Hhi].
    destruct (open_opens _ s i delayed sel Hsi Hhi) as (oi & Ei & Hoi). rewrite exec_bind, Ei.
    destruct (merge_opened delayed sel old i o oi Hso Hsi (un_fixed _ _ _ Hu _ _ _ Hv Hi) Ho Hoi) as (ds & Em & Hp & Hd & Hvars).
    exists ds. cbn [exec]. rewrite Em. split; [done|]. split; [|done|done]. intros n w. rewrite Hvars, dget_app.
    destruct Ho as [Hro _], Hoi as [Hri _]. split.
    + destruct (dget (d_vars o) n) as [w'|] eqn:Ew.
      * intros [= <-]. apply (reads_vars _ _ _ _ Hro) in Ew as (Hw & v0 & E0 & ->). split; [done|]. exists v0. split; [by left|done].
      * intros Ei'. apply (reads_vars _ _ _ _ Hri) in Ei' as (Hw & v0 & E0 & ->). split; [done|]. exists v0. split; [right; by exists i|done].
    + intros (Hw & v0 & [E0|(i' & [= <-] & E0)] & ->).
      * rewrite (proj2 (reads_vars _ _ _ _ Hro n (with_delayed (stored v0) delayed))); [done|]. split; [done|]. by exists v0.
      * destruct (dget (d_vars o) n) as [w'|] eqn:Ew.
        -- exfalso. apply (reads_vars _ _ _ _ Hro) in Ew as (_ & w0 & W0 & _). by destruct (un_fixed _ _ _ Hu _ _ _ Hv Hi _ _ _ _ W0 E0) as [? _].
        -- apply (reads_vars _ _ _ _ Hri). split; [done|]. by exists v0.
  - exists o. split; [done|]. destruct Ho as [Hro _]. split; [|apply Hro|apply Hro]. intros n w. rewrite (reads_vars _ _ _ _ Hro). split.
    + intros (Hw & v0 & E0 & ->). split; [done|]. exists v0. split; [by left|done].
    + intros (Hw & v0 & [E0|(i & ? & _)] & ->); [|done]. split; [done|]. by exists v0.
Qed.
(** No partition is in the directory of the immutable variables. *)
Definition regular_head (c : collection) : Prop :=
  forall v f, length v = length (p_keys (c_part c)) -> forall q, key_dirs (c_part c) v ++ f <> IMMUTABLE :: q.
Lemma regular_head_ok e c : regular e c -> regular_head c.
Proof. intros Hr v f Hl q E. destruct (key_head e c Hr v Hl) as (a & r & Ea & Ha & _). rewrite Ea in E. by injection E as -> _. Qed.
Lemma merge_proper a b r : ds_merge a b = (r, None) -> invariant a -> invariant b -> proper a -> proper b -> proper r.
Proof.
  intros E Ha Hb Hpa Hpb. pose proof (merge_invariant _ _ _ E Ha Hb) as (Hc & _ & Hn). unfold ds_merge in E.
  destruct (Bool.eqb _ _); [|done]. cbn [negb] in E. destruct (merge_vars (d_vars a) (d_vars b)) as [vars ok] eqn:Em. destruct ok; [|done].
  cbn [negb] in E. apply merge_vars_ok in Em as (_ & _ & Ev). destruct (forallb _ _); [|done]. injection E as <-.
  split; [done|apply Hpa|apply Hpa| |done]. intros v Hv. cbn in Hv. rewrite Ev in Hv. unfold dvals in Hv. rewrite map_app in Hv.
  apply elem_of_app in Hv as [Hv|Hv]; [by apply (proper_arrays _ Hpa)|by apply (proper_arrays _ Hpb)].
Qed.
Lemma load_proper c M I s v old delayed sel ds : represents c M I s -> regular_head c -> M v = Some old ->
  exec (load_dataset c delayed sel (part_dir c v)) s = (Ok ds, s) -> proper ds.
Proof.
  intros Hs Hh Hv. destruct (rp_part _ _ _ _ Hs _ _ Hv) as (_ & Hso & Hho). destruct (open_opens _ s old delayed sel Hso Hho) as (o & E & Hro & Hio & _).
  unfold load_dataset. rewrite exec_bind, E. unfold immutable_path. destruct (c_immutable c); [|intros [= <-]; apply Hro]. rewrite exec_bind.
  destruct I as [i|].
  - destruct (rp_immutable _ _ _ _ Hs _ eq_refl) as [Hsi Hhi]. destruct (open_opens _ s i delayed sel Hsi Hhi) as (oi & Ei & Hri & Hii & _). rewrite Ei. cbn [exec].
    intros [= Em]. unfold of_mut in Em. destruct (ds_merge o oi) as [r [ex|]] eqn:Er; [done|]. injection Em as ->.
    eapply merge_proper; [done..|apply Hro|apply Hri].
  - intros Ex. exfalso. unfold open_zarr_group in Ex. rewrite exec_bind, exec_get_tree in Ex. cbn [exec] in Ex.
    assert (sub (c_dir c ++ [IMMUTABLE]) s = ∅) as Es.
    { apply map_eq. intros q. rewrite sub_lookup, lookup_empty, <-app_assoc. destruct (s !! _) as [x|] eqn:Ex'; [|done].
      apply (rp_files _ _ _ _ Hs) in Ex' as [Eq|[[[] _]|(w & f & [d Hd] & Eq)]]; [done..|]. exfalso. destruct (rp_part _ _ _ _ Hs _ _ Hd) as [Hl _]. by apply (Hh w f Hl _ (eq_sym Eq)). }
    rewrite Es in Ex. done.
Qed.
Lemma seen_same delayed sel imm old old' ds ds' n : seen delayed sel imm old ds -> seen delayed sel imm old' ds' ->
  dget (d_vars old') n = dget (d_vars old) n -> dget (d_vars ds') n = dget (d_vars ds) n.
Proof.
  intros H H' E. destruct (dget (d_vars ds) n) as [v|] eqn:Ev.
  - apply (se_vars _ _ _ _ _ H') . rewrite E. by apply (se_vars _ _ _ _ _ H).
  - destruct (dget (d_vars ds') n) as [v'|] eqn:Ev'; [|done]. apply (se_vars _ _ _ _ _ H') in Ev'. rewrite E in Ev'. apply (se_vars _ _ _ _ _ H) in Ev'. congruence.
Qed.

(** ** Layouts *)
Definition same_form (a a' : dataset) : Prop :=
  dkeys (d_vars a') = dkeys (d_vars a) /\
  forall n v', dget (d_vars a') n = Some v' -> exists v, dget (d_vars a) n = Some v /\ v_dims v' = v_dims v /\ v_shape v' = v_shape v.
Lemma same_form_assign ds l : fits ds l -> same_form ds (assign_all ds l).
Proof.
  intros Hf. split; [apply assign_keys|]. intros n v'. rewrite assign_get. destruct (dget (d_vars ds) n) as [v|] eqn:E; [|done]. intros [= <-].
  exists v. split; [done|]. destruct (dget l n) as [a|] eqn:El; [|done]. split; [done|]. unfold v_shape at 1. cbn. by apply (Hf n).
Qed.
Lemma uniform_same_form c M M' I : uniform c M I -> (forall v a', M' v = Some a' -> exists a, M v = Some a /\ same_form a a') -> uniform c M' I.
Proof.
  intros Hu Hm. split.
  - intros v v' a' b' Ha Hb. destruct (Hm _ _ Ha) as (a & Ea & Ka & Fa). destruct (Hm _ _ Hb) as (b & Eb & Kb & Fb).
    destruct (un_layout _ _ _ Hu _ _ _ _ Ea Eb) as [L1 L2]. split; [intros n; rewrite Ka, Kb; apply L1|].
    intros n w w' Hw Hw'. destruct (Fa _ _ Hw) as (x & Ex & D1 & S1). destruct (Fb _ _ Hw') as (y & Ey & D2 & S2). rewrite D1, D2, S1, S2. by apply (L2 n).
  - intros v a' n Ha. destruct (Hm _ _ Ha) as (a & Ea & Ka & _). rewrite Ka. by apply (un_declared _ _ _ Hu v).
  - intros Hi [v [a' Ha]]. destruct (Hm _ _ Ha) as (a & Ea & _). apply (un_immutable _ _ _ Hu Hi). exists v. by eexists.
  - intros v a' i Ha Hi n w n' w' Hw Hw'. destruct (Hm _ _ Ha) as (a & Ea & _ & Fa). destruct (Fa _ _ Hw) as (x & Ex & D1 & S1).
    rewrite D1, S1. by apply (un_fixed _ _ _ Hu _ _ _ Ea Hi n x n' w').
  - apply Hu.
  - apply Hu.
Qed.
Lemma uniform_assign c M I v old l : uniform c M I -> M v = Some old -> fits old l -> uniform c (set_part M v (assign_all old l)) I.
Proof.
  intros Hu Hv Hf. apply (uniform_same_form c M); [done|]. intros w a'. unfold set_part. destruct (decide (w = v)) as [->|Nw].
  - intros [= <-]. exists old. split; [done|]. by apply same_form_assign.
  - intros E. exists a'. split; [done|]. split; [done|]. intros m x Hx. by exists x.
Qed.

Lemma to_store_stored fill d : vd_wf d -> stored_as fill d (to_store fill d).
Proof.
  destruct d as [a|m]; [done|]. intros [Hw Hl]. cbn. destruct fill as [f|]; cbn.
  - split; [done|]. split; [rewrite zip_with_length; lia|]. intros i x b Hx Hb. rewrite lookup_zip_with, Hx, Hb. cbn. by destruct b.
  - split; [done|]. split; [done|]. intros i x b Hx _. by destruct b.
Qed.
Lemma assigned_all old xs ys : proper old -> Forall2 (fun (nx : str * vdata) (na : str * arr) => na.1 = nx.1 /\ exists v0, dget (d_vars old) nx.1 = Some v0 /\ vd_wf nx.2 /\ na.2 = to_store (v_fill v0) nx.2) xs ys ->
  assigned xs old (assign_all old ys).
Proof.
  intros Hp H. split; [done|]. split_and!; try done. cbn.
  assert (Hget : forall n, match dget xs n with None => dget ys n = None | Some x => exists v0, dget (d_vars old) n = Some v0 /\ vd_wf x /\ dget ys n = Some (to_store (v_fill v0) x) end).
  { intros n. clear Hp. induction H as [|[k x] [k' a] xs ys (E & v0 & E0 & Hw & Ea) _ IH]; [done|]. cbn in *. subst k' a. destruct (decide (n = k)) as [->|]; [by exists v0|]. done. }
  apply Forall2_fmap_r. apply Forall_Forall2_diag. apply Forall_forall. intros [n v] Hin. cbn. split; [done|].
  specialize (Hget n). apply (elem_dget _ _ _ (proper_names _ Hp)) in Hin. destruct (dget xs n) as [x|].
  - destruct Hget as (v0 & E0 & Hw & ->). assert (v0 = v) as -> by congruence. exists (to_store (v_fill v) x). split; [by apply to_store_stored|done].
  - by rewrite Hget.
Qed.

Section update.
  Context (e : env) (c : collection) (Hr : regular e c) (I : option dataset).
  Local Notation keys := (p_keys (c_part c)).

  (** ** A list of partitions *)
  (** What [task x] does to the partitions [dom x]. *)
  Definition does {X : Type} (inv : (list Z -> option dataset) -> Prop) (dom : X -> list (list Z)) (task : X -> program unit)
      (rel : list Z -> dataset -> dataset -> res unit -> Prop) (region : list Z -> path -> Prop) (x : X) : Prop :=
    forall M s, represents c M I s -> inv M -> (forall v, v ∈ dom x -> is_Some (M v)) ->
      exists r s' M', exec (task x) s = (r, s') /\ represents c M' I s' /\ inv M' /\ (forall v, v ∉ dom x -> M' v = M v) /\
        (forall v old, v ∈ dom x -> M v = Some old -> exists new, M' v = Some new /\ (new = old /\ is_ok r = false \/ exists rv, rel v old new rv /\ (r = Ok tt -> rv = Ok tt))) /\
        (forall ex, r = Raise ex -> exists v old new, v ∈ dom x /\ M v = Some old /\ rel v old new (Raise ex)) /\
        forall q, (forall v, v ∈ dom x -> ~ region v q) -> s' !! q = s !! q.

  Lemma does_list inv task rel region : forall vs, NoDup vs -> (forall v, v ∈ vs -> does inv (fun v => [v]) (fun v => task (part_dir c v)) rel region v) ->
    does inv (fun vs => vs) (fun vs => pfor (map (part_dir c) vs) task) rel region vs.
  Proof.
    induction vs as [|v vs IH]; intros Hnd Hd M s Hs Hi Hsome.
    { exists (Ok tt), s, M. split_and!; try done. intros v old Hv. by apply elem_of_nil in Hv. }
    inversion Hnd as [|? ? Hnv Hnd']; subst.
    destruct (Hd v ltac:(left) M s Hs Hi) as (r1 & s1 & M1 & E1 & Hs1 & Hi1 & Hout1 & Hin1 & Hex1 & Hreg1).
    { intros w Hw. apply Hsome. apply elem_of_list_singleton in Hw as ->. left. }
    assert (Estep : exec (pfor (map (part_dir c) (v :: vs)) task) s = match r1 with Ok _ => exec (pfor (map (part_dir c) vs) task) s1 | Raise ex => (Raise ex, s1) end).
    { unfold pfor. cbn [map pseq]. rewrite exec_bind, exec_bind, E1. destruct r1; [|done]. rewrite exec_bind, !exec_bind.
      destruct (exec (pseq (map task (map (part_dir c) vs))) s1) as [[]]; done. }
    rewrite Estep. destruct r1 as [[]|ex].
    - destruct (IH Hnd' (fun w Hw => Hd w (elem_of_list_further _ _ _ Hw)) M1 s1 Hs1 Hi1) as (r & s' & M' & E & Hs' & Hi' & Hout & Hin & Hex & Hreg).
      { intros w Hw. rewrite Hout1; [apply Hsome; by right|]. rewrite elem_of_list_singleton. intros ->. done. }
      exists r, s', M'. split_and!; try done.
      + intros w Hw. rewrite Hout, Hout1; [done|..]; [rewrite elem_of_list_singleton; intros ->; apply Hw; left|]. intros H. apply Hw. by right.
      + intros w old Hw Hold. destruct (decide (w = v)) as [->|Nw].
        * destruct (Hin1 v old ltac:(left) Hold) as (new & Enew & Hcase). exists new. rewrite Hout by done. split; [done|].
          right. destruct Hcase as [[_ ?]|(rv & Hrel & Hrv)]; [done|]. exists rv. split; [done|]. intros _. by apply Hrv.
        * apply elem_of_cons in Hw as [|Hw]; [done|]. apply (Hin w old Hw). rewrite Hout1; [done|]. by rewrite elem_of_list_singleton.
      + intros ex Eex. destruct (Hex ex Eex) as (w & old & new & Hw & Hold & Hrel). exists w, old, new. split; [by right|]. split; [|done].
        rewrite <-Hout1; [done|]. rewrite elem_of_list_singleton. intros ->. done.
      + intros q Hq. rewrite Hreg, Hreg1; [done|..].
        * intros w Hw. apply Hq. apply elem_of_list_singleton in Hw as ->. left.
        * intros w Hw. apply Hq. by right.
    - exists (Raise ex), s1, M1. split_and!; try done.
      + intros w Hw. apply Hout1. rewrite elem_of_list_singleton. intros ->. apply Hw. left.
      + intros w old Hw Hold. destruct (decide (w = v)) as [->|Nw]; [apply (Hin1 v old ltac:(left) Hold)|].
        exists old. split; [|by left]. rewrite Hout1; [done|]. by rewrite elem_of_list_singleton.
      + intros ex' Eex. destruct (Hex1 ex' Eex) as (w & old & new & Hw & ?). exists w, old, new. split; [|done].
        apply elem_of_list_singleton in Hw as ->. left.
      + intros q Hq. apply Hreg1. intros w Hw. apply Hq. apply elem_of_list_singleton in Hw as ->. left.
  Qed.

  Lemma does_all {X : Type} inv dom task rel region : forall (items : list X), NoDup (concat (map dom items)) ->
    (forall x, x ∈ items -> does inv dom task rel region x) -> forall M s, represents c M I s -> inv M -> (forall v, v ∈ concat (map dom items) -> is_Some (M v)) ->
    exists rs s' M', exec_all (map task items) s = (rs, s') /\ represents c M' I s' /\ inv M' /\ (forall v, v ∉ concat (map dom items) -> M' v = M v) /\
      (forall v old, v ∈ concat (map dom items) -> M v = Some old -> exists new, M' v = Some new /\
         (new = old /\ is_ok (first_error rs) = false \/ exists rv, rel v old new rv /\ (is_ok (first_error rs) = true -> rv = Ok tt))) /\
      (forall ex, Raise ex ∈ rs -> exists v old new, v ∈ concat (map dom items) /\ M v = Some old /\ rel v old new (Raise ex)) /\
      forall q, (forall v, v ∈ concat (map dom items) -> ~ region v q) -> s' !! q = s !! q.
  Proof.
    induction items as [|x items IH]; intros Hnd Hd M s Hs Hi Hsome.
    { exists [], s, M. split_and!; try done.
      - intros v old Hv. by apply elem_of_nil in Hv.
      - intros ex Hx. by apply elem_of_nil in Hx. }
    cbn [map concat] in *. apply NoDup_app in Hnd as (Hnd1 & Hdis & Hnd2).
    destruct (Hd x ltac:(left) M s Hs Hi) as (r1 & s1 & M1 & E1 & Hs1 & Hi1 & Hout1 & Hin1 & Hex1 & Hreg1).
    { intros w Hw. apply Hsome, elem_of_app. by left. }
    destruct (IH Hnd2 (fun w Hw => Hd w (elem_of_list_further _ _ _ Hw)) M1 s1 Hs1 Hi1) as (rs & s' & M' & E & Hs' & Hi' & Hout & Hin & Hex & Hreg).
    { intros w Hw. rewrite Hout1; [apply Hsome, elem_of_app; by right|]. intros Hw'. by apply (Hdis w). }
    exists (r1 :: rs), s', M'. cbn [exec_all]. rewrite E1, E.
    assert (Hfe : is_ok (first_error (r1 :: rs)) = true -> r1 = Ok tt /\ is_ok (first_error rs) = true).
    { cbn. destruct r1 as [[]|]; [|done]. destruct (first_error rs); done. }
    assert (Hff : r1 = Ok tt \/ is_ok (first_error (r1 :: rs)) = false) by (destruct r1 as [[]|]; [by left|by right]).
    split_and!; try done.
    - intros w Hw. rewrite elem_of_app in Hw. rewrite Hout, Hout1; [done|..]; tauto.
    - intros w old Hw Hold. rewrite elem_of_app in Hw. destruct (decide (w ∈ dom x)) as [Hwx|Hwx].
      + assert (Hw' : w ∉ concat (map dom items)) by (by apply Hdis). destruct (Hin1 w old Hwx Hold) as (new & Enew & Hcase).
        exists new. rewrite Hout by done. split; [done|]. destruct Hcase as [[-> Hr1]|(rv & Hrel & Hrv)].
        * left. split; [done|]. destruct r1 as [|]; [done|]. done.
        * right. exists rv. split; [done|]. intros H. apply Hfe in H as [? _]. by apply Hrv.
      + destruct Hw as [|Hw]; [done|]. destruct (Hin w old Hw) as (new & Enew & Hcase); [by rewrite Hout1|]. exists new. split; [done|].
        destruct Hcase as [[-> Hf]|(rv & Hrel & Hrv)].
        * left. split; [done|]. cbn. destruct r1 as [[]|]; [|done]. by destruct (first_error rs).
        * right. exists rv. split; [done|]. intros H. apply Hfe in H as [_ ?]. by apply Hrv.
    - intros ex [Hx|Hx]%elem_of_cons.
      + destruct (Hex1 ex (eq_sym Hx)) as (w & old & new & Hw & ?). exists w, old, new. split; [apply elem_of_app; by left|done].
      + destruct (Hex ex Hx) as (w & old & new & Hw & Hold & Hrel). exists w, old, new. split; [apply elem_of_app; by right|].
        split; [|done]. rewrite <-Hout1; [done|]. intros Hw'. by apply (Hdis w).
    - intros q Hq. rewrite Hreg, Hreg1; [done|..]; intros w Hw; apply Hq, elem_of_app; tauto.
  Qed.

  (** Concurrent tasks on different partitions run as if one after the other. *)
  Definition region_of (vs : list (list Z)) (q : path) : Prop := Exists (fun v => under (part_dir c v) q) vs.
  Lemma parts_transaction (task : list (list Z) -> program unit) (bs : list (list (list Z))) sched s :
    NoDup (concat bs) -> (forall v, v ∈ concat bs -> length v = length keys) ->
    (forall b, b ∈ bs -> within (fun q => under (c_dir c ++ [IMMUTABLE]) q) (region_of b) (task b)) ->
    exec (execute_transaction CTorn sched (map task bs)) s = (first_error (exec_all (map task bs) s).1, (exec_all (map task bs) s).2).
  Proof.
    intros Hnd Hlen Hw.
    set (W := fun i q => match bs !! i with Some b => region_of b q | None => False end).
    assert (Hlk : forall i p, map task bs !! i = Some p -> exists b, bs !! i = Some b /\ p = task b).
    { intros i p. change (map task bs) with (task <$> bs). rewrite list_lookup_fmap. destruct (bs !! i) as [b|]; [|done]. intros [= <-]. eauto. }
    assert (Hdec : forall i q, Decision (W i q)).
    { intros i q. unfold W, region_of. destruct (bs !! i); apply _. }
    assert (Hcat : forall i b v, bs !! i = Some b -> v ∈ b -> v ∈ concat bs).
    { intros i b v Hi Hv. apply elem_of_list_In, in_concat. exists b. split; [|by apply elem_of_list_In]. apply elem_of_list_In. by eapply elem_of_list_lookup_2. }
    apply (exec_transaction CTorn sched (map task bs) (fun _ q => under (c_dir c ++ [IMMUTABLE]) q) W s Hdec). split.
    - intros i p E. apply Hlk in E as (b & Hi & ->). eapply within_impl; [..|apply Hw; by eapply elem_of_list_lookup_2]; [done|].
      intros q Hq. unfold W. by rewrite Hi.
    - intros i j p p' Ei Ej N q Wi Hq. apply Hlk in Ei as (b & Hi & _), Ej as (b' & Hj & _). unfold W in Wi, Hq. rewrite Hi in Wi. rewrite Hj in Hq.
      apply Exists_exists in Wi as (v & Hv & U). pose proof (Hlen _ (Hcat _ _ _ Hi Hv)) as Hl.
      destruct Hq as [Hq|Hq].
      + destruct (key_head e c Hr v Hl) as (a & r & Ea & Ha & _). destruct U as (f & U), Hq as (g & Hq). rewrite Hq in U.
        unfold part_dir in U. rewrite Ea, <-!app_assoc in U. apply app_inv_head in U. cbn in U. injection U as <- _. done.
      + apply Exists_exists in Hq as (v' & Hv' & U'). pose proof (Hlen _ (Hcat _ _ _ Hj Hv')) as Hl'.
        refine (parts_apart c v v' Hl Hl' _ q U U').
        intros <-. clear -Hnd N Hi Hj Hv Hv'. revert i j N Hi Hj. induction bs as [|x bs IH]; intros i j N Hi Hj; [done|].
        cbn in Hnd. apply NoDup_app in Hnd as (_ & Hd & Hnd). destruct i as [|i], j as [|j]; [done|..].
        * injection Hi as ->. apply (Hd v Hv). apply elem_of_list_In, in_concat. exists b'. split; [|by apply elem_of_list_In]. apply elem_of_list_In. by eapply elem_of_list_lookup_2.
        * injection Hj as ->. apply (Hd v Hv'). apply elem_of_list_In, in_concat. exists b. split; [|by apply elem_of_list_In]. apply elem_of_list_In. by eapply elem_of_list_lookup_2.
        * apply (IH Hnd i j); [congruence|done..].
  Qed.
  Lemma split_map {A B} (f : A -> B) l n bs : split_sequence (map f l) n = Ok bs -> exists bs', split_sequence l n = Ok bs' /\ bs = map (map f) bs' /\ concat bs' = l.
  Proof.
    intros H. destruct (split_sequence_lengths _ _ _ H) as (Hc & _ & _).
    assert (exists bs', bs = map (map f) bs' /\ concat bs' = l) as (bs' & -> & Hc').
    { clear H. revert l Hc. induction bs as [|b bs IH]; intros l Hc; cbn in Hc.
      - exists []. destruct l; done.
      - symmetry in Hc. apply map_eq_app in Hc as (l1 & l2 & -> & <- & H2). destruct (IH l2 (eq_sym H2)) as (bs' & -> & <-). by exists (l1 :: bs'). }
    destruct (split_sequence l n) as [bs''|] eqn:E.
    - exists bs''. apply split_sequence_lengths in E as H''. destruct H'' as (Hc'' & _ & _).
      apply split_sequence_cuts in E as (k & -> & Hk & E). apply split_sequence_cuts in H as (k' & -> & Hk' & H'). rewrite map_length in *.
      split; [done|]. split; [|done]. rewrite H', E. generalize (replicate (length l mod Z.to_nat (Z.min (default (Z.of_nat (length l)) n) (Z.of_nat (length l)))) (length l / Z.to_nat (Z.min (default (Z.of_nat (length l)) n) (Z.of_nat (length l))) + 1) ++ replicate (Z.to_nat (Z.min (default (Z.of_nat (length l)) n) (Z.of_nat (length l))) - length l mod Z.to_nat (Z.min (default (Z.of_nat (length l)) n) (Z.of_nat (length l)))) (length l / Z.to_nat (Z.min (default (Z.of_nat (length l)) n) (Z.of_nat (length l))))).
      clear. intros ns. revert l. induction ns as [|k ns IH]; intros l; [done|]. cbn. by rewrite firstn_map, skipn_map, IH.
    - exfalso. unfold split_sequence in *. rewrite map_length in H. destruct (_ <=? 0)%Z; [done|]. destruct (_ =? 0); done.
  Qed.
End update.

Section update_partition.
  Context (e : env) (c : collection) (Hr : regular e c) (I : option dataset) (delayed : bool) (sel : option (list str)) (f : update_callback) (Hsane : sane f).
  Context (U : Prop).
  Local Notation keys := (p_keys (c_part c)).
  Definition update_inv (M : list Z -> option dataset) : Prop := U -> uniform c M I.
  Definition update_rel (v : list Z) (old new : dataset) (r : res unit) : Prop :=
    at_most (returned f) old new /\ same_form old new /\ ((delayed = false \/ settled f) -> U ->
      match r with Ok _ => updated delayed sel (fixed_part c I) f old new | Raise _ => ~ works delayed sel (fixed_part c I) f old end).
  Definition update_region (v : list Z) (q : path) : Prop := exists n, returned f n /\ under (part_dir c v ++ [n]) q.

  Lemma at_most_assign (names : str -> Prop) old l : proper old -> fits old l -> (forall n, n ∈ dkeys l -> names n) -> at_most names old (assign_all old l).
  Proof.
    intros Hp Hf Hn. split; [done|]. split_and!; try done. cbn. apply Forall2_fmap_r. apply Forall_Forall2_diag. apply Forall_forall. intros [n v] Hin. cbn.
    split; [done|]. apply (elem_dget _ _ _ (proper_names _ Hp)) in Hin. destruct (dget l n) as [a|] eqn:El.
    - exists a. split; [done|]. split; [by apply (Hf n)|]. intros _. apply Hn. apply dget_is_Some. by eexists.
    - exists (v_array v). split; [by destruct v|done].
  Qed.
  Lemma at_most_refl (names : str -> Prop) old : proper old -> at_most names old old.
  Proof. intros Hp. rewrite <-(assign_nil old) at 2. by apply at_most_assign; [| |intros n Hn; apply elem_of_nil in Hn]. Qed.
  Lemma same_form_refl old : same_form old old.
  Proof. split; [done|]. intros n v' H. by exists v'. Qed.

  Lemma set_same M I' s v old : represents c M I' s -> M v = Some old -> represents c (set_part M v old) I' s.
  Proof.
    intros Hs Hv. destruct (rp_part _ _ _ _ Hs _ _ Hv) as (_ & Hso & Hh). by apply (represents_set e c Hr M I' s s v old old).
  Qed.

  Lemma update_does v : does c I update_inv (fun v => [v]) (fun v => update_partition c delayed sel f (part_dir c v)) update_rel update_region v.
  Proof using Hr Hsane.
    intros M s Hs Hi Hsome. destruct (Hsome v ltac:(left)) as [old Hv]. clear Hsome.
    destruct (rp_part _ _ _ _ Hs _ _ Hv) as (Hl & Hso & _).
    assert (Hpr : proper old) by apply Hso.
    assert (Hfin : forall r s' l, exec (update_partition c delayed sel f (part_dir c v)) s = (r, s') -> fits old l ->
       represents c (set_part M v (assign_all old l)) I s' -> update_rel v old (assign_all old l) r ->
       (forall q, ~ update_region v q -> s' !! q = s !! q) ->
       exists r s' M', exec (update_partition c delayed sel f (part_dir c v)) s = (r, s') /\ represents c M' I s' /\ update_inv M' /\ (forall w, w ∉ [v] -> M' w = M w) /\
        (forall w old, w ∈ [v] -> M w = Some old -> exists new, M' w = Some new /\ (new = old /\ is_ok r = false \/ exists rv, update_rel w old new rv /\ (r = Ok tt -> rv = Ok tt))) /\
        (forall ex, r = Raise ex -> exists w old new, w ∈ [v] /\ M w = Some old /\ update_rel w old new (Raise ex)) /\
        forall q, (forall w, w ∈ [v] -> ~ update_region w q) -> s' !! q = s !! q).
    { intros r s' l E Hf Hs' Hrel Hout. exists r, s', (set_part M v (assign_all old l)). split_and!; try done.
      - intros HU. apply uniform_assign; auto.
      - intros w Hw. unfold set_part. rewrite decide_False; [done|]. intros ->. apply Hw. left.
      - intros w old' Hw Hold. apply elem_of_list_singleton in Hw as ->. assert (old' = old) as -> by congruence. exists (assign_all old l).
        split; [unfold set_part; by rewrite decide_True|]. right. by exists r.
      - intros ex ->. exists v, old, (assign_all old l). split; [left|done].
      - intros q Hq. apply Hout. apply Hq. left. }
    assert (Hnone : forall r, exec (update_partition c delayed sel f (part_dir c v)) s = (r, s) -> is_ok r = false ->
       ((delayed = false \/ settled f) -> U -> ~ works delayed sel (fixed_part c I) f old) -> exists l, fits old l /\
       represents c (set_part M v (assign_all old l)) I s /\ update_rel v old (assign_all old l) r).
    { intros r E Hko Hw. exists []. rewrite assign_nil. split; [done|]. split; [by apply set_same|]. split; [by apply at_most_refl|]. split; [apply same_form_refl|]. destruct r; [done|]. done. }
    unfold update_partition in *. set (load := load_dataset c delayed sel (part_dir c v)) in *.
    destruct (load_dataset_pure c delayed sel (part_dir c v) s) as [r0 E0]. fold load in E0. rewrite exec_bind, E0 in *. destruct r0 as [ds|ex].
    2:{ destruct (Hnone (Raise ex)) as (l & Hf & Hs' & Hrel); [done..| |by eapply (Hfin _ s l)].
        intros _ HU. destruct (load_dataset_seen c M I s v old delayed sel Hs (Hi HU) Hv) as (ds & E & _). fold load in E. congruence. }
    rewrite exec_bind in *. cbn [exec] in *.
    assert (Hseen : U -> seen delayed sel (fixed_part c I) old ds).
    { intros HU. destruct (load_dataset_seen c M I s v old delayed sel Hs (Hi HU) Hv) as (ds' & E & Hsn). fold load in E. rewrite E in E0. by injection E0 as ->. }
    assert (Hpds : proper ds) by (eapply (load_proper c M I s v old delayed sel); [done|by eapply regular_head_ok|done..]).
    destruct (cb_call f ds None) as [l0|ex] eqn:Ecb; cbn [call_dict rbind] in *.
    2:{ destruct (Hnone (Raise ex)) as (l & Hf & Hs' & Hrel); [done..| |by eapply (Hfin _ s l)].
        intros _ HU Hw. destruct (Hw ds (Hseen HU)) as (l & E & _). congruence. }
    set (todo := dict_of l0) in *. set (body := fun nr : str * result => update_zarr_array (part_dir c v ++ [nr.1]) (evaluate load delayed ds nr.2)) in *.
    assert (Hin0 : forall nr, nr ∈ todo -> nr ∈ l0) by (intros [n r] Hnr; apply dict_of_elem, elem_dget; [apply dict_of_NoDup|done]).
    assert (Hkeys : forall m, m ∈ dkeys todo -> m ∈ dkeys l0) by (intros m Hm; by apply dict_of_keys).
    (* what the arrays are *)
    assert (Harr : forall nr l s1, nr ∈ todo -> fits old l -> (forall m, m ∈ dkeys l -> m ∈ dkeys todo) -> represents c (set_part M v (assign_all old l)) I s1 ->
       exists r, exec (evaluate load delayed ds nr.2) s1 = (r, s1) /\ (forall x, r = Ok x -> vd_wf x) /\ ((delayed = false \/ settled f) -> U -> r = value ds nr.2)).
    { intros [n r] l s1 Hnr Hf Hm Hs1. cbn [snd]. assert (Hwf : forall ds' x, proper ds' -> value ds' r = Ok x -> vd_wf x) by (intros ds' x Hp' Hx; exact (Hsane ds None l0 n r Hpds Ecb (Hin0 _ Hnr) ds' x Hp' Hx)).
      destruct r as [d|g]; cbn [evaluate].
      - exists (Ok d). split; [done|]. split; [|done]. intros x [= <-]. by apply (Hwf ds).
      - destruct delayed eqn:Ed.
        + rewrite exec_bind. destruct (load_dataset_pure c true sel (part_dir c v) s1) as [r1 E1]. fold load in E1. rewrite E1. destruct r1 as [ds'|ex].
          * assert (Hpds' : proper ds') by (eapply (load_proper c _ I s1 v (assign_all old l) true sel); [done|by eapply regular_head_ok|unfold set_part; by rewrite decide_True|done]).
            exists (g ds'). split; [done|]. split; [intros x Hx; by apply (Hwf ds')|]. intros [|Hset] HU; [done|]. cbn [value].
            assert (Hsn' : seen true sel (fixed_part c I) (assign_all old l) ds').
            { destruct (load_dataset_seen c _ I s1 v (assign_all old l) true sel Hs1) as (ds'' & E'' & Hsn).
              - apply uniform_assign; auto.
              - unfold set_part. by rewrite decide_True.
              - fold load in E''. rewrite E'' in E1. by injection E1 as ->. }
            apply (Hset ds None l0 n g Ecb (Hin0 _ Hnr)). intros m Hm'. apply (seen_same true sel (fixed_part c I) old (assign_all old l) ds ds' m (Hseen HU) Hsn').
            rewrite assign_get. assert (dget l m = None) as -> by (apply dget_None; intros Hin; apply Hm', Hkeys, Hm, Hin). by destruct (dget (d_vars old) m).
          * exists (Raise ex). split; [done|]. split; [done|]. intros _ HU. exfalso.
            destruct (load_dataset_seen c _ I s1 v (assign_all old l) true sel Hs1) as (ds'' & E'' & Hsn).
            -- apply uniform_assign; auto.
            -- unfold set_part. by rewrite decide_True.
            -- fold load in E''. congruence.
        + exists (g ds). split; [done|]. split; [intros x Hx; by apply (Hwf ds)|done]. }
    destruct (update_loop e c Hr M I v old (dkeys todo) body (fun nr x => (delayed = false \/ settled f) -> U -> value ds nr.2 = Ok x) Hso todo [] s)
      as (r & s' & xs & E & Hf & Hs' & Hout & k & Hxs & Hk).
    { cbn [app dkeys map]. apply dict_of_NoDup. }
    { done. }
    { done. }
    { rewrite assign_nil. by apply set_same. }
    { intros nr Hnr l s1 Hf Hm Hs1. right. destruct (Harr nr l s1 Hnr Hf Hm Hs1) as (r & Er & Hwf & Hval). exists (evaluate load delayed ds nr.2), r.
      split_and!; try done. intros x ->. split; [by apply Hwf|]. intros Hg HU. symmetry. by apply Hval. }
    cbn [app] in *.
    assert (Hdk : forall n, n ∈ dkeys xs -> n ∈ dkeys todo).
    { intros n Hn. apply elem_of_list_In, in_map_iff in Hn as ([n' a] & <- & Hin). apply elem_of_list_In in Hin. apply elem_of_list_lookup in Hin as [i Hi'].
      destruct (Forall2_lookup_r _ _ _ _ _ Hxs Hi') as ([n2 r2] & Hl2 & E2 & _). cbn in E2. subst n2. apply elem_of_list_lookup_2 in Hl2.
      apply elem_of_take in Hl2 as (j & Hj & _). apply elem_of_list_lookup_2 in Hj. apply elem_of_list_In, in_map_iff. exists (n', r2). split; [done|]. by apply elem_of_list_In. }
    apply (Hfin r s' xs E Hf Hs').
    - split; [|split].
      + apply at_most_assign; [done..|]. intros n Hn. exists ds, None, l0. split; [done|]. by apply Hkeys, Hdk.
      + by apply same_form_assign.
      + intros Hg HU. destruct r as [[]|ex].
        * subst k. rewrite take_ge in Hxs by lia.
          assert (exists ys, Forall2 (fun nr (nx : str * vdata) => nx.1 = nr.1 /\ value ds nr.2 = Ok nx.2) todo ys /\
             Forall2 (fun (nx : str * vdata) (na : str * arr) => na.1 = nx.1 /\ exists v0, dget (d_vars old) nx.1 = Some v0 /\ vd_wf nx.2 /\ na.2 = to_store (v_fill v0) nx.2) ys xs) as (ys & H1 & H2).
          { clear -Hxs Hg HU. induction Hxs as [|nr na todo xs (E1 & v0 & x & E2 & HQ & Hw & Ea & _) _ (ys & IH1 & IH2)]; [by exists []|].
            exists ((nr.1, x) :: ys). split; constructor; [| |cbn|]; eauto. }
          exists ds, l0, ys. split_and!; [auto|done|done|]. by apply assigned_all.
        * intros Hw. destruct (Hw ds (Hseen HU)) as (l' & El' & Hall). assert (l' = l0) as -> by congruence.
          destruct Hk as ([n rr] & l & s1 & Hnr & Hfl & Hml & Hs1 & Ebody). destruct (Hall n rr (Hin0 _ Hnr)) as (v0 & d & Ev0 & Ed & Hsh & Hne).
          destruct (Harr (n, rr) l s1 Hnr Hfl (fun m Hm => proj1 (Hml m Hm)) Hs1) as (r1 & Er1 & Hwf & Hval). cbn [snd] in *. specialize (Hval Hg HU). subst r1.
          assert (Hnl : n ∉ dkeys l) by (intros Hn; by apply (Hml n) in Hn as [_ ?]).
          destruct (update_variable e c Hr M I s1 v old l n (evaluate load delayed ds rr) (value ds rr) Hs1 Hso Hfl Hnl Er1 Hwf) as (r' & s2 & E' & _ & Hok).
          unfold body in Ebody. cbn [fst snd] in Ebody. rewrite E' in Ebody. cbn in Ebody. subst r'. by specialize (Hok v0 d Ev0 Ed Hne Hsh).
    - intros q Hq. apply Hout. intros n Hn Un. apply Hq. exists n. split; [|done]. exists ds, None, l0. split; [done|]. by apply Hkeys.
  Qed.

  Lemma within_load v : within (fun q => under (c_dir c ++ [IMMUTABLE]) q) (fun q => under (part_dir c v) q) (load_dataset c delayed sel (part_dir c v)).
  Proof.
    unfold load_dataset. apply within_bind.
    - unfold open_zarr_group. apply within_bind; [apply within_get_tree; auto|done].
    - intros ds. destruct (immutable_path c) as [d|] eqn:Ed; [|done]. unfold immutable_path in Ed. destruct (c_immutable c); [|done]. injection Ed as <-.
      apply within_bind; [|done]. unfold open_zarr_group. apply within_bind; [apply within_get_tree; auto|done].
  Qed.
  Lemma within_update_partition v : within (fun q => under (c_dir c ++ [IMMUTABLE]) q) (fun q => under (part_dir c v) q) (update_partition c delayed sel f (part_dir c v)).
  Proof.
    unfold update_partition. apply within_bind; [apply within_load|]. intros ds. apply within_bind; [done|]. intros l. apply within_pfor. intros [n r] _.
    apply within_update_array; [intros q Hq; eapply under_trans; [apply under_app|done]|]. destruct r as [d|g]; [done|]. cbn [evaluate snd].
    destruct delayed eqn:Ed; [|done]. apply within_bind; [|done]. rewrite <-Ed. apply within_load.
  Qed.
End update_partition.

Section update_call.
  Context (e : env) (c : collection) (Hr : regular e c) (I : option dataset) (delayed : bool) (f : update_callback).
  Local Notation keys := (p_keys (c_part c)).

  Lemma infer_pure M s filt sel : represents c M I s -> exists r, exec (infer_callable e c f filt delayed sel) s = (r, s).
  Proof using Hr.
    intros Hs. unfold infer_callable. rewrite exec_bind. destruct (select_any e c Hr M I s filt Hs) as (vss & _ & _ & _ & ->).
    destruct (filter_res _ _) as [[|q l]|ex]; [by eexists| |by eexists]. rewrite exec_bind. destruct (open_pure q delayed sel s) as [[ds|ex] ->]; [|by eexists].
    destruct (dget _ _); [|by eexists]. destruct (call_dict _); [|by eexists]. destruct (forallb _ _); by eexists.
  Qed.

  (** The whole call, given what the update of one partition does; [vs]: the
      partitions selected. *)
  Lemma update_call inv rel region sched workers filt np sel trim variables M s vs :
    (forall v, does c I inv (fun v => [v]) (fun v => update_partition c delayed sel f (part_dir c v)) rel region v) ->
    represents c M I s -> inv M -> NoDup vs -> (forall v, v ∈ vs -> is_Some (M v)) ->
    exec (select_parts e c filt) s = (Ok (map (part_dir c) vs), s) ->
    (exists r, exec (update e sched workers c f delayed 0 filt np sel trim variables) s = (r, s) /\
       ((exists ex, r = Raise ex /\ (variables <> [] -> c_readonly c = false -> (0 < match np with Some n => if (n =? 0)%Z then workers else n | None => workers end)%Z -> vs = []))
         \/ (r = Ok tt /\ variables = [] /\ exec (infer_callable e c f filt delayed sel) s = (Ok [], s)))) \/
    (c_readonly c = false /\ (variables = [] -> exists x l, exec (infer_callable e c f filt delayed sel) s = (Ok (x :: l), s)) /\
     exists r s' M', exec (update e sched workers c f delayed 0 filt np sel trim variables) s = (r, s') /\
      represents c M' I s' /\ inv M' /\ (forall v, v ∉ vs -> M' v = M v) /\
      (forall v old, v ∈ vs -> M v = Some old -> exists new, M' v = Some new /\ (new = old /\ is_ok r = false \/ exists rv, rel v old new rv /\ (r = Ok tt -> rv = Ok tt))) /\
      (forall ex, r = Raise ex -> exists v old new, v ∈ vs /\ M v = Some old /\ rel v old new (Raise ex)) /\
      forall q, (forall v, v ∈ vs -> ~ region v q) -> s' !! q = s !! q).
  Proof using Hr.
    intros Hdoes Hs Hu Hnd Hsome Hsel.
    set (n := match np with Some n => if (n =? 0)%Z then workers else n | None => workers end).
    destruct (c_readonly c) eqn:Ero.
    { left. unfold update. rewrite Ero. exists (Raise UnsupportedOperation). split; [done|]. left. by exists UnsupportedOperation. }
    assert (Hcases : (exists r, exec (update e sched workers c f delayed 0 filt np sel trim variables) s = (r, s) /\
         ((exists ex, r = Raise ex /\ variables = []) \/ (r = Ok tt /\ variables = [] /\ exec (infer_callable e c f filt delayed sel) s = (Ok [], s)))) \/
       ((variables = [] -> exists x l, exec (infer_callable e c f filt delayed sel) s = (Ok (x :: l), s)) /\
        exec (update e sched workers c f delayed 0 filt np sel trim variables) s =
        exec (let! parts <- select_parts e c filt;
             let! batches <- Ret (split_sequence parts (Some n));
             let! _ <- execute_transaction CTorn sched (map (fun b => pfor b (update_partition c delayed sel f)) batches); pret tt) s)).
    { unfold update. rewrite Ero. rewrite exec_bind. destruct variables as [|x l].
      - destruct (infer_pure M s filt sel Hs) as [ri Ei]. rewrite Ei. destruct ri as [[|x l]|ex].
        + left. exists (Ok tt). split; [done|]. by right.
        + right. split; [by exists x, l|]. fold n. reflexivity.
        + left. exists (Raise ex). split; [done|]. left. by exists ex.
      - right. split; [done|]. fold n. reflexivity. }
    destruct Hcases as [(r & E & [(ex & -> & Hv)|Hr'])|(Hinf & Hup)].
    { left. exists (Raise ex). split; [done|]. left. exists ex. split; [done|]. by intros ?. }
    { left. exists r. split; [done|]. by right. }
    rewrite exec_bind, Hsel, exec_bind in Hup. cbn [exec] in Hup.
    destruct (split_sequence (map (part_dir c) vs) (Some n)) as [batches|ex] eqn:Eb.
    2:{ left. exists (Raise ex). split; [done|]. left. exists ex. split; [done|]. intros _ _ Hn. fold n in Hn. destruct vs as [|v vs]; [done|]. exfalso.
        pose proof (split_sequence_ok (map (part_dir c) (v :: vs)) (Some n) ltac:(done) Hn) as Hok. by rewrite Eb in Hok. }
    right. split; [done|]. split; [done|]. apply split_map in Eb as (bs & _ & -> & Hcat).
    set (task := fun b => pfor (map (part_dir c) b) (update_partition c delayed sel f)).
    assert (Etask : map (fun b => pfor b (update_partition c delayed sel f)) (map (map (part_dir c)) bs) = map task bs) by (by rewrite map_map).
    rewrite Etask, exec_bind in Hup.
    assert (Hlen : forall v, v ∈ concat bs -> length v = length keys).
    { intros v Hv. rewrite Hcat in Hv. apply Hsome in Hv as [d Hd]. by apply (rp_part _ _ _ _ Hs) in Hd as [? _]. }
    rewrite (parts_transaction e c Hr task bs sched s) in Hup; [|by rewrite Hcat|done|].
    2:{ intros b _. apply within_pfor. intros q Hq. apply elem_of_list_In, in_map_iff in Hq as (v & <- & Hv). eapply within_impl; [| |apply within_update_partition]; [done|].
        intros q Hq. apply Exists_exists. exists v. split; [by apply elem_of_list_In|done]. }
    assert (Hid : concat (map (fun b : list (list Z) => b) bs) = vs) by (by rewrite map_id).
    destruct (does_all c I inv (fun b => b) task rel region bs) with (M := M) (s := s)
      as (rs & s' & M' & E & Hs' & Hi' & Hout & Hin & Hex & Hreg).
    { by rewrite Hid. }
    { intros b Hb. apply does_list.
      - rewrite <-Hcat in Hnd. clear -Hb Hnd. induction bs as [|x bs IH]; [by apply elem_of_nil in Hb|]. cbn in Hnd. apply NoDup_app in Hnd as (H1 & _ & H2).
        apply elem_of_cons in Hb as [->|Hb]; auto.
      - intros v _. apply Hdoes. }
    { done. }
    { done. }
    { rewrite Hid. done. }
    rewrite Hid in *. rewrite E in Hup. cbn [fst snd] in Hup.
    destruct (first_error rs) as [l|ex] eqn:Ef.
    - exists (Ok tt), s', M'. split_and!; try done. intros v old Hv Hold. destruct (Hin v old Hv Hold) as (new & En & [[_ ?]|(rv & Hrel & Hrv)]); [done|].
      exists new. split; [done|]. right. exists rv. split; [done|]. intros _. by apply Hrv.
    - exists (Raise ex), s', M'. split_and!; try done.
      + intros v old Hv Hold. destruct (Hin v old Hv Hold) as (new & En & [[-> _]|(rv & Hrel & Hrv)]); exists new || exists old; (split; [done|]).
        * by left.
        * right. by exists rv.
      + intros ex' [= <-]. apply Hex. by apply first_error_Raise.
  Qed.
End update_call.
