From Verif Require Import Py Dict NdArray_Model NdArray_Spec NdArray_Proofs.
From Verif Require Import Dataset_Model Dataset_Spec Dataset_Proofs Dataset_Concat Dataset_Main Assemble_Spec.

Lemma alike_refl dim a : alike dim a a.
Proof. split_and!; [done|done|]. intros name v w H1 H2. assert (v = w) as -> by congruence. done. Qed.
Lemma alike_sym dim a b : alike dim a b -> alike dim b a.
Proof.
  intros (H1 & H2 & H3). split_and!; [done|by intros; rewrite H2|]. intros name v w Hv Hw.
  destruct (H3 _ _ _ Hw Hv) as (E1 & E2 & E3). split_and!; [done|done|]. intros k Hk. symmetry. apply E3. congruence.
Qed.
Lemma alike_trans dim a b c : alike dim a b -> alike dim b c -> alike dim a c.
Proof.
  intros (H1 & H2 & H3) (G1 & G2 & G3). split_and!; [congruence|intros; by rewrite H2|].
  intros name v w Hv Hw. destruct (proj1 (H2 name)) as [x Hx]; [eauto|].
  destruct (H3 _ _ _ Hv Hx) as (E1 & E2 & E3). destruct (G3 _ _ _ Hx Hw) as (F1 & F2 & F3).
  split_and!; [congruence|congruence|]. intros k Hk. rewrite F3 by congruence. by apply E3.
Qed.
Lemma alike_compatible dim a b : proper a -> proper b -> alike dim a b -> compatible dim a b.
Proof.
  intros Ha Hb (H1 & H2 & H3). split; [done|]. intros name v Hv.
  destruct (proj1 (H2 name)) as [w Hw]; [eauto|]. destruct (H3 _ _ _ Hv Hw) as (E1 & E2 & E3).
  exists w. split_and!; try done.
  destruct (proper_consistent _ Ha _ _ Hv) as (_ & -> & _). destruct (proper_consistent _ Hb _ _ Hw) as (_ & -> & _). done.
Qed.

Lemma dget_map_vals {A B} (f : str -> A -> B) (l : list (str * A)) name :
  dget (map (fun nv => (nv.1, f nv.1 nv.2)) l) name = option_map (f name) (dget l name).
Proof.
  induction l as [|[k u] l IHl]; [done|]. cbn. destruct (decide (name = k)) as [->|]; [done|]. apply IHl.
Qed.
Lemma related_get (R : str -> variable -> variable -> Prop) ds ds' name : related R ds ds' ->
  (forall v, dget (d_vars ds) name = Some v -> exists v', dget (d_vars ds') name = Some v' /\ R name v v') /\
  (forall v', dget (d_vars ds') name = Some v' -> exists v, dget (d_vars ds) name = Some v /\ R name v v').
Proof.
  intros (H & _). induction H as [|[n v] [n' v'] l l' [Hn HR] _ [IH1 IH2]]; [done|]. cbn in *. subst n'.
  destruct (decide (name = n)) as [->|]; [|done]. split; intros x [= <-]; eauto.
Qed.

Lemma same_but_trans dim u v w : same_but_records dim u v -> same_but_records dim v w -> same_but_records dim u w.
Proof.
  intros (A1 & A2 & A3 & A4) (B1 & B2 & B3 & B4).
  assert (Hd : v_dims v = v_dims u) by (rewrite A1; done).
  split_and!; [|congruence| |].
  - rewrite B1 at 1. rewrite A1 at 1. done.
  - intros k Hk. rewrite B3 by congruence. by apply A3.
  - intros Hno. rewrite B4 by congruence. by apply A4.
Qed.
Lemma same_but_refl dim u : same_but_records dim u u.
Proof. split_and!; try done. by rewrite with_array_id. Qed.

Lemma related_alike dim ds ds' (R : str -> variable -> variable -> Prop) :
  related R ds ds' -> (forall n v v', R n v v' -> same_but_records dim v v') -> alike dim ds ds'.
Proof.
  intros H HR. split_and!.
  - by destruct H as (_ & _ & _ & _ & ?).
  - intros name. destruct (related_get _ _ _ name H) as [H1 H2]. split.
    + intros [v Hv]. destruct (H1 _ Hv) as (w & Hw & _). eauto.
    + intros [v Hv]. destruct (H2 _ Hv) as (w & Hw & _). eauto.
  - intros name v w Hv Hw. destruct (related_get _ _ _ name H) as [H1 _]. destruct (H1 _ Hv) as (w' & Hw' & HRw).
    assert (w' = w) as -> by congruence. apply HR in HRw as (E1 & E2 & E3 & _).
    split_and!; [by rewrite E1|done|]. done.
Qed.

(** A source is made of its own records. *)
Lemma assembled_source dim sources k s n : sources !! k = Some s -> proper s -> no_repeat s ->
  (forall s', s' ∈ sources -> alike dim s' s) -> dget (d_dims s) dim = Some n ->
  assembled dim sources (all_of k n) s.
Proof.
  intros Hk Hp Hnr Hal Hn. split; try done.
  - intros name v Hv. exists s, v. split_and!; [by eapply elem_of_list_lookup_2|done|apply same_but_refl].
  - intros name v rs Hv Hr. apply Forall2_same_length_lookup. unfold all_of. rewrite map_length, seq_length.
    assert (Hlen : length rs = n).
    { destruct (proper_consistent _ Hp _ _ Hv) as (_ & _ & Hs).
      rewrite records_index in Hr. destruct (index_of dim (v_dims v)) as [ax|] eqn:Ei; [|done].
      injection Hr as <-. rewrite rows_length. apply index_of_lookup in Ei. by apply (sized_at _ _ _ _ _ Hs Ei Hn). }
    split; [done|]. intros i o r Ho Hri. change (map ?f ?l) with (f <$> l) in Ho. rewrite list_lookup_fmap in Ho.
    destruct (seq 0 n !! i) as [j|] eqn:E; [|done]. apply lookup_seq in E as [-> _]. injection Ho as <-.
    exists s, v, rs. done.
Qed.

Lemma Forall2_pick {A B} (P : A -> B -> Prop) ps l l' : Forall2 P l l' -> Forall2 P (pick ps l) (pick ps l').
Proof.
  intros H. unfold pick. induction ps as [|p ps IH]; cbn; [constructor|].
  destruct (l !! p) as [x|] eqn:E.
  - destruct (Forall2_lookup_l _ _ _ _ _ H E) as (y & -> & Hxy). by constructor.
  - apply lookup_ge_None in E. rewrite (proj2 (lookup_ge_None l' p)); [done|]. by rewrite <-(Forall2_length _ _ _ H).
Qed.

Lemma assembled_isel dim sources plan ds n ix ps : assembled dim sources plan ds ->
  dget (d_dims ds) dim = Some n -> positions n ix = Ok ps ->
  exists ds', ds_isel ds [(dim, ix)] = Ok ds' /\ assembled dim sources (pick ps plan) ds' /\
    (dim ∈ mjoin (map v_dims (dvals (d_vars ds))) -> dget (d_dims ds') dim = Some (length ps)).
Proof.
  intros [Hp Hnr Hal Ho Hr] Hn Hps.
  destruct (isel_ok _ _ _ _ _ Hp Hnr Hn Hps) as (ds' & E & Ev & Ea & Ec & Eb & Ed & Hp' & Hnr' & Hd & _).
  assert (Hget : forall name, dget (d_vars ds') name = option_map (var_take dim ps) (dget (d_vars ds) name)).
  { intros name. rewrite Ev. apply (dget_map_vals (fun _ => var_take dim ps)). }
  assert (Hin : forall name v, dget (d_vars ds) name = Some v -> NoDup (v_dims v)).
  { intros name v Hv. apply Hnr, elem_dvals. exists name. by apply dget_elem. }
  assert (Hds : alike dim ds ds').
  { split_and!; [done| |].
    - intros name. rewrite Hget. by destruct (dget (d_vars ds) name); split; intros [? ?]; eauto.
    - intros name v w Hv Hw. rewrite Hget, Hv in Hw. injection Hw as <-.
      destruct (var_take_same dim ps v (Hin _ _ Hv)) as (_ & E2 & E3 & _). done. }
  exists ds'. split_and!; [done| |done]. split; try done.
  - intros s Hs. eapply alike_trans; [by apply Hal|done].
  - intros name v Hv. rewrite Hget in Hv. destruct (dget (d_vars ds) name) as [w|] eqn:Ew; [|done]. injection Hv as <-.
    destruct (Ho _ _ Ew) as (s & x & Hs & Hx & Hsame). exists s, x. split_and!; [done|done|].
    eapply same_but_trans; [done|]. by apply var_take_same, (Hin name).
  - intros name v rs Hv Hrs. rewrite Hget in Hv. destruct (dget (d_vars ds) name) as [w|] eqn:Ew; [|done]. injection Hv as <-.
    destruct (proper_consistent _ Hp _ _ Ew) as (_ & _ & Hsz).
    rewrite (var_take_records _ _ _ _ _ Hsz Hn (positions_bound _ _ _ Hps)) in Hrs.
    destruct (records w dim) as [rw|] eqn:Erw; [|done]. injection Hrs as <-. apply Forall2_pick. by eapply Hr.
Qed.

Lemma Forall2_mjoin {A B} (P : A -> B -> Prop) ls ls' : Forall2 (Forall2 P) ls ls' -> Forall2 P (mjoin ls) (mjoin ls').
Proof. induction 1; cbn; [constructor|]. by apply Forall2_app. Qed.

Lemma assembled_concat dim sources plan ds others plans : sources <> [] -> assembled dim sources plan ds ->
  Forall2 (assembled dim sources) plans others -> others <> [] ->
  exists ds', ds_concat ds others dim = Ok ds' /\ assembled dim sources (plan ++ mjoin plans) ds' /\
    (dim ∈ mjoin (map v_dims (dvals (d_vars ds))) ->
      dget (d_dims ds') dim = Some (size_of ds dim + sum_list (map (fun o => size_of o dim) others))).
Proof.
  intros Hsrc Has Hos Hne. destruct Has as [Hp Hnr Hal Ho Hr].
  assert (Hoth : forall o, o ∈ others -> exists p, assembled dim sources p o).
  { intros o Hin. apply elem_of_list_lookup_1 in Hin as [i Hi]. destruct (Forall2_lookup_r _ _ _ _ _ Hos Hi) as (p & _ & H). eauto. }
  destruct (concat_spec ds others dim Hne Hp Hnr) as (ds' & E & Hp' & Hnr' & Hrel & Hd & _).
  { intros o Hin. destruct (Hoth o Hin) as [p [Hpo _ Halo _ _]]. split; [done|]. apply alike_compatible; [done|done|].
    destruct sources as [|s sources]; [done|].
    eapply alike_trans; [apply alike_sym, Hal; by left|apply Halo; by left]. }
  exists ds'. split_and!; [done| |done].
  assert (Hds : alike dim ds ds') by (eapply related_alike; [exact Hrel|]; intros n v v' [? _]; done).
  split; try done.
  - intros s Hs. eapply alike_trans; [by apply Hal|done].
  - intros name v Hv. destruct (related_get _ _ _ name Hrel) as [_ H2]. destruct (H2 _ Hv) as (w & Hw & Hsame & _).
    destruct (Ho _ _ Hw) as (s & x & Hs & Hx & Hsx). exists s, x. split_and!; [done|done|]. by eapply same_but_trans.
  - intros name v rs Hv Hrs. destruct (related_get _ _ _ name Hrel) as [_ H2]. destruct (H2 _ Hv) as (w & Hw & Hsame & Hrec).
    assert (Hdims : v_dims v = v_dims w) by (destruct Hsame as [-> _]; done).
    destruct (records w dim) as [rw|] eqn:Erw.
    2:{ rewrite records_index in Erw, Hrs. rewrite Hdims in Hrs. by destruct (index_of dim (v_dims w)). }
    destruct (Hrec _ eq_refl) as (rss & Hrss & Hrs'). rewrite Hrs in Hrs'. injection Hrs' as ->.
    apply Forall2_app; [by eapply Hr|]. apply Forall2_mjoin.
    clear -Hos Hrss. revert rss Hrss. induction Hos as [|p o plans others Hpo _ IH]; intros rss Hrss; inversion Hrss as [|? r ? rss' (x & Hx & Hrx) Hrest]; subst; constructor.
    + destruct Hpo as [_ _ _ _ Hro]. by eapply Hro.
    + by apply IH.
Qed.

(** ** The values of a variable of rank one *)
Lemma rows_rank1 a : arr_wf a -> length (a_shape a) = 1 -> rows 0 a = map (fun x => Arr [] [x]) (a_flat a).
Proof.
  intros Hw Hl. destruct a as [[|n [|? ?]] l]; try done. unfold arr_wf in Hw. cbn in Hw. rewrite Nat.mul_1_r in Hw.
  apply list_eq. intros i. change (map ?f ?l) with (f <$> l). rewrite list_lookup_fmap.
  destruct (decide (i < n)) as [Hi|Hi].
  - rewrite rows_lookup by done. destruct (lookup_lt_is_Some_2 l i) as [x Hx]; [lia|]. cbn. rewrite Hx. cbn. f_equal.
    unfold row. cbn. unfold tabulate. cbn. f_equal. f_equal. unfold get. cbn. rewrite Nat.mul_1_r, Nat.add_0_r. by apply nth_lookup_Some.
  - rewrite (proj2 (lookup_ge_None _ _)) by (rewrite rows_length; cbn; lia). cbn.
    rewrite (proj2 (lookup_ge_None l i)) by lia. done.
Qed.
Lemma length_flat_rank1 a : arr_wf a -> length (a_shape a) = 1 -> length (a_flat a) = nth 0 (a_shape a) 0.
Proof. intros Hw Hl. destruct a as [[|n [|? ?]] l]; try done. unfold arr_wf in Hw. cbn in *. lia. Qed.
