(** * Loading what has been inserted *)
From Verif Require Import Py Dict NdArray_Model NdArray_Spec NdArray_Proofs Dataset_Model Dataset_Spec Dataset_Proofs Dataset_Concat Dataset_Main Dataset_Props2 Assemble_Spec Assemble_Proofs Meta_Model Meta_Spec Meta_Props Calendar_Model PartPath_Model Split_Spec Split_Model Split_Proofs Split_Main FS_Model FS_Proofs Pool_Model Storage_Model Storage_Spec Storage_Chunks Storage_Proofs Listing_Model Listing_Spec Listing_Props Collection_Model Collection_Spec Collection_Split Collection_Proofs Collection_State Collection_Prepare Collection_Insert Collection_Select Collection_Load.

Lemma reduced_layout dim part ps ps' a b : reduced dim part ps a -> reduced dim part ps' b -> same_layout dim a b.
Proof.
  intros Ha Hb. split.
  - intros n. rewrite <-!dget_is_Some. destruct (related_get _ _ _ n Ha) as [A1 A2], (related_get _ _ _ n Hb) as [B1 B2]. split.
    + intros [v Ev]. destruct (A2 _ Ev) as (w & Ew & _). destruct (B1 _ Ew) as (x & Ex & _). by eexists.
    + intros [v Ev]. destruct (B2 _ Ev) as (w & Ew & _). destruct (A1 _ Ew) as (x & Ex & _). by eexists.
  - intros n v w Ev Ew. destruct (related_get _ _ _ n Ha) as [_ A2], (related_get _ _ _ n Hb) as [_ B2].
    destruct (A2 _ Ev) as (x & Ex & (P1 & P2 & P3 & _) & _). destruct (B2 _ Ew) as (y & Ey & (Q1 & Q2 & Q3 & _) & _).
    assert (y = x) as -> by congruence. assert (D1 : v_dims v = v_dims x) by (rewrite P1; done). assert (D2 : v_dims w = v_dims x) by (rewrite Q1; done).
    split_and!; [congruence|congruence|]. intros k Hk. rewrite Q3, P3 by congruence. done.
Qed.

Lemma mjoin_pick {A} (rs : list A) pss : mjoin (map (fun ps => pick ps rs) pss) = pick (mjoin pss) rs.
Proof.
  induction pss as [|ps pss IH]; [done|]. change (pick ps rs ++ mjoin (map (fun ps => pick ps rs) pss) = pick (ps ++ mjoin pss) rs). by rewrite pick_app, IH.
Qed.
Lemma sorted_app {A} (R : A -> A -> Prop) l l' : StronglySorted R l -> StronglySorted R l' -> (forall x y, x ∈ l -> y ∈ l' -> R x y) -> StronglySorted R (l ++ l').
Proof.
  induction 1 as [|x l Hs IH Hall]; intros Hl' Hx; [done|]. cbn. constructor.
  - apply IH; [done|]. intros a b Ha Hb. apply Hx; [by right|done].
  - apply Forall_app. split; [done|]. apply Forall_forall. intros y Hy. apply Hx; [by left|done].
Qed.
(** The positions of the records, partition after partition. *)
Lemma positions_join rows vs pss : never_decreases row_lt rows -> StronglySorted row_lt vs -> Forall2 (positions_of rows) vs pss ->
  StronglySorted lt (mjoin pss) /\ forall i, i ∈ mjoin pss <-> exists v, v ∈ vs /\ rows !! i = Some v.
Proof.
  intros Hnd Hs H. revert Hs. induction H as [|v ps vs pss [Hp Hi] Hps IH]; intros Hs.
  - split; [constructor|]. intros i. split; [by intros ?%elem_of_nil|]. intros (v & ?%elem_of_nil & _). done.
  - inversion Hs as [|? ? Hs' Hall]; subst. destruct (IH Hs') as [IH1 IH2]. change (mjoin (ps :: pss)) with (ps ++ mjoin pss). split.
    + apply sorted_app; [done|done|]. intros x y Hx Hy. apply Hi in Hx. apply IH2 in Hy as (w & Hw & Hy).
      rewrite Forall_forall in Hall. specialize (Hall w Hw). destruct (Nat.lt_trichotomy x y) as [|[->|Hlt]]; [done| |].
      * assert (v = w) as -> by congruence. by apply row_lt_irrefl in Hall.
      * destruct (Hnd y x w v Hlt Hy Hx) as [Hl|Hl].
        -- exfalso. by apply (row_lt_irrefl w), (row_lt_trans w v w).
        -- subst. by apply row_lt_irrefl in Hall.
    + intros i. rewrite elem_of_app, Hi, IH2. split.
      * intros [E|(w & Hw & E)]; [exists v; split; [by left|done]|exists w; split; [by right|done]].
      * intros (w & [->|Hw]%elem_of_cons & E); [by left|right; by exists w].
Qed.

Section round.
  Context (e : env) (c : collection) (Hr : regular e c) (Hc : declared c).
  Context (ds : dataset) (Hds : sound ds) (Hco : conforms c ds).
  Local Notation dim := (c_dim c).

  Lemma fitted_sized P out n v k d : fitted c P ds out -> dget (d_vars out) n = Some v -> v_dims v !! k = Some d ->
    exists m, v_shape v !! k = Some m /\ dget (d_dims ds) d = Some m.
  Proof using Hds Hco.
    intros Hf Hv Hk. destruct (fitted_dims c ds Hco P out n v Hf Hv) as (mv & Hmv & Hd & _). destruct (dget (d_vars ds) n) as [v0|] eqn:E0.
    - rewrite (ft_given _ _ _ _ Hf _ _ _ E0 Hv) in *. destruct Hds as [Hst _].
      destruct (proper_consistent _ (storable_proper _ Hst) _ _ E0) as (_ & _ & Hs). by apply Hs.
    - destruct (ft_missing _ _ _ _ Hf _ _ _ E0 Hmv Hv) as (f & _ & _ & _ & Hsh & _). rewrite Hd in Hk.
      destruct (Forall2_lookup_l _ _ _ _ _ Hsh Hk) as (m & ? & ?). by exists m.
  Qed.
  Lemma fitted_supplied P out n v : fitted c P ds out -> dget (d_vars out) n = Some v ->
    exists v0, supplied c ds n v0 /\ v = with_attrs v0 [].
  Proof using Hco.
    intros Hf Hv. destruct (fitted_dims c ds Hco P out n v Hf Hv) as (mv & Hmv & Hd & _). destruct (dget (d_vars ds) n) as [v0|] eqn:E0.
    - exists v0. split; [by left|]. by apply (ft_given _ _ _ _ Hf n).
    - exists v. pose proof (ft_missing _ _ _ _ Hf _ _ _ E0 Hmv Hv) as Hfl. split.
      + right. split; [done|]. by exists mv.
      + destruct Hfl as (f & _ & _ & _ & _ & ->). done.
  Qed.

  Section inserted.
    Context (rows : list (list Z)) (merge : option merge_callable) (M : list Z -> option dataset) (I : option dataset).
    Context (Hins : inserted c ds rows merge (fun _ => None) M) (Hk : kept c ds None I) (Hsort : never_decreases row_lt rows).

    Lemma inserted_pieces : exists part, fitted c (moving c) ds part /\
      (forall values, is_Some (M values) <-> values ∈ rows) /\
      forall values d, M values = Some d -> exists ps, positions_of rows values ps /\ reduced dim part ps d.
    Proof using Hins.
      destruct Hins as (part & Hf & H). exists part. split_and!; [done| |].
      - intros values. destruct (H values) as [H1 H2]. destruct (decide (values ∈ rows)) as [Hin|Hni].
        + destruct (H1 Hin) as (new & -> & _). split; [done|by eexists].
        + rewrite (H2 Hni). split; [by intros []|done].
      - intros values d Hd. destruct (H values) as [H1 H2]. destruct (decide (values ∈ rows)) as [Hin|Hni]; [|rewrite (H2 Hni) in Hd; done].
        destruct (H1 Hin) as (new & En & ps & piece & Hps & _ & Hred & Hm). assert (new = d) as -> by congruence.
        exists ps. split; [done|]. unfold merged in Hm. by destruct merge; subst.
    Qed.
    Lemma inserted_uniform : uniform c M I.
    Proof using Hins Hk Hds Hco.
      destruct inserted_pieces as (part & Hf & Hd & Hp).
      assert (Hget : forall v a n x, M v = Some a -> dget (d_vars a) n = Some x -> exists y, dget (d_vars part) n = Some y /\ same_but_records dim y x).
      { intros v a n x Ha Hx. destruct (Hp _ _ Ha) as (ps & _ & Hred). destruct (related_get _ _ _ n Hred) as [_ R]. destruct (R _ Hx) as (y & Hy & Hsb & _). by exists y. }
      split.
      - intros v v' a b Ha Hb. destruct (Hp _ _ Ha) as (ps & _ & Hra), (Hp _ _ Hb) as (ps' & _ & Hrb). by eapply reduced_layout.
      - intros v a n Ha Hn. apply dget_is_Some in Hn as [x Hx]. destruct (Hget _ _ _ _ Ha Hx) as (y & Hy & _).
        destruct (fitted_dims c ds Hco _ _ _ _ Hf Hy) as (mv & Hmv & _). apply dget_is_Some. by eexists.
      - intros Hi _. unfold kept in Hk. rewrite Hi in Hk. destruct Hk as (i & -> & _). by eexists.
      - intros v a i Ha ->. unfold kept in Hk. destruct (c_immutable c); [|done]. destruct Hk as (i' & [= <-] & Hfi).
        intros n x n' x' Hx Hx'. destruct (Hget _ _ _ _ Ha Hx) as (y & Hy & S1 & _ & S3 & _).
        destruct (fitted_dims c ds Hco _ _ _ _ Hf Hy) as (mv & Hmv & Hdy & Hmo).
        destruct (fitted_dims c ds Hco _ _ _ _ Hfi Hx') as (mv' & Hmv' & Hdx' & Hfx).
        split; [intros <-; unfold moving, fixed in *; congruence|]. intros k k' d Hkd Hkd'.
        assert (Hdd : v_dims x = v_dims y) by (rewrite S1; done).
        assert (d <> dim). { intros ->. apply Hfx. rewrite <-Hdx'. by eapply elem_of_list_lookup_2. }
        destruct (fitted_sized _ _ _ _ _ _ Hf Hy ltac:(rewrite <-Hdd; exact Hkd)) as (m & E1 & E2).
        destruct (fitted_sized _ _ _ _ _ _ Hfi Hx' Hkd') as (m' & E1' & E2').
        rewrite S3 by congruence. congruence.
      - intros i n v -> Hv. unfold kept in Hk. destruct (c_immutable c); [|done]. destruct Hk as (i' & [= <-] & Hfi).
        destruct (fitted_dims c ds Hco _ _ _ _ Hfi Hv) as (mv & _ & -> & Hfx). exact Hfx.
      - intros i n -> Hn. unfold kept in Hk. destruct (c_immutable c); [|done]. destruct Hk as (i' & [= <-] & Hfi).
        apply (ft_names _ _ _ _ Hfi) in Hn as (mv & Hmv & _). apply dget_is_Some. by eexists.
    Qed.
    Lemma gathered_restored delayed sel vs parts out : vs <> [] -> StronglySorted row_lt vs -> Forall2 (fun v d => M v = Some d) vs parts ->
      gathered c delayed sel parts (if c_immutable c then I else None) out ->
      exists ps, StronglySorted lt ps /\ (forall i, i ∈ ps <-> exists v, v ∈ vs /\ rows !! i = Some v) /\ restored c delayed sel ps ds out.
    Proof using Hins Hk Hsort Hds Hco Hc.
      intros Hne Hvs HM Hg. destruct inserted_pieces as (part & Hf & Hd & Hp).
      assert (exists pss, Forall2 (positions_of rows) vs pss /\ Forall2 (fun ps d => reduced dim part ps d) pss parts) as (pss & Hpos & Hred).
      { clear -HM Hp. induction HM as [|v d vs parts Hv _ (pss & H1 & H2)]; [exists []; split; constructor|].
        destruct (Hp _ _ Hv) as (ps & A & B). exists (ps :: pss). split; by constructor. }
      destruct (positions_join rows vs pss Hsort Hvs Hpos) as [Hj1 Hj2].
      exists (mjoin pss). split_and!; [done|done|].
      assert (exists p, head parts = Some p) as [p Hhd].
      { inversion HM; subst; [done|]. by eexists. }
      assert (Hpin : p ∈ parts) by (destruct parts; [done|]; injection Hhd as ->; by left).
      assert (Hparts : forall q, q ∈ parts -> exists ps, reduced dim part ps q).
      { intros q Hq. apply elem_of_list_lookup_1 in Hq as [i Hi]. destruct (Forall2_lookup_r _ _ _ _ _ Hred Hi) as (ps & _ & ?). by exists ps. }
      assert (Hnames : forall q n, q ∈ parts -> n ∈ dkeys (d_vars q) <-> n ∈ dkeys (d_vars part)).
      { intros q n Hq. destruct (Hparts q Hq) as [ps Hre]. rewrite <-!dget_is_Some. destruct (related_get _ _ _ n Hre) as [R1 R2]. split.
        - intros [x Hx]. destruct (R2 _ Hx) as (y & ? & _). by eexists.
        - intros [x Hx]. destruct (R1 _ Hx) as (y & ? & _). by eexists. }
      assert (Himm : forall n, (exists i, (if c_immutable c then I else None) = Some i /\ n ∈ dkeys (d_vars i)) <-> exists mv, dget (md_vars (c_meta c)) n = Some mv /\ fixed c mv).
      { intros n. unfold kept in Hk. destruct (c_immutable c) eqn:Eim.
        - destruct Hk as (i & -> & Hfi). rewrite <-(ft_names _ _ _ _ Hfi n). split; [by intros (i' & [= <-] & ?)|]. intros. by exists i.
        - split; [by intros (? & ? & _)|]. intros (mv & Hmv & Hfx). exfalso. assert (c_immutable c = true); [|congruence]. apply (dc_fixed _ Hc). by exists n, mv. }
      split.
      - intros n. rewrite (ga_names _ _ _ _ _ _ Hg), Himm. split.
        + intros [Hw H]. split; [done|]. apply dget_is_Some. destruct H as [(q & Hq & Hn)|(mv & Hmv & _)]; [|by eexists].
          apply (Hnames q n Hq), (ft_names _ _ _ _ Hf) in Hn as (mv & Hmv & _). by eexists.
        + intros [Hw Hn]. split; [done|]. apply dget_is_Some in Hn as [mv Hmv]. destruct (decide (dim ∈ mv_dims mv)) as [Hin|Hni].
          * left. exists p. split; [done|]. apply (Hnames p n Hpin), (ft_names _ _ _ _ Hf). by exists mv.
          * right. by exists mv.
      - intros n v' Ev. assert (Hn : n ∈ dkeys (d_vars out)) by (apply dget_is_Some; by eexists).
        apply (ga_names _ _ _ _ _ _ Hg) in Hn as [_ [(q & Hq & Hn)|(i & Hi & Hn)]].
        + apply (Hnames q n Hq) in Hn. assert (Hnp : n ∈ dkeys (d_vars p)) by (by apply (Hnames p n Hpin)).
          apply dget_is_Some in Hnp as [vp Evp]. apply dget_is_Some in Hn as [y Ey].
          destruct (ga_moving _ _ _ _ _ _ Hg _ _ _ _ Ev Hhd Evp) as (w & rss & (mv & Hmv & ->) & Hsb & Hrec).
          destruct (Hparts p Hpin) as [ps0 Hre0]. destruct (related_get _ _ _ n Hre0) as [_ R]. destruct (R _ Evp) as (y' & Ey' & Hsb0 & _).
          assert (y' = y) as -> by congruence. clear R Ey'.
          destruct (fitted_supplied _ _ _ _ Hf Ey) as (v0 & Hsup & ->).
          destruct (fitted_dims c ds Hco _ _ _ _ Hf Ey) as (mv' & Hmv' & Hdy & Hmo). assert (mv' = mv) as -> by congruence.
          assert (Hdp : v_dims vp = mv_dims mv) by (destruct Hsb0 as (-> & _); done).
          exists v0, (with_attrs (with_delayed v0 delayed) (mv_attrs mv)). split_and!; [done|by exists mv| |].
          * eapply same_but_trans; [|exact Hsb]. destruct Hsb0 as (S1 & S2 & S3 & S4). split_and!; [by rewrite S1|done|done|].
            intros Hno. by rewrite (S4 Hno).
          * destruct Hrec as [Hri ->]; [rewrite Hdp; exact Hmo|].
            change (records v0 dim) with (records (with_attrs v0 []) dim).
            assert (exists rs, records (with_attrs v0 []) dim = Some rs) as [rs Ers].
            { rewrite records_index. destruct (index_of dim (v_dims (with_attrs v0 []))) eqn:Ei; [by eexists|]. apply index_of_None in Ei. exfalso. apply Ei. rewrite Hdy. exact Hmo. }
            rewrite Ers. cbn [option_map]. f_equal. rewrite <-mjoin_pick. f_equal.
            revert Hri Hred. clear -Ey Ers. intros Hri. revert pss. induction Hri as [|q rs' parts rss (x & Ex & Erx) _ IH]; intros pss Hred; inversion Hred as [|ps ? pss' ? Hre Hred']; subst; [done|].
            cbn [map]. f_equal; [|by apply IH]. destruct (related_get _ _ _ n Hre) as [_ R]. destruct (R _ Ex) as (y' & Ey' & _ & Hry).
            assert (y' = with_attrs v0 []) as -> by congruence. rewrite Ers, Erx in Hry. cbn in Hry. congruence.
        + unfold kept in Hk. destruct (c_immutable c); [|done]. destruct Hk as (i' & -> & Hfi). injection Hi as ->.
          apply dget_is_Some in Hn as [vi Evi]. pose proof (ga_fixed _ _ _ _ _ _ Hg _ _ _ _ Ev eq_refl Evi) as (mv & Hmv & ->).
          destruct (fitted_supplied _ _ _ _ Hfi Evi) as (v0 & Hsup & ->).
          destruct (fitted_dims c ds Hco _ _ _ _ Hfi Evi) as (mv' & Hmv' & Hdy & Hmo).
          exists v0, (with_attrs (with_delayed v0 delayed) (mv_attrs mv)). split_and!; [done|by exists mv|apply same_but_refl|].
          change (records (with_attrs (with_delayed (with_attrs v0 []) delayed) (mv_attrs mv)) dim) with (records v0 dim).
          assert (records v0 dim = None) as ->; [|done]. rewrite records_index, (proj2 (index_of_None _ _)); [done|].
          change (v_dims v0) with (v_dims (with_attrs v0 [])). rewrite Hdy. unfold fixed in Hmo. congruence.
      - apply Hg.
      - apply Hg.
      - apply Hg.
    Qed.
  End inserted.
End round.
