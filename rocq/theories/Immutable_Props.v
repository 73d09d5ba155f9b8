(** * Variables that do not have the dimension of the partitioning (C31, C70) *)
From Verif Require Import Py Dict NdArray_Model NdArray_Spec NdArray_Proofs Dataset_Model Dataset_Spec Dataset_Proofs Dataset_Props2 Assemble_Spec Assemble_Proofs Meta_Model Meta_Spec Meta_Props PartPath_Model PartPath_Proofs
  Split_Model Split_Spec FS_Model FS_Proofs Pool_Model Pool_Proofs Storage_Model Storage_Spec Storage_Proofs
  Listing_Model Listing_Spec Collection_Model Collection_Spec Collection_Proofs Collection_State Collection_Prepare Collection_Insert Collection_Select Collection_Load Collection_Round Collection_Create
  Collection_Total Collection_Example View_Props2 Immutable_Spec.

Section history.
  Context (e : env) (c : collection) (Hr : regular e c) (Hc : declared c) (sz : str -> nat).
  Local Notation dim := (c_dim c).

  Definition shaped (M : list Z -> option dataset) : Prop := forall v a, M v = Some a ->
    (forall n, n ∈ dkeys (d_vars a) <-> exists mv, dget (md_vars (c_meta c)) n = Some mv /\ moving c mv) /\
    forall n x, dget (d_vars a) n = Some x -> exists mv, dget (md_vars (c_meta c)) n = Some mv /\ v_dims x = mv_dims mv /\
      length (v_shape x) = length (v_dims x) /\ forall k d, v_dims x !! k = Some d -> d <> dim -> v_shape x !! k = Some (sz d).
  Definition shaped_fixed (I : option dataset) : Prop := forall i, I = Some i ->
    (forall n, n ∈ dkeys (d_vars i) <-> exists mv, dget (md_vars (c_meta c)) n = Some mv /\ fixed c mv) /\
    forall n x k d, dget (d_vars i) n = Some x -> v_dims x !! k = Some d -> c_dim c ∉ v_dims x /\ v_shape x !! k = Some (sz d).

  Lemma shaped_uniform M I : shaped M -> shaped_fixed I -> (c_immutable c = true -> is_Some I) -> uniform c M I.
  Proof using.
    intros HM HI Hsome. split.
    - intros v v' a b Ha Hb. destruct (HM _ _ Ha) as [Na Sa], (HM _ _ Hb) as [Nb Sb]. split; [intros n; by rewrite Na, Nb|].
      intros n x y Hx Hy. destruct (Sa _ _ Hx) as (mv & Em & Dx & Lx & Kx), (Sb _ _ Hy) as (mv' & Em' & Dy & Ly & Ky). assert (mv' = mv) as -> by congruence.
      split; [congruence|]. split; [congruence|]. intros k Hk. destruct (v_dims x !! k) as [d|] eqn:Ed.
      + rewrite (Kx k d Ed), (Ky k d) by congruence. done.
      + apply lookup_ge_None in Ed. rewrite !(proj2 (lookup_ge_None _ _)); [done|lia|rewrite Ly, Dy, <-Dx; lia].
    - intros v a n Ha Hn. destruct (HM _ _ Ha) as [Na _]. apply Na in Hn as (mv & Em & _). apply dget_is_Some. by eexists.
    - intros Hi _. by apply Hsome.
    - intros v a i Ha Hi n x n' y Hx Hy. destruct (HM _ _ Ha) as [Na Sa]. destruct (HI _ Hi) as [Ni Si]. split.
      + intros <-. assert (H1 : n ∈ dkeys (d_vars a)) by (apply dget_is_Some; by eexists). assert (H2 : n ∈ dkeys (d_vars i)) by (apply dget_is_Some; by eexists).
        apply Na in H1 as (mv & E1 & M1). apply Ni in H2 as (mv' & E2 & M2). unfold moving, fixed in *. congruence.
      + intros k k' d Hk Hk'. destruct (Si _ _ _ _ Hy Hk') as [Hno ->]. destruct (Sa _ _ Hx) as (mv & _ & _ & _ & K). apply K; [done|]. intros ->. apply Hno. by eapply elem_of_list_lookup_2.
    - intros i n x Hi Hx Hin. pose proof Hin as Hin'. apply elem_of_list_lookup_1 in Hin as [k Hk]. destruct (HI _ Hi) as [_ Si]. by destruct (Si _ _ _ _ Hx Hk) as [? _].
    - intros i n Hi Hn. destruct (HI _ Hi) as [Ni _]. apply Ni in Hn as (mv & Em & _). apply dget_is_Some. by eexists.
  Qed.
  Lemma fixed_shaped ds i : sound ds -> conforms c ds -> (forall d m, d <> dim -> dget (d_dims ds) d = Some m -> m = sz d) -> fitted c (fixed c) ds i -> shaped_fixed (Some i).
  Proof using.
    intros Hso Hco Hsz Hf i' [= <-]. split; [apply (ft_names _ _ _ _ Hf)|]. intros n x k d Hx Hk. destruct (fitted_dims c ds Hco _ _ _ _ Hf Hx) as (mv & _ & Hd & Hfx).
    assert (Hno : dim ∉ v_dims x) by (by rewrite Hd). split; [done|]. destruct (fitted_sized c ds Hso Hco _ _ _ _ _ _ Hf Hx Hk) as (m & E1 & E2). rewrite E1. f_equal.
    apply Hsz; [|done]. intros ->. apply Hno. by eapply elem_of_list_lookup_2.
  Qed.
  Lemma piece_shaped ds part ps piece v : sound ds -> conforms c ds -> (forall d m, d <> dim -> dget (d_dims ds) d = Some m -> m = sz d) ->
    fitted c (moving c) ds part -> reduced dim part ps piece -> shaped (fun w => if decide (w = v) then Some piece else None).
  Proof using.
    intros Hso Hco Hsz Hf Hre w a Ha. destruct (decide (w = v)) as [->|]; [|done]. injection Ha as <-. split.
    - intros n. rewrite <-(ft_names _ _ _ _ Hf), <-!dget_is_Some. destruct (related_get _ _ _ n Hre) as [R1 R2]. split.
      + intros [x Hx]. destruct (R2 _ Hx) as (y & Hy & _). by exists y.
      + intros [y Hy]. destruct (R1 _ Hy) as (x & Hx & _). by exists x.
    - intros n x Hx. destruct (related_get _ _ _ n Hre) as [_ R2]. destruct (R2 _ Hx) as (y & Hy & (S1 & S2 & S3 & _) & _).
      destruct (fitted_dims c ds Hco _ _ _ _ Hf Hy) as (mv & Em & Hd & _). assert (Hdd : v_dims x = v_dims y) by (rewrite S1; done). exists mv. split; [done|]. split; [congruence|]. split.
      + rewrite S2, Hdd. destruct (dget (d_vars ds) n) as [y0|] eqn:E0.
        * rewrite (ft_given _ _ _ _ Hf _ _ _ E0 Hy). destruct Hso as [Hst _]. symmetry. apply (storable_rank _ Hst y0). eapply vals_elem. by apply dget_elem.
        * destruct (ft_missing _ _ _ _ Hf _ _ _ E0 Em Hy) as (f & _ & _ & _ & Hsh & ->). cbn [v_dims]. symmetry. by apply Forall2_length in Hsh.
      + intros k d Hk Hne. rewrite Hdd in Hk. destruct (fitted_sized c ds Hso Hco _ _ _ _ _ _ Hf Hy Hk) as (m & E1 & E2). rewrite S3, E1 by congruence. f_equal. by apply Hsz.
  Qed.
  Definition laid (a : dataset) : Prop :=
    (forall n, n ∈ dkeys (d_vars a) <-> exists mv, dget (md_vars (c_meta c)) n = Some mv /\ moving c mv) /\
    forall n x, dget (d_vars a) n = Some x -> exists mv, dget (md_vars (c_meta c)) n = Some mv /\ v_dims x = mv_dims mv /\
      length (v_shape x) = length (v_dims x) /\ forall k d, v_dims x !! k = Some d -> d <> dim -> v_shape x !! k = Some (sz d).
  Lemma alike_laid a b : alike dim a b -> laid a -> laid b.
  Proof using.
    intros (_ & Hn & Hv) [H1 H2]. split.
    - intros n. rewrite <-H1, <-!dget_is_Some. symmetry. apply Hn.
    - intros n x Hx. destruct (proj2 (Hn n)) as [y Hy]; [by eexists|]. destruct (H2 _ _ Hy) as (mv & E & Ed & El & Es). destruct (Hv _ _ _ Hy Hx) as (E1 & E2 & E3).
      exists mv. split; [done|]. split; [congruence|]. split; [congruence|]. intros k d Hk Hne. rewrite E1 in Hk. rewrite E3 by congruence. by eapply Es.
  Qed.
  Lemma read_laid a o delayed piece : reads_as delayed None a o -> laid a -> laid (ds_copy_properties o piece).
  Proof using.
    intros Hrd [H1 H2]. split; cbn [ds_copy_properties d_vars].
    - intros n. rewrite <-H1, <-!dget_is_Some. split.
      + intros [w Hw]. apply (reads_vars _ _ _ _ Hrd) in Hw as (_ & w0 & Hw0 & _). by eexists.
      + intros [w Hw]. exists (with_delayed (stored w) delayed). apply (reads_vars _ _ _ _ Hrd). split; [done|]. by exists w.
    - intros n x Hx. apply (reads_vars _ _ _ _ Hrd) in Hx as (_ & w & Hw & ->). apply (H2 _ _ Hw).
  Qed.
  Lemma effect_shaped x r M M' : allowed e c x -> of_sizes c sz x -> effect c x r M M' -> (forall v a, M v = Some a -> sound a) -> shaped M -> shaped M'.
  Proof using.
    intros Hal Hof Heff Hsd HM v a Ha. destruct x as [ds rows merge np va sch inn|f older sch].
    - destruct Hof as [Hkl Hsz]. pose proof (in_sound _ _ _ _ _ Hal) as Hso. pose proof (in_conforms _ _ _ _ _ Hal) as Hco.
      assert (H : M' v = M v \/ exists part new, fitted c (moving c) ds part /\ M' v = Some new /\ replaced c merge (d_delayed ds) rows part v (M v) new).
      { destruct r as [dirs|ex]; cbn [effect] in Heff.
        - destruct Heff as (part & Hf & H). destruct (H v) as [H1 H2]. destruct (decide (v ∈ rows)) as [Hin|Hni]; [|left; by apply H2]. right. destruct (H1 Hin) as (new & ? & ?). by exists part, new.
        - destruct (Heff v) as [?|(_ & part & new & ? & ? & ?)]; [by left|]. right. by exists part, new. }
      destruct H as [H|(part & new & Hf & H & ps & piece & _ & Hsp & Hre & Hm)]; [apply (HM v); congruence|]. assert (new = a) as -> by congruence.
      assert (Hlp : laid piece) by (apply (piece_shaped ds part ps piece v Hso Hco Hsz Hf Hre v); by rewrite decide_True).
      change (laid a). unfold merged in Hm. destruct merge as [f|]; [|by subst]. destruct (M v) as [p|] eqn:Ep; [|by subst]. destruct Hm as (o & Hrd & Hm).
      pose proof (storable_proper _ (sound_storable _ Hsp)) as Hpp.
      apply Hkl in Hm as [Hm|Hm]; [| |done|eapply reads_sound; [by eapply Hsd|exact Hrd|apply Hpp|apply Hpp]|done].
      + eapply alike_laid; [exact Hm|]. eapply read_laid; [exact Hrd|]. apply (HM v); done.
      + by eapply alike_laid.
    - destruct r as [dirs|ex]; cbn [effect] in Heff; [|apply (HM v); by rewrite <-Heff].
      destruct Heff as (vs & _ & _ & Hrem & _). destruct (Hrem v) as [H1 H2]. destruct (decide (v ∈ vs)); [rewrite H1 in Ha by done; done|]. apply (HM v). by rewrite <-H2.
  Qed.
  Lemma history_fixed h : forall M I s rs s', Forall (allowed e c) h -> Forall (of_sizes c sz) h -> represents c M I s -> run_calls e c h s = (rs, s') -> shaped M -> shaped_fixed I ->
    ((exists v, is_Some (M v)) -> c_immutable c = true -> is_Some I) ->
    exists M' I', represents c M' I' s' /\ explains c h rs M M' /\ shaped M' /\ shaped_fixed I' /\ ((exists v, is_Some (M' v)) -> c_immutable c = true -> is_Some I') /\
      (forall i, I = Some i -> I' = Some i) /\ (c_immutable c = true -> I = None -> forall i, I' = Some i -> exists j ds, first_given h rs j ds /\ fitted c (fixed c) ds i).
  Proof using Hr Hc.
    induction h as [|x h IH]; intros M I s rs s' Hal Hof Hs E HM HI Hsome; cbn [run_calls] in E.
    - injection E as <- <-. exists M, I. split; [done|]. split; [constructor|]. split; [done|]. split; [done|]. split; [done|]. split; [done|]. intros _ -> i [=].
    - inversion Hal as [|? ? Hx Hal']; subst. inversion Hof as [|? ? Ox Hof']; subst.
      destruct (exec (run_call e c x) s) as [r s1] eqn:E1. destruct (run_calls e c h s1) as [rs1 s2] eqn:E2. injection E as <- <-.
      destruct (call_spec e c Hr Hc x M I s r s1 Hx Hs E1) as (M1 & I1 & H1 & H2 & _ & H4 & H5). pose proof (effect_shaped x r M M1 Hx Ox H2 (fun v a Ha => proj1 (proj2 (rp_part _ _ _ _ Hs v a Ha))) HM) as HM1.
      assert (HI1 : shaped_fixed I1 /\ ((exists v, is_Some (M1 v)) -> c_immutable c = true -> is_Some I1)).
      { assert (Hkept : forall ds rows merge np va sch inn, x = Insert ds rows merge np va sch inn -> kept c ds I I1 -> shaped_fixed I1 /\ (c_immutable c = true -> is_Some I1)).
        { intros ds rows merge np va sch inn -> Hk. unfold kept in Hk. destruct I as [i|]; [subst I1; by split|]. destruct Ox as [_ Ox].
          destruct (c_immutable c); [|subst I1; by split]. destruct Hk as (i & -> & Hf). split; [|by eexists].
          eapply fixed_shaped; [exact (in_sound _ _ _ _ _ Hx)|exact (in_conforms _ _ _ _ _ Hx)|exact Ox|exact Hf]. }
        destruct x as [ds rows merge np va sch inn|f older sch].
        - assert (H : I1 = I /\ (forall v, M1 v = M v) \/ kept c ds I I1) by (destruct r; [by right|done]).
          destruct H as [[-> H]|H].
          + split; [done|]. intros [v Hv]. rewrite H in Hv. apply Hsome. by exists v.
          + destruct (Hkept _ _ _ _ _ _ _ eq_refl H) as [? ?]. split; [done|]. by intros _.
        - subst I1. split; [done|]. intros [v [a Ha]]. apply Hsome. exists v. exists a. destruct r as [dirs|ex]; cbn [effect] in H2; [|by rewrite <-H2].
          destruct H2 as (vs & _ & _ & Hrem & _). destruct (Hrem v) as [R1 R2]. destruct (decide (v ∈ vs)); [rewrite R1 in Ha by done; done|]. by rewrite <-R2. }
      destruct HI1 as [HI1 Hsome1]. destruct (IH M1 I1 s1 rs1 s2 Hal' Hof' H1 E2 HM1 HI1 Hsome1) as (M2 & I2 & K1 & K2 & K3 & K4 & K5 & K6 & K7).
      exists M2, I2. split; [done|]. split; [by econstructor|]. split; [done|]. split; [done|]. split; [done|]. split; [intros i Hi; by apply K6, H4|].
      intros Him -> i Hi2. destruct I1 as [i1|].
      + assert (i1 = i) as -> by (specialize (K6 i1 eq_refl); congruence). destruct x as [ds rows merge np va sch inn|f older sch]; [|done].
        assert (Hk : kept c ds None (Some i)) by (destruct r; [done|]; destruct H5 as [[? _]|?]; done). unfold kept in Hk. rewrite Him in Hk. destruct Hk as (i' & [= <-] & Hf).
        exists 0, ds. split; [|done]. split; [by eexists _, _, _, _, _, _|]. intros. lia.
      + destruct (K7 Him eq_refl i Hi2) as (j & ds & [(rows & merge & np & va & sch & inn & Hj) Hbefore] & Hf). exists (S j), ds. split; [|done]. split; [by eexists _, _, _, _, _, _|].
        intros [|k] ds' rows' merge' np' va' sch' inn' r' Hlt Hk Hr'; [|eapply Hbefore; [|exact Hk|exact Hr']; lia]. cbn in Hk, Hr'. injection Hk as ->. injection Hr' as ->.
        destruct r' as [dirs|ex]; [|by exists ex]. exfalso. unfold kept in H5. rewrite Him in H5. by destruct H5 as (? & ? & _).
  Qed.

End history.

(** After any history of insertions and removals on a new collection, the
    partitions hold none of the variables that do not have the dimension of the
    partitioning. *)
Theorem C31_once axis ds p d s c s0 e sz h rs s' :
  creatable axis ds p -> exec (create_collection axis ds p d) s = (Ok c, s0) -> regular e c ->
  Forall (allowed e c) h -> Forall (of_sizes c sz) h -> run_calls e c h s0 = (rs, s') ->
  exists M, explains c h rs (fun _ => None) M /\ shows e c M s' /\
    forall v a n, M v = Some a -> n ∈ dkeys (d_vars a) <-> exists mv, dget (md_vars (c_meta c)) n = Some mv /\ c_dim c ∈ mv_dims mv.
Proof.
  intros Hcr E Hr Hal Hof Er. destruct (create_ok axis ds p d s c s0 Hcr E) as (_ & _ & _ & Ed & _ & Hc & Hs & _ & Hout).
  destruct (history_fixed e c Hr Hc sz h _ _ s0 rs s' Hal Hof Hs Er) as (M & I & Hs' & Hex & HM & _); [done|done|by intros [? [? ?]]|].
  exists M. split; [done|]. split; [by eapply represents_shows|]. intros v a n Ha. by apply HM in Ha as [Ha _].
Qed.
Print Assumptions C31_once.

(** Whatever the partitions selected, load returns these variables as the first
    insertion that reached the files gave them; whatever the later insertions
    give for them. *)
Theorem C31_everywhere axis ds p d s c s0 e sz h rs s' delayed f (P : list Z -> Prop) selected :
  creatable axis ds p -> exec (create_collection axis ds p d) s = (Ok c, s0) -> regular e c ->
  Forall (allowed e c) h -> Forall (of_sizes c sz) h -> run_calls e c h s0 = (rs, s') ->
  f = NoFilter \/ filterable c -> (forall v, length v = length (p_keys (c_part c)) -> says (c_part c) f v (P v)) ->
  exists M r, explains c h rs (fun _ => None) M /\ exec (load e c delayed f selected) s' = (Ok r, s') /\
    ((exists v, is_Some (M v) /\ P v) <-> is_Some r) /\
    forall out n mv, r = Some out -> wanted selected n -> dget (md_vars (c_meta c)) n = Some mv -> c_dim c ∉ mv_dims mv ->
      exists j first v v', first_given h rs j first /\ supplied c first n v /\ dget (d_vars out) n = Some v' /\ delivered c delayed n v v'.
Proof.
  intros Hcr E Hr Hal Hof Er Hf HP. destruct (create_ok axis ds p d s c s0 Hcr E) as (_ & _ & _ & Ed & _ & Hc & Hs & _ & Hout).
  destruct (history_fixed e c Hr Hc sz h _ _ s0 rs s' Hal Hof Hs Er) as (M & I & Hs' & Hex & HM & HI & Hsome & _ & Hfirst); [done|done|by intros [? [? ?]]|].
  destruct (select_chosen e c M I s' f P Hr Hs' Hf) as (vs & Sv & Hvs & Es).
  { intros x [a Ha]. apply HP. by destruct (rp_part _ _ _ _ Hs' _ _ Ha) as (? & _). }
  exists M. destruct (decide (vs = [])) as [->|Hne].
  { exists None. split; [done|]. split; [by apply load_none|]. split; [|done]. split; [|by intros []]. intros (v & Hv). apply Hvs in Hv. by apply elem_of_nil in Hv. }
  assert (Hex1 : exists v, v ∈ vs) by (destruct vs as [|v vs]; [done|]; exists v; left).
  assert (Hu : uniform c M I).
  { apply (shaped_uniform c sz); [done|done|]. apply Hsome. destruct Hex1 as [v Hv]. apply Hvs in Hv as [? _]. by exists v. }
  assert (exists parts, Forall2 (fun v d => M v = Some d) vs parts) as (parts & Hp).
  { clear -Hvs. assert (H : forall v, v ∈ vs -> is_Some (M v)) by (intros v Hv; by apply Hvs). clear Hvs.
    induction vs as [|v vs IH]; [exists []; constructor|]. destruct (H v) as [d Hd]; [left|]. destruct IH as [l Hl]; [intros w Hw; apply H; by right|].
    exists (d :: l). by constructor. }
  destruct (load_ok e c M I s' f delayed selected vs parts Hs' Hu Es Hp Hne) as (out & El & Hg).
  exists (Some out). split; [done|]. split; [done|]. split.
  { split; [by eexists|]. intros _. destruct Hex1 as [v Hv]. exists v. by apply Hvs. }
  intros out' n mv [= <-] Hn Em Hfx. assert (Him : c_immutable c = true) by (apply (dc_fixed _ Hc); by exists n, mv).
  destruct Hsome as [i Hi]; [destruct Hex1 as [v Hv]; apply Hvs in Hv as [? _]; by exists v|done|]. subst I. rewrite Him in Hg.
  destruct (Hfirst Him eq_refl i eq_refl) as (j & first & Hj & Hfi).
  assert (Hin : n ∈ dkeys (d_vars i)) by (apply (ft_names _ _ _ _ Hfi); by exists mv). pose proof Hin as Hin'. apply dget_is_Some in Hin as [x Hx].
  assert (Ho : n ∈ dkeys (d_vars out)) by (apply (ga_names _ _ _ _ _ _ Hg); split; [done|right; by exists i]). apply dget_is_Some in Ho as [v' Hv'].
  assert (Hco : conforms c first).
  { destruct Hj as [(rows & merge & np & va & sch & inn & Hj) _]. rewrite Forall_forall in Hal. exact (in_conforms _ _ _ _ _ (Hal _ (elem_of_list_lookup_2 _ _ _ Hj))). }
  destruct (fitted_supplied c first Hco _ _ _ _ Hfi Hx) as (v0 & Hsup & ->). exists j, first, v0, v'. split; [done|]. split; [done|]. split; [done|].
  destruct (ga_fixed _ _ _ _ _ _ Hg n v' i _ Hv' eq_refl Hx) as (mv' & Em' & ->). by exists mv'.
Qed.
Print Assumptions C31_everywhere.


(** [B_ds] is [X_ds] with other values for "bias". *)
Definition B_vars : list variable :=
  [X_var (lit "time") (lit "int64") [lit "time"] [3] [10; 20; 30]%Z;
   X_var (lit "pass") (lit "int64") [lit "time"] [3] [1; 1; 2]%Z;
   X_var (lit "height") (lit "float64") [lit "time"; lit "x"] [3; 2] [5; 6; 7; 8; 9; 4]%Z;
   X_var (lit "bias") (lit "float64") [lit "x"] [2] [30; 40]%Z].
Definition B_ds : dataset :=
  Dataset [(lit "time", 3); (lit "x", 2)] (map (fun v => (v_name v, v)) B_vars) [(lit "title", lit "t")] [(lit "time", 2)] 64%Z true.
Lemma B_var_in n v : dget (d_vars B_ds) n = Some v -> v ∈ B_vars /\ v_name v = n.
Proof.
  intros H. apply dget_elem in H. unfold B_ds, d_vars in H. apply elem_of_list_In, in_map_iff in H as (w & [= <- <-] & Hw). split; [by apply elem_of_list_In|done].
Qed.
Lemma B_sound : sound B_ds.
Proof.
  split; [split|].
  - split.
    + apply (bool_decide_unpack _). vm_compute. done.
    + apply (bool_decide_unpack _). vm_compute. done.
    + done.
    + intros v Hv. change (v ∈ B_vars) in Hv. by cases_var Hv.
    + intros n v Hv. apply B_var_in in Hv as [Hv <-]. split_and!; [done|by cases_var Hv|].
      intros k d Hk. cases_var Hv; destruct k as [|[|k]]; cbn in Hk; try done; injection Hk as <-; eexists; split; vm_compute; reflexivity.
  - intros v Hv. change (v ∈ B_vars) in Hv. by cases_var Hv.
  - intros n Hn. apply dget_is_Some in Hn as [v Hv]. apply B_var_in in Hv as [Hv <-]. unfold plain_name.
    cases_var Hv; apply (bool_decide_unpack _); vm_compute; done.
  - intros v Hv. change (v ∈ B_vars) in Hv. cases_var Hv; apply (bool_decide_unpack _); vm_compute; done.
Qed.
Lemma B_insertable : insertable X_env X_coll B_ds X_rows None.
Proof.
  split; [apply B_sound| | |done|by left|done|].
  - intros n v Hv. apply B_var_in in Hv as [Hv <-]. cases_var Hv; eexists; split; vm_compute; reflexivity.
  - exists [[1; 1; 2]%Z]. split.
    + intros i r Hr. destruct i as [|[|[|i]]]; cbn in Hr; try done; injection Hr as <-; by repeat constructor.
    + constructor; [|constructor]. split; [done|]. eexists. split; vm_compute; reflexivity.
  - apply X_insertable.
Qed.
Definition B_history : list call := [Insert X_ds X_rows None (Some 1%Z) false X_scheds X_inner; Insert B_ds X_rows None None false X_scheds X_inner].
Example C31_case : exists rs s' out v, run_calls X_env X_coll B_history X_store = (rs, s') /\
  exec (load X_env X_coll false X_filter (Some [lit "bias"; lit "time"])) s' = (Ok (Some out), s') /\
  dget (d_vars out) (lit "bias") = Some v /\ a_flat (v_array v) = map Num [3; 4]%Z.
Proof.
  assert (Hal : Forall (allowed X_env X_coll) B_history) by (constructor; [exact X_insertable|constructor; [exact B_insertable|constructor]]).
  assert (Hof : Forall (of_sizes X_coll (fun _ => 2)) B_history).
  { constructor; [|constructor; [|constructor]]; (split; [done|]); intros d m Hd Hm; apply dget_elem in Hm; cbn [d_dims X_ds B_ds] in Hm;
      repeat (apply elem_of_cons in Hm as [Hm|Hm]); try (by apply elem_of_nil in Hm); injection Hm as -> ->; [by exfalso|done|by exfalso|done]. }
  assert (Hsay : forall v, length v = 1 -> says X_part X_filter v (hd 0%Z v = 2%Z)) by (intros [|a [|b l]] Hl; try done; exact (X_says a)).
  destruct (run_calls X_env X_coll B_history X_store) as [rs s'] eqn:E.
  destruct (C31_everywhere _ _ _ _ _ _ _ _ (fun _ => 2) _ _ _ false X_filter (fun v => hd 0%Z v = 2%Z) (Some [lit "bias"; lit "time"])
              X_creatable X_create X_regular Hal Hof E ltac:(right; exact X_filterable)) as (M & r & Hex & El & Hr & Hb).
  { exact Hsay. }
  destruct (insert_total _ _ X_regular X_declared _ _ _ X_insertable (Some 1%Z) false ltac:(apply X_accepted; by intros k [= <-])
         _ _ X_store X_scheds X_inner X_empty ltac:(by left)) as (dirs & s1 & E1).
  cbn [run_calls run_call B_history] in E. rewrite E1 in E. destruct (exec (insert _ _ _ _ B_ds _ _ _) s1) as [r2 s2] eqn:E2. injection E as <- <-.
  assert (Hsel : is_Some r).
  { apply Hr. clear E1 E2 El Hr Hb. inversion Hex as [|? ? ? ? ? M1 ? H1 H2]; subst; inversion H2 as [|? ? ? ? ? M2 ? H3 H4]; subst; inversion H4; subst.
    exists [2%Z]. split; [|reflexivity]. cbn [effect] in H1, H3. destruct (inserted_pieces _ _ _ _ _ H1) as (_ & _ & Hsome & _).
    assert (H2in : ([2%Z] : list Z) ∈ X_rows) by (unfold X_rows; right; right; left). assert (Hone : is_Some (M1 [2%Z])) by (by apply Hsome).
    destruct r2 as [dirs2|ex].
    - destruct H3 as (part & _ & H3). destruct (H3 [2%Z]) as [H3' _]. destruct (H3' H2in) as (new & Hnew & _). by exists new.
    - destruct (H3 [2%Z]) as [->|(_ & part & new & _ & Hnew & _)]; [done|]. by exists new. }
  destruct Hsel as [out ->]. destruct (Hb out (lit "bias") (v_metadata (X_var (lit "bias") (lit "float64") [lit "x"] [2] [3; 4]%Z)) eq_refl) as (j & first & v & v' & Hj & Hsup & Hv' & Hdel).
  { left. }
  { vm_compute. reflexivity. }
  { intros Hin. by apply elem_of_list_singleton in Hin. }
  exists (Ok dirs :: [r2]), s2, out, v'. split; [reflexivity|]. split; [exact El|]. split; [exact Hv'|].
  assert (first = X_ds) as ->.
  { destruct Hj as [(rows & merge & np & va & sch & inn & Hj) Hbe]. destruct j as [|[|j]]; [by injection Hj| |done].
    destruct (Hbe 0 X_ds X_rows None (Some 1%Z) false X_scheds X_inner (Ok dirs) ltac:(lia) eq_refl eq_refl) as [ex Hex']. done. }
  destruct Hsup as [Hs1|[Hs1 _]]; [|by vm_compute in Hs1]. vm_compute in Hs1. injection Hs1 as <-. destruct Hdel as (mv & _ & ->). reflexivity.
Qed.

Lemma dset_elem {A} (l : list (str * A)) k x n y : (n, y) ∈ dset l k x -> (n, y) = (k, x) \/ (n, y) ∈ l.
Proof.
  induction l as [|[k' x'] l IH]; cbn.
  - intros H. apply elem_of_list_singleton in H. by left.
  - destruct (decide (k = k')) as [->|]; intros H; apply elem_of_cons in H as [H|H].
    + by left.
    + right. by right.
    + right. rewrite H. left.
    + apply IH in H as [H|H]; [by left|]. right. by right.
Qed.
Lemma prepare_without c (x : str) ds validate out : (forall n mv, dget (md_vars (c_meta c)) n = Some mv -> x ∉ mv_dims mv) ->
  (forall n v, (n, v) ∈ d_vars ds -> x ∉ v_dims v) -> prepare c ds validate = Ok out -> forall n v, (n, v) ∈ d_vars out -> x ∉ v_dims v.
Proof.
  intros Hm Hds. unfold prepare, complete. destruct (md_missing_variables _ _) as [names|]; [|done]. cbn [rbind].
  destruct (foldM _ ds names) as [ds'|] eqn:E; [|done]. cbn [rbind]. destruct (validate && _); [done|].
  assert (H : forall n v, (n, v) ∈ d_vars ds' -> x ∉ v_dims v).
  { revert ds Hds E. induction names as [|n names IH]; intros ds Hds E; cbn [foldM] in E; [by injection E as <-|].
    destruct (dget (md_vars (c_meta c)) n) as [mv|] eqn:En; [|done]. destruct (ds_add_variable ds mv None) as [ds2|] eqn:Ea; [|done]. cbn [rbind] in E.
    apply (IH ds2); [|done]. unfold ds_add_variable in Ea. destruct (negb _); [done|]. destruct (fill_or_raise _) as [f|]; [|done]. cbn [rbind] in Ea. injection Ea as <-.
    intros k v Hk. cbn [d_vars] in Hk. apply dset_elem in Hk as [[= -> ->]|Hk]; [by apply (Hm _ _ En)|by eapply Hds]. }
  intros Hn. apply new_dataset_ok in Hn as (-> & _). intros n v Hv. apply elem_dget, dict_of_elem in Hv; [|apply dict_of_NoDup]. apply elem_of_list_In, in_map_iff in Hv as (w & [= <- <-] & Hw).
  apply in_map_iff in Hw as (w0 & <- & Hw). cbn. apply elem_of_list_In, elem_dvals in Hw as [k Hk]. by eapply H.
Qed.
(** The names of the axis and of its dimension matter: if there are such
    variables and the axis is not the name of a dimension, no dataset can be
    inserted in the collection. *)
Theorem C70_names_refuted axis ds p d s c s0 e scheds inner merge np validate ds1 s1 r s2 :
  exec (create_collection axis ds p d) s = (Ok c, s0) ->
  (exists n mv, dget (md_vars (c_meta c)) n = Some mv /\ c_dim c ∉ mv_dims mv) ->
  (forall n mv, dget (md_vars (c_meta c)) n = Some mv -> axis ∉ mv_dims mv) -> p_variables p <> [] ->
  sound ds1 -> conforms c ds1 -> exec (insert e scheds inner c ds1 merge np validate) s1 = (r, s2) -> exists ex, r = Raise ex.
Proof.
  unfold create_collection. rewrite exec_bind, exec_exists. destruct (negb _); [done|]. unfold make_collection. rewrite exec_bind.
  destruct (new_collection _ _ _ _ _) as [c0|] eqn:En; [|done]. cbn [exec]. apply new_collection_ok in En as (E1 & E2 & E3 & E4 & _ & _ & Him & Hro).
  destruct (c_readonly c0) eqn:Ew; [by apply proj1 in Hro; specialize (Hro eq_refl)|]. rewrite exec_bind. unfold write_config. rewrite exec_bind, exec_exists.
  intros Ec. assert (c = c0) as ->. { destruct (_ && true); [cbn in Ec; congruence|]. rewrite exec_write in Ec. cbn in Ec. congruence. }
  clear Ec. intros Hno Hax Hk Hso Hco. rewrite <-E1 in Hax. rewrite <-E3 in Hk. rewrite <-E2 in Him. 
  assert (Hi : c_immutable c0 = true) by (rewrite Him; apply has_immutable_ok; [rewrite E2; apply C17_well_formed|done]).
  unfold insert. rewrite Ew, exec_bind. destruct (prepare c0 ds1 validate) as [out|ex] eqn:Ep; [|cbn; intros [= <- _]; by exists ex].
  cbn [exec]. rewrite exec_bind. unfold insert_immutable. rewrite Hi, exec_bind, exec_exists.
  pose proof (prepare_without c0 (c_axis c0) ds1 validate out Hax) as Hw. specialize (Hw ltac:(intros n v Hn; apply elem_dget in Hn; [|apply Hso]; destruct (Hco _ _ Hn) as (mv & Em & ->); by apply (Hax _ _ Em)) Ep).
  assert (Hsel : forall part, ds_select_variables_by_dims out [c_axis c0] true = Ok part -> d_vars part = []).
  { intros part Hp. apply new_dataset_ok in Hp as (-> & _). rewrite filter_none; [done|]. intros v Hv. apply not_true_is_false. intros Ht. apply dims_condition_one in Ht.
    apply elem_dvals in Hv as [n Hn]. by apply (Hw _ _ Hn). }
  assert (Hfail : forall part, d_vars part = [] -> exists ex, split_dataset (c_part c0) part = Raise ex).
  { intros part Hp. unfold split_dataset. destruct (p_variables (c_part c0)) as [|n l]; [done|]. cbn [traverse]. unfold get_var. rewrite Hp. cbn. by eexists. }
  rewrite exec_bind. match goal with |- context [exec (if ?b then _ else _) s1] => destruct (exec (if b then pret tt else write_immutable c0 out) s1) as [r1 s1'] end. destruct r1 as [u|ex]; [|intros [= <- _]; by exists ex]. cbn [exec].
  destruct (ds_select_variables_by_dims out [c_axis c0] true) as [part|ex]; [|intros [= <- _]; by exists ex].
  rewrite exec_bind. cbn [exec]. destruct (Hfail part (Hsel part eq_refl)) as [ex ->]. intros [= <- _]. by exists ex.
Qed.
Print Assumptions C70_names_refuted.

(** The axis "time" has the dimension "num". *)
Definition N_vars : list variable :=
  [X_var (lit "time") (lit "int64") [lit "num"] [3] [10; 20; 30]%Z;
   X_var (lit "pass") (lit "int64") [lit "num"] [3] [1; 1; 2]%Z;
   X_var (lit "bias") (lit "float64") [lit "x"] [2] [3; 4]%Z].
Definition N_ds : dataset :=
  Dataset [(lit "num", 3); (lit "x", 2)] (map (fun v => (v_name v, v)) N_vars) [] [] 64%Z true.
Definition N_coll : collection := Coll (lit "time") (ds_metadata N_ds) X_part X_dir (lit "num") true false.
Definition N_store : store := <[X_dir ++ [CONFIG] := CConf (config_of N_coll)]> ∅.
Lemma N_create : exec (create_collection (lit "time") N_ds X_part X_dir) ∅ = (Ok N_coll, N_store).
Proof. vm_compute. reflexivity. Qed.
Lemma N_var_in n v : dget (d_vars N_ds) n = Some v -> v ∈ N_vars /\ v_name v = n.
Proof.
  intros H. apply dget_elem in H. unfold N_ds, d_vars in H. apply elem_of_list_In, in_map_iff in H as (w & [= <- <-] & Hw). split; [by apply elem_of_list_In|done].
Qed.
Lemma N_sound : sound N_ds.
Proof.
  split; [split|].
  - split.
    + apply (bool_decide_unpack _). vm_compute. done.
    + apply (bool_decide_unpack _). vm_compute. done.
    + done.
    + intros v Hv. change (v ∈ N_vars) in Hv. by cases_var Hv.
    + intros n v Hv. apply N_var_in in Hv as [Hv <-]. split_and!; [done|by cases_var Hv|].
      intros k d Hk. cases_var Hv; destruct k as [|[|k]]; cbn in Hk; try done; injection Hk as <-; eexists; split; vm_compute; reflexivity.
  - intros v Hv. change (v ∈ N_vars) in Hv. by cases_var Hv.
  - intros n Hn. apply dget_is_Some in Hn as [v Hv]. apply N_var_in in Hv as [Hv <-]. unfold plain_name.
    cases_var Hv; apply (bool_decide_unpack _); vm_compute; done.
  - intros v Hv. change (v ∈ N_vars) in Hv. cases_var Hv; apply (bool_decide_unpack _); vm_compute; done.
Qed.
Example C70_case : forall scheds inner np validate, exists ex s', exec (insert X_env scheds inner N_coll N_ds None np validate) N_store = (Raise ex, s').
Proof.
  intros scheds inner np validate. destruct (exec (insert X_env scheds inner N_coll N_ds None np validate) N_store) as [r s'] eqn:E.
  assert (exists ex, r = Raise ex) as [ex ->]; [|by exists ex, s'].
  eapply C70_names_refuted; [exact N_create| | | |exact N_sound| |exact E]; clear E.
  - exists (lit "bias"). eexists. split; [vm_compute; reflexivity|]. apply (bool_decide_unpack _). vm_compute. done.
  - intros n mv Hn. apply dget_elem in Hn. assert (H : Forall (fun nv => lit "time" ∉ mv_dims nv.2) (md_vars (c_meta N_coll))) by (apply (bool_decide_unpack _); vm_compute; done).
    rewrite Forall_forall in H. exact (H _ Hn).
  - done.
  - intros n v Hv. apply N_var_in in Hv as [Hv <-]. cases_var Hv; eexists; split; vm_compute; reflexivity.
Qed.
