(** * Histories of insertions of time series (C77) *)
From Verif Require Import Py Dict NdArray_Model NdArray_Spec NdArray_Proofs Dataset_Model Dataset_Spec Dataset_Proofs Dataset_Props.
From Verif Require Import Assemble_Spec Assemble_Proofs Period_Model TimeSeries_Model TimeSeries_Spec TimeSeries_Sound.
From Verif Require Import Meta_Model PartPath_Model Listing_Model Listing_Spec FS_Proofs FS_Model Pool_Model Storage_Model Storage_Spec Split_Spec.
From Verif Require Import Collection_Model Collection_Spec Collection_Prepare Collection_State Collection_Insert Collection_Select Collection_Load Collection_Round Collection_Create
  Collection_Total Collection_Props Collection_Example View_Props2 Immutable_Spec Immutable_Props Series_Spec Series_Proofs.

Lemma timed_sizes c r sizes h tss : timed c r sizes h tss -> Forall (of_sizes c sizes) h.
Proof.
  intros H. apply Forall_lookup. intros k [ds rows merge np va sch inn|f older sch] Hk; [|done]. destruct (H _ _ _ _ _ _ _ _ Hk) as (-> & _ & _ & Hs).
  split; [apply time_series_layout|]. intros d m Hd Hm. by apply Hs.
Qed.
Lemma lines_leave e c r sizes h tss rs M : regular e c -> declared c -> Forall (allowed e c) h -> timed c r sizes h tss -> explains c h rs (fun _ => None) M ->
  leaves c h rs tss M.
Proof.
  intros Hr Hc Hal Hti Hex v. destruct (lines e c Hr Hc r sizes h tss Hal Hti h rs M [] ltac:(by rewrite app_nil_r) Hex v) as (calls & Hct & H).
  exists calls. split; [done|]. destruct (M v) as [p|].
  - destruct H as (Hne & plan & Hi). split; [done|]. intros p' [= <-]. exists plan. by eapply inv_timeline.
  - by split.
Qed.

(** After any history of insertions of time series and of removals on a new
    collection, each partition holds the records of the insertions that count for
    it that no later insertion covers, in the order of their dates. *)
Theorem C77_history axis ds p d s c s0 e r sizes h tss rs s' :
  creatable axis ds p -> exec (create_collection axis ds p d) s = (Ok c, s0) -> regular e c ->
  Forall (allowed e c) h -> timed c r sizes h tss -> run_calls e c h s0 = (rs, s') ->
  exists M, shows e c M s' /\ leaves c h rs tss M.
Proof.
  intros Hcr E Hr Hal Hti Er. destruct (create_ok axis ds p d s c s0 Hcr E) as (_ & _ & _ & Ed & _ & Hc & Hs & _ & Hout).
  destruct (calls_spec e c Hr Hc h _ _ s0 rs s' Hal Hs Er) as (M & I & Hs' & Hex & _). exists M. split; [by eapply represents_shows|]. by eapply lines_leave.
Qed.
Print Assumptions C77_history.

(** Load gives the records of these timelines, one partition after the other in
    the order of the keys. *)
Theorem C77_load axis ds p d s c s0 e r sizes h tss rs s' delayed f (P : list Z -> Prop) selected :
  creatable axis ds p -> exec (create_collection axis ds p d) s = (Ok c, s0) -> regular e c ->
  Forall (allowed e c) h -> timed c r sizes h tss -> run_calls e c h s0 = (rs, s') ->
  f = NoFilter \/ filterable c -> (forall v, length v = length (p_keys (c_part c)) -> says (c_part c) f v (P v)) ->
  exists M vs plans o, leaves c h rs tss M /\ StronglySorted row_lt vs /\ (forall v, v ∈ vs <-> is_Some (M v) /\ P v) /\
    Forall2 (fun v plan => exists calls p, counted c h rs v calls /\ timeline c h tss v calls plan p) vs plans /\
    exec (load e c delayed f selected) s' = (Ok o, s') /\ (o = None <-> vs = []) /\
    forall out n mv, o = Some out -> wanted selected n -> dget (md_vars (c_meta c)) n = Some mv -> c_dim c ∈ mv_dims mv ->
      exists w ars, dget (d_vars out) n = Some w /\ records w (c_dim c) = Some ars /\ Forall2 (record_of c h n) (mjoin plans) ars.
Proof.
  intros Hcr E Hr Hal Hti Er Hf HP. destruct (create_ok axis ds p d s c s0 Hcr E) as (_ & _ & _ & Ed & _ & Hc & Hs & _ & Hout).
  destruct (history_fixed e c Hr Hc sizes h _ _ s0 rs s' Hal (timed_sizes _ _ _ _ _ Hti) Hs Er) as (M & I & Hs' & Hex & HM & HI & Hsome & _); [done|done|by intros [? [? ?]]|].
  pose proof (lines_leave e c r sizes h tss rs M Hr Hc Hal Hti Hex) as Hle.
  destruct (select_chosen e c M I s' f P Hr Hs' Hf) as (vs & Sv & Hvs & Es).
  { intros x [a Ha]. apply HP. by destruct (rp_part _ _ _ _ Hs' _ _ Ha) as (? & _). }
  assert (exists parts plans, Forall2 (fun v d => M v = Some d) vs parts /\ Forall2 (fun v plan => exists calls p, counted c h rs v calls /\ timeline c h tss v calls plan p) vs plans /\
    forall n, n ∈ dkeys (md_vars (c_meta c)) -> (exists mv, dget (md_vars (c_meta c)) n = Some mv /\ moving c mv) ->
      exists rss, records_in (c_dim c) n parts rss /\ Forall2 (record_of c h n) (mjoin plans) (mjoin rss)) as (parts & plans & Hp & Hpl & Hrec).
  { assert (H : forall v, v ∈ vs -> is_Some (M v)) by (intros v Hv; by apply Hvs). clear -H Hle.
    induction vs as [|v vs IH]; [exists [], []; split; [constructor|]; split; [constructor|]; intros; exists []; split; constructor|].
    destruct (H v) as [d Hd]; [left|]. destruct IH as (parts & plans & H1 & H2 & H3); [intros w Hw; apply H; by right|].
    destruct (Hle v) as (calls & Hct & _ & Ht). destruct (Ht d Hd) as [plan Hplan]. exists (d :: parts), (plan :: plans). split; [by constructor|]. split; [constructor; [by exists calls, d|done]|].
    intros n Hn Hmo. destruct (H3 n Hn Hmo) as (rss & R1 & R2). assert (Hin : n ∈ dkeys (d_vars d)) by (by apply (tl_names _ _ _ _ _ _ _ Hplan)).
    apply dget_is_Some in Hin as [w Hw]. destruct (tl_records _ _ _ _ _ _ _ Hplan n w Hw) as (ars & Ha & Hf). exists (ars :: rss). split.
    - unfold records_in in *. constructor; [by exists w|done].
    - cbn [mjoin list_join]. by apply Forall2_app. }
  exists M, vs, plans. destruct (decide (vs = [])) as [Evs|Hne].
  { exists None. split; [done|]. split; [done|]. split; [done|]. split; [done|]. split; [apply load_none; by rewrite Evs in Es|]. by split. }
  assert (Hex1 : exists v, v ∈ vs) by (destruct vs as [|v vs]; [done|]; exists v; left).
  assert (Hu : uniform c M I).
  { apply (shaped_uniform c sizes); [done|done|]. apply Hsome. destruct Hex1 as [v Hv]. apply Hvs in Hv as [? _]. by exists v. }
  destruct (load_ok e c M I s' f delayed selected vs parts Hs' Hu Es Hp Hne) as (out & El & Hg).
  exists (Some out). split; [done|]. split; [done|]. split; [done|]. split; [done|]. split; [done|]. split; [by split|].
  intros out' n mv [= <-] Hw Em Hmo. destruct (Hrec n) as (rss & R1 & R2); [apply dget_is_Some; by eexists|by exists mv|].
  destruct vs as [|v vs]; [done|]. inversion Hp as [|? p1 ? parts1 Hp1 Hps]; subst.
  assert (Hin : n ∈ dkeys (d_vars p1)) by (apply (HM v p1 Hp1); by exists mv). pose proof Hin as Hin'. apply dget_is_Some in Hin' as [x Hx].
  assert (Ho : n ∈ dkeys (d_vars out)) by (apply (ga_names _ _ _ _ _ _ Hg); split; [done|]; left; exists p1; split; [left|done]). apply dget_is_Some in Ho as [w Hwo].
  destruct (ga_moving _ _ _ _ _ _ Hg n w p1 x Hwo eq_refl Hx) as (w0 & rss' & _ & _ & Hrs). destruct (HM v p1 Hp1) as [_ HM2]. destruct (HM2 n x Hx) as (mv' & Em' & Hd & _).
  destruct Hrs as [R3 R4]; [rewrite Hd; congruence|]. exists w, (mjoin rss'). split; [done|]. split; [done|].
  assert (rss' = rss) as ->; [|done]. clear -R1 R3. unfold records_in in *. revert rss R1. induction R3 as [|a b l l' H1 H2 IH]; intros rss R1; inversion R1 as [|? b' ? l'' H3 H4]; subst; [done|].
  f_equal; [|by apply IH]. destruct H1 as (v1 & E1 & E2), H3 as (v2 & E3 & E4). congruence.
Qed.
Print Assumptions C77_load.

(** An insertion that can be done in an empty collection succeeds after the
    history, if no stored record is dated one unit after its last ones. *)
Theorem C77_succeeds axis ds p d s c s0 e r sizes h tss rs s' ds1 rows merge np validate scheds inner :
  creatable axis ds p -> exec (create_collection axis ds p d) s = (Ok c, s0) -> regular e c ->
  Forall (allowed e c) (h ++ [Insert ds1 rows merge np validate scheds inner]) -> timed c r sizes (h ++ [Insert ds1 rows merge np validate scheds inner]) tss ->
  run_calls e c h s0 = (rs, s') -> accepted c ds1 rows np validate ->
  (forall v, v ∈ rows -> not_next (h ++ [Insert ds1 rows merge np validate scheds inner]) tss (length h) v) ->
  exists dirs s'', exec (insert e scheds inner c ds1 merge np validate) s' = (Ok dirs, s'').
Proof.
  intros Hcr E Hr Hal Hti Er Hac Hno. destruct (create_ok axis ds p d s c s0 Hcr E) as (_ & _ & _ & Ed & _ & Hc & Hs & _ & Hout).
  pose proof Hal as Hal'. apply Forall_app in Hal' as [Hal1 Hx]. inversion Hx as [|? ? Hi _]; subst. cbn in Hi.
  destruct (calls_spec e c Hr Hc h _ _ s0 rs s' Hal1 Hs Er) as (M & I & Hs' & Hex & _).
  apply (insert_merges e c Hr Hc ds1 rows merge Hi np validate Hac M I s' scheds inner Hs').
  intros f v old o part ps piece Em Hv HM Ho Hf Hps Hpc Hre.
  destruct (lines e c Hr Hc r sizes _ tss Hal Hti h rs M _ eq_refl Hex v) as (calls & Hct & Hl). rewrite HM in Hl. destruct Hl as (_ & plan & Hiv).
  eapply (merge_goes e c Hr Hc r sizes _ tss Hal Hti v (length h) ds1 rows merge np validate scheds inner part ps piece old o calls plan f); try done.
  - by rewrite lookup_app_r, Nat.sub_diag by lia.
  - intros k Hk. destruct (ct_filed _ _ _ _ _ Hct k Hk) as [i Hfi]. by eapply filed_lt.
  - by apply Hno.
Qed.
Print Assumptions C77_succeeds.

(** [T_ds] is dated between and after the records of [X_ds]. *)
Definition T_vars : list variable :=
  [X_var (lit "time") (lit "int64") [lit "time"] [3] [15; 25; 40]%Z;
   X_var (lit "pass") (lit "int64") [lit "time"] [3] [1; 1; 2]%Z;
   X_var (lit "height") (lit "float64") [lit "time"; lit "x"] [3; 2] [50; 60; 70; 80; 90; 40]%Z;
   X_var (lit "bias") (lit "float64") [lit "x"] [2] [3; 4]%Z].
Definition T_ds : dataset :=
  Dataset [(lit "time", 3); (lit "x", 2)] (map (fun v => (v_name v, v)) T_vars) [(lit "title", lit "t")] [(lit "time", 2)] 64%Z true.
Lemma T_var_in n v : dget (d_vars T_ds) n = Some v -> v ∈ T_vars /\ v_name v = n.
Proof.
  intros H. apply dget_elem in H. unfold T_ds, d_vars in H. apply elem_of_list_In, in_map_iff in H as (w & [= <- <-] & Hw). split; [by apply elem_of_list_In|done].
Qed.
Lemma T_sound : sound T_ds.
Proof.
  split; [split|].
  - split.
    + apply (bool_decide_unpack _). vm_compute. done.
    + apply (bool_decide_unpack _). vm_compute. done.
    + done.
    + intros v Hv. change (v ∈ T_vars) in Hv. by cases_var Hv.
    + intros n v Hv. apply T_var_in in Hv as [Hv <-]. split_and!; [done|by cases_var Hv|].
      intros k d Hk. cases_var Hv; destruct k as [|[|k]]; cbn in Hk; try done; injection Hk as <-; eexists; split; vm_compute; reflexivity.
  - intros v Hv. change (v ∈ T_vars) in Hv. by cases_var Hv.
  - intros n Hn. apply dget_is_Some in Hn as [v Hv]. apply T_var_in in Hv as [Hv <-]. unfold plain_name.
    cases_var Hv; apply (bool_decide_unpack _); vm_compute; done.
  - intros v Hv. change (v ∈ T_vars) in Hv. cases_var Hv; apply (bool_decide_unpack _); vm_compute; done.
Qed.
Definition T_res : resolution := 3.
Lemma T_insertable : insertable X_env X_coll T_ds X_rows (Some (by_time T_res)).
Proof.
  split; [apply T_sound| | |done|by left|apply time_series_sound|].
  - intros n v Hv. apply T_var_in in Hv as [Hv <-]. cases_var Hv; eexists; split; vm_compute; reflexivity.
  - exists [[1; 1; 2]%Z]. split.
    + intros i r Hr. destruct i as [|[|[|i]]]; cbn in Hr; try done; injection Hr as <-; by repeat constructor.
    + constructor; [|constructor]. split; [done|]. eexists. split; vm_compute; reflexivity.
  - apply X_insertable.
Qed.
Lemma T_first : insertable X_env X_coll X_ds X_rows (Some (by_time T_res)).
Proof. destruct X_insertable as [H1 H2 H3 H4 H5 _ H7]. split; try done. apply time_series_sound. Qed.
Lemma T_accepted np validate : (forall k, np = Some k -> (1 <= k)%Z) -> accepted X_coll T_ds X_rows np validate.
Proof.
  intros Hk. split; [done|done|apply X_sorted| | |done|].
  - cbn. intros vs Hvs. inversion Hvs as [|? v ? l Hv Hl]; subst. inversion Hl; subst. vm_compute in Hv. injection Hv as <-. by apply Collection_Split.promotes_integers.
  - intros n mv Hn Hni. exfalso. apply Hni. assert (Hin : n ∈ dkeys (md_vars (c_meta X_coll))) by (apply dget_is_Some; by eexists).
    assert (E : bool_decide (Forall (fun n => n ∈ dkeys (d_vars T_ds)) (dkeys (md_vars (c_meta X_coll)))) = true) by (vm_compute; done).
    apply bool_decide_eq_true in E. rewrite Forall_forall in E. by apply E.
  - intros _. split; [vm_compute; done|].
    assert (E : bool_decide (Forall (fun n => n ∈ dkeys (d_vars T_ds)) (dkeys (md_vars (c_meta X_coll)))) = true) by (vm_compute; done).
    apply bool_decide_eq_true in E. rewrite Forall_forall in E. exact E.
Qed.
Definition T_one : call := Insert X_ds X_rows (Some (by_time T_res)) (Some 1%Z) false X_scheds X_inner.
Definition T_two : call := Insert T_ds X_rows (Some (by_time T_res)) None true X_scheds X_inner.
Definition T_dates : list (list Z) := [[10; 20; 30]; [15; 25; 40]]%Z.
Lemma T_allowed : Forall (allowed X_env X_coll) ([T_one] ++ [T_two]).
Proof. constructor; [exact T_first|constructor; [exact T_insertable|constructor]]. Qed.
Lemma T_timed : timed X_coll T_res (fun _ => 2) ([T_one] ++ [T_two]) T_dates.
Proof.
  intros k ds rows merge np va scheds inner Hk. destruct k as [|[|k]]; cbn in Hk; try done; injection Hk as <- <- <- <- <- <- <-; (split; [done|]);
    (split; [eexists; split; [reflexivity|]; eexists; split; [vm_compute; reflexivity|]; done|]); split.
  1, 3: intros i j v Hi Hj Hij; destruct i as [|[|[|i]]], j as [|[|[|j]]]; cbn in Hi, Hj; try done; try lia; try congruence; unfold date_of; cbn; lia.
  all: intros d m Hm Hd; apply dget_elem in Hm; cbn [d_dims X_ds T_ds] in Hm; repeat (apply elem_of_cons in Hm as [Hm|Hm]); try (by apply elem_of_nil in Hm); injection Hm as -> ->; [by exfalso|done].
Qed.
Lemma T_filed v k i : filed ([T_one] ++ [T_two]) v (k, i) <-> k < 2 /\ X_rows !! i = Some v.
Proof.
  split.
  - intros (ds & rows & (m & np & va & sc & inn & Hk) & Hi). cbn [fst snd] in *. destruct k as [|[|k]]; cbn in Hk; try done; injection Hk as <- <- <- <- <- <- <-; (split; [lia|done]).
  - intros [Hk Hi]. destruct k as [|[|k]]; [| |lia]; [exists X_ds|exists T_ds]; exists X_rows; (split; [|done]); repeat eexists.
Qed.
Example C77_case : exists d1 d2 s' M p plan, run_calls X_env X_coll ([T_one] ++ [T_two]) X_store = ([Ok d1; Ok d2], s') /\
  shows X_env X_coll M s' /\ M [1%Z] = Some p /\ timeline X_coll ([T_one] ++ [T_two]) T_dates [1%Z] [0; 1] plan p /\
  forall o, o ∈ plan <-> o = (0, 0) \/ o = (1, 0) \/ o = (1, 1).
Proof.
  destruct (insert_total _ _ X_regular X_declared _ _ _ T_first (Some 1%Z) false ltac:(apply X_accepted; by intros k [= <-])
         _ _ X_store X_scheds X_inner X_empty ltac:(by right)) as (d1 & s1 & E1).
  destruct (C77_succeeds (lit "time") X_ds X_part X_dir ∅ X_coll X_store X_env T_res (fun _ => 2) [T_one] T_dates [Ok d1] s1 T_ds X_rows (Some (by_time T_res)) None true X_scheds X_inner)
    as (d2 & s2 & E2); [exact X_creatable|exact X_create|exact X_regular|exact T_allowed|exact T_timed| |by apply T_accepted| |].
  { cbn [run_calls run_call T_one]. rewrite E1. reflexivity. }

  { clear E1. intros v Hv k i j Hk Hi Hj Hmax. cbn in Hk. assert (k = 0) as -> by lia. apply T_filed in Hi as [_ Hi], Hj as [_ Hj]. cbn [length] in *.
    destruct i as [|[|[|i]]], j as [|[|[|j]]]; cbn in Hi, Hj; try done; unfold date_of; cbn; lia. }
  assert (E : run_calls X_env X_coll ([T_one] ++ [T_two]) X_store = ([Ok d1; Ok d2], s2)) by (cbn [run_calls run_call T_one T_two app]; rewrite E1, E2; reflexivity).
  destruct (C77_history _ _ _ _ _ _ _ _ _ _ _ _ _ _ X_creatable X_create X_regular T_allowed T_timed E) as (M & Hsh & Hle).
  clear E1 E2. destruct (Hle [1%Z]) as (calls & Hct & Hno & Htl).
  assert (Hin : forall k, k ∈ calls <-> k = 0 \/ k = 1).
  { clear E Hsh Hle Htl Hno. intros k. split.
    - intros Hk. destruct (ct_filed _ _ _ _ _ Hct k Hk) as [i [Hi _]%T_filed]. lia.
    - intros Hk. apply (ct_all _ _ _ _ _ Hct k 0 (if decide (k = 0) then d1 else d2)).
      + apply T_filed. split; [lia|done].
      + by destruct Hk as [-> | ->].
      + intros k' f older sched res _ Hx. by destruct k' as [|[|k']]. }
  destruct (M [1%Z]) as [p|] eqn:Ep; [|exfalso; rewrite (proj1 Hno eq_refl) in Hin; specialize (Hin 0); destruct Hin as [_ Hin]; by apply elem_of_nil in Hin; auto].
  destruct (Htl p eq_refl) as [plan Ht]. exists d1, d2, s2, M, p, plan. split; [exact E|]. split; [exact Hsh|]. split; [exact Ep|]. clear E Hsh Hle.
  assert (Hcov : forall x, covers ([T_one] ++ [T_two]) T_dates [1%Z] 1 x <-> (15 <= x <= 25)%Z).
  { intros x. split.
    - intros (i & j & [_ Hi]%T_filed & [_ Hj]%T_filed & Hx). destruct i as [|[|[|i]]], j as [|[|[|j]]]; cbn in Hi, Hj; try done; unfold date_of in Hx; cbn in Hx; lia.
    - intros Hx. exists 0, 1. rewrite !T_filed. split; [split; [lia|done]|]. split; [split; [lia|done]|]. done. }
  split.
  - destruct Ht as [H1 H2 H3 H4 H5 H6 H7]. split; try done.
    + intros k i Hk. destruct (H3 k i Hk) as (A & B & C). split; [|split; [done|]].
      * apply Hin in A as [-> | ->]; [by left|by right; left].
      * intros k' Hk'. apply C, Hin. apply elem_of_cons in Hk' as [->|Hk']; [by left|]. apply elem_of_list_singleton in Hk'. by right.
    + intros k i Hk Hf Hc. apply H4; [|done|].
      * apply Hin. apply elem_of_cons in Hk as [->|Hk]; [by left|]. apply elem_of_list_singleton in Hk. by right.
      * intros k' Hk'. apply Hc. apply Hin in Hk' as [-> | ->]; [by left|by right; left].
    + intros n w Hw. destruct (H7 n w Hw) as (k & ds & rows & u & Hk & ?). exists k, ds, rows, u. split; [|done]. apply Hin in Hk as [-> | ->]; [by left|by right; left].
  - intros [k i]. split.
    + intros Ho. destruct (tl_from _ _ _ _ _ _ _ Ht k i Ho) as (Hk & [_ Hi]%T_filed & Hc). apply Hin in Hk.
      destruct i as [|[|[|i]]]; cbn in Hi; try done; destruct Hk as [-> | ->]; auto. exfalso. apply (Hc 1); [by apply Hin; right|lia|]. apply Hcov. unfold date_of. cbn. lia.
    + intros Ho. apply (tl_all _ _ _ _ _ _ _ Ht).
      * apply Hin. destruct Ho as [[= -> ->]|[[= -> ->]|[= -> ->]]]; auto.
      * apply T_filed. destruct Ho as [[= -> ->]|[[= -> ->]|[= -> ->]]]; (split; [lia|done]).
      * intros k' Hk' Hlt. apply Hin in Hk' as [-> | ->]; [lia|]. rewrite !Hcov. destruct Ho as [[= -> ->]|[[= -> ->]|[= -> ->]]]; [|lia|lia]. unfold date_of. cbn. lia.
Qed.
