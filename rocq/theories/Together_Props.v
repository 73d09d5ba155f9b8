(** * Properties of insertions made at the same time by several processes *)
From Verif Require Import Py Dict NdArray_Model NdArray_Spec NdArray_Proofs Dataset_Model Dataset_Spec Dataset_Proofs Dataset_Props Dataset_Props2 Meta_Model PartPath_Model PartPath_Proofs
  Split_Model Split_Spec Split_Proofs DaskUtils_Model DaskUtils_Proofs DaskUtils_Props FS_Model FS_Proofs Pool_Model Pool_Proofs Storage_Model Storage_Spec Storage_Proofs
  Listing_Model Listing_Spec Collection_Model Collection_Spec Collection_Split Collection_Proofs Collection_State Collection_Prepare Collection_Select Collection_Load Collection_Insert Collection_Total Collection_Props
  Crash_Spec Collection_Crash Crash_Props Collection_Create Collection_Example Update_Spec Update_Example Live_Props.

(** ** Reading in advance what never changes *)
Section advance.
  Context {A : Type} (s : store) (X : path -> Prop).
  (** [p'] is [p], or [p] after its first reading, of files of [X]. *)
  Definition ahead (p p' : program A) : Prop :=
    p = p' \/ exists d k, p = Op (Get d) k /\ p' = k (Some (sub d s)) /\ forall q, under d q -> X q.
  Lemma pool_ahead (ps ps' : list (program A)) R W rs u : Forall2 ahead ps ps' -> independent ps' R W -> (forall i q, X q -> ~ W i q) ->
    rtc (pool_step CTorn) (ps, s) (map Ret rs, u) -> rtc (pool_step CTorn) (ps', s) (map Ret rs, u).
  Proof.
    intros Hps Hi HX H.
    assert (exists qs', rtc (pool_step CTorn) (ps', s) (qs', u) /\ Forall2 ahead (map Ret rs) qs') as (qs' & Hq & Hf).
    { refine (rtc_ind_r (fun y : list (program A) * store => exists qs', rtc (pool_step CTorn) (ps', s) (qs', y.2) /\ Forall2 ahead y.1 qs') (ps, s) _ _ (map Ret rs, u) H); cbn.
      - exists ps'. by split.
      - intros [qs t] [qs2 t2] _ Hst (qs' & Hr & Hf). cbn in *. inversion Hst as [? i p p2 ? ? Ei Hp]; subst.
        destruct (Forall2_lookup_l _ _ _ _ _ Hf Ei) as (p' & Ei' & [->|(d & k & -> & -> & Hd)]).
        + exists (<[i := p2]> qs'). split; [eapply rtc_r; [exact Hr|by econstructor]|]. apply Forall2_insert; [done|by left].
        + inversion Hp; subst. cbn [exec_op fst snd]. exists qs'. split; [done|]. rewrite <-(list_insert_id qs' i _ Ei'). apply Forall2_insert; [done|]. left. f_equal. f_equal.
          apply map_eq. intros q. rewrite !sub_lookup. destruct (pool_local CTorn ps' qs' R W s t2 Hi Hr) as (_ & _ & Ho). apply Ho. intros j p _. apply HX, Hd, under_app. }
    assert (qs' = map Ret rs) as ->; [|done]. clear -Hf. revert qs' Hf. induction rs as [|r rs IH]; intros qs' Hf; inversion Hf as [|? p' ? l' Hr Hl]; subst; cbn; [done|].
    f_equal; [|by apply IH]. by destruct Hr as [<-|(d & k & ? & _)].
  Qed.
  Lemma pool_ahead_exec (ps ps' : list (program A)) R W rs u : (forall i q, Decision (W i q)) -> Forall2 ahead ps ps' -> independent ps' R W -> (forall i q, X q -> ~ W i q) ->
    rtc (pool_step CTorn) (ps, s) (map Ret rs, u) -> exec_all ps s = (rs, u).
  Proof.
    intros D Hps Hi HX H. pose proof (pool_deterministic CTorn ps' R W s rs u D Hi (pool_ahead ps ps' R W rs u Hps Hi HX H)) as E1.
    pose proof (exec_all_steps CTorn ps s) as H2. destruct (exec_all ps s) as [rs2 u2]. cbn [fst snd] in H2.
    pose proof (pool_deterministic CTorn ps' R W s rs2 u2 D Hi (pool_ahead ps ps' R W rs2 u2 Hps Hi HX H2)) as E2. congruence.
  Qed.
End advance.

(** ** What an insertion touches *)
Definition rows_region (e : env) (c : collection) (rows : list (list Z)) (q : path) : Prop := Exists (fun v => part_region e (part_dir c v) q) rows.
Section insertion.
  Context (e : env) (c : collection) (Hr : regular e c) (Hc : declared c) (M : list Z -> option dataset) (I : option dataset) (s : store).
  Context (Hs : represents c M I s) (HI : is_Some I \/ c_immutable c = false).
  Context (ds : dataset) (rows : list (list Z)) (merge : option merge_callable) (Hi : insertable e c ds rows merge).
  Lemma insert_ahead scheds inner np validate : exists p', ahead s (under (c_dir c ++ [IMMUTABLE])) (insert e scheds inner c ds merge np validate) p' /\
    within (fun _ => False) (rows_region e c rows) p'.
  Proof using All.
    unfold insert. destruct (c_readonly c); [eexists; split; [by left|done]|]. destruct (prepare c ds validate) as [out|ex] eqn:Ep; cbn [pbind]; [|eexists; split; [by left|done]].
    destruct (exec_insert_immutable e c Hr Hc ds (in_sound _ _ _ _ _ Hi) (in_conforms _ _ _ _ _ Hi) M I s validate out Ep Hs)
      as (part & I' & s1 & E & Hp & Hf & Hs1 & Hout & HI').
    set (tail := fun ds0 : dataset => let! parts <- Ret (split_dataset (c_part c) ds0); let! batches <- Ret (batches_of parts np);
      let! _ <- pfor (imap pair batches) (fun ib => execute_transaction CTorn (scheds ib.1) (map (insert_partition e inner c ds0 merge) ib.2));
      pret (map (fun p => c_dir c ++ p.1) parts)).
    change (exists p', ahead s (under (c_dir c ++ [IMMUTABLE])) (pbind (insert_immutable c out) tail) p' /\ within (fun _ => False) (rows_region e c rows) p').
    assert (Hw : within (fun _ => False) (rows_region e c rows) (tail part)).
    { unfold tail. destruct (split_dataset (c_part c) part) as [parts|ex] eqn:Es; cbn [pbind]; [|done]. destruct (batches_of parts np) as [bs|ex] eqn:Eb; cbn [pbind]; [|done].
      destruct (part_rows e c Hr Hc ds rows merge Hi part Hp Hf) as [Hrk Hn].
      destruct (split_sound _ _ _ _ (rg_keys _ _ Hr) Hrk (in_size _ _ _ _ _ Hi) Es) as (kparts & -> & Hk & _).
      apply batches_concat in Eb as [Ec _]. apply within_bind; [|done]. apply within_pfor. intros [i b] Hb. cbn [fst snd].
      apply within_transaction. intros p Hpin. apply elem_of_list_In, in_map_iff in Hpin as (pt & <- & Hpt).
      assert (Hin : pt ∈ concat bs).
      { apply elem_of_list_In, in_concat. exists b. split; [|done]. apply elem_of_list_In. apply elem_of_lookup_imap in Hb as (j & y & [= -> ->] & Hj). by eapply elem_of_list_lookup_2. }
      rewrite Ec in Hin. apply elem_of_list_In, in_map_iff in Hin as (ks & <- & Hks). apply within_insert_partition. cbn [fst]. intros q Hq.
      apply Exists_exists. exists ks.1. split; [|exact Hq]. pose proof (ks_first _ _ Hk) as Hfi. rewrite Forall_forall in Hfi. eapply elem_of_list_lookup_2, Hfi. by apply elem_of_list_In. }
    exists (tail part). split; [|exact Hw].
    assert (Es : exec (insert_immutable c out) s = (Ok part, s)).
    { rewrite E. f_equal. destruct I; [by destruct HI'|]. destruct HI as [[? ?]|Ei]; [done|]. rewrite Ei in HI'. by destruct HI'. }
    unfold insert_immutable in Es |- *. destruct (c_immutable c) eqn:Ei; [|left; cbn in Es |- *; by injection Es as ->].
    destruct HI as [[i Hi']|]; [|done]. right. exists (c_dir c ++ [IMMUTABLE]).
    eexists. split; [reflexivity|]. split; [|done]. rewrite exec_bind, exec_exists in Es. cbv iota in Es. unfold empty_at in Es.
    assert (bool_decide (map_to_list (sub (c_dir c ++ [IMMUTABLE]) s) = []) = false) as Ene.
    { apply (proj2 (empty_at_false (c_dir c ++ [IMMUTABLE]) s)). exists ((c_dir c ++ [IMMUTABLE]) ++ [ZGROUP]), (CMeta MGroup). split; [apply under_app|].
      rewrite <-sub_lookup. apply (rp_immutable _ _ _ _ Hs i Hi'). }
    change (tail part = pbind (pbind (if negb (bool_decide (map_to_list (sub (c_dir c ++ [IMMUTABLE]) s) = [])) then pret tt else write_immutable c out)
      (fun _ => Ret (ds_select_variables_by_dims out [c_axis c] true))) tail).
    rewrite Ene in Es |- *. cbn in Es |- *. destruct (ds_select_variables_by_dims out [c_axis c] true) as [x|]; [|done]. by injection Es as ->.
  Qed.
End insertion.

(** ** C94: insertions in different partitions do not disturb each other *)

(** The keys of the records a call inserts. *)
Definition rows_of (x : call) : list (list Z) := match x with Insert _ rows _ _ _ _ _ => rows | Drop _ _ _ => [] end.
Definition is_insertion (x : call) : Prop := match x with Insert _ _ _ _ _ _ _ => True | Drop _ _ _ => False end.
(** No partition is written by two of the calls; neither are two partitions with
    the same digest, after which the directory of the new files is named. *)
Definition elsewhere (e : env) (c : collection) (h : list call) : Prop :=
  forall i j x y v w, h !! i = Some x -> h !! j = Some y -> i <> j -> v ∈ rows_of x -> w ∈ rows_of y ->
    v <> w /\ e_hash e (part_dir c v) <> e_hash e (part_dir c w).

Section together.
  Context (e : env) (c : collection) (Hr : regular e c) (Hc : declared c) (M : list Z -> option dataset) (I : option dataset) (s : store).
  Context (Hs : represents c M I s) (HI : is_Some I \/ c_immutable c = false).
  Context (h : list call) (Hins : Forall is_insertion h) (Hal : Forall (allowed e c) h) (Hel : elsewhere e c h).
  Definition call_region (i : nat) (q : path) : Prop := match h !! i with Some x => rows_region e c (rows_of x) q | None => False end.
  Lemma row_length x v : allowed e c x -> v ∈ rows_of x -> length v = length (p_keys (c_part c)).
  Proof using.
    destruct x as [ds rows merge np va sc inn|]; cbn; [|intros _ Hv; by apply elem_of_nil in Hv]. intros Hi. eapply record_keys_length. apply (in_keys _ _ _ _ _ Hi).
  Qed.
  Lemma regions_apart v w q : length v = length (p_keys (c_part c)) -> length w = length (p_keys (c_part c)) -> v <> w -> e_hash e (part_dir c v) <> e_hash e (part_dir c w) ->
    part_region e (part_dir c v) q -> ~ part_region e (part_dir c w) q.
  Proof using Hr.
    intros Hv Hw N Nh [U|U] [U'|U'].
    - exact (parts_apart c v w Hv Hw N q U U').
    - exact (temp_apart e c Hr v w Hv q U U').
    - exact (temp_apart e c Hr w v Hw q U' U).
    - exact (temp_temp_apart e c Hr v w Nh q U U').
  Qed.
  Lemma calls_ahead : exists ps', Forall2 (ahead s (under (c_dir c ++ [IMMUTABLE]))) (map (run_call e c) h) ps' /\ independent ps' (fun _ _ => False) call_region.
  Proof using All.
    assert (exists ps', Forall2 (ahead s (under (c_dir c ++ [IMMUTABLE]))) (map (run_call e c) h) ps' /\
      Forall2 (fun x p' => within (fun _ => False) (rows_region e c (rows_of x)) p') h ps') as (ps' & Ha & Hw).
    { clear Hel. induction h as [|x h' IH]; [exists []; split; constructor|]. inversion Hins as [|? ? Hx Hins']; subst. inversion Hal as [|? ? Ax Hal']; subst.
      destruct (IH Hins' Hal') as (ps' & H1 & H2). destruct x as [ds rows merge np va sc inn|]; [|done]. cbn [allowed] in Ax.
      destruct (insert_ahead e c Hr Hc M I s Hs HI ds rows merge Ax sc inn np va) as (p' & Hp & Hw). exists (p' :: ps'). split; constructor; done. }
    exists ps'. split; [exact Ha|]. split.
    - intros i p Ei. destruct (Forall2_lookup_r _ _ _ _ _ Hw Ei) as (x & Ex & Hx). refine (within_impl _ _ _ _ p _ _ Hx); [done|]. intros q Hq. unfold call_region. by rewrite Ex.
    - intros i j p p' Ei Ej Nij q Wi [[]|Wj]. unfold call_region in Wi, Wj. destruct (h !! i) as [x|] eqn:Ex; [|done]. destruct (h !! j) as [y|] eqn:Ey; [|done].
      apply Exists_exists in Wi as (v & Hv & Wv). apply Exists_exists in Wj as (w & Hw' & Ww). destruct (Hel i j x y v w Ex Ey Nij Hv Hw') as [N Nh].
      rewrite Forall_lookup in Hal. refine (regions_apart v w q _ _ N Nh Wv Ww); [exact (row_length x v (Hal _ _ Ex) Hv)|exact (row_length y w (Hal _ _ Ey) Hw')].
  Qed.
  Lemma calls_keep_immutable i q : under (c_dir c ++ [IMMUTABLE]) q -> ~ call_region i q.
  Proof using All.
    intros U W. unfold call_region in W. destruct (h !! i) as [x|] eqn:Ex; [|done]. apply Exists_exists in W as (v & Hv & W).
    rewrite Forall_lookup in Hal. pose proof (row_length x v (Hal _ _ Ex) Hv) as Hl. destruct U as (f & ->). destruct W as [(g & Ef)|(g & Ef)].
    - unfold part_dir in Ef. rewrite <-!app_assoc in Ef. apply app_inv_head in Ef.
      destruct (key_head e c Hr v Hl) as (a & r & Ea' & Ha & Hd). rewrite Ea' in Ef. injection Ef as <- _. by exfalso.
    - rewrite (temp_part e c Hr v), <-!app_assoc in Ef. apply app_inv_head in Ef. cbn [app] in Ef. injection Ef as Ef' _.
      pose proof (rg_digest _ _ Hr (part_dir c v)) as Hd. by apply (digest_not_dot _ Hd).
  Qed.
  Lemma calls_exec_all : forall t, exec_all (map (run_call e c) h) t = run_calls e c h t.
  Proof using.
    clear. induction h as [|x h' IH]; intros t; cbn; [done|]. destruct (exec (run_call e c x) t) as [r t']. by rewrite IH.
  Qed.
  Lemma pool_calls rs s' : rtc (pool_step CTorn) (map (run_call e c) h, s) (map Ret rs, s') -> run_calls e c h s = (rs, s').
  Proof using All.
    intros H. destruct calls_ahead as (ps' & Ha & Hi). rewrite <-calls_exec_all.
    refine (pool_ahead_exec s (under (c_dir c ++ [IMMUTABLE])) _ ps' _ call_region rs s' _ Ha Hi _ H).
    - intros i q. unfold call_region. destruct (h !! i); [|apply _]. unfold rows_region. apply _.
    - intros i q Hq. by apply calls_keep_immutable.
  Qed.
End together.

(** ** The order of the programs of a pool does not matter *)
Lemma pool_step_permuted {A : Type} (ps qs ps' : list (program A)) s t : ps ≡ₚ ps' -> pool_step CTorn (ps, s) (qs, t) ->
  exists qs', qs ≡ₚ qs' /\ pool_step CTorn (ps', s) (qs', t).
Proof.
  intros Hp H. inversion H as [? i p p2 ? ? Ei Hst]; subst. apply elem_of_list_split_length in Ei as (l1 & l2 & -> & ->).
  assert (p ∈ ps') as Hin by (rewrite <-Hp; set_solver). apply elem_of_list_split in Hin as (k1 & k2 & ->).
  exists (k1 ++ p2 :: k2). split.
  - replace (length l1) with (length l1 + 0) by lia. rewrite insert_app_r. cbn. rewrite <-!Permutation_middle. constructor.
    exact (Permutation_app_inv l1 l2 k1 k2 p Hp).
  - replace (k1 ++ p2 :: k2) with (<[length k1 := p2]> (k1 ++ p :: k2)).
    + econstructor; [by apply list_lookup_middle|exact Hst].
    + replace (length k1) with (length k1 + 0) by lia. by rewrite insert_app_r.
Qed.
Lemma pool_permuted {A : Type} (ps qs ps' : list (program A)) s t : ps ≡ₚ ps' -> rtc (pool_step CTorn) (ps, s) (qs, t) ->
  exists qs', qs ≡ₚ qs' /\ rtc (pool_step CTorn) (ps', s) (qs', t).
Proof.
  intros Hp H. refine (rtc_ind_r (fun y : list (program A) * store => exists qs', y.1 ≡ₚ qs' /\ rtc (pool_step CTorn) (ps', s) (qs', y.2)) (ps, s) _ _ (qs, t) H); cbn.
  - by exists ps'.
  - intros [qs1 t1] [qs2 t2] _ Hst (qs' & Hq & Hr'). cbn in *. destruct (pool_step_permuted _ _ _ _ _ Hq Hst) as (qs2' & H1 & H2).
    exists qs2'. split; [done|]. by eapply rtc_r.
Qed.

(** Several processes insert, without a lock, in different partitions of a
    collection whose immutable variables are stored. Whatever the order of their
    file operations, the calls return what they return when they are made one
    after the other, and the files at the end are the same. *)
Theorem C94_insertions e c M I s h rs s' :
  regular e c -> declared c -> represents c M I s -> is_Some I \/ c_immutable c = false ->
  Forall is_insertion h -> Forall (allowed e c) h -> elsewhere e c h ->
  rtc (pool_step CTorn) (map (run_call e c) h, s) (map Ret rs, s') -> run_calls e c h s = (rs, s').
Proof. intros Hr Hc Hs HI Hins Hal Hel. by apply (pool_calls e c Hr Hc M I s Hs HI h Hins Hal Hel). Qed.
Print Assumptions C94_insertions.
(** The order in which they are made one after the other does not matter. *)
Theorem C94_any_order e c M I s h rs s' h' rs2 s2 :
  regular e c -> declared c -> represents c M I s -> is_Some I \/ c_immutable c = false ->
  Forall is_insertion h -> Forall (allowed e c) h -> elsewhere e c h ->
  rtc (pool_step CTorn) (map (run_call e c) h, s) (map Ret rs, s') -> h' ≡ₚ h -> run_calls e c h' s = (rs2, s2) -> s2 = s' /\ rs2 ≡ₚ rs.
Proof.
  intros Hr Hc Hs HI Hins Hal Hel H Hp E. apply (C94_insertions e c M I s h rs s' Hr Hc Hs HI Hins Hal Hel) in H.
  pose proof (exec_all_steps CTorn (map (run_call e c) h') s) as H2. rewrite calls_exec_all, E in H2. cbn [fst snd] in H2.
  destruct (pool_permuted _ _ (map (run_call e c) h) _ _ (Permutation_map _ Hp) H2) as (qs & Hq & Hr2).
  apply Permutation_sym, Permutation_map_inv in Hq as (rs3 & -> & Hp3).
  apply (C94_insertions e c M I s h rs3 s2 Hr Hc Hs HI Hins Hal Hel) in Hr2. rewrite H in Hr2. injection Hr2 as <- <-. split; [done|]. by symmetry.
Qed.
Print Assumptions C94_any_order.
Lemma calls_keep e c h : regular e c -> declared c -> forall M I s rs s', Forall (allowed e c) h -> represents c M I s -> is_Some I \/ c_immutable c = false ->
  run_calls e c h s = (rs, s') -> exists M', represents c M' I s' /\ explains c h rs M M' /\ forall q, ~ under (c_dir c) q -> s' !! q = s !! q.
Proof.
  intros Hr Hc. induction h as [|x h IH]; intros M I s rs s' Hal Hs HI E; cbn [run_calls] in E.
  - injection E as <- <-. exists M. split_and!; try done. constructor.
  - inversion Hal as [|? ? Hx Hal']; subst. destruct (exec (run_call e c x) s) as [r s1] eqn:E1. destruct (run_calls e c h s1) as [rs1 s2] eqn:E2. injection E as <- <-.
    destruct (call_spec e c Hr Hc x M I s r s1 Hx Hs E1) as (M1 & I1 & H1 & H2 & H3 & H4 & H5).
    assert (I1 = I) as ->.
    { destruct I as [i|]; [by apply H4|]. destruct HI as [[? ?]|Ei]; [done|]. destruct x; [|done]. destruct r; [unfold kept in H5; by rewrite Ei in H5|].
      destruct H5 as [[? _]|H5]; [done|unfold kept in H5; by rewrite Ei in H5]. }
    destruct (IH M1 I s1 rs1 s2 Hal' H1 HI E2) as (M2 & K1 & K2 & K3). exists M2. split_and!; [done|by econstructor|].
    intros q Nq. rewrite K3 by done. apply H3. by left.
Qed.
(** Each partition a successful call has written holds what was there before
    and the records of this call; the partitions of no call are as before. *)
Theorem C94_outcome e c M I s h rs s' :
  regular e c -> declared c -> represents c M I s -> is_Some I \/ c_immutable c = false ->
  Forall is_insertion h -> Forall (allowed e c) h -> elsewhere e c h ->
  rtc (pool_step CTorn) (map (run_call e c) h, s) (map Ret rs, s') ->
  exists M', represents c M' I s' /\
    (forall i ds rows merge np validate scheds inner dirs v, h !! i = Some (Insert ds rows merge np validate scheds inner) -> rs !! i = Some (Ok dirs) -> v ∈ rows ->
       exists part new, fitted c (moving c) ds part /\ M' v = Some new /\ replaced c merge (d_delayed ds) rows part v (M v) new) /\
    (forall v, (forall x, x ∈ h -> v ∉ rows_of x) -> M' v = M v) /\
    (forall q, ~ under (c_dir c) q -> s' !! q = s !! q).
Proof.
  intros Hr Hc Hs HI Hins Hal Hel H. apply (C94_insertions e c M I s h rs s' Hr Hc Hs HI Hins Hal Hel) in H.
  destruct (calls_keep e c h Hr Hc M I s rs s' Hal Hs HI H) as (M' & Hs' & Hex & Hq).
  assert (Hdrop : forall x f o sc, x ∈ h -> x <> Drop f o sc) by (intros x f o sc Hx ->; rewrite Forall_forall in Hins; exact (Hins _ Hx)).
  exists M'. split_and!; [done| | |exact Hq].
  - intros i ds rows merge np va sc inn dirs v Ei Er Hv. apply elem_of_list_split_length in Ei as (h1 & h2 & -> & ->).
    apply elem_of_list_split_length in Er as (rs1 & rs2 & -> & El).
    destruct (C20_last_insertion c h1 h2 rs1 rs2 M M' ds rows merge np va sc inn dirs v El Hex Hv) as (M1 & part & new & H1 & Hf & Hn & Hrep).
    + intros j x r Ex _ Ht. destruct x as [ds2 rows2 m2 np2 va2 sc2 inn2|f o sc2].
      * apply (Hel (length h1) (length h1 + S j) (Insert ds rows merge np va sc inn) (Insert ds2 rows2 m2 np2 va2 sc2 inn2) v v); try done.
        -- by apply list_lookup_middle.
        -- rewrite lookup_app_r by lia. by replace (length h1 + S j - length h1) with (S j) by lia.
        -- lia.
      * eapply Hdrop; [|reflexivity]. apply elem_of_app. right. right. by eapply elem_of_list_lookup_2.
    + exists part, new. split_and!; try done. rewrite <-(explains_untouched c h1 rs1 M M1 v H1); [done|].
      intros j x r Ex _ Ht. destruct x as [ds2 rows2 m2 np2 va2 sc2 inn2|f o sc2].
      * assert (j < length h1) by (by eapply lookup_lt_Some).
        apply (Hel (length h1) j (Insert ds rows merge np va sc inn) (Insert ds2 rows2 m2 np2 va2 sc2 inn2) v v); try done.
        -- by apply list_lookup_middle.
        -- rewrite lookup_app_l by lia. done.
        -- lia.
      * eapply Hdrop; [|reflexivity]. apply elem_of_app. left. by eapply elem_of_list_lookup_2.
  - intros v Hv. apply (explains_untouched c h rs M M' v Hex). intros i x r Ex _ Ht. destruct x as [ds rows merge np va sc inn|f o sc].
    + by apply (Hv _ (elem_of_list_lookup_2 _ _ _ Ex)).
    + eapply Hdrop; [by eapply elem_of_list_lookup_2|reflexivity].
Qed.
Print Assumptions C94_outcome.

(** ** C95: insertions in the same partition *)

(** What is left to do after the piece of a program that is under way. *)
Record frames {A B : Type} (K : program A -> program B) : Prop := {
  fm_steps : forall p p' w w', rtc (step CTorn) (p, w) (p', w') -> rtc (step CTorn) (K p, w) (K p', w');
  fm_raise : forall p w ex w', exec p w = (Raise ex, w') -> exec (K p) w = (Raise ex, w');
}.
Lemma frames_bind {A B : Type} (f : A -> program B) : frames (fun p => pbind p f).
Proof. split; [intros p p' w w'; apply steps_bind|]. intros p w ex w' E. by rewrite exec_bind, E. Qed.
Lemma frames_compose {A B D : Type} (K : program A -> program B) (L : program B -> program D) : frames K -> frames L -> frames (fun p => L (K p)).
Proof. intros [S1 R1] [S2 R2]. split; eauto. Qed.
Lemma frames_transaction {A : Type} : frames (fun p : program A => execute_transaction CTorn [] [p]).
Proof.
  split.
  - intros p p' w w' H. unfold execute_transaction. cbn [interleave]. apply steps_bind. cbn [run_all]. apply steps_bind. by apply steps_attempt.
  - intros p w ex w' E. unfold execute_transaction. cbn [interleave]. rewrite exec_bind, exec_run_all. cbn [exec_all]. by rewrite E.
Qed.
(** An insertion that writes the partitions one by one comes to its first
    partition, and raises the error of this partition. *)
Lemma first_frames e c ds v rest merge inner validate M I s dirs s' :
  regular e c -> declared c -> insertable e c ds (v :: rest) merge -> represents c M I s -> is_Some I \/ c_immutable c = false ->
  exec (insert e (fun _ => []) inner c ds merge None validate) s = (Ok dirs, s') ->
  exists part sl K, frames K /\ sound part /\ sl.1 <= sl.2 <= length (v :: rest) /\ dget (d_dims part) (c_dim c) = Some (length (v :: rest)) /\
    ((forall w, w ∈ rest -> w = v) -> forall p w w', exec p w = (Ok tt, w') -> exec (K p) w = (Ok dirs, w')) /\
    rtc (step CTorn) (insert e (fun _ => []) inner c ds merge None validate, s) (K (insert_partition e inner c part merge (key_dirs (c_part c) v, sl)), s).
Proof.
  intros Hr Hc Hi Hs HI Hx. unfold insert in *. destruct (c_readonly c); [done|]. destruct (prepare c ds validate) as [out|ex] eqn:Ep; [|done]. cbn [pbind] in *.
  destruct (exec_insert_immutable e c Hr Hc ds (in_sound _ _ _ _ _ Hi) (in_conforms _ _ _ _ _ Hi) M I s validate out Ep Hs)
    as (part & I' & s1 & E & Hp & Hf & Hs1 & Hout & HI').
  rewrite exec_bind, E in Hx. cbv iota in Hx.
  destruct (split_dataset (c_part c) part) as [parts|ex] eqn:Es; cbn [pbind] in *; [|done].
  destruct (batches_of parts None) as [bs|ex] eqn:Eb; cbn [pbind] in *; [|done].
  destruct (part_rows e c Hr Hc ds (v :: rest) merge Hi part Hp Hf) as [Hrk Hn].
  destruct (split_sound _ _ _ _ (rg_keys _ _ Hr) Hrk (in_size _ _ _ _ _ Hi) Es) as (kparts & -> & Hk & Hlz).
  destruct kparts as [|[w sl] l]; [by pose proof (batches_concat _ _ _ Eb) as [_ ?]|].
  assert (Hb : bs = [(key_dirs (c_part c) w, sl)] :: map (fun x => [x]) (map (fun ks => (key_dirs (c_part c) ks.1, ks.2)) l)).
  { unfold batches_of in Eb. rewrite C08_split_sequence_default in Eb by done. by injection Eb as <-. }
  assert (Hw : w = v).
  { pose proof (ks_cover _ _ Hk) as Hcv. pose proof (ks_first _ _ Hk) as Hf1. pose proof (ks_some _ _ Hk) as Hsm.
    inversion Hf1 as [|? ? Hw _]; subst. inversion Hsm as [|? ? Hlt _]; subst. cbn in Hw, Hlt, Hcv.
    destruct (sl.2 - sl.1) as [|k] eqn:Ek; [lia|]. cbn in Hcv. injection Hcv as Hz _. rewrite Hz in Hw. by injection Hw. }
  subst w. exists part, sl.
  assert (Ess : exec (insert_immutable c out) s = (Ok part, s)).
  { rewrite E. f_equal. destruct I; [by destruct HI'|]. destruct HI as [[? ?]|Ei]; [done|]. rewrite Ei in HI'. by destruct HI'. }
  pose proof (exec_steps CTorn (insert_immutable c out) s) as Hst. rewrite Ess in Hst. cbn [fst snd] in Hst. 
  set (F3 := fun _ : unit => pret (map (fun p => c_dir c ++ p.1) (map (fun ks => (key_dirs (c_part c) ks.1, ks.2)) ((v, sl) :: l))) : program (list path)).
  refine (ex_intro _ (fun p => pbind (pbind (pbind (execute_transaction CTorn [] [p]) _) _) F3) _). split_and!.
  7: { eapply rtc_transitive; [apply steps_bind, Hst|]. cbn [pbind]. rewrite Es. cbn [pbind]. rewrite Eb, Hb. cbn [pbind]. unfold pfor. cbn [imap map pseq fst snd]. reflexivity. }
  - apply (frames_compose (fun p => pbind (pbind (execute_transaction CTorn [] [p]) _) _) (fun p => pbind p _)); [|apply frames_bind].
    apply (frames_compose (fun p => pbind (execute_transaction CTorn [] [p]) _) (fun p => pbind p _)); [|apply frames_bind].
    apply (frames_compose (fun p => execute_transaction CTorn [] [p]) (fun p => pbind p _)); [apply frames_transaction|apply frames_bind].
  - exact Hp.
  - apply (keyed_bounds _ _ Hk (v, sl)). left.
  - apply (keyed_bounds _ _ Hk (v, sl)). left.
  - exact Hn.
  - intros Hall p w w' Ew. assert (Ed : dirs = map (fun p => c_dir c ++ p.1) (map (fun ks => (key_dirs (c_part c) ks.1, ks.2)) ((v, sl) :: l))).
    { rewrite exec_bind in Hx. destruct (exec (pfor _ _) s1) as [[[]|] ?]; [|done]. cbn in Hx |- *. by injection Hx as <- _. }
    assert (l = []) as ->.
    { destruct l as [|[x sl2] l]; [done|exfalso]. pose proof (ks_increase _ _ Hk 0 1 (v, sl) (x, sl2) ltac:(lia) eq_refl eq_refl) as Hlt. cbn [fst] in Hlt.
      pose proof (ks_first _ _ Hk) as Hf1. inversion Hf1 as [|? ? _ Hf2]; subst. inversion Hf2 as [|? ? Hx2 _]; subst. cbn [fst snd] in Hx2.
      apply elem_of_list_lookup_2 in Hx2. assert (x = v) as -> by (apply elem_of_cons in Hx2 as [?|?]; [done|by apply Hall]). exact (row_lt_irrefl v Hlt). }
    rewrite Ed.
    rewrite exec_bind, exec_bind, exec_bind. unfold execute_transaction. cbn [interleave]. rewrite exec_bind, exec_run_all. cbn [exec_all]. rewrite Ew. cbn. done.
Qed.

(** Two programs: the second begins, the first runs from the beginning to its
    end, then the second ends. *)
Lemma pool_between {A : Type} (p q q' : program A) s w r1 s1 : rtc (step CTorn) (q, s) (q', w) -> exec p w = (r1, s1) ->
  rtc (pool_step CTorn) ([p; q], s) (map Ret [r1; (exec q' s1).1], (exec q' s1).2).
Proof.
  intros Hq Ep.
  assert (H : forall (p : program A) (q q' : program A) s s', rtc (step CTorn) (q, s) (q', s') -> rtc (pool_step CTorn) ([p; q], s) ([p; q'], s')).
  { intros p0 q0 q0' t t' H. refine (rtc_ind_r (fun y : program A * store => rtc (pool_step CTorn) ([p0; q0], t) ([p0; y.1], y.2)) (q0, t) _ _ (q0', t') H); cbn; [done|].
    intros [q1 t1] [q2 t2] _ Hst IH. cbn in *. eapply rtc_r; [exact IH|]. exact (pool_one CTorn [p0; q1] 1 q1 q2 t1 t2 eq_refl Hst). }
  assert (H' : forall (p p' : program A) (q : program A) s s', rtc (step CTorn) (p, s) (p', s') -> rtc (pool_step CTorn) ([p; q], s) ([p'; q], s')).
  { intros p0 p0' q0 t t' H0. refine (rtc_ind_r (fun y : program A * store => rtc (pool_step CTorn) ([p0; q0], t) ([y.1; q0], y.2)) (p0, t) _ _ (p0', t') H0); cbn; [done|].
    intros [q1 t1] [q2 t2] _ Hst IH. cbn in *. eapply rtc_r; [exact IH|]. exact (pool_one CTorn [q1; q0] 0 q1 q2 t1 t2 eq_refl Hst). }
  eapply rtc_transitive; [apply H, Hq|]. pose proof (exec_steps CTorn p w) as Hs. rewrite Ep in Hs. cbn [fst snd] in Hs.
  eapply rtc_transitive; [apply H', Hs|]. apply H, exec_steps.
Qed.

(** The claim "an insertion that returns has written its partitions, whatever
    the other processes insert at the same time" is false of the code, if the
    collection is not given a synchronizer: two calls insert in the same new
    partition; the first returns without error, the second raises an error, and
    the partition does not exist. *)
Theorem C95_lost_refuted e c dsa rowsa mergea npa va scheds innera dsb v rest mergeb innerb vb M I s dirsa dirsb sa sb :
  regular e c -> declared c -> represents c M I s -> is_Some I \/ c_immutable c = false ->
  insertable e c dsa rowsa mergea -> insertable e c dsb (v :: rest) mergeb -> v ∈ rowsa -> M v = None ->
  exec (insert e scheds innera c dsa mergea npa va) s = (Ok dirsa, sa) ->
  exec (insert e (fun _ => []) innerb c dsb mergeb None vb) s = (Ok dirsb, sb) ->
  exists ex s', rtc (pool_step CTorn) ([insert e scheds innera c dsa mergea npa va; insert e (fun _ => []) innerb c dsb mergeb None vb], s) (map Ret [Ok dirsa; Raise ex], s') /\
    forall q, under (part_dir c v) q -> s' !! q = None.
Proof.
  intros Hr Hc Hs HI Hia Hib Hv HM Ea Eb.
  assert (Hl : length v = length (p_keys (c_part c))) by (eapply record_keys_length; [apply (in_keys _ _ _ _ _ Hib)|left]).
  destruct (first_frames e c dsb v rest mergeb innerb vb M I s dirsb sb Hr Hc Hib Hs HI Eb) as (part & sl & K & HK & _ & _ & _ & _ & Hst).
  pose proof (part_nothing e c Hr M I s v Hs Hl HM) as Hno.
  destruct (insert_spec e c Hr Hc dsa rowsa mergea Hia M I s scheds innera npa va _ sa Hs Ea) as (M' & I' & Hs' & _ & Hins & _).
  destruct Hins as (pa & _ & Hins). destruct (proj1 (Hins v) Hv) as (new & Hnew & _).
  destruct (rp_part _ _ _ _ Hs' _ _ Hnew) as (_ & _ & _ & Hh).
  set (d := part_dir c v) in *.
  set (piece := ds_isel part [(c_dim c, ISlice (Some (Z.of_nat sl.1)) (Some (Z.of_nat sl.2)))]).
  set (q' := pcatch (let! _ <- init_group d; let! piece <- Ret piece; write_zarr_group d piece (Some (innerb d))) (fun ex => let! _ <- rmtree d; praise ex) : program unit).
  assert (Hq : rtc (step CTorn) (insert_partition e innerb c part mergeb (key_dirs (c_part c) v, sl), s) (q', s)).
  { unfold insert_partition. cbv zeta. cbn [fst snd]. change (c_dir c ++ key_dirs (c_part c) v) with d. fold piece.
    pose proof (exec_steps CTorn (exists_path (d ++ [ZMETADATA])) s) as H0. rewrite exec_exists in H0. cbn [fst snd] in H0.
    assert (empty_at (d ++ [ZMETADATA]) s = true) as Ee.
    { apply empty_at_true. intros x U. apply Hno. destruct U as (f & ->). rewrite <-app_assoc. apply under_app. }
    rewrite Ee in H0. eapply rtc_transitive; [apply steps_bind, H0|]. reflexivity. }
  assert (Hx : exists ex, exec q' sa = (Raise ex, prune d sa)).
  { assert (Hg : is_Some (sa !! (d ++ [ZGROUP]))) by (rewrite <-sub_lookup, (hg_group _ _ _ Hh); by eexists).
    exists (if decide (is_Some (sa !! (d ++ [ZARRAY]))) then ContainsArrayError else ContainsGroupError).
    unfold q'. rewrite exec_catch, exec_bind. unfold init_group. rewrite exec_bind, exec_read_file. cbv iota. rewrite exec_bind, exec_read_file. cbv iota.
    rewrite (bool_decide_eq_true_2 _ Hg). destruct (decide (is_Some (sa !! (d ++ [ZARRAY])))) as [D|D].
    - rewrite (bool_decide_eq_true_2 _ D). reflexivity.
    - rewrite (bool_decide_eq_false_2 _ D). reflexivity. }
  destruct Hx as [ex Hx]. apply (fm_raise _ HK) in Hx.
  assert (Hst' : rtc (step CTorn) (insert e (fun _ => []) innerb c dsb mergeb None vb, s) (K q', s)) by (eapply rtc_transitive; [exact Hst|by apply (fm_steps _ HK)]).
  pose proof (pool_between _ _ _ _ _ _ _ Hst' Ea) as Hp. rewrite Hx in Hp. exists ex, (prune d sa). split; [exact Hp|].
  intros q U. rewrite prune_lookup. by rewrite decide_True.
Qed.
Print Assumptions C95_lost_refuted.

(** The claim "what an insertion returns to have merged is there" is false too:
    while the second call has read the partition and not yet written what it
    makes of it, the first call merges its records and returns; both return
    without error, and the partition is the one the second call would have
    written alone. *)
Theorem C95_overwritten_refuted e c dsa rowsa mergea npa va scheds innera dsb v rest mergeb innerb vb M I s dirsa dirsb sa sb :
  regular e c -> declared c -> represents c M I s -> is_Some I \/ c_immutable c = false ->
  insertable e c dsa rowsa mergea -> insertable e c dsb (v :: rest) (Some mergeb) -> v ∈ rowsa -> (forall w, w ∈ rest -> w = v) -> is_Some (M v) ->
  exec (insert e scheds innera c dsa mergea npa va) s = (Ok dirsa, sa) ->
  exec (insert e (fun _ => []) innerb c dsb (Some mergeb) None vb) s = (Ok dirsb, sb) ->
  exists s', rtc (pool_step CTorn) ([insert e scheds innera c dsa mergea npa va; insert e (fun _ => []) innerb c dsb (Some mergeb) None vb], s) (map Ret [Ok dirsa; Ok dirsb], s') /\
    forall q, under (part_dir c v) q -> s' !! q = sb !! q.
Proof.
  intros Hr Hc Hs HI Hia Hib Hv Hall [old HM] Ea Eb.
  assert (Hl : length v = length (p_keys (c_part c))) by (eapply record_keys_length; [apply (in_keys _ _ _ _ _ Hib)|left]).
  destruct (first_frames e c dsb v rest (Some mergeb) innerb vb M I s dirsb sb Hr Hc Hib Hs HI Eb) as (part & sl & K & HK & Hp & Hsl & Hn & Hok & Hst).
  specialize (Hok Hall). pose proof (in_merge _ _ _ _ _ Hib) as Hm.
  assert (EK : exec (K (insert_partition e innerb c part (Some mergeb) (key_dirs (c_part c) v, sl))) s = (Ok dirsb, sb)).
  { rewrite <-Eb. eapply steps_exec. exact Hst. }
  pose proof (exec_insert_partition e c Hr part _ (Some mergeb) Hp Hn Hm M I s innerb v sl Hs Hl Hsl) as Ex.
  pose proof (new_of_spec e c Hr part _ (Some mergeb) Hp Hn Hm M I s v sl Hs Hl Hsl) as Hnew.
  destruct (new_of c part (Some mergeb) s v sl) as [new|ex] eqn:En.
  2: { apply (fm_raise _ HK) in Ex. rewrite EK in Ex. done. }
  destruct Hnew as [Hso _]. apply Hok in Ex. rewrite EK in Ex. injection Ex as ->.
  pose proof (temp_apart e c Hr v v Hl) as Hap. destruct (rp_part _ _ _ _ Hs _ _ HM) as (_ & Ho & Hh).
  set (d := part_dir c v) in *.
  assert (Hq : rtc (step CTorn) (insert_partition e innerb c part (Some mergeb) (key_dirs (c_part c) v, sl), s) (update_fs e (innerb d) d new, s)).
  { unfold insert_partition. cbv zeta. cbn [fst snd]. change (c_dir c ++ key_dirs (c_part c) v) with d.
    assert (empty_at (d ++ [ZMETADATA]) s = false) as Ez.
    { apply empty_at_false. exists (d ++ [ZMETADATA]), (CCons (metas (sub d s))). split; [apply under_refl|]. rewrite <-sub_lookup. apply Hh. }
    assert (empty_at d s = false) as Ed.
    { apply empty_at_false. exists (d ++ [ZGROUP]), (CMeta MGroup). split; [apply under_app|]. rewrite <-sub_lookup. apply Hh. }
    pose proof (exec_steps CTorn (exists_path (d ++ [ZMETADATA])) s) as H0. rewrite exec_exists, Ez in H0. cbn [fst snd negb] in H0.
    eapply rtc_transitive; [apply steps_bind, H0|]. cbn [pbind pret]. unfold new_of in En. fold d in En. change [(c_dim c, ISlice (Some (Z.of_nat sl.1)) (Some (Z.of_nat sl.2)))] with (slice_of c sl).
    destruct (ds_isel part (slice_of c sl)) as [piece|]; [|done]. cbn [rbind] in En. rewrite Ed in En. cbn [pbind]. unfold perform.
    destruct (read_group (sub d s) (d_delayed part) None) as [o|] eqn:Eo; [|done]. cbn [rbind] in En.
    assert (exec (let! ds <- open_zarr_group d (d_delayed part) None; Ret (mergeb (ds_copy_properties ds piece) piece (c_axis c) (c_dim c))) s = (Ok new, s)) as E1.
    { rewrite exec_bind. unfold open_zarr_group. rewrite exec_bind, exec_get_tree. cbv iota. rewrite Eo. cbn. by rewrite En. }
    pose proof (exec_steps CTorn (let! ds <- open_zarr_group d (d_delayed part) None; Ret (mergeb (ds_copy_properties ds piece) piece (c_axis c) (c_dim c))) s) as H1.
    rewrite E1 in H1. cbn [fst snd] in H1. eapply rtc_transitive; [apply steps_bind, H1|]. reflexivity. }
  pose proof (Hok _ sa _ (exec_update_fs e (innerb d) d new sa (sound_storable _ Hso) Hap)) as Hx.
  assert (Hst' : rtc (step CTorn) (insert e (fun _ => []) innerb c dsb (Some mergeb) None vb, s) (K (update_fs e (innerb d) d new), s)) by (eapply rtc_transitive; [exact Hst|by apply (fm_steps _ HK)]).
  pose proof (pool_between _ _ _ _ _ _ _ Hst' Ea) as Hp'. rewrite Hx in Hp'. eexists. split; [exact Hp'|].
  intros q (f & ->). cbn [snd]. by rewrite !graft_lookup_under.
Qed.
Print Assumptions C95_overwritten_refuted.

(** ** Cases *)

(** The collection of Collection_Example, with different digests for the three
    half orbits. *)
Definition T_env : env := Env id (fun d => if decide (last d = Some (lit "pass=1")) then lit "1a" else if decide (last d = Some (lit "pass=2")) then lit "2b" else lit "3c").
Lemma T_regular : regular T_env X_coll.
Proof.
  destruct X_regular as [H1 H2 _ H4]. split; [exact H1|exact H2| |exact H4]. intros d. cbn. split; [by repeat case_decide|]. intros x Hx.
  destruct (decide _) in Hx; [|destruct (decide _) in Hx]; cbn in Hx; repeat (apply elem_of_cons in Hx as [->|Hx]); try (by apply elem_of_nil in Hx);
      apply (bool_decide_unpack _); vm_compute; done.
Qed.
Lemma T_insertable : insertable T_env X_coll X_ds X_rows None.
Proof.
  destruct X_insertable as [H1 H2 H3 H4 H5 H6 _]. split; try done.
  intros v v' Hv Hv'. unfold X_rows in *. repeat (apply elem_of_cons in Hv as [->|Hv]); try (by apply elem_of_nil in Hv);
      repeat (apply elem_of_cons in Hv' as [->|Hv']); try (by apply elem_of_nil in Hv'); vm_compute; done.
Qed.
Lemma T_third merge : merges_sound X_coll merge -> insertable T_env X_coll L_ds L_rows merge.
Proof.
  intros Hm. destruct L_insertable as [H1 H2 H3 H4 H5 _ _]. split; try done.
  intros v v' Hv Hv'. unfold L_rows in *. repeat (apply elem_of_cons in Hv as [->|Hv]); try (by apply elem_of_nil in Hv);
      repeat (apply elem_of_cons in Hv' as [->|Hv']); try (by apply elem_of_nil in Hv'); done.
Qed.
Lemma T_accepted : accepted X_coll L_ds L_rows None true.
Proof.
  split; [done|done| | | |done|].
  - intros i j a b _ Ha Hb. apply elem_of_list_lookup_2 in Ha, Hb. unfold L_rows in Ha, Hb. repeat (apply elem_of_cons in Ha as [->|Ha]); try (by apply elem_of_nil in Ha);
      repeat (apply elem_of_cons in Hb as [->|Hb]); try (by apply elem_of_nil in Hb); by right.
  - cbn. intros vs Hvs. inversion Hvs as [|? v ? l Hv Hl]; subst. inversion Hl; subst. vm_compute in Hv. injection Hv as <-. by apply Collection_Split.promotes_integers.
  - intros n mv Hn Hni. exfalso. apply Hni. assert (Hin : n ∈ dkeys (md_vars (c_meta X_coll))) by (apply dget_is_Some; by eexists).
    assert (E : bool_decide (Forall (fun n => n ∈ dkeys (d_vars L_ds)) (dkeys (md_vars (c_meta X_coll)))) = true) by (vm_compute; done).
    apply bool_decide_eq_true in E. rewrite Forall_forall in E. by apply E.
  - intros _. split; [vm_compute; done|].
    assert (E : bool_decide (Forall (fun n => n ∈ dkeys (d_vars L_ds)) (dkeys (md_vars (c_meta X_coll)))) = true) by (vm_compute; done).
    apply bool_decide_eq_true in E. rewrite Forall_forall in E. exact E.
Qed.
Definition T_calls : list call := [Insert X_ds X_rows None None true (fun _ => [(1, true); (0, false)]) X_inner; Insert L_ds L_rows None (Some 1%Z) true (fun _ => []) X_inner].
Lemma T_elsewhere : elsewhere T_env X_coll T_calls.
Proof.
  assert (H : forall v w, v ∈ X_rows -> w ∈ L_rows -> v <> w /\ e_hash T_env (part_dir X_coll v) <> e_hash T_env (part_dir X_coll w)).
  { intros v w Hv Hw. unfold X_rows, L_rows in *. repeat (apply elem_of_cons in Hv as [->|Hv]); try (by apply elem_of_nil in Hv);
      repeat (apply elem_of_cons in Hw as [->|Hw]); try (by apply elem_of_nil in Hw); (split; [done|]; vm_compute; done). }
  intros i j x y v w Hi Hj N Hv Hw. destruct i as [|[|i]], j as [|[|j]]; cbn in Hi, Hj; try done; injection Hi as <-; injection Hj as <-; cbn [rows_of] in *.
  - by apply H.
  - destruct (H w v Hw Hv) as [H1 H2]. by split; apply not_eq_sym.
Qed.
(** The first two half orbits are written again while the third one is inserted:
    the operations of the two calls are mixed. *)
Example C94_case : exists s, forall rs s', rtc (pool_step CTorn) (map (run_call T_env X_coll) T_calls, s) (map Ret rs, s') ->
  run_calls T_env X_coll T_calls s = (rs, s') /\ (run_calls T_env X_coll (rev T_calls) s).2 = s' /\
  exists M I, represents X_coll M I s' /\ length rs = 2.
Proof.
  destruct X_filled as (M & i & s & Hs & _ & _). exists s. intros rs s' H.
  assert (Ha : Forall (allowed T_env X_coll) T_calls) by (constructor; [exact T_insertable|]; constructor; [exact (T_third None ltac:(done))|constructor]).
  assert (Hi : Forall is_insertion T_calls) by by repeat constructor.
  assert (HI : is_Some (Some i) \/ c_immutable X_coll = false) by (left; by eexists).
  pose proof (C94_insertions _ _ _ _ _ _ _ _ T_regular X_declared Hs HI Hi Ha T_elsewhere H) as E. split; [exact E|]. split.
  - destruct (run_calls T_env X_coll (rev T_calls) s) as [rs2 s2] eqn:E2.
    apply (C94_any_order _ _ _ _ _ _ _ _ (rev T_calls) rs2 s2 T_regular X_declared Hs HI Hi Ha T_elsewhere H); [apply Permutation_sym, Permutation_rev|exact E2].
  - destruct (C94_outcome _ _ _ _ _ _ _ _ T_regular X_declared Hs HI Hi Ha T_elsewhere H) as (M' & Hs' & _). exists M', (Some i). split; [exact Hs'|].
    unfold T_calls in E. cbn [run_calls] in E. destruct (exec _ s) as [r1 s1] in E. destruct (exec _ s1) as [r2 s2] in E. by injection E as <- _.
Qed.
(** Two processes insert the half orbits in an empty collection. *)
Example C95_case : exists s dirs ex s', rtc (pool_step CTorn) ([X_insert; X_insert], s) (map Ret [Ok dirs; Raise ex], s') /\ absent s' (part_dir X_coll [1%Z]).
Proof.
  destruct (X_again _ _ _ X_empty) as (_ & s0 & M0 & I & _ & Hs0 & HM0 & HI).
  destruct (C28_drop X_env X_coll M0 I s0 [] NoFilter None (fun _ => True) X_regular eq_refl Hs0 X_filterable ltac:(done)) as (vs & s & _ & _ & Hin & _ & _ & M & Hrem & Hs & _).
  assert (HM : M [1%Z] = None) by (apply Hrem, Hin; done).
  destruct (X_again _ _ _ Hs) as (dirs & s' & _ & _ & E & _). clear Hs0 HM0 Hin Hrem M0 s0 vs.
  destruct (C95_lost_refuted X_env X_coll X_ds X_rows None None true (fun _ => []) X_inner X_ds [1%Z] [[1%Z]; [2%Z]] None X_inner true M I s dirs dirs s' s'
    X_regular X_declared Hs ltac:(by left) X_insertable X_insertable ltac:(unfold X_rows; left) HM E E) as (ex & u & H1 & H2).
  exists s, dirs, ex, u. split; [exact H1|exact H2].
Qed.
(** A strategy that keeps the records that are there, while the partition is
    written again: the partition goes back to what it was. *)
Definition T_old : merge_callable := fun ex _ _ _ => Ok ex.
Lemma T_old_sound : merges_sound X_coll (Some T_old).
Proof. intros f a b r [= <-] Ha _ [= <-]. exact Ha. Qed.
Example C95_merge_case : exists s dirs dirs' sb s',
  exec (insert T_env (fun _ => []) X_inner X_coll L_ds (Some T_old) None true) s = (Ok dirs', sb) /\
  rtc (pool_step CTorn) ([insert T_env (fun _ => []) X_inner X_coll L_ds None None true; insert T_env (fun _ => []) X_inner X_coll L_ds (Some T_old) None true], s)
    (map Ret [Ok dirs; Ok dirs'], s') /\
  forall q, under (part_dir X_coll [3%Z]) q -> s' !! q = sb !! q.
Proof.
  destruct X_filled as (M0 & i & s0 & Hs0 & _ & _).
  destruct (insert_total T_env _ T_regular X_declared _ _ _ (T_third None ltac:(done)) None true T_accepted _ _ s0 (fun _ => []) X_inner Hs0 ltac:(by left)) as (d0 & s & E0).
  destruct (insert_spec T_env _ T_regular X_declared _ _ _ (T_third None ltac:(done)) _ _ s0 _ _ _ _ _ s Hs0 E0) as (M & I & Hs & _ & Hins & Hk & _). clear E0.
  assert (HM : is_Some (M [3%Z])). { destruct Hins as (p & _ & H). destruct (proj1 (H [3%Z]) ltac:(unfold L_rows; left)) as (new & -> & _). by eexists. }
  assert (HI : is_Some I \/ c_immutable X_coll = false). { left. cbn in Hk. rewrite Hk. by eexists. } clear Hins Hk Hs0.
  destruct (insert_total T_env _ T_regular X_declared _ _ _ (T_third None ltac:(done)) None true T_accepted _ _ s (fun _ => []) X_inner Hs ltac:(by left)) as (da & sa & Ea).
  destruct (insert_merges T_env _ T_regular X_declared _ _ _ (T_third (Some T_old) T_old_sound) None true T_accepted M I s (fun _ => []) X_inner Hs) as (db & sb & Eb).
  { intros f v old o part ps piece [= <-] _ _. by eexists. }
  destruct (C95_overwritten_refuted T_env X_coll L_ds L_rows None None true (fun _ => []) X_inner L_ds [3%Z] [[3%Z]; [3%Z]] T_old X_inner true M I s da db sa sb
    T_regular X_declared Hs HI (T_third None ltac:(done)) (T_third (Some T_old) T_old_sound) ltac:(unfold L_rows; left)) as (s' & H1 & H2); [|exact HM|exact Ea|exact Eb|].
  { intros w Hw. repeat (apply elem_of_cons in Hw as [->|Hw]); try done. by apply elem_of_nil in Hw. }
  exists s, da, db, sb, s'. split; [exact Eb|]. split; [exact H1|exact H2].
Qed.
