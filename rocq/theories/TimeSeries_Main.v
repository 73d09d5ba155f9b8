From Verif Require Import Py Dict NdArray_Model NdArray_Spec NdArray_Proofs.
From Verif Require Import Dataset_Model Dataset_Spec Dataset_Proofs Dataset_Concat Dataset_Main.
From Verif Require Import Assemble_Spec Assemble_Proofs Period_Model Period_Spec TimeSeries_Model TimeSeries_Spec TimeSeries_Proofs.

(** ** Lists in order *)
Lemma in_order_app l l' : in_order (l ++ l') <-> in_order l /\ in_order l' /\ (forall x y, x ∈ l -> y ∈ l' -> (x <= y)%Z).
Proof.
  induction l as [|a l IH]; cbn.
  - split; [|tauto]. intros H. split_and!; [constructor|done|]. by intros x y ?%elem_of_nil.
  - split.
    + intros H. apply StronglySorted_inv in H as [H Hf]. apply IH in H as (H1 & H2 & H3). rewrite Forall_app in Hf. destruct Hf as [F1 F2].
      split_and!; [by constructor|done|]. intros x y [->|Hx]%elem_of_cons Hy; [|by apply H3]. rewrite Forall_forall in F2. by apply F2.
    + intros (H1 & H2 & H3). apply StronglySorted_inv in H1 as [H1 Hf]. constructor.
      * apply IH. split_and!; [done|done|]. intros x y Hx Hy. apply H3; [by right|done].
      * apply Forall_app. split; [done|]. apply Forall_forall. intros y Hy. apply H3; [by left|done].
Qed.
Lemma in_order_filter {A} (f : A -> Z) (p : A -> bool) l : in_order (map f l) -> in_order (map f (List.filter p l)).
Proof.
  induction l as [|a l IH]; cbn; [done|]. intros H. apply StronglySorted_inv in H as [H Hf].
  destruct (p a); [|by apply IH]. cbn. constructor; [by apply IH|]. rewrite Forall_forall in Hf |- *. intros x Hx. apply Hf.
  apply elem_of_list_In, in_map_iff in Hx as (b & <- & Hb). apply filter_In in Hb as [Hb _].
  apply elem_of_list_In, in_map_iff. eauto.
Qed.
Lemma filter_outside {A} (f : A -> Z) lo hi l : (lo <= hi + 1)%Z -> in_order (map f l) ->
  List.filter (fun o => (f o <? lo)%Z) l ++ List.filter (fun o => (hi <? f o)%Z) l =
  List.filter (fun o => (f o <? lo)%Z || (hi <? f o)%Z) l.
Proof.
  intros Hlh. induction l as [|a l IH]; cbn; [done|]. intros H. apply StronglySorted_inv in H as [H Hf].
  destruct (Z.ltb_spec (f a) lo), (Z.ltb_spec hi (f a)); cbn.
  - lia.
  - f_equal. by apply IH.
  - rewrite (filter_nil (fun o => (f o <? lo)%Z)).
    + cbn. f_equal. rewrite <-IH by done. rewrite (filter_nil (fun o => (f o <? lo)%Z)); [done|].
      intros x Hx. rewrite Forall_forall in Hf. specialize (Hf (f x)). apply Z.ltb_ge.
      assert (f x ∈ map f l) by (apply elem_of_list_In, in_map; by apply elem_of_list_In). specialize (Hf H2). lia.
    + intros x Hx. rewrite Forall_forall in Hf. specialize (Hf (f x)). apply Z.ltb_ge.
      assert (f x ∈ map f l) by (apply elem_of_list_In, in_map; by apply elem_of_list_In). specialize (Hf H2). lia.
  - by apply IH.
Qed.
Lemma filter_comm {A} (p q : A -> bool) l : List.filter p (List.filter q l) = List.filter q (List.filter p l).
Proof.
  induction l as [|a l IH]; [done|]. cbn. destruct (p a) eqn:Ep, (q a) eqn:Eq; cbn; rewrite ?Ep, ?Eq, IH; done.
Qed.
Lemma filter_and {A} (p q : A -> bool) l : List.filter p (List.filter q l) = List.filter (fun a => q a && p a) l.
Proof. induction l as [|a l IH]; [done|]. cbn. destruct (q a); cbn; [destruct (p a)|]; by rewrite IH. Qed.
Lemma from_source_app k p q : from_source k (p ++ q) = from_source k p ++ from_source k q.
Proof. apply List.filter_app. Qed.
Lemma from_source_all k k' n : from_source k (all_of k' n) = if k' =? k then all_of k' n else [].
Proof.
  unfold from_source. destruct (Nat.eqb_spec k' k) as [->|].
  - apply filter_all. intros o Ho. apply elem_of_list_In, in_map_iff in Ho as (i & <- & _). apply Nat.eqb_refl.
  - apply filter_nil. intros o Ho. apply elem_of_list_In, in_map_iff in Ho as (i & <- & _). by apply Nat.eqb_neq.
Qed.

(** Bounds of the dates of consecutive records. *)
Lemma in_order_nth ts i j : in_order ts -> i <= j -> j < length ts -> (nth i ts 0 <= nth j ts 0)%Z.
Proof.
  intros H. revert i j. induction H as [|x l _ IH Hf]; intros i j Hij Hj; [cbn in Hj; lia|].
  destruct i as [|i], j as [|j]; cbn in *; [lia| |lia|].
  - rewrite Forall_forall in Hf. apply Hf. apply elem_of_list_In, nth_In. lia.
  - apply IH; lia.
Qed.

(** The axis dates of a block of consecutive records of a source. *)
Definition block (k a b : nat) : list origin := map (pair k) (seq a (b - a)).
Lemma block_dates tss k a b ts : nth k tss [] = ts -> map (date_of tss) (block k a b) = map (fun i => nth i ts 0%Z) (seq a (b - a)).
Proof. intros H. unfold block. rewrite map_map. apply map_ext. intros i. unfold date_of. cbn. by rewrite H. Qed.
Lemma seq_dates ts : map (fun i => nth i ts 0%Z) (seq 0 (length ts)) = ts.
Proof.
  apply list_eq. intros i. change (map ?f ?l) with (f <$> l). rewrite list_lookup_fmap.
  destruct (decide (i < length ts)) as [Hi|Hi].
  - rewrite lookup_seq_lt by done. cbn. destruct (lookup_lt_is_Some_2 ts i Hi) as [x Hx]. rewrite Hx. f_equal. by apply nth_lookup_Some.
  - rewrite lookup_seq_ge by lia. cbn. by rewrite (proj2 (lookup_ge_None ts i)) by lia.
Qed.
Lemma block_order tss k a b ts : nth k tss [] = ts -> in_order ts -> b <= length ts -> in_order (map (date_of tss) (block k a b)).
Proof.
  intros H Ho Hb. rewrite (block_dates _ _ _ _ _ H).
  assert (G : forall m a, a + m <= length ts -> in_order (map (fun i => nth i ts 0%Z) (seq a m))).
  { intros m. induction m as [|m IH]; intros a' Ham; cbn; constructor; [apply IH; lia|].
    apply Forall_forall. intros x Hx. apply elem_of_list_In, in_map_iff in Hx as (i & <- & Hi%in_seq). apply in_order_nth; [done|lia|lia]. }
  destruct (decide (a <= b)); [apply G; lia|]. replace (b - a) with 0 by lia. constructor.
Qed.
Lemma block_bounds tss k a b ts : nth k tss [] = ts -> in_order ts -> a < b -> b <= length ts ->
  first_date (map (date_of tss) (block k a b)) (nth a ts 0%Z) /\ last_date (map (date_of tss) (block k a b)) (nth (b - 1) ts 0%Z).
Proof.
  intros H Ho Hab Hb. rewrite (block_dates _ _ _ _ _ H). split; split.
  - apply elem_of_list_In, in_map_iff. exists a. split; [done|]. apply in_seq. lia.
  - intros x Hx. apply elem_of_list_In, in_map_iff in Hx as (i & <- & Hi%in_seq). apply in_order_nth; [done|lia|lia].
  - apply elem_of_list_In, in_map_iff. exists (b - 1). split; [done|]. apply in_seq. lia.
  - intros x Hx. apply elem_of_list_In, in_map_iff in Hx as (i & <- & Hi%in_seq). apply in_order_nth; [done|lia|lia].
Qed.

Lemma cutoff_ge hi emin : (hi <= cutoff hi emin <= hi + 1)%Z.
Proof. unfold cutoff. destruct (Z.ltb_spec hi emin); lia. Qed.

(** ** The runs of the inserted axis *)
Lemma length_diff l : length (diff l) = length l - 1.
Proof. induction l as [|x [|y l] IH]; [done|done|]. cbn [diff length] in *. lia. Qed.
Lemma nth_diff l i : S i < length l -> nth i (diff l) 0%Z = step_after l i.
Proof.
  revert i. induction l as [|x [|y l] IH]; intros i Hi; [cbn in Hi; lia|cbn in Hi; lia|].
  cbn [diff]. destruct i as [|i]; [done|]. cbn [nth]. rewrite IH by (cbn in *; lia). done.
Qed.
Lemma where_sorted p l : StronglySorted lt (where_ p l).
Proof.
  unfold where_. generalize 0. generalize (length l) as n.
  induction n as [|n IH]; intros a; cbn; [constructor|]. destruct (p _); [|apply IH].
  constructor; [apply IH|]. apply Forall_forall. intros x Hx. apply elem_of_list_In, filter_In in Hx as [Hx%in_seq _]. lia.
Qed.
Lemma elem_where p l i : i ∈ where_ p l <-> i < length l /\ p (nth i l 0%Z) = true.
Proof. unfold where_. rewrite elem_of_list_In, filter_In, in_seq. intuition lia. Qed.

Lemma last_cons_def (x y : nat) l : List.last (y :: l) x = List.last l y.
Proof. revert x y. induction l as [|z l IH]; intros x y; [done|]. change (List.last (y :: z :: l) x) with (List.last (z :: l) x). by rewrite !IH. Qed.
Lemma last_elem (y : nat) l : List.last l y = y \/ List.last l y ∈ l.
Proof.
  revert y. induction l as [|z l IH]; intros y; [by left|]. right. rewrite last_cons_def. destruct (IH z) as [->|H]; [by left|by right].
Qed.
Lemma tiles x l : StronglySorted lt (x :: l) ->
  mjoin (map (fun ab => seq ab.1 (ab.2 - ab.1)) (zip (x :: l) l)) = seq x (List.last l x - x).
Proof.
  revert x. induction l as [|y l IH]; intros x H.
  - cbn. by rewrite Nat.sub_diag.
  - apply StronglySorted_inv in H as [H Hf]. 
    change (seq x (y - x) ++ mjoin (map (fun ab => seq ab.1 (ab.2 - ab.1)) (zip (y :: l) l)) = seq x (List.last (y :: l) x - x)).
    rewrite IH by done. apply StronglySorted_inv in H as [_ Hf'].
    assert (Hy : x < y) by (rewrite Forall_forall in Hf; apply Hf; by left).
    assert (Hl : y <= List.last l y /\ List.last (y :: l) x = List.last l y).
    { rewrite last_cons_def. split; [|done]. destruct (last_elem y l) as [->|Hin]; [lia|].
      rewrite Forall_forall in Hf'. specialize (Hf' _ Hin). lia. }
    destruct Hl as [Hl ->]. replace (List.last l y - x) with ((y - x) + (List.last l y - y)) by lia.
    rewrite seq_app. repeat f_equal. lia.
Qed.
Lemma elem_zip_tail (x : nat) (l : list nat) (a b : nat) : (a, b) ∈ zip (x :: l) l -> exists k : nat, (x :: l) !! k = Some a /\ (x :: l) !! S k = Some b.
Proof.
  revert x. induction l as [|y l IH]; intros x H; [by apply elem_of_nil in H|]. cbn in H.
  apply elem_of_cons in H as [[= -> ->]|H]; [by exists 0|]. apply IH in H as (k & H1 & H2). by exists (S k).
Qed.
Lemma sorted_gap (l : list nat) (k a b i : nat) : StronglySorted lt l -> l !! k = Some a -> l !! S k = Some b -> a < i -> i < b -> i ∉ l.
Proof.
  intros Hs. revert k. induction Hs as [|x l Hs IH Hf]; intros k Ha Hb Hai Hib; [done|].
  rewrite Forall_forall in Hf. destruct k as [|k].
  - cbn in Ha. injection Ha as ->. cbn in Hb. intros [->|Hi]%elem_of_cons; [lia|]. destruct l as [|y l]; [done|].
    cbn in Hb. injection Hb as ->. apply elem_of_cons in Hi as [->|Hi]; [lia|]. inversion Hs; subst. rewrite Forall_forall in H2. specialize (H2 _ Hi). lia.
  - cbn in Ha. intros [->|Hi]%elem_of_cons; [|by eapply IH]. specialize (Hf a (elem_of_list_lookup_2 _ _ _ Ha)). lia.
Qed.
Lemma sorted_step (l : list nat) (k a b : nat) : StronglySorted lt l -> l !! k = Some a -> l !! S k = Some b -> a < b.
Proof.
  intros Hs. revert k. induction Hs as [|x l Hs IH Hf]; intros k Ha Hb; [done|]. destruct k as [|k]; [|by eapply IH].
  cbn in Ha. injection Ha as ->. cbn in Hb. rewrite Forall_forall in Hf. apply Hf. by eapply elem_of_list_lookup_2.
Qed.

Lemma runs_index t ts : (0 <= t)%Z -> ts <> [] ->
  let index := 0 :: where_ (fun d => (t <? d)%Z) (0%Z :: diff ts) ++ [length ts] in
  runs t ts (zip index (tail index)).
Proof.
  intros Ht Hne index. set (W := where_ (fun d => (t <? d)%Z) (0%Z :: diff ts)) in *.
  assert (Hn : 0 < length ts) by (destruct ts; [done|cbn; lia]).
  assert (HW : forall i, i ∈ W <-> 0 < i < length ts /\ (t < step_after ts (i - 1))%Z).
  { intros i. unfold W. rewrite elem_where. cbn [length]. rewrite length_diff. destruct i as [|i].
    - cbn [nth]. split; [|lia]. intros [_ E%Z.ltb_lt]. lia.
    - cbn [nth]. rewrite Z.ltb_lt. split; intros [H1 H2].
      + rewrite nth_diff in H2 by lia. replace (S i - 1) with i by lia. lia.
      + rewrite nth_diff by lia. replace (S i - 1) with i in H2 by lia. lia. }
  assert (Hs : StronglySorted lt index).
  { unfold index. constructor.
    - assert (G : forall l, StronglySorted lt l -> (forall i, i ∈ l -> i < length ts) -> StronglySorted lt (l ++ [length ts])).
      { intros l Hl. induction Hl as [|x l Hl IH Hf]; intros Hb; cbn; [constructor; constructor|]. constructor.
        - apply IH. intros i Hi. apply Hb. by right.
        - apply Forall_app. split; [done|]. constructor; [|constructor]. apply Hb. by left. }
      apply G; [apply where_sorted|]. intros i Hi. apply HW in Hi. lia.
    - apply Forall_app. split; [|constructor; [lia|constructor]]. apply Forall_forall. intros i Hi. apply HW in Hi. lia. }
  unfold index in *. cbn [tail]. unfold runs. split_and!.
  - rewrite tiles by done. rewrite last_last. by rewrite Nat.sub_0_r.
  - apply Forall_forall. intros [a b] Hab. apply elem_zip_tail in Hab as (k & H1 & H2). cbn. by eapply sorted_step.
  - intros a b i Hab Hai Hib. apply elem_zip_tail in Hab as (k & H1 & H2).
    assert (G : S i ∉ 0 :: W ++ [length ts]) by (apply (sorted_gap _ k a b); [exact Hs|exact H1|exact H2|lia|lia]).
    destruct (Z.leb_spec (step_after ts i) t); [done|]. exfalso. apply G. right. apply elem_of_app. left.
    apply HW. replace (S i - 1) with i by lia. split; [|lia].
    assert (b ∈ 0 :: W ++ [length ts]) as Hb by (by eapply elem_of_list_lookup_2).
    apply elem_of_cons in Hb as [->|[Hb|Hb]%elem_of_app]; [lia|apply HW in Hb; lia|apply elem_of_list_singleton in Hb; lia].
  - intros a b Hab Hb. apply elem_zip_tail in Hab as (k & H1 & H2).
    assert (b ∈ W ++ [length ts]) as Hin by (by eapply elem_of_list_lookup_2).
    apply elem_of_app in Hin as [Hin|Hin%elem_of_list_singleton]; [|lia]. by apply HW.
Qed.

Section main.
  Context (dim axis : str) (r : resolution) (ex ins : dataset) (te ti : list Z).
  Context (Hm : mergeable dim axis ex ins te ti).
  Let sources := [ex; ins].
  Let tss := [te; ti].

  Lemma sources_ok : sources <> [] /\ (forall s, s ∈ sources -> proper s) /\ Forall2 (series dim axis) sources tss.
  Proof.
    destruct Hm as (H1 & _ & H3 & _ & _ & H6 & H7). split_and!; [done| |by constructor; [|constructor]].
    intros s [->|[->|H]%elem_of_cons]%elem_of_cons; [done|done|by apply elem_of_nil in H].
  Qed.
  Lemma all_block k n : all_of k n = block k 0 n.
  Proof. unfold all_of, block. by rewrite Nat.sub_0_r. Qed.
  Lemma existing_assembled : assembled dim sources (all_of 0 (length te)) ex.
  Proof.
    destruct Hm as (H1 & H2 & H3 & H4 & H5 & H6 & H7). apply assembled_source; try done.
    - intros s [->|[->|H]%elem_of_cons]%elem_of_cons; [apply alike_refl|by apply alike_sym|by apply elem_of_nil in H].
    - by apply (series_size _ axis).
  Qed.
  Lemma inserted_assembled : assembled dim sources (all_of 1 (length ti)) ins.
  Proof.
    destruct Hm as (H1 & H2 & H3 & H4 & H5 & H6 & H7). apply assembled_source; try done.
    - intros s [->|[->|H]%elem_of_cons]%elem_of_cons; [done|apply alike_refl|by apply elem_of_nil in H].
    - by apply (series_size _ axis).
  Qed.
  Lemma pick_block k n a b : a <= b -> b <= n -> pick (seq a (b - a)) (all_of k n) = block k a b.
  Proof.
    intros H1 H2. unfold block, all_of. assert (G : forall m a, a + m <= n -> pick (seq a m) (map (pair k) (seq 0 n)) = map (pair k) (seq a m)).
    { intros m. induction m as [|m IH]; intros a' Ha; [done|]. unfold pick in *. cbn.
      change (map ?f ?l) with (f <$> l) in *. rewrite list_lookup_fmap, lookup_seq_lt by lia. cbn. f_equal. apply IH. lia. }
    apply G. lia.
  Qed.

  (** One merge of a block of inserted records. *)
  Lemma merge_block cur plan new a b emin :
    in_order ti -> assembled dim sources plan cur -> in_order (map (date_of tss) plan) ->
    first_date (map (date_of tss) plan) emin -> a < b -> b <= length ti ->
    assembled dim sources (block 1 a b) new ->
    let lo := nth a ti 0%Z in let hi := nth (b - 1) ti 0%Z in
    let plan' := before tss lo plan ++ block 1 a b ++ after tss (cutoff hi emin) plan in
    (forall out, merge_time_series_ r cur new axis dim = Ok out -> assembled dim sources plan' out) /\
    ((hi + 1)%Z ∉ map (date_of tss) plan -> exists out, merge_time_series_ r cur new axis dim = Ok out) /\
    ((forall e, merge_time_series_ r cur new axis dim = Raise e -> e = IndexError)) /\
    in_order (map (date_of tss) plan').
  Proof.
    intros Hti Hcur Hord Hmin Hab Hb Hnew lo hi plan'. destruct sources_ok as (Hne & Hps & Hser).
    destruct (block_bounds tss 1 a b ti eq_refl Hti Hab Hb) as [Hlo Hhi].
    destruct (last_date_exists (map (date_of tss) plan)) as [emax Hmax].
    { destruct Hmin as [Hin _]. intros E. rewrite E in Hin. by apply elem_of_nil in Hin. }
    pose proof (merge_one dim axis sources tss r Hne Hps Hser cur new plan (block 1 a b) lo hi emin emax Hcur Hnew Hord Hmin Hmax Hlo Hhi) as H.
    assert (Hlh : (lo <= hi)%Z) by (apply Hhi, Hlo).
    split_and!.
    - intros out Hout. destruct (_ && _); [congruence|]. destruct H as (out' & E & Ho). assert (out' = out) as -> by congruence. done.
    - intros Hno. destruct ((emin <? lo)%Z && (hi <? emax)%Z && (emax <=? hi + 1)%Z) eqn:E; [|destruct H as (out & -> & _); eauto].
      exfalso. apply andb_true_iff in E as [[_ E2%Z.ltb_lt]%andb_true_iff E3%Z.leb_le]. apply Hno.
      assert (hi + 1 = emax)%Z as -> by lia. apply Hmax.
    - intros e He. destruct (_ && _); [congruence|]. destruct H as (out' & E & Ho). congruence.
    - unfold plan'. rewrite !map_app. 
      assert (Hc : (hi <= cutoff hi emin)%Z) by apply cutoff_ge.
      assert (B : forall x, x ∈ map (date_of tss) (before tss lo plan) -> (x < lo)%Z).
      { intros x Hx. apply elem_of_list_In, in_map_iff in Hx as (o & <- & Ho). apply filter_In in Ho as [_ Ho%Z.ltb_lt]. done. }
      assert (A : forall x, x ∈ map (date_of tss) (after tss (cutoff hi emin) plan) -> (hi < x)%Z).
      { intros x Hx. apply elem_of_list_In, in_map_iff in Hx as (o & <- & Ho). apply filter_In in Ho as [_ Ho%Z.ltb_lt]. lia. }
      apply in_order_app. split_and!; [by apply in_order_filter| |].
      + apply in_order_app. split_and!; [by apply (block_order _ _ _ _ ti)|by apply in_order_filter|].
        intros x y Hx Hy. apply A in Hy. destruct Hhi as [_ Hhi]. specialize (Hhi _ Hx). lia.
      + intros x y Hx Hy. apply B in Hx. apply elem_of_app in Hy as [Hy|Hy].
        * destruct Hlo as [_ Hlo]. specialize (Hlo _ Hy). lia.
        * apply A in Hy. lia.
  Qed.

  Lemma merged_series plan out : assembled dim sources plan out -> series dim axis out (map (date_of tss) plan).
  Proof. destruct sources_ok as (Hne & Hps & Hser). by apply assembled_series. Qed.

  (** What one merge leaves of the records of each source. *)
  Lemma merge_block_sources plan a b c :
    in_order ti -> in_order (map (date_of tss) plan) -> a < b -> b <= length ti -> (nth (b - 1) ti 0 <= c)%Z ->
    (forall o, o ∈ plan -> o.1 = 0 \/ (o.1 = 1 /\ o.2 < a)) ->
    (0 < a -> (nth (a - 1) ti 0 < nth a ti 0)%Z) ->
    let lo := nth a ti 0%Z in
    let plan' := before tss lo plan ++ block 1 a b ++ after tss c plan in
    from_source 0 plan' = List.filter (fun o => (date_of tss o <? lo)%Z || (c <? date_of tss o)%Z) (from_source 0 plan) /\
    from_source 1 plan' = from_source 1 plan ++ block 1 a b /\
    (forall o, o ∈ plan' -> o.1 = 0 \/ (o.1 = 1 /\ o.2 < b)).
  Proof.
    intros Hti Hord Hab Hb Hc Hplan Hstep lo plan'.
    assert (Hlh : (lo <= nth (b - 1) ti 0)%Z) by (apply in_order_nth; [done|lia|lia]).
    assert (Hin : forall o, o ∈ plan -> o.1 = 1 -> (date_of tss o < lo)%Z).
    { intros o Ho H1. destruct (Hplan o Ho) as [|[_ H2]]; [lia|]. unfold date_of. rewrite H1. cbn [nth tss].
      assert (nth o.2 ti 0 <= nth (a - 1) ti 0)%Z by (apply in_order_nth; [done|lia|lia]). specialize (Hstep ltac:(lia)). subst lo. lia. }
    split_and!.
    - unfold plan', from_source. rewrite !List.filter_app. rewrite (filter_nil _ (block 1 a b)).
      2:{ intros o Ho. apply elem_of_list_In, in_map_iff in Ho as (i & <- & _). done. }
      cbn [app]. unfold before, after. rewrite <-List.filter_app, filter_outside by (done || lia). apply filter_comm.
    - unfold plan'. rewrite !from_source_app. f_equal.
      + unfold from_source, before. rewrite filter_comm. apply filter_all. intros o Ho.
        apply elem_of_list_In, filter_In in Ho as [Ho%elem_of_list_In E%Nat.eqb_eq]. apply Z.ltb_lt. by apply Hin.
      + rewrite <-(app_nil_r (block 1 a b)) at 2. f_equal.
        * apply filter_all. intros o Ho. apply elem_of_list_In, in_map_iff in Ho as (i & <- & _). done.
        * unfold from_source, after. apply filter_nil. intros o Ho. apply elem_of_list_In, filter_In in Ho as [Ho%elem_of_list_In E%Z.ltb_lt].
          apply Nat.eqb_neq. intros E1. specialize (Hin o Ho E1). lia.
    - intros o Ho. unfold plan' in Ho. apply elem_of_app in Ho as [Ho|[Ho|Ho]%elem_of_app].
      + apply elem_of_list_In, filter_In in Ho as [Ho%elem_of_list_In _]. destruct (Hplan o Ho) as [|[? ?]]; [by left|right; lia].
      + apply elem_of_list_In, in_map_iff in Ho as (i & <- & Hi%in_seq). right. cbn. lia.
      + apply elem_of_list_In, filter_In in Ho as [Ho%elem_of_list_In _]. destruct (Hplan o Ho) as [|[? ?]]; [by left|right; lia].
  Qed.

  Definition run_step (ds : dataset) (ab : nat * nat) : res dataset :=
    do part <- ds_isel ins [(dim, ISlice (Some (Z.of_nat ab.1)) (Some (Z.of_nat ab.2)))];
    merge_time_series_ r ds part axis dim.

  Lemma part_assembled a b : a <= b -> b <= length ti ->
    exists part, ds_isel ins [(dim, ISlice (Some (Z.of_nat a)) (Some (Z.of_nat b)))] = Ok part /\
      assembled dim sources (block 1 a b) part.
  Proof.
    intros Ha Hb. destruct sources_ok as (Hne & Hps & Hser).
    destruct Hm as (H1 & H2 & H3 & H4 & H5 & H6 & H7).
    destruct (assembled_isel dim sources (all_of 1 (length ti)) ins (length ti) (ISlice (Some (Z.of_nat a)) (Some (Z.of_nat b))) (seq a (b - a)))
      as (part & E & Hpart & _).
    { apply inserted_assembled. }
    { by apply (series_size _ axis). }
    { by apply positions_slice. }
    exists part. split; [done|]. by rewrite pick_block in Hpart.
  Qed.


  Lemma fold_runs rs : in_order ti -> forall a cur plan,
    mjoin (map (fun ab => seq ab.1 (ab.2 - ab.1)) rs) = seq a (length ti - a) -> a <= length ti ->
    Forall (fun ab => ab.1 < ab.2) rs ->
    (forall a b, (a, b) ∈ rs -> b < length ti -> (0 < step_after ti (b - 1))%Z) ->
    (0 < a -> a < length ti -> (0 < step_after ti (a - 1))%Z) ->
    assembled dim sources plan cur -> in_order (map (date_of tss) plan) -> plan <> [] ->
    (forall o, o ∈ plan -> (o.1 = 0 /\ o.2 < length te) \/ (o.1 = 1 /\ o.2 < a)) ->
    (forall out, foldM run_step cur rs = Ok out -> exists plan' keep,
       assembled dim sources plan' out /\ in_order (map (date_of tss) plan') /\
       from_source 0 plan' = List.filter (fun o => keep (date_of tss o)) (from_source 0 plan) /\
       from_source 1 plan' = from_source 1 plan ++ block 1 a (length ti) /\
       (forall x, in_runs ti rs x -> keep x = false) /\
       (forall x, ~ in_runs ti rs x -> ~ in_runs ti rs (x - 1)%Z -> keep x = true)) /\
    ((forall a b, (a, b) ∈ rs -> (nth (b - 1) ti 0 + 1)%Z ∉ te) -> exists out, foldM run_step cur rs = Ok out) /\
    (forall e, foldM run_step cur rs = Raise e -> e = IndexError).
  Proof.
    intros Hti. induction rs as [|[a' b] rs IH]; intros a cur plan Htile Ha Hlt Hgap Hgap0 Hcur Hord Hne Hplan.
    - assert (length ti - a = 0) by (destruct (length ti - a); done).
      split_and!; [|by eauto|done]. intros out [= <-]. exists plan, (fun _ => true). split_and!; try done.
      + symmetry. by apply filter_all.
      + unfold block. by rewrite H, app_nil_r.
      + intros x (? & ? & ?%elem_of_nil & _). done.
    - apply Forall_cons in Hlt as [Hab Hlt]. cbn [fst snd] in Hab.
      change (seq a' (b - a') ++ mjoin (map (fun ab => seq ab.1 (ab.2 - ab.1)) rs) = seq a (length ti - a)) in Htile.
      assert (a' = a) as ->.
      { destruct (b - a') as [|k] eqn:E; [lia|]. destruct (length ti - a) as [|m]; [done|]. cbn in Htile. congruence. }
      assert (Hb : b <= length ti).
      { apply (f_equal length) in Htile. rewrite app_length, !seq_length in Htile. lia. }
      assert (Hrest : mjoin (map (fun ab => seq ab.1 (ab.2 - ab.1)) rs) = seq b (length ti - b)).
      { replace (length ti - a) with ((b - a) + (length ti - b)) in Htile by lia. rewrite seq_app in Htile.
        apply app_inv_head in Htile. replace (a + (b - a)) with b in Htile by lia. done. }
      destruct (part_assembled a b ltac:(lia) Hb) as (part & Epart & Hpart).
      destruct (first_date_exists (map (date_of tss) plan)) as [emin Hmin]; [by destruct plan|].
      pose proof (merge_block cur plan part a b emin Hti Hcur Hord Hmin Hab Hb Hpart) as (Mok & Msucc & Merr & Mord).
      cbv zeta in *. set (plan1 := before _ _ _ ++ _) in *.
      assert (Hp01 : forall o, o ∈ plan -> o.1 = 0 \/ (o.1 = 1 /\ o.2 < a)) by (intros o Ho; destruct (Hplan o Ho) as [[? ?]|]; auto).
      assert (Hstep : 0 < a -> (nth (a - 1) ti 0 < nth a ti 0)%Z).
      { intros Hpos. specialize (Hgap0 Hpos ltac:(lia)). unfold step_after in Hgap0. replace (S (a - 1)) with a in Hgap0 by lia. lia. }
      destruct (merge_block_sources plan a b (cutoff (nth (b - 1) ti 0%Z) emin) Hti Hord Hab Hb (proj1 (cutoff_ge _ _)) Hp01 Hstep) as (S0 & S1 & S2).
      fold plan1 in S0, S1, S2.
      assert (Hplan1 : forall o, o ∈ plan1 -> (o.1 = 0 /\ o.2 < length te) \/ (o.1 = 1 /\ o.2 < b)).
      { intros o Ho. destruct (S2 o Ho) as [E|E]; [left|by right]. split; [done|].
        assert (Hin : o ∈ from_source 0 plan1) by (apply elem_of_list_In, filter_In; split; [by apply elem_of_list_In|by apply Nat.eqb_eq]).
        rewrite S0 in Hin. apply elem_of_list_In, filter_In in Hin as [Hin _]. apply filter_In in Hin as [Hin%elem_of_list_In _].
        destruct (Hplan o Hin) as [[_ ?]|[? _]]; [done|lia]. }
      assert (Hne1 : plan1 <> []).
      { unfold plan1. intros [_ [E _]%app_eq_nil]%app_eq_nil. apply (f_equal length) in E. unfold block in E.
        rewrite map_length, seq_length in E. cbn in E. lia. }
      assert (Efold : foldM run_step cur ((a, b) :: rs) = do mid <- merge_time_series_ r cur part axis dim; foldM run_step mid rs).
      { cbn [foldM]. unfold run_step at 1. cbn [fst snd]. by rewrite Epart. }
      assert (Hgap' : forall a b, (a, b) ∈ rs -> b < length ti -> (0 < step_after ti (b - 1))%Z) by (intros x y Hxy; apply (Hgap x y); by right).
      assert (Hgapb : 0 < b -> b < length ti -> (0 < step_after ti (b - 1))%Z) by (intros _; apply (Hgap a b); by left).
      assert (Hblock : block 1 a b ++ block 1 b (length ti) = block 1 a (length ti)).
      { unfold block. rewrite <-map_app. f_equal. replace (length ti - a) with ((b - a) + (length ti - b)) by lia. rewrite seq_app.
        repeat f_equal. lia. }
      split_and!.
      + intros out Hout. rewrite Efold in Hout. destruct (merge_time_series_ r cur part axis dim) as [mid|] eqn:Emid; [|done]. cbn [rbind] in Hout.
        destruct (IH b mid plan1 Hrest Hb Hlt Hgap' Hgapb (Mok _ eq_refl) Mord Hne1 Hplan1) as (IH1 & _ & _).
        destruct (IH1 _ Hout) as (plan' & keep & A1 & A2 & A3 & A4 & A5 & A6).
        set (lo := nth a ti 0%Z) in *. set (hi := nth (b - 1) ti 0%Z) in *.
        exists plan', (fun x => ((x <? lo) || (cutoff hi emin <? x))%Z && keep x). split_and!; [done|done| | | |].
        * rewrite A3, S0, filter_and. done.
        * rewrite A4, S1, <-app_assoc. by rewrite Hblock.
        * intros x (a0 & b0 & Hin & Hx). apply elem_of_cons in Hin as [[= -> ->]|Hin].
          -- fold lo hi in Hx. pose proof (cutoff_ge hi emin). rewrite (proj2 (Z.ltb_ge x lo)), (proj2 (Z.ltb_ge (cutoff hi emin) x)) by lia. done.
          -- rewrite A5 by (by exists a0, b0). apply andb_false_r.
        * intros x Hx Hx1. rewrite A6.
          -- rewrite andb_true_r. pose proof (cutoff_ge hi emin). apply orb_true_iff. rewrite !Z.ltb_lt.
             destruct (Z_lt_le_dec x lo); [by left|right]. destruct (Z_lt_le_dec hi x).
             ++ destruct (decide (x = hi + 1)%Z) as [->|]; [|lia]. exfalso. apply Hx1. exists a, b. split; [by left|]. fold lo hi.
                assert (lo <= hi)%Z by (apply in_order_nth; [done|lia|lia]). lia.
             ++ exfalso. apply Hx. exists a, b. split; [by left|]. fold lo hi. lia.
          -- intros (a0 & b0 & Hin & Hx'). apply Hx. exists a0, b0. split; [by right|done].
          -- intros (a0 & b0 & Hin & Hx'). apply Hx1. exists a0, b0. split; [by right|done].
      + intros Hno. rewrite Efold. destruct Msucc as [mid Emid].
        { intros Hin. apply elem_of_list_In, in_map_iff in Hin as (o & Eo & Ho%elem_of_list_In).
          destruct (Hplan o Ho) as [[E0 Hl]|[E1 Hl]].
          - apply (Hno a b); [by left|]. rewrite <-Eo. unfold date_of. rewrite E0. cbn [nth tss]. apply elem_of_list_In, nth_In. done.
          - unfold date_of in Eo. rewrite E1 in Eo. cbn [nth tss] in Eo.
            assert (nth o.2 ti 0 <= nth (b - 1) ti 0)%Z by (apply in_order_nth; [done|lia|lia]). lia. }
        rewrite Emid. cbn [rbind]. destruct (IH b mid plan1 Hrest Hb Hlt Hgap' Hgapb (Mok _ Emid) Mord Hne1 Hplan1) as (_ & IH2 & _).
        apply IH2. intros x y Hxy. apply (Hno x y). by right.
      + intros e He. rewrite Efold in He. destruct (merge_time_series_ r cur part axis dim) as [mid|e'] eqn:Emid; [|injection He as <-; by apply Merr].
        cbn [rbind] in He. destruct (IH b mid plan1 Hrest Hb Hlt Hgap' Hgapb (Mok _ eq_refl) Mord Hne1 Hplan1) as (_ & _ & IH3). by apply IH3.
  Qed.
End main.

Lemma runs_unique t ts rs rs' : runs t ts rs -> runs t ts rs' -> rs = rs'.
Proof.
  intros (T & L & S & G) (T' & L' & S' & G').
  assert (Gen : forall rs rs' a, mjoin (map (fun ab => seq ab.1 (ab.2 - ab.1)) rs) = seq a (length ts - a) ->
    mjoin (map (fun ab => seq ab.1 (ab.2 - ab.1)) rs') = seq a (length ts - a) ->
    Forall (fun ab => ab.1 < ab.2) rs -> Forall (fun ab => ab.1 < ab.2) rs' ->
    (forall a b i, (a, b) ∈ rs -> a <= i -> Datatypes.S i < b -> (step_after ts i <= t)%Z) ->
    (forall a b, (a, b) ∈ rs -> b < length ts -> (t < step_after ts (b - 1))%Z) ->
    (forall a b i, (a, b) ∈ rs' -> a <= i -> Datatypes.S i < b -> (step_after ts i <= t)%Z) ->
    (forall a b, (a, b) ∈ rs' -> b < length ts -> (t < step_after ts (b - 1))%Z) -> rs = rs').
  { clear. intros rs. induction rs as [|[x b] rs IH]; intros rs' a T T' L L' S G S' G'.
    - destruct rs' as [|[x' b'] rs']; [done|]. apply Forall_cons in L' as [L' _]. cbn in L'.
      change (seq x' (b' - x') ++ mjoin (map (fun ab => seq ab.1 (ab.2 - ab.1)) rs') = seq a (length ts - a)) in T'. cbn in T. rewrite <-T in T'.
      destruct (b' - x') eqn:E; [lia|]. done.
    - apply Forall_cons in L as [L1 L2]. cbn in L1.
      change (seq x (b - x) ++ mjoin (map (fun ab => seq ab.1 (ab.2 - ab.1)) rs) = seq a (length ts - a)) in T.
      assert (Hl : b - x <= length ts - a) by (apply (f_equal length) in T; rewrite app_length, !seq_length in T; lia).
      assert (x = a) as ->.
      { destruct (b - x) eqn:E; [lia|]. destruct (length ts - a); [done|]. cbn in T. congruence. }
      destruct rs' as [|[x' b'] rs'].
      { cbn in T'. destruct (length ts - a); [lia|done]. }
      apply Forall_cons in L' as [L1' L2']. cbn in L1'.
      change (seq x' (b' - x') ++ mjoin (map (fun ab => seq ab.1 (ab.2 - ab.1)) rs') = seq a (length ts - a)) in T'.
      assert (Hl' : b' - x' <= length ts - a) by (apply (f_equal length) in T'; rewrite app_length, !seq_length in T'; lia).
      assert (x' = a) as ->.
      { destruct (b' - x') eqn:E; [lia|]. destruct (length ts - a); [done|]. cbn in T'. congruence. }
      assert (b = b') as ->.
      { destruct (lt_eq_lt_dec b b') as [[Hlt| ->]|Hlt]; [exfalso|done|exfalso].
        - assert (step_after ts (b - 1) <= t)%Z by (apply (S' a b'); [by left|lia|lia]).
          assert (t < step_after ts (b - 1))%Z by (apply (G a b); [by left|lia]). lia.
        - assert (step_after ts (b' - 1) <= t)%Z by (apply (S a b); [by left|lia|lia]).
          assert (t < step_after ts (b' - 1))%Z by (apply (G' a b'); [by left|lia]). lia. }
      f_equal. apply (IH rs' b'); try done.
      + replace (length ts - a) with ((b' - a) + (length ts - b')) in T by lia. rewrite seq_app in T. apply app_inv_head in T.
        by replace (a + (b' - a)) with b' in T by lia.
      + replace (length ts - a) with ((b' - a) + (length ts - b')) in T' by lia. rewrite seq_app in T'. apply app_inv_head in T'.
        by replace (a + (b' - a)) with b' in T' by lia.
      + intros y z i Hyz. apply (S y z). by right.
      + intros y z Hyz. apply (G y z). by right.
      + intros y z i Hyz. apply (S' y z). by right.
      + intros y z Hyz. apply (G' y z). by right. }
  apply (Gen rs rs' 0); rewrite ?Nat.sub_0_r; done.
Qed.
