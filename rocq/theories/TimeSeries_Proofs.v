From Verif Require Import Py Dict NdArray_Model NdArray_Spec NdArray_Proofs.
From Verif Require Import Dataset_Model Dataset_Spec Dataset_Proofs Dataset_Concat Dataset_Main.
From Verif Require Import Assemble_Spec Assemble_Proofs Period_Model Period_Spec Period_Proofs TimeSeries_Model TimeSeries_Spec.

(** ** Series *)
Lemma series_axis_values dim axis ds ts : series dim axis ds ts -> axis_values ds axis = Ok ts.
Proof.
  intros (v & Hv & _ & _ & Hf). unfold axis_values. rewrite Hv, Hf. clear.
  induction ts as [|t ts IH]; [done|]. cbn in *. by rewrite IH.
Qed.
Lemma series_size dim axis ds ts : proper ds -> series dim axis ds ts ->
  dget (d_dims ds) dim = Some (length ts) /\ dim ∈ mjoin (map v_dims (dvals (d_vars ds))).
Proof.
  intros Hp (v & Hv & Hd & Hl & Hf).
  assert (Hin : v ∈ dvals (d_vars ds)) by (apply elem_dvals; exists axis; by apply dget_elem).
  destruct (proper_sized _ _ Hp Hin) as (Hs & _ & Hw). split.
  - destruct (Hs 0 dim) as (n & Hn & Hdn); [by rewrite Hd|]. rewrite Hdn. f_equal.
    pose proof (length_flat_rank1 _ Hw Hl) as H. rewrite Hf, map_length in H. unfold v_shape in Hn.
    rewrite (nth_lookup_Some _ _ _ _ Hn) in H. done.
  - apply elem_of_list_join. exists (v_dims v). split; [rewrite Hd; by left|]. apply elem_of_list_In, in_map. by apply elem_of_list_In.
Qed.

Lemma assembled_series dim axis sources tss plan ds : sources <> [] -> (forall s, s ∈ sources -> proper s) ->
  Forall2 (series dim axis) sources tss ->
  assembled dim sources plan ds -> series dim axis ds (map (date_of tss) plan).
Proof.
  intros Hne Hps Hser [Hp Hnr Hal Ho Hr]. destruct sources as [|s0 sources0] eqn:Es; [done|]. rewrite <-Es in *.
  assert (H0 : s0 ∈ sources) by (rewrite Es; by left).
  destruct tss as [|ts0 tss0]; [rewrite Es in Hser; by inversion Hser|].
  assert (Hs0 : series dim axis s0 ts0) by (rewrite Es in Hser; by inversion Hser).
  destruct Hs0 as (v0 & Hv0 & Hd0 & Hl0 & _). destruct (Hal _ H0) as (_ & Hn & Hdims).
  destruct (proj1 (Hn axis)) as [v Hv]; [eauto|]. destruct (Hdims _ _ _ Hv0 Hv) as (E1 & E2 & _).
  exists v. split_and!; [done|congruence|congruence|].
  assert (Hin : v ∈ dvals (d_vars ds)) by (apply elem_dvals; exists axis; by apply dget_elem).
  destruct (proper_sized _ _ Hp Hin) as (_ & _ & Hw).
  assert (Hrec : records v dim = Some (map (fun x => Arr [] [x]) (a_flat (v_array v)))).
  { rewrite records_index, E1, Hd0. cbn. rewrite decide_True by done. f_equal. apply rows_rank1; [done|]. unfold v_shape in *. congruence. }
  specialize (Hr _ _ _ Hv Hrec). clear Hrec.
  revert Hr. generalize (a_flat (v_array v)) as l. intros l. revert plan. induction l as [|x l IH]; intros plan Hr; inversion Hr as [|o ? plan' ? Hox Hrest]; subst; [done|].
  cbn [map]. f_equal; [|by apply IH].
  destruct Hox as (s & w & rs & Hs & Hw' & Hrs & Hx).
  destruct (Forall2_lookup_l _ _ _ _ _ Hser Hs) as (ts & Hts & (w' & Hw1 & Hd1 & Hl1 & Hf1)).
  assert (w' = w) as -> by congruence.
  assert (Hps' : proper s) by (by eapply Hps, elem_of_list_lookup_2).
  assert (Hwf : arr_wf (v_array w)) by (apply (proper_arrays _ Hps'), elem_dvals; exists axis; by apply dget_elem).
  rewrite records_index, Hd1 in Hrs. cbn in Hrs. rewrite decide_True in Hrs by done. injection Hrs as <-.
  rewrite rows_rank1 in Hx by done. rewrite Hf1, map_map in Hx. change (map ?f ?l) with (f <$> l) in Hx.
  rewrite list_lookup_fmap in Hx. destruct (ts !! o.2) as [z|] eqn:Ez; [|done]. injection Hx as <-. f_equal.
  unfold date_of. rewrite (nth_lookup_Some _ _ _ _ Hts). by rewrite (nth_lookup_Some _ _ _ _ Ez).
Qed.

(** ** Minimum, maximum, where *)
Lemma fold_min_spec l : forall x, fold_left Z.min l x ∈ x :: l /\ forall y, y ∈ x :: l -> (fold_left Z.min l x <= y)%Z.
Proof.
  induction l as [|a l IH]; intros x; cbn.
  - split; [by left|]. intros y ->%elem_of_list_singleton. lia.
  - destruct (IH (Z.min x a)) as [H1 H2]. split.
    + apply elem_of_cons in H1 as [->|H1]; [|by right; right].
      destruct (Z.min_spec x a) as [[_ ->]|[_ ->]]; [by left|right; by left].
    + pose proof (H2 (Z.min x a) ltac:(by left)) as H3. intros y [->|[->|Hy]%elem_of_cons]%elem_of_cons; [lia|lia|].
      apply H2. by right.
Qed.
Lemma fold_max_spec l : forall x, fold_left Z.max l x ∈ x :: l /\ forall y, y ∈ x :: l -> (y <= fold_left Z.max l x)%Z.
Proof.
  induction l as [|a l IH]; intros x; cbn.
  - split; [by left|]. intros y ->%elem_of_list_singleton. lia.
  - destruct (IH (Z.max x a)) as [H1 H2]. split.
    + apply elem_of_cons in H1 as [->|H1]; [|by right; right].
      destruct (Z.max_spec x a) as [[_ ->]|[_ ->]]; [right; by left|by left].
    + pose proof (H2 (Z.max x a) ltac:(by left)) as H3. intros y [->|[->|Hy]%elem_of_cons]%elem_of_cons; [lia|lia|].
      apply H2. by right.
Qed.
Lemma zmin_spec l t : first_date l t -> zmin l = Ok t.
Proof.
  intros [Hin Hle]. destruct l as [|x l]; [by apply elem_of_nil in Hin|]. cbn. f_equal.
  destruct (fold_min_spec l x) as [H1 H2]. specialize (H2 _ Hin). specialize (Hle _ H1). lia.
Qed.
Lemma zmax_spec l t : last_date l t -> zmax l = Ok t.
Proof.
  intros [Hin Hle]. destruct l as [|x l]; [by apply elem_of_nil in Hin|]. cbn. f_equal.
  destruct (fold_max_spec l x) as [H1 H2]. specialize (H2 _ Hin). specialize (Hle _ H1). lia.
Qed.
Lemma first_date_exists l : l <> [] -> exists t, first_date l t.
Proof. destruct l as [|x l]; [done|]. intros _. exists (fold_left Z.min l x). apply fold_min_spec. Qed.
Lemma last_date_exists l : l <> [] -> exists t, last_date l t.
Proof. destruct l as [|x l]; [done|]. intros _. exists (fold_left Z.max l x). apply fold_max_spec. Qed.

Lemma where_cons p x l : where_ p (x :: l) = (if p x then [0] else []) ++ map S (where_ p l).
Proof.
  unfold where_. cbn [length seq List.filter]. change (nth 0 (x :: l) 0%Z) with x. rewrite <-seq_shift.
  assert (H : forall m, List.filter (fun i => p (nth i (x :: l) 0%Z)) (map S m) = map S (List.filter (fun i => p (nth i l 0%Z)) m)).
  { intros m. induction m as [|i m IH]; [done|]. cbn [map List.filter].
    change (nth (S i) (x :: l) 0%Z) with (nth i l 0%Z). destruct (p (nth i l 0%Z)); cbn [map]; by rewrite IH. }
  rewrite H. by destruct (p x).
Qed.
Lemma where_bound p l : Forall (fun i => i < length l) (where_ p l).
Proof. apply Forall_forall. intros i Hi. apply elem_of_list_In, filter_In in Hi as [Hi%in_seq _]. lia. Qed.
Lemma where_ext p q l : (forall x, p x = q x) -> where_ p l = where_ q l.
Proof. intros H. unfold where_. apply filter_ext. intros i. apply H. Qed.
Lemma pick_cons_S {A} (x : A) l ps : pick (map S ps) (x :: l) = pick ps l.
Proof. unfold pick. induction ps as [|p ps IH]; [done|]. cbn. by rewrite IH. Qed.
Lemma pick_where {A} (f : A -> Z) p l : pick (where_ p (map f l)) l = List.filter (fun a => p (f a)) l.
Proof.
  induction l as [|a l IH]; [done|]. cbn [map]. rewrite where_cons, pick_app, pick_cons_S, IH. cbn [List.filter].
  by destruct (p (f a)).
Qed.
(** On dates in order the records before a date are the first ones. *)
Lemma where_none p l : (forall x, x ∈ l -> p x = false) -> where_ p l = [].
Proof.
  induction l as [|x l IH]; intros H; [done|]. rewrite where_cons, (H x) by (by left). rewrite IH; [done|]. intros y Hy. apply H. by right.
Qed.
Lemma where_all p l : (forall x, x ∈ l -> p x = true) -> where_ p l = seq 0 (length l).
Proof.
  induction l as [|x l IH]; intros H; [done|]. rewrite where_cons, (H x) by (by left). rewrite IH by (intros y Hy; apply H; by right).
  cbn. by rewrite seq_shift.
Qed.
Lemma where_before t l : in_order l -> exists k, k <= length l /\ where_ (fun x => (x <? t)%Z) l = seq 0 k.
Proof.
  induction 1 as [|x l _ IH Hle]; [by exists 0|]. rewrite where_cons. destruct (Z.ltb_spec x t).
  - destruct IH as (k & Hk & ->). exists (S k). split; [cbn; lia|]. cbn. by rewrite seq_shift.
  - exists 0. split; [lia|]. rewrite where_none; [done|]. intros y Hy. rewrite Forall_forall in Hle. specialize (Hle y Hy).
    destruct (Z.ltb_spec y t); [lia|done].
Qed.
Lemma where_after t l : in_order l -> exists k, k <= length l /\ where_ (fun x => (t <? x)%Z) l = seq k (length l - k).
Proof.
  induction 1 as [|x l _ IH Hle]; [by exists 0|]. rewrite where_cons. destruct (Z.ltb_spec t x).
  - exists 0. split; [lia|]. rewrite where_all; [cbn; by rewrite seq_shift|]. intros y Hy. rewrite Forall_forall in Hle. specialize (Hle y Hy).
    destruct (Z.ltb_spec t y); [done|lia].
  - destruct IH as (k & Hk & ->). exists (S k). split; [cbn; lia|]. cbn. by rewrite seq_shift.
Qed.
Lemma where_nil p l : where_ p l = [] -> forall x, x ∈ l -> p x = false.
Proof.
  induction l as [|x l IH]; intros H y Hy; [by apply elem_of_nil in Hy|]. rewrite where_cons in H.
  destruct (p x) eqn:E; [done|]. cbn in H. apply elem_of_cons in Hy as [->|Hy]; [done|]. apply IH; [|done].
  by destruct (where_ p l).
Qed.
Lemma last_seq a n : last (seq a (S n)) = Some (a + n).
Proof. rewrite seq_S. apply last_snoc. Qed.
Lemma filter_all {A} (f : A -> bool) l : (forall x, x ∈ l -> f x = true) -> List.filter f l = l.
Proof. induction l as [|x l IH]; intros H; [done|]. cbn. rewrite (H x) by (by left). f_equal. apply IH. intros y Hy. apply H. by right. Qed.
Lemma filter_nil {A} (f : A -> bool) l : (forall x, x ∈ l -> f x = false) -> List.filter f l = [].
Proof. induction l as [|x l IH]; intros H; [done|]. cbn. rewrite (H x) by (by left). apply IH. intros y Hy. apply H. by right. Qed.

(** ** One merge *)
Section one.
  Context (dim axis : str) (sources : list dataset) (tss : list (list Z)) (r : resolution).
  Context (Hne : sources <> []) (Hps : forall s, s ∈ sources -> proper s)
    (Hser : Forall2 (series dim axis) sources tss).
  Let date := date_of tss.

  (** The date after which the records of the stored dataset are kept. *)
  Definition cutoff (hi emin : Z) : Z := if (hi <? emin)%Z then hi else (hi + 1)%Z.

  Lemma merge_one cur new p1 p2 lo hi emin emax :
    assembled dim sources p1 cur -> assembled dim sources p2 new ->
    in_order (map date p1) ->
    first_date (map date p1) emin -> last_date (map date p1) emax ->
    first_date (map date p2) lo -> last_date (map date p2) hi ->
    if (emin <? lo)%Z && (hi <? emax)%Z && (emax <=? hi + 1)%Z
    then merge_time_series_ r cur new axis dim = Raise IndexError
    else exists out, merge_time_series_ r cur new axis dim = Ok out /\
      assembled dim sources (before tss lo p1 ++ p2 ++ after tss (cutoff hi emin) p1) out.
  Proof.
    intros H1 H2 Hord Hemin Hemax Hlo Hhi.
    pose proof (assembled_series _ _ _ _ _ _ Hne Hps Hser H1) as S1.
    pose proof (assembled_series _ _ _ _ _ _ Hne Hps Hser H2) as S2.
    destruct (series_size _ _ _ _ (as_proper _ _ _ _ H1) S1) as [Hn1 Hu1].
    unfold merge_time_series_.
    rewrite (series_axis_values _ _ _ _ S1), (series_axis_values _ _ _ _ S2). cbn [rbind].
    fold date in S1, S2, Hn1 |- *.
    rewrite (zmin_spec _ _ Hemin), (zmax_spec _ _ Hemax), (zmin_spec _ _ Hlo), (zmax_spec _ _ Hhi). cbn [rbind].
    assert (Hee : (emin <= emax)%Z) by (apply Hemax, Hemin).
    assert (Hll : (lo <= hi)%Z) by (apply Hhi, Hlo).
    pose proof (Period_closed r lo hi) as Pi. pose proof (Period_closed r emin emax) as Pe.
    set (pi := Period (instant r lo) (instant r hi) true) in *. set (pe := Period (instant r emin) (instant r emax) true) in *.
    destruct (get_relation_picture r pi pe lo hi emin emax Pi Pe Hll Hee) as (rel & -> & Hpic). cbn [rbind].
    pose proof (intersection_spans r pi pe lo hi emin emax Pi Pe) as Pint.
    rewrite (end_instant _ _ _ _ Pint). destruct Pint as (-> & _ & _). cbn [tick instant].
    set (later := where_ _ (map date p1)).
    assert (Hlater : later = where_ (fun t => (Z.min hi emax + 1 <? t)%Z) (map date p1)).
    { subst later. apply where_ext. intros t. apply u_ltb. }
    clearbody later. set (earlier := where_ _ (map date p1)).
    assert (Hearlier : earlier = where_ (fun t => (t <? Z.max lo emin)%Z) (map date p1)).
    { subst earlier. apply where_ext. intros t. apply u_ltb. }
    clearbody earlier.
    assert (Hd1 : forall o, o ∈ p1 -> (emin <= date o <= emax)%Z).
    { intros o Ho. assert (date o ∈ map date p1) by (apply elem_of_list_In, in_map; by apply elem_of_list_In).
      split; [by apply Hemin|by apply Hemax]. }
    assert (Cat : forall a b pa pb, assembled dim sources pa a -> assembled dim sources pb b ->
      exists out, ds_concat a [b] dim = Ok out /\ assembled dim sources (pa ++ pb) out).
    { intros a b pa pb Ha Hb. destruct (assembled_concat dim sources pa a [b] [pb]) as (out & E & Ho & _); try done.
      - constructor; [done|constructor].
      - exists out. split; [done|]. cbn in Ho. by rewrite app_nil_r in Ho. }
    assert (Bef : forall t, (t <= emin)%Z -> before tss t p1 = []).
    { intros t Ht. apply filter_nil. intros o Ho. apply Hd1 in Ho. unfold date in Ho. apply Z.ltb_ge. lia. }
    assert (Befa : forall t, (emax < t)%Z -> before tss t p1 = p1).
    { intros t Ht. apply filter_all. intros o Ho. apply Hd1 in Ho. unfold date in Ho. apply Z.ltb_lt. lia. }
    assert (Aft : forall t, (emax <= t)%Z -> after tss t p1 = []).
    { intros t Ht. apply filter_nil. intros o Ho. apply Hd1 in Ho. unfold date in Ho. apply Z.ltb_ge. lia. }
    assert (Afta : forall t, (t < emin)%Z -> after tss t p1 = p1).
    { intros t Ht. apply filter_all. intros o Ho. apply Hd1 in Ho. unfold date in Ho. apply Z.ltb_lt. lia. }
    assert (Tail : (emin <= hi <= emax)%Z -> pick later p1 = after tss (cutoff hi emin) p1).
    { intros Hh. rewrite Hlater. rewrite Z.min_l by lia. unfold cutoff. destruct (Z.ltb_spec hi emin); [lia|].
      apply (pick_where date). }
    assert (Head : (emin <= lo)%Z -> pick earlier p1 = before tss lo p1).
    { intros Hh. rewrite Hearlier. rewrite Z.max_l by lia. apply (pick_where date). }
    assert (Sel : forall ps, Forall (fun j => j < length (map date p1)) ps ->
       exists out, ds_isel cur [(dim, IList (map Z.of_nat ps))] = Ok out /\ assembled dim sources (pick ps p1) out).
    { intros ps Hps'. destruct (assembled_isel dim sources p1 cur _ (IList (map Z.of_nat ps)) ps H1 Hn1) as (out & E & Ho & _); [by apply positions_list|].
      eauto. }
    assert (Before : (hi < emin)%Z -> exists out, ds_concat new [cur] dim = Ok out /\
      assembled dim sources (before tss lo p1 ++ p2 ++ after tss (cutoff hi emin) p1) out).
    { intros Hb. destruct (Cat new cur p2 p1 H2 H1) as (out & E & Ho). exists out. split; [done|].
      unfold cutoff. rewrite (proj2 (Z.ltb_lt hi emin)) by lia. rewrite Bef, Afta by lia. done. }
    assert (Contains : (lo <= emin)%Z -> (emax <= hi)%Z ->
      assembled dim sources (before tss lo p1 ++ p2 ++ after tss (cutoff hi emin) p1) new).
    { intros Hb Ha. rewrite Bef by lia. rewrite Aft by (unfold cutoff; destruct (hi <? emin)%Z; lia). cbn. by rewrite app_nil_r. }
    assert (BeforeOver : (lo <= emin)%Z -> (emin <= hi <= emax)%Z ->
      exists out, (do tail <- ds_isel cur [(dim, IList (map Z.of_nat later))]; ds_concat new [tail] dim) = Ok out /\
      assembled dim sources (before tss lo p1 ++ p2 ++ after tss (cutoff hi emin) p1) out).
    { intros Hb Hh. destruct (Sel later) as (tl & E & Ht); [rewrite Hlater; apply where_bound|]. rewrite E. cbn [rbind].
      destruct (Cat new tl _ _ H2 Ht) as (out & E' & Ho). exists out. split; [done|]. rewrite Bef by lia. cbn. by rewrite <-Tail. }
    assert (AfterOver : (emin <= lo)%Z -> (emax <= hi)%Z ->
      exists out, (do head <- ds_isel cur [(dim, IList (map Z.of_nat earlier))]; ds_concat head [new] dim) = Ok out /\
      assembled dim sources (before tss lo p1 ++ p2 ++ after tss (cutoff hi emin) p1) out).
    { intros Hb Hh. destruct (Sel earlier) as (hd & E & Ht); [rewrite Hearlier; apply where_bound|]. rewrite E. cbn [rbind].
      destruct (Cat hd new _ _ Ht H2) as (out & E' & Ho). exists out. split; [done|]. 
      rewrite Aft by (unfold cutoff; destruct (hi <? emin)%Z; lia). rewrite app_nil_r. by rewrite <-Head. }
    destruct rel; cbn [rel_is_before rel_is_after rel_contains rel_is_before_overlapping rel_is_after_overlapping rel_is_inside negb]; cbn in Hpic;
      lazymatch goal with
      | |- context [last_of earlier] => idtac
      | _ => destruct ((emin <? lo)%Z && (hi <? emax)%Z && (emax <=? hi + 1)%Z) eqn:Ebad;
          [exfalso; apply andb_true_iff in Ebad as [[Eb1%Z.ltb_lt Eb2%Z.ltb_lt]%andb_true_iff Eb3%Z.leb_le]; lia|clear Ebad]
      end.
    - (* AFTER *)
      destruct (Cat cur new p1 p2 H1 H2) as (out & E & Ho). exists out. split; [done|].
      rewrite Befa by lia. rewrite Aft by (unfold cutoff; destruct (hi <? emin)%Z; lia). by rewrite app_nil_r.
    - apply AfterOver; lia.
    - apply AfterOver; lia.
    - apply BeforeOver; lia.
    - exists new. split; [done|]. apply Contains; lia.
    - exists new. split; [done|]. apply Contains; lia.
    - exists new. split; [done|]. apply Contains; lia.
    - exists new. split; [done|]. apply Contains; lia.
    - (* INSIDE *)
      rewrite Z.max_l in Hearlier by lia. rewrite Z.min_l in Hlater by lia.
      destruct (where_before lo _ Hord) as (k & Hk & Ek). destruct (where_after (hi + 1) _ Hord) as (m & Hm & Em).
      assert (Hk0 : k <> 0).
      { intros ->. cbn in Ek. pose proof (where_nil _ _ Ek emin (proj1 Hemin)) as Hx. cbn in Hx. apply Z.ltb_ge in Hx. lia. }
      destruct k as [|k]; [done|].
      assert (El : last_of earlier = Ok (Z.of_nat k)) by (rewrite Hearlier, Ek; unfold last_of; by rewrite last_seq).
      rewrite El. cbn [rbind].
      destruct (assembled_isel dim sources p1 cur _ (ISlice (Some 0%Z) (Some (Z.of_nat k + 1)%Z)) (seq 0 (S k)) H1 Hn1) as (bf & Ebf & Hbf & _).
      { etransitivity; [|apply (positions_slice (length (map date p1)) 0 (S k)); lia]. do 2 f_equal. f_equal. lia. }
      rewrite Ebf. cbn [rbind].
      rewrite (proj2 (Z.ltb_lt emin lo)), (proj2 (Z.ltb_lt hi emax)) by lia. cbn [andb].
      destruct (Z.leb_spec emax (hi + 1)).
      + (* nothing left after the inserted records *)
        rewrite Hlater, where_none; [done|]. intros x Hx. apply Z.ltb_ge. apply Hemax in Hx. lia.
      + destruct (length (map date p1) - m) as [|q] eqn:Eq.
        { exfalso. cbn in Em. pose proof (where_nil _ _ Em emax (proj1 Hemax)) as Hx. cbn in Hx. apply Z.ltb_ge in Hx. lia. }
        assert (Ef : first_of later = Ok (Z.of_nat m)) by (rewrite Hlater, Em; done).
        assert (El' : last_of later = Ok (Z.of_nat (m + q))) by (rewrite Hlater, Em; unfold last_of; by rewrite last_seq).
        rewrite Ef, El'. cbn [rbind].
        destruct (assembled_isel dim sources p1 cur _ (ISlice (Some (Z.of_nat m)) (Some (Z.of_nat (m + q) + 1)%Z)) (seq m (S q)) H1 Hn1) as (af & Eaf & Haf & _).
        { etransitivity; [|etransitivity; [apply (positions_slice (length (map date p1)) m (m + S q)); lia|]].
          - do 2 f_equal. f_equal. lia.
          - do 2 f_equal. lia. }
        rewrite Eaf. cbn [rbind].
        destruct (assembled_concat dim sources (pick (seq 0 (S k)) p1) bf [new; af] [p2; pick (seq m (S q)) p1]) as (out & E & Ho & _); try done.
        { constructor; [done|]. constructor; [done|constructor]. }
        exists out. split; [done|]. change (mjoin [p2; pick (seq m (S q)) p1]) with (p2 ++ pick (seq m (S q)) p1 ++ []) in Ho. rewrite app_nil_r in Ho.
        rewrite <-Head, <-Tail by lia. rewrite Hearlier, Ek, Hlater, Em. done.
    - apply AfterOver; lia.
    - apply BeforeOver; lia.
    - apply BeforeOver; lia.
    - apply Before; lia.
  Qed.
End one.
