(** * Merging the same time series twice (C89) *)
From Verif Require Import Py Dict NdArray_Model NdArray_Spec NdArray_Proofs.
From Verif Require Import Dataset_Model Dataset_Spec Dataset_Proofs Dataset_Concat Dataset_Main Dataset_Props.
From Verif Require Import Assemble_Spec Assemble_Proofs Period_Model Period_Spec TimeSeries_Model TimeSeries_Spec TimeSeries_Proofs TimeSeries_Main TimeSeries_Props.

(** Two datasets have the same variables, with the same records along [dim]. *)
Definition same_records (dim : str) (a b : dataset) : Prop :=
  alike dim a b /\
  forall name v w, dget (d_vars a) name = Some v -> dget (d_vars b) name = Some w -> records w dim = records v dim.

(** ** Two orderings of the same records, by dates, are the same *)
Lemma order_unique (tss : list (list Z)) : forall p q,
  in_order (map (date_of tss) p) -> in_order (map (date_of tss) q) ->
  (forall o, o ∈ p -> o.1 < 2) -> (forall o, o ∈ q -> o.1 < 2) ->
  from_source 0 p = from_source 0 q -> from_source 1 p = from_source 1 q ->
  (forall a b, a ∈ from_source 0 p -> b ∈ from_source 1 p -> date_of tss a <> date_of tss b) -> p = q.
Proof.
  assert (Hmem : forall k o (l : list origin), o ∈ from_source k l <-> o ∈ l /\ o.1 = k).
  { intros k o l. unfold from_source. rewrite !elem_of_list_In, filter_In, Nat.eqb_eq. done. }
  induction p as [|a p IH]; intros q Hp Hq H2p H2q E0 E1 Hd.
  { destruct q as [|b q]; [done|]. exfalso. assert (Hb : b.1 < 2) by (apply H2q; by left).
    destruct b as [[|[|k]] i]; cbn in *; [done|done|lia]. }
  destruct q as [|b q].
  { exfalso. assert (Ha : a.1 < 2) by (apply H2p; by left). destruct a as [[|[|k]] i]; cbn in *; [done|done|lia]. }
  assert (Hle : forall x (l : list origin) y, in_order (map (date_of tss) (x :: l)) -> y ∈ l -> (date_of tss x <= date_of tss y)%Z).
  { intros x l y H Hy. cbn in H. inversion H as [|? ? _ Hf]; subst. rewrite Forall_forall in Hf. apply Hf.
    apply (elem_of_list_fmap_1 (date_of tss)). done. }
  assert (Ha : a.1 < 2) by (apply H2p; by left). assert (Hb : b.1 < 2) by (apply H2q; by left).
  assert (Hcross : a.1 = b.1).
  { destruct (Nat.eq_dec a.1 b.1) as [|Hne]; [done|exfalso].
    assert (Ein : forall k, from_source k (a :: p) = from_source k (b :: q)).
    { intros [|[|k]]; [done|done|]. unfold from_source.
      rewrite !filter_nil; [done| |]; intros o Ho; apply Nat.eqb_neq; [specialize (H2q o Ho)|specialize (H2p o Ho)]; lia. }
    assert (Hbp : b ∈ p).
    { assert (b ∈ from_source b.1 (a :: p)) as H by (rewrite Ein; apply Hmem; split; [by left|done]).
      apply Hmem in H as [H _]. apply elem_of_cons in H as [->|]; done. }
    assert (Haq : a ∈ q).
    { assert (a ∈ from_source a.1 (b :: q)) as H by (rewrite <-Ein; apply Hmem; split; [by left|done]).
      apply Hmem in H as [H _]. apply elem_of_cons in H as [->|]; done. }
    pose proof (Hle _ _ _ Hp Hbp). pose proof (Hle _ _ _ Hq Haq).
    assert (date_of tss a = date_of tss b) as Ed by lia.
    assert (a ∈ a :: p) by (by left). assert (b ∈ a :: p) by (by right).
    destruct (Nat.eq_dec a.1 0) as [Ea|Ea].
    - apply (Hd a b); [by apply Hmem|apply Hmem; split; [done|lia]|done].
    - apply (Hd b a); [apply Hmem; split; [done|lia]|apply Hmem; split; [done|lia]|done]. }
  assert (a = b /\ from_source 0 p = from_source 0 q /\ from_source 1 p = from_source 1 q) as (-> & F0 & F1).
  { destruct a as [[|[|k]] i], b as [[|[|k']] j]; cbn in *; try lia; unfold from_source in *; cbn in *.
    - injection E0 as Ei Er. subst j. split_and!; done.
    - injection E1 as Ei Er. subst j. split_and!; done. }
  f_equal. cbn in Hp, Hq. inversion Hp; inversion Hq; subst. apply IH; try done.
  - intros o Ho. apply H2p. by right.
  - intros o Ho. apply H2q. by right.
  - intros x y Hx Hy. apply Hmem in Hx as [Hx Hx1]. apply Hmem in Hy as [Hy Hy1]. apply Hd; apply Hmem; (split; [by right|done]).
Qed.

Lemma record_at_unique dim sources name o r r' : record_at dim sources name o r -> record_at dim sources name o r' -> r = r'.
Proof. intros (s & v & rs & H1 & H2 & H3 & H4) (s' & v' & rs' & G1 & G2 & G3 & G4). congruence. Qed.
Lemma records_of_plan dim sources name plan : forall rs rs',
  Forall2 (record_at dim sources name) plan rs -> Forall2 (record_at dim sources name) plan rs' -> rs' = rs.
Proof.
  induction plan as [|o plan IH]; intros rs rs' H H'; inversion H; inversion H'; subst; [done|]. f_equal; [by eapply record_at_unique|by apply IH].
Qed.

Lemma filter_map_comm {A B} (f : A -> B) (p : B -> bool) l : List.filter p (map f l) = map f (List.filter (fun a => p (f a)) l).
Proof. induction l as [|x l IH]; [done|]. cbn. destruct (p (f x)); cbn; by rewrite IH. Qed.
Lemma map_nth_seq {A} (l : list A) d : map (fun i => nth i l d) (seq 0 (length l)) = l.
Proof.
  induction l as [|x l IH]; [done|]. cbn. f_equal. rewrite <-seq_shift, map_map. exact IH.
Qed.

(** ** Merging what is already merged *)
Lemma Forall2_impl_in {A B} (P Q : A -> B -> Prop) l l' : Forall2 P l l' -> (forall x y, x ∈ l -> P x y -> Q x y) -> Forall2 Q l l'.
Proof.
  induction 1 as [|x y l l' H _ IH]; intros HQ; constructor; [apply HQ; [by left|done]|]. apply IH. intros a b Hin. apply HQ. by right.
Qed.

Section twice.
  Context (dim axis : str) (ex ins out out' : dataset) (te ti : list Z) (keep keep' : Z -> bool) (plan : list origin).
  Context (Hm : mergeable dim axis ex ins te ti).
  Context (Ha : assembled dim [ex; ins] plan out).
  Context (Ho : in_order (map (date_of [te; ti]) plan)).
  Context (H0 : from_source 0 plan = List.filter (fun o => keep (date_of [te; ti] o)) (all_of 0 (length te))).
  Context (H1 : from_source 1 plan = all_of 1 (length ti)).
  Context (Hti : forall x, x ∈ ti -> keep x = false /\ keep' x = false).
  Context (Hte : forall x, x ∈ te -> keep x = true -> keep' x = true).
  Let to := map (date_of [te; ti]) plan.

  Lemma plan_sources o : o ∈ plan -> o.1 < 2.
  Proof using Hm Ha.
    intros Hin. destruct (merged_series dim axis ex ins te ti Hm plan out Ha) as (v & Hv & Hd & _).
    assert (Hr : records v dim = Some (rows 0 (v_array v))) by (unfold records; rewrite Hd; cbn; by rewrite decide_True).
    apply elem_of_list_lookup in Hin as [k Hk].
    destruct (Forall2_lookup_l _ _ _ _ _ (as_records _ _ _ _ Ha _ _ _ Hv Hr) Hk) as (x & _ & (s & _ & _ & Hs & _)).
    apply lookup_lt_Some in Hs. cbn in Hs. lia.
  Qed.
  Lemma plan_stored o : o ∈ plan -> o.1 = 0 -> date_of [te; ti] o ∈ te /\ keep (date_of [te; ti] o) = true.
  Proof using H0.
    intros Hin E. assert (o ∈ from_source 0 plan) as H by (apply elem_of_list_In, filter_In; split; [by apply elem_of_list_In|by apply Nat.eqb_eq]).
    rewrite H0 in H. apply elem_of_list_In, filter_In in H as [H Hk]. split; [|done].
    apply in_map_iff in H as (i & <- & Hi%in_seq). unfold date_of. cbn. apply elem_of_list_In, nth_In. lia.
  Qed.
  Lemma plan_inserted o : o ∈ plan -> o.1 = 1 -> date_of [te; ti] o ∈ ti.
  Proof using H1.
    intros Hin E. assert (o ∈ from_source 1 plan) as H by (apply elem_of_list_In, filter_In; split; [by apply elem_of_list_In|by apply Nat.eqb_eq]).
    rewrite H1 in H. apply elem_of_list_In, in_map_iff in H as (i & <- & Hi%in_seq). unfold date_of. cbn. apply elem_of_list_In, nth_In. lia.
  Qed.
  Lemma merged_again : mergeable dim axis out ins to ti.
  Proof using Hm Ha.
    destruct Hm as (P1 & N1 & P2 & N2 & Al & S1 & S2). split_and!; try done.
    - apply Ha.
    - apply Ha.
    - apply alike_sym. apply (as_alike _ _ _ _ Ha). right. by left.
    - exact (merged_series dim axis ex ins te ti Hm plan out Ha).
  Qed.

  Lemma merged_twice : merged dim axis out ins to ti keep' out' -> same_records dim out out'.
  Proof using All.
    intros (plan' & A' & S' & O' & F0 & F1).
    pose (sigma := fun o : origin => if o.1 =? 0 then nth o.2 plan (0, 0) else o).
    assert (Hsrc' : forall o, o ∈ plan' -> o.1 = 0 /\ o.2 < length plan /\ keep' (date_of [te; ti] (sigma o)) = true \/ o.1 = 1).
    { intros o Hin. destruct (merged_again) as (_ & _ & _ & _ & _ & Sout & _).
      destruct S' as (v & Hv & Hd & _).
      assert (Hr : records v dim = Some (rows 0 (v_array v))) by (unfold records; rewrite Hd; cbn; by rewrite decide_True).
      pose proof Hin as Hin'. apply elem_of_list_lookup in Hin' as [k Hk].
      destruct (Forall2_lookup_l _ _ _ _ _ (as_records _ _ _ _ A' _ _ _ Hv Hr) Hk) as (x & _ & (s & _ & _ & Hs & _)).
      assert (o.1 < 2) by (apply lookup_lt_Some in Hs; cbn in Hs; lia).
      destruct (Nat.eq_dec o.1 0) as [E|E]; [left|right; lia]. split; [done|].
      assert (o ∈ from_source 0 plan') as H2 by (apply elem_of_list_In, filter_In; split; [by apply elem_of_list_In|by apply Nat.eqb_eq]).
      rewrite F0 in H2. apply elem_of_list_In, filter_In in H2 as [H2 Hk2].
      apply in_map_iff in H2 as (i & <- & Hi%in_seq). unfold to in Hi. rewrite map_length in Hi. split; [cbn; lia|].
      unfold sigma. cbn [fst snd Nat.eqb]. unfold date_of at 1 in Hk2. cbn [fst snd nth] in Hk2. unfold to in Hk2.
      erewrite nth_indep in Hk2; [rewrite (map_nth (date_of [te; ti]) plan (0, 0)) in Hk2; exact Hk2|]. rewrite map_length. lia. }
    assert (Hdate : forall o, o ∈ plan' -> date_of [te; ti] (sigma o) = date_of [to; ti] o).
    { intros o Hin. destruct (Hsrc' o Hin) as [(E & Hl & _)|E]; unfold sigma; rewrite E; cbn [Nat.eqb].
      - unfold date_of at 2. rewrite E. cbn [nth]. unfold to. symmetry.
        erewrite nth_indep; [apply (map_nth (date_of [te; ti]))|]. by rewrite map_length.
      - unfold date_of. rewrite E. done. }
    assert (Hsig0 : forall o, o ∈ plan' -> o.1 = 0 -> (sigma o).1 = 0 /\ sigma o ∈ plan).
    { intros o Hin E. destruct (Hsrc' o Hin) as [(_ & Hl & Hk)|E']; [|lia].
      assert (Hp : sigma o ∈ plan) by (unfold sigma; rewrite E; cbn [Nat.eqb]; apply elem_of_list_In, nth_In; done).
      split; [|done]. pose proof (plan_sources _ Hp). destruct (Nat.eq_dec (sigma o).1 0) as [|Hne]; [done|exfalso].
      pose proof (plan_inserted _ Hp ltac:(lia)) as Hx. apply Hti in Hx as [_ Hx]. congruence. }
    assert (Hsame : forall o, o ∈ plan' -> (sigma o).1 = o.1).
    { intros o Hin. destruct (Hsrc' o Hin) as [(E & _)|E]; [rewrite E; by apply Hsig0|]. unfold sigma. by rewrite E. }
    assert (Hfs : forall k, from_source k (map sigma plan') = map sigma (from_source k plan')).
    { intros k. unfold from_source. rewrite filter_map_comm. f_equal. apply List.filter_ext_in. intros o Hin. f_equal. apply Hsame. by apply elem_of_list_In. }
    assert (Eplan : map sigma plan' = plan).
    { apply (order_unique [te; ti]).
      - rewrite map_map. erewrite map_ext_in; [exact O'|]. intros o Hin. apply Hdate. by apply elem_of_list_In.
      - exact Ho.
      - intros o Hin. apply elem_of_list_In, in_map_iff in Hin as (o' & <- & Hin). apply elem_of_list_In in Hin. rewrite Hsame by done. destruct (Hsrc' o' Hin) as [(E & _)|E]; lia.
      - apply plan_sources.
      - rewrite Hfs, F0. unfold all_of, to. rewrite map_length.
        rewrite filter_map_comm, map_map. unfold sigma. cbn [fst snd Nat.eqb].
        assert (Ef : List.filter (fun i => keep' (date_of [map (date_of [te; ti]) plan; ti] (0, i))) (seq 0 (length plan)) =
                     List.filter (fun i => (nth i plan (0, 0)).1 =? 0) (seq 0 (length plan))).
        { apply List.filter_ext_in. intros i Hi%in_seq.
          assert (Hp : nth i plan (0, 0) ∈ plan) by (apply elem_of_list_In, nth_In; lia).
          assert (Ed : date_of [map (date_of [te; ti]) plan; ti] (0, i) = date_of [te; ti] (nth i plan (0, 0))).
          { unfold date_of at 1. cbn [fst snd nth]. erewrite nth_indep; [apply (map_nth (date_of [te; ti]))|]. rewrite map_length. lia. }
          rewrite Ed. pose proof (plan_sources _ Hp). destruct (Nat.eq_dec (nth i plan (0, 0)).1 0) as [E|E].
          - rewrite E. cbn. destruct (plan_stored _ Hp E) as [T K]. by apply Hte.
          - rewrite (proj2 (Nat.eqb_neq _ _)) by done. apply Hti. apply plan_inserted; [done|lia]. }
        rewrite Ef. rewrite <-(filter_map_comm (fun i => nth i plan (0, 0)) (fun o => o.1 =? 0)). rewrite map_nth_seq. done.
      - rewrite Hfs, F1, H1. unfold all_of. rewrite map_map. done.
      - intros a b Ha' Hb'. rewrite Hfs in Ha', Hb'. 
        apply elem_of_list_In, in_map_iff in Ha' as (x & <- & Hx). apply elem_of_list_In in Hx. apply elem_of_list_In, filter_In in Hx as [Hx Ex].
        apply elem_of_list_In, in_map_iff in Hb' as (y & <- & Hy). apply elem_of_list_In in Hy. apply elem_of_list_In, filter_In in Hy as [Hy Ey].
        apply elem_of_list_In in Hx, Hy. apply Nat.eqb_eq in Ex, Ey.
        destruct (Hsig0 x Hx Ex) as [G1 G2]. destruct (plan_stored _ G2 G1) as [_ K].
        assert (Hyd : date_of [te; ti] (sigma y) ∈ ti).
        { unfold sigma. rewrite Ey. cbn [Nat.eqb].
          assert (y ∈ from_source 1 plan') as H by (apply elem_of_list_In, filter_In; split; [by apply elem_of_list_In|by apply Nat.eqb_eq]).
          rewrite F1 in H. apply elem_of_list_In, in_map_iff in H as (i & <- & Hi%in_seq). unfold date_of. cbn. apply elem_of_list_In, nth_In. lia. }
        intros E. rewrite E in K. apply Hti in Hyd as [Hyd _]. congruence. }
    split; [apply (as_alike _ _ _ _ A'); by left|].
    intros name v w Hv Hw.
    destruct (as_alike _ _ _ _ A' out ltac:(by left)) as (_ & _ & Hdims). destruct (Hdims _ _ _ Hv Hw) as (Ed & _).
    destruct (records v dim) as [rs|] eqn:Er; cycle 1.
    { unfold records in *. rewrite Ed. destruct (list_find _ _) as [[? ?]|]; done. }
    destruct (records w dim) as [rs'|] eqn:Er'; cycle 1.
    { exfalso. unfold records in *. rewrite Ed in Er'. destruct (list_find _ _) as [[? ?]|]; done. }
    f_equal. pose proof (as_records _ _ _ _ Ha _ _ _ Hv Er) as R1. pose proof (as_records _ _ _ _ A' _ _ _ Hw Er') as R2.
    apply (records_of_plan dim [ex; ins] name plan); [done|]. rewrite <-Eplan. apply Forall2_fmap_l.
    eapply (Forall2_impl_in _ _ _ _ R2). intros o r Hin (s & u & us & G1 & G2 & G3 & G4).
    change (record_at dim [ex; ins] name (sigma o) r).
    destruct (Hsrc' o Hin) as [(E & Hl & _)|E].
    - rewrite E in G1. cbn in G1. injection G1 as <-. assert (u = v) as -> by congruence. rewrite Er in G3. injection G3 as <-.
      destruct (Forall2_lookup_r _ _ _ _ _ R1 G4) as (o' & Ho' & Hrec). assert (sigma o = o') as ->; [|done]. unfold sigma. rewrite E. cbn [Nat.eqb].
      by rewrite (nth_lookup plan), Ho'.
    - assert (sigma o = o) as -> by (unfold sigma; by rewrite E). exists s, u, us. split; [|done]. destruct o as [k0 i0]. cbn in E, G1 |- *. subst k0. exact G1.
  Qed.
End twice.

(** ** Properties *)

(** Merging the same series again, when the first merge succeeded and no stored
    record is dated one unit after the last inserted one: the second merge
    succeeds and changes no record. Missing: that case (see the refutation). *)
Theorem C89_twice_partial dim axis r ex ins te ti hi out : mergeable dim axis ex ins te ti -> in_order te -> in_order ti ->
  te <> [] -> ti <> [] -> last_date ti hi -> (hi + 1)%Z ∉ te ->
  merge_time_series r ex ins axis dim None = Ok out ->
  exists out', merge_time_series r out ins axis dim None = Ok out' /\ same_records dim out out'.
Proof.
  intros Hm Hte Hti Ne Ni Hhi Hno E. destruct (first_date_exists ti Ni) as [lo Hlo].
  assert (Hlh : (lo <= hi)%Z) by (apply Hhi, Hlo).
  destruct (C11_kept_partial dim axis r ex ins te ti lo hi Hm Hte Hti Ne Ni Hlo Hhi Hno) as (out1 & E1 & plan & A & S & O & F0 & F1).
  rewrite E in E1. injection E1 as <-.
  set (to := map (date_of [te; ti]) plan) in *.
  assert (Hin : forall x, x ∈ ti -> ((x <? lo) || (hi <? x))%Z = false).
  { intros x Hx. apply orb_false_iff. rewrite !Z.ltb_ge. split; [by apply Hlo|by apply Hhi]. }
  assert (Hto : forall x, x ∈ to -> x ∈ te \/ x ∈ ti).
  { intros x Hx. apply elem_of_list_In, in_map_iff in Hx as (o & <- & Ho). apply elem_of_list_In in Ho.
    pose proof (plan_sources dim axis ex ins out te ti plan Hm A o Ho).
    destruct (Nat.eq_dec o.1 0) as [E0|E0].
    - left. apply (plan_stored te ti (fun x => ((x <? lo) || (hi <? x))%Z) plan F0 o Ho E0).
    - right. eapply plan_inserted; [exact F1|done|lia]. }
  assert (Hno' : (hi + 1)%Z ∉ to).
  { intros [Hx|Hx]%Hto; [done|]. apply Hhi in Hx. lia. }
  assert (Nto : to <> []).
  { intros E0. assert (length (from_source 1 plan) = length ti) as L by (rewrite F1; unfold all_of; by rewrite map_length, seq_length).
    unfold to in E0. apply map_eq_nil in E0. subst plan. destruct ti; done. }
  destruct (C11_kept_partial dim axis r out ins to ti lo hi (merged_again dim axis ex ins out te ti plan Hm A) O Hti Nto Ni Hlo Hhi Hno') as (out' & E' & M').
  exists out'. split; [done|].
  eapply (merged_twice dim axis ex ins out out' te ti (fun x => ((x <? lo) || (hi <? x))%Z) (fun x => ((x <? lo) || (hi <? x))%Z) plan Hm A O F0 F1); [| |exact M'].
  - intros x Hx. split; by apply Hin.
  - by intros x _ K.
Qed.
Print Assumptions C89_twice_partial.

(** The same with a tolerance of at least one unit, when no stored record is
    dated one unit after the end of a run of the inserted dates. *)
Theorem C89_tolerance_partial dim axis r ex ins te ti t rs out : mergeable dim axis ex ins te ti -> in_order te -> in_order ti ->
  te <> [] -> ti <> [] -> (1 <= t)%Z -> runs t ti rs ->
  (forall a b, (a, b) ∈ rs -> (nth (b - 1) ti 0 + 1)%Z ∉ te) ->
  merge_time_series r ex ins axis dim (Some t) = Ok out ->
  exists out', merge_time_series r out ins axis dim (Some t) = Ok out' /\ same_records dim out out'.
Proof.
  intros Hm Hte Hti Ne Ni Ht Hruns Hno E.
  destruct (C13_gaps dim axis r ex ins te ti t rs Hm Hte Hti Ne Ni ltac:(lia) Hruns Hno) as (out1 & keep & E1 & (plan & A & Sr & O & F0 & F1) & K).
  rewrite E in E1. injection E1 as <-.
  set (to := map (date_of [te; ti]) plan) in *.
  assert (Hcover : forall i, i < length ti -> exists a b, (a, b) ∈ rs /\ a <= i < b).
  { intros i Hi. destruct Hruns as (T & _). assert (i ∈ mjoin (map (fun ab => seq ab.1 (ab.2 - ab.1)) rs)) as Hin by (rewrite T; apply elem_of_list_In, in_seq; lia).
    apply elem_of_list_join in Hin as (l & Hl & Hin). change (l ∈ (fun ab => seq ab.1 (ab.2 - ab.1)) <$> rs) in Hin || idtac.
    apply elem_of_list_In, in_map_iff in Hin as ([a b] & <- & Hab). apply elem_of_list_In, in_seq in Hl. cbn in Hl.
    exists a, b. split; [by apply elem_of_list_In|lia]. }
  assert (Hbound : forall a b, (a, b) ∈ rs -> b <= length ti /\ a < b).
  { intros a b Hab. destruct Hruns as (T & L & _). rewrite Forall_forall in L. specialize (L _ Hab). cbn in L. split; [|done].
    assert (b - 1 ∈ mjoin (map (fun ab => seq ab.1 (ab.2 - ab.1)) rs)) as Hin.
    { apply elem_of_list_join. exists (seq a (b - a)). split; [apply elem_of_list_In, in_seq; lia|].
      apply elem_of_list_In, in_map_iff. exists (a, b). split; [done|by apply elem_of_list_In]. }
    rewrite T in Hin. apply elem_of_list_In, in_seq in Hin. lia. }
  assert (Hin : forall x, x ∈ ti -> in_runs ti rs x).
  { intros x Hx. apply elem_of_list_In, (In_nth _ _ 0%Z) in Hx as (i & Hi & <-). destruct (Hcover i Hi) as (a & b & Hab & Hi').
    destruct (Hbound _ _ Hab). exists a, b. split; [done|]. split; apply in_order_nth; try done; lia. }
  assert (Hend : forall a b, (a, b) ∈ rs -> (nth (b - 1) ti 0 + 1)%Z ∉ ti).
  { intros a b Hab Hx. destruct (Hbound _ _ Hab) as [Hb Hlt]. apply elem_of_list_In, (In_nth _ _ 0%Z) in Hx as (i & Hi & Ei).
    destruct (decide (i <= b - 1)) as [Hle|Hgt].
    - pose proof (in_order_nth ti i (b - 1) Hti Hle ltac:(lia)). lia.
    - destruct Hruns as (_ & _ & _ & G). specialize (G a b Hab ltac:(lia)). unfold step_after in G.
      replace (S (b - 1)) with b in G by lia. pose proof (in_order_nth ti b i Hti ltac:(lia) Hi). lia. }
  assert (Hto : forall x, x ∈ to -> x ∈ te \/ x ∈ ti).
  { intros x Hx. apply elem_of_list_In, in_map_iff in Hx as (o & <- & Ho). apply elem_of_list_In in Ho.
    pose proof (plan_sources dim axis ex ins out te ti plan Hm A o Ho).
    destruct (Nat.eq_dec o.1 0) as [E0|E0].
    - left. apply (plan_stored te ti keep plan F0 o Ho E0).
    - right. eapply plan_inserted; [exact F1|done|lia]. }
  assert (Hno' : forall a b, (a, b) ∈ rs -> (nth (b - 1) ti 0 + 1)%Z ∉ to).
  { intros a b Hab [Hx|Hx]%Hto; [by apply (Hno a b)|by apply (Hend a b)]. }
  assert (Nto : to <> []).
  { intros E0. assert (length (from_source 1 plan) = length ti) as L by (rewrite F1; unfold all_of; by rewrite map_length, seq_length).
    unfold to in E0. apply map_eq_nil in E0. subst plan. destruct ti; done. }
  pose proof (C13_tolerance dim axis r ex ins te ti t rs Hm Hte Hti Ne Ni ltac:(lia) Hruns) as M1. rewrite E in M1.
  destruct M1 as (keep1 & (plan1 & A1 & S1 & O1 & F01 & F11) & K1 & K1').
  set (to1 := map (date_of [te; ti]) plan1) in *.
  assert (Hto1 : forall x, x ∈ to1 -> x ∈ te \/ x ∈ ti).
  { intros x Hx. apply elem_of_list_In, in_map_iff in Hx as (o & <- & Ho). apply elem_of_list_In in Ho.
    pose proof (plan_sources dim axis ex ins out te ti plan1 Hm A1 o Ho).
    destruct (Nat.eq_dec o.1 0) as [E0|E0].
    - left. apply (plan_stored te ti keep1 plan1 F01 o Ho E0).
    - right. eapply plan_inserted; [exact F11|done|lia]. }
  assert (Nto1 : to1 <> []).
  { intros E0. assert (length (from_source 1 plan1) = length ti) as L by (rewrite F11; unfold all_of; by rewrite map_length, seq_length).
    unfold to1 in E0. apply map_eq_nil in E0. subst plan1. destruct ti; done. }
  pose proof (C13_tolerance dim axis r out ins to1 ti t rs (merged_again dim axis ex ins out te ti plan1 Hm A1) O1 Hti Nto1 Ni ltac:(lia) Hruns) as M2.
  destruct (merge_time_series r out ins axis dim (Some t)) as [out'|e].
  - destruct M2 as (keep2 & M2 & K2 & K2'). exists out'. split; [done|].
    eapply (merged_twice dim axis ex ins out out' te ti keep1 keep2 plan1 Hm A1 O1 F01 F11); [| |exact M2].
    + intros x Hx. apply Hin in Hx. split; [by apply K1|by apply K2].
    + intros x Hx Hk. assert (Hnr : ~ in_runs ti rs x) by (intros H; apply K1 in H; congruence). apply K2'; [done|].
      intros (a & b & Hab & Hx1). destruct (decide (x = nth (b - 1) ti 0 + 1)%Z) as [->|]; [by apply (Hno a b)|].
      apply Hnr. exists a, b. split; [done|lia].
  - exfalso. destruct M2 as (_ & a & b & Hab & [Hx|Hx]%Hto1); [by apply (Hno a b)|by apply (Hend a b)].
Qed.
Print Assumptions C89_tolerance_partial.

(** Refuted in general: the dates 1, 2 are inserted before the stored dates
    3, 4, 5; both series are there. The same call made again loses the record
    dated 3, which it had kept the first time. *)
Theorem C89_lost_refuted : exists out out',
  mergeable (lit "t") (lit "t") (daily 10 [3; 4; 5]%Z) (daily 7 [1; 2]%Z) [3; 4; 5]%Z [1; 2]%Z /\
  merge_time_series 9 (daily 10 [3; 4; 5]%Z) (daily 7 [1; 2]%Z) (lit "t") (lit "t") None = Ok out /\
  axis_values out (lit "t") = Ok [1; 2; 3; 4; 5]%Z /\
  merge_time_series 9 out (daily 7 [1; 2]%Z) (lit "t") (lit "t") None = Ok out' /\
  axis_values out' (lit "t") = Ok [1; 2; 4; 5]%Z.
Proof.
  eexists _, _. split; [apply daily_mergeable|]. split; [vm_compute; reflexivity|]. split; [vm_compute; reflexivity|].
  split; vm_compute; reflexivity.
Qed.
Print Assumptions C89_lost_refuted.

(** A case where the hypotheses hold: 2 and 6 replace the stored 2, 4 and 6. *)
Example C89_case : exists out out', merge_time_series 9 (daily 10 [1; 2; 4; 6; 8]%Z) (daily 7 [2; 6]%Z) (lit "t") (lit "t") None = Ok out /\
  axis_values out (lit "t") = Ok [1; 2; 6; 8]%Z /\
  merge_time_series 9 out (daily 7 [2; 6]%Z) (lit "t") (lit "t") None = Ok out' /\
  axis_values out' (lit "t") = Ok [1; 2; 6; 8]%Z /\
  mergeable (lit "t") (lit "t") (daily 10 [1; 2; 4; 6; 8]%Z) (daily 7 [2; 6]%Z) [1; 2; 4; 6; 8]%Z [2; 6]%Z /\
  in_order [1; 2; 4; 6; 8]%Z /\ in_order [2; 6]%Z /\ last_date [2; 6]%Z 6%Z /\ (6 + 1)%Z ∉ [1; 2; 4; 6; 8]%Z.
Proof.
  eexists _, _. split; [vm_compute; reflexivity|]. split; [vm_compute; reflexivity|]. split; [vm_compute; reflexivity|].
  split; [vm_compute; reflexivity|]. split; [apply daily_mergeable|]. split; [repeat constructor; lia|]. split; [repeat constructor; lia|].
  split; [|apply (bool_decide_eq_true_1 (_ ∉ _)); vm_compute; reflexivity].
  split; [apply (bool_decide_eq_true_1 (_ ∈ _)); vm_compute; reflexivity|].
  intros x Hx. apply elem_of_cons in Hx as [->|Hx]; [lia|]. apply elem_of_cons in Hx as [->|Hx]; [lia|]. by apply elem_of_nil in Hx.
Qed.
