(** * Merging time series: C11, C12, C13

    [mergeable dim axis ex ins te ti]: the stored dataset [ex] and the inserted
    one [ins] have the same variables, and the variable [axis] along [dim]
    holds the dates [te] and [ti]. [merged ... keep out]: [out] is made, in the
    order of dates, of all the inserted records and of the stored records whose
    date satisfies [keep] (every variable of the dataset follows). *)
From Verif Require Import Py Dict NdArray_Model NdArray_Spec NdArray_Proofs.
From Verif Require Import Dataset_Model Dataset_Spec Dataset_Proofs Dataset_Concat Dataset_Main Dataset_Props.
From Verif Require Import Assemble_Spec Assemble_Proofs Period_Model Period_Spec TimeSeries_Model TimeSeries_Spec TimeSeries_Proofs TimeSeries_Main.

Section props.
  Context (dim axis : str) (r : resolution) (ex ins : dataset) (te ti : list Z).
  Context (Hm : mergeable dim axis ex ins te ti) (Hte : in_order te) (Hti : in_order ti).
  Context (Ne : te <> []) (Ni : ti <> []).

  Lemma one_interval :
    let lo := nth 0 ti 0%Z in let hi := nth (length ti - 1) ti 0%Z in
    (forall out, merge_time_series r ex ins axis dim None = Ok out -> exists c, (hi <= c <= hi + 1)%Z /\
      merged dim axis ex ins te ti (fun x => ((x <? lo) || (c <? x))%Z) out) /\
    ((hi + 1)%Z ∉ te -> exists out, merge_time_series r ex ins axis dim None = Ok out) /\
    (forall e, merge_time_series r ex ins axis dim None = Raise e -> e = IndexError).
  Proof using All.
    intros lo hi. change (merge_time_series r ex ins axis dim None) with (merge_time_series_ r ex ins axis dim).
    assert (Hn : 0 < length ti) by (destruct ti; [done|cbn; lia]).
    assert (Dex : map (date_of [te; ti]) (all_of 0 (length te)) = te).
    { rewrite all_block, (block_dates _ _ _ _ te) by done. rewrite Nat.sub_0_r. apply seq_dates. }
    destruct (first_date_exists te Ne) as [emin Hmin].
    pose proof (existing_assembled dim axis ex ins te ti Hm) as Hex. pose proof (inserted_assembled dim axis ex ins te ti Hm) as Hins.
    rewrite all_block in Hins.
    assert (Hord : in_order (map (date_of [te; ti]) (all_of 0 (length te)))) by (by rewrite Dex).
    pose proof (merge_block dim axis r ex ins te ti Hm ex (all_of 0 (length te)) ins 0 (length ti) emin Hti Hex Hord) as M.
    rewrite Dex in M. specialize (M Hmin Hn (le_n _) Hins). cbv zeta in M. destruct M as (M1 & M2 & M3 & M4).
    split_and!; [|done|done]. intros out Hout. exists (cutoff hi emin). split; [apply cutoff_ge|].
    exists (before [te; ti] lo (all_of 0 (length te)) ++ block 1 0 (length ti) ++ after [te; ti] (cutoff hi emin) (all_of 0 (length te))).
    destruct (merge_block_sources te ti (all_of 0 (length te)) 0 (length ti) (cutoff hi emin) Hti Hord Hn (le_n _) (proj1 (cutoff_ge _ _))) as (S0 & S1 & _).
    { intros o Ho. apply elem_of_list_In, in_map_iff in Ho as (i & <- & _). by left. }
    { lia. }
    split_and!.
    - by apply M1.
    - eapply merged_series; [done|]. by apply M1.
    - done.
    - etransitivity; [exact S0|]. rewrite from_source_all. done.
    - etransitivity; [exact S1|]. rewrite from_source_all. cbn [Nat.eqb app]. symmetry. apply all_block.
  Qed.
End props.

(** C12. When the merge succeeds the result holds, in the order of dates, every
    inserted record, and of the stored records only some of those dated
    outside the interval of the inserted ones: all those before, and those
    after it except possibly the ones dated one unit after it. It raises no
    other exception than IndexError. *)
Theorem C12_merge dim axis r ex ins te ti lo hi : mergeable dim axis ex ins te ti -> in_order te -> in_order ti ->
  te <> [] -> ti <> [] -> first_date ti lo -> last_date ti hi ->
  match merge_time_series r ex ins axis dim None with
  | Ok out => exists c, (hi <= c <= hi + 1)%Z /\ merged dim axis ex ins te ti (fun x => ((x <? lo) || (c <? x))%Z) out
  | Raise e => e = IndexError
  end.
Proof.
  intros Hm Hte Hti Ne Ni Hlo Hhi. destruct (one_interval dim axis r ex ins te ti Hm Hte Hti Ne Ni) as (A & B & C).
  assert (Hn : 0 < length ti) by (destruct ti; [done|cbn; lia]).
  assert (nth 0 ti 0%Z = lo) as <-.
  { destruct Hlo as [H1 H2]. apply elem_of_list_In, (In_nth _ _ 0%Z) in H1 as (i & Hi & <-).
    assert (nth 0 ti 0 <= nth i ti 0)%Z by (apply in_order_nth; [done|lia|done]).
    assert (nth i ti 0 <= nth 0 ti 0)%Z by (apply H2, elem_of_list_In, nth_In; done). lia. }
  assert (nth (length ti - 1) ti 0%Z = hi) as <-.
  { destruct Hhi as [H1 H2]. apply elem_of_list_In, (In_nth _ _ 0%Z) in H1 as (i & Hi & <-).
    assert (nth i ti 0 <= nth (length ti - 1) ti 0)%Z by (apply in_order_nth; [done|lia|lia]).
    assert (nth (length ti - 1) ti 0 <= nth i ti 0)%Z by (apply H2, elem_of_list_In, nth_In; lia). lia. }
  destruct (merge_time_series r ex ins axis dim None) eqn:E; [by apply A|by apply C].
Qed.

(** The consequences C12 spells out, for any plan behind [merged]. *)
Theorem C12_contents dim axis ex ins te ti lo hi c out : in_order te -> in_order ti -> first_date ti lo -> last_date ti hi -> (hi <= c)%Z ->
  merged dim axis ex ins te ti (fun x => ((x <? lo) || (c <? x))%Z) out ->
  exists plan, assembled dim [ex; ins] plan out /\ NoDup plan /\ in_order (map (date_of [te; ti]) plan) /\
    (forall i, i < length ti -> Inserted i ∈ plan) /\
    (forall i, Existing i ∈ plan <-> i < length te /\ ((nth i te 0 < lo)%Z \/ (c < nth i te 0)%Z)) /\
    (forall i, Existing i ∈ plan -> ~ (lo <= nth i te 0 <= hi)%Z).
Proof.
  intros Hte Hti Hlo Hhi Hc (plan & A & S & O & F0 & F1). exists plan.
  assert (Hlh : (lo <= hi)%Z) by (apply Hhi, Hlo).
  assert (Hex : forall i, Existing i ∈ plan <-> i < length te /\ ((nth i te 0 < lo)%Z \/ (c < nth i te 0)%Z)).
  { intros i. assert (E : Existing i ∈ plan <-> Existing i ∈ from_source 0 plan).
    { unfold from_source. rewrite !elem_of_list_In, filter_In. cbn. tauto. }
    rewrite E, F0, elem_of_list_In, filter_In, orb_true_iff, !Z.ltb_lt. unfold all_of, date_of. cbn.
    rewrite in_map_iff. split.
    - intros ((j & Ej & Hj%in_seq) & H). unfold Existing in Ej. injection Ej as ->. split; [lia|done].
    - intros [Hi H]. split; [|done]. exists i. split; [done|]. apply in_seq. lia. }
  assert (Hsrc : forall o, o ∈ plan -> o.1 < 2).
  { intros o Ho. destruct S as (v & Hv & Hd & _). apply elem_of_list_lookup in Ho as [k Hk].
    assert (Hr : records v dim = Some (rows 0 (v_array v))) by (unfold records; rewrite Hd; cbn; by rewrite decide_True).
    destruct (Forall2_lookup_l _ _ _ _ _ (as_records _ _ _ _ A _ _ _ Hv Hr) Hk) as (x & _ & (s & _ & _ & Hs & _)).
    apply lookup_lt_Some in Hs. cbn in Hs. lia. }
  split_and!; try done.
  - assert (G : forall p : list origin, (forall o, o ∈ p -> o.1 < 2) -> NoDup (from_source 0 p) -> NoDup (from_source 1 p) -> NoDup p).
    { induction p as [|[k i] p IH]; intros H2 N0 N1; [constructor|]. unfold from_source in *. cbn in N0, N1.
      assert (Hk : k < 2) by (apply (H2 (k, i)); by left).
      destruct k as [|[|k]]; [| |lia]; cbn in N0, N1.
      - apply NoDup_cons in N0 as [N0' N0]. apply NoDup_cons. split; [|apply IH; try done; intros o Ho; apply H2; by right].
        intros Hin. apply N0'. apply elem_of_list_In, filter_In. split; [by apply elem_of_list_In|done].
      - apply NoDup_cons in N1 as [N1' N1]. apply NoDup_cons. split; [|apply IH; try done; intros o Ho; apply H2; by right].
        intros Hin. apply N1'. apply elem_of_list_In, filter_In. split; [by apply elem_of_list_In|done]. }
    assert (All : forall k n, NoDup (all_of k n)).
    { intros k n. unfold all_of. apply NoDup_ListNoDup, FinFun.Injective_map_NoDup; [intros x y [= ->]; done|apply seq_NoDup]. }
    apply G; [done|rewrite F0; apply NoDup_ListNoDup, List.NoDup_filter, NoDup_ListNoDup, All|rewrite F1; apply All].
  - intros i Hi. assert (Inserted i ∈ from_source 1 plan) as H.
    { rewrite F1. apply elem_of_list_In, in_map_iff. exists i. split; [done|]. apply in_seq. lia. }
    apply elem_of_list_In, filter_In in H as [H _]. by apply elem_of_list_In.
  - intros i Hi%Hex. lia.
Qed.

(** C11, partial: it holds when no stored record is dated exactly one unit
    after the last inserted one. Missing: that case, where the call loses the
    record or raises (see the refutations). *)
Theorem C11_kept_partial dim axis r ex ins te ti lo hi : mergeable dim axis ex ins te ti -> in_order te -> in_order ti ->
  te <> [] -> ti <> [] -> first_date ti lo -> last_date ti hi -> (hi + 1)%Z ∉ te ->
  exists out, merge_time_series r ex ins axis dim None = Ok out /\
    merged dim axis ex ins te ti (fun x => ((x <? lo) || (hi <? x))%Z) out.
Proof.
  intros Hm Hte Hti Ne Ni Hlo Hhi Hno. destruct (one_interval dim axis r ex ins te ti Hm Hte Hti Ne Ni) as (A & B & C).
  pose proof (C12_merge dim axis r ex ins te ti lo hi Hm Hte Hti Ne Ni Hlo Hhi) as M.
  assert (Hn : 0 < length ti) by (destruct ti; [done|cbn; lia]).
  assert (Eh : nth (length ti - 1) ti 0%Z = hi).
  { destruct Hhi as [H1 H2]. apply elem_of_list_In, (In_nth _ _ 0%Z) in H1 as (i & Hi & <-).
    assert (nth i ti 0 <= nth (length ti - 1) ti 0)%Z by (apply in_order_nth; [done|lia|lia]).
    assert (nth (length ti - 1) ti 0 <= nth i ti 0)%Z by (apply H2, elem_of_list_In, nth_In; lia). lia. }
  rewrite Eh in B. destruct (B Hno) as [out Eout]. rewrite Eout in M. exists out. split; [done|].
  destruct M as (c & Hc & plan & P1 & P2 & P3 & P4 & P5). exists plan. split_and!; try done. rewrite P4.
  apply List.filter_ext_in. intros o Ho. apply in_map_iff in Ho as (i & <- & Hi%in_seq). unfold date_of. cbn [nth fst snd]. f_equal.
  assert (nth i te 0 <> hi + 1)%Z.
  { intros E. apply Hno. rewrite <-E. apply elem_of_list_In, nth_In. lia. }
  destruct (Z.ltb_spec c (nth i te 0%Z)), (Z.ltb_spec hi (nth i te 0%Z)); lia.
Qed.

(** C13. With a tolerance [t], the inserted dates are cut into their runs
    (consecutive dates at most [t] apart) and each run replaces the stored
    records of its own interval: every inserted record is there, no stored
    record dated inside the interval of a run is, and those outside are
    kept, except possibly the ones dated one unit after the end of a run. *)
Theorem C13_tolerance dim axis r ex ins te ti t rs : mergeable dim axis ex ins te ti -> in_order te -> in_order ti ->
  te <> [] -> ti <> [] -> (0 <= t)%Z -> runs t ti rs ->
  match merge_time_series r ex ins axis dim (Some t) with
  | Ok out => exists keep, merged dim axis ex ins te ti keep out /\
      (forall x, in_runs ti rs x -> keep x = false) /\
      (forall x, ~ in_runs ti rs x -> ~ in_runs ti rs (x - 1)%Z -> keep x = true)
  | Raise e => e = IndexError /\ exists a b, (a, b) ∈ rs /\ (nth (b - 1) ti 0 + 1)%Z ∈ te
  end.
Proof.
  intros Hm Hte Hti Ne Ni Ht Hruns.
  pose proof (runs_index t ti Ht Ni) as Hidx. cbv zeta in Hidx. set (index := 0 :: _) in *.
  assert (zip index (tail index) = rs) as Ers by (by eapply runs_unique).
  assert (E : merge_time_series r ex ins axis dim (Some t) = foldM (run_step dim axis r ins) ex rs).
  { unfold merge_time_series. assert (axis_values ins axis = Ok ti) as -> by (apply (series_axis_values dim), Hm).
    cbn [rbind]. change (0 :: where_ _ _ ++ _) with index. rewrite Ers.
    assert (1 <? length index = true) as ->; [|done]. apply Nat.ltb_lt. unfold index. cbn. rewrite app_length. cbn. lia. }
  rewrite E. clear Hidx Ers. clearbody index. destruct Hruns as (T & L & S & G).
  assert (Dex : map (date_of [te; ti]) (all_of 0 (length te)) = te).
  { rewrite all_block, (block_dates _ _ _ _ te) by done. rewrite Nat.sub_0_r. apply seq_dates. }
  destruct (fold_runs dim axis r ex ins te ti Hm rs Hti 0 ex (all_of 0 (length te))) as (F1 & F2 & F3).
  - by rewrite Nat.sub_0_r.
  - lia.
  - done.
  - intros a b Hab Hb. specialize (G a b Hab Hb). lia.
  - lia.
  - by eapply existing_assembled.
  - by rewrite Dex.
  - destruct te; done.
  - intros o Ho. apply elem_of_list_In, in_map_iff in Ho as (i & <- & Hi%in_seq). left. cbn. lia.
  - destruct (foldM _ _ _) as [out|e] eqn:Eout.
    + destruct (F1 _ eq_refl) as (plan & keep & A1 & A2 & A3 & A4 & A5 & A6). exists keep. split_and!; [|done|done].
      exists plan. split_and!; [done|by eapply merged_series|done| |].
      * rewrite A3, from_source_all. done.
      * rewrite A4, from_source_all. symmetry. apply all_block.
    + split; [by apply F3|]. 
      destruct (decide (Exists (fun ab => (nth (ab.2 - 1) ti 0 + 1)%Z ∈ te) rs)) as [H|H].
      * apply Exists_exists in H as ([a b] & Hab & H). by exists a, b.
      * destruct F2 as [out Ho]; [|done]. intros a b Hab Hin. apply H, Exists_exists. by exists (a, b).
Qed.

(** Every list of dates has runs, and only one list of them. *)
Theorem C13_runs t ts : (0 <= t)%Z -> ts <> [] -> exists rs, runs t ts rs /\ forall rs', runs t ts rs' -> rs' = rs.
Proof.
  intros Ht Hne. eexists. split; [by apply runs_index|]. intros rs' H. eapply runs_unique; [done|by apply runs_index].
Qed.

(** C13 in full when no stored record is dated one unit after the end of a run:
    the records kept are exactly those outside the intervals of the runs. *)
Theorem C13_gaps dim axis r ex ins te ti t rs : mergeable dim axis ex ins te ti -> in_order te -> in_order ti ->
  te <> [] -> ti <> [] -> (0 <= t)%Z -> runs t ti rs ->
  (forall a b, (a, b) ∈ rs -> (nth (b - 1) ti 0 + 1)%Z ∉ te) ->
  exists out keep, merge_time_series r ex ins axis dim (Some t) = Ok out /\ merged dim axis ex ins te ti keep out /\
    forall x, x ∈ te -> keep x = true <-> ~ in_runs ti rs x.
Proof.
  intros Hm Hte Hti Ne Ni Ht Hruns Hno. pose proof (C13_tolerance dim axis r ex ins te ti t rs Hm Hte Hti Ne Ni Ht Hruns) as H.
  destruct (merge_time_series r ex ins axis dim (Some t)) as [out|e].
  - destruct H as (keep & M & H1 & H2). exists out, keep. split_and!; [done|done|]. intros x Hx. split.
    + intros Hk Hin. apply H1 in Hin. congruence.
    + intros Hout. apply H2; [done|]. intros (a & b & Hab & Hx1). 
      destruct (decide (x = nth (b - 1) ti 0 + 1)%Z) as [->|]; [by apply (Hno a b)|]. apply Hout. exists a, b. split; [done|lia].
  - destruct H as (_ & a & b & Hab & Hin). exfalso. by apply (Hno a b).
Qed.

(** A dataset with one record per date, holding the date and [k] times it. *)
Definition daily (k : Z) (ts : list Z) : dataset :=
  Dataset [(lit "t", length ts)]
    [(lit "t", simple_var "t" ["t"] [length ts] ts);
     (lit "v", simple_var "v" ["t"] [length ts] (map (fun t => k * t)%Z ts))] [] [] 128%Z false.

Lemma daily_proper k ts : proper (daily k ts) /\ no_repeat (daily k ts).
Proof.
  split; [split|].
  - apply (bool_decide_eq_true_1 (NoDup _)). vm_compute. reflexivity.
  - constructor.
  - done.
  - intros v Hv. cbn in Hv. apply elem_of_cons in Hv as [->|Hv]; [|apply elem_of_cons in Hv as [->|Hv]; [|by apply elem_of_nil in Hv]];
      unfold arr_wf; cbn; unfold nums; rewrite ?map_length, ?Nat.mul_1_r; done.
  - intros name v Hv. apply dget_elem in Hv. cbn in Hv.
    repeat (apply elem_of_cons in Hv as [[= -> ->]|Hv]; [split_and!; [done|done|]; intros j d Hk; 
      destruct j as [|[|j]]; cbn in Hk; try (injection Hk as <-); try done; eexists; split; reflexivity|]).
    by apply elem_of_nil in Hv.
  - intros v Hv. cbn in Hv.
    repeat (apply elem_of_cons in Hv as [->|Hv]; [apply (bool_decide_eq_true_1 (NoDup _)); vm_compute; reflexivity|]).
    by apply elem_of_nil in Hv.
Qed.
Lemma daily_mergeable k k' te ti : mergeable (lit "t") (lit "t") (daily k te) (daily k' ti) te ti.
Proof.
  destruct (daily_proper k te), (daily_proper k' ti). unfold mergeable, alike. split_and!; [done..| | | |].
  - intros name. unfold daily, d_vars. cbn [dget]. destruct (decide _); [done|]. destruct (decide _); done.
  - intros name v w. unfold daily, d_vars. cbn [dget]. destruct (decide _); [|destruct (decide _); [|done]];
      intros [= <-] [= <-]; (split_and!; [done|done|]); intros [|[|j]]; done.
  - exists (simple_var "t" ["t"] [length te] te). done.
  - exists (simple_var "t" ["t"] [length ti] ti). done.
Qed.

(** C11 is false: the record dated 4 is neither inserted nor inside the
    interval of the inserted dates [2, 3], and it is lost. *)
Theorem C11_lost_refuted : exists out,
  mergeable (lit "t") (lit "t") (daily 10 [1; 2; 3; 4; 5]%Z) (daily 7 [2; 3]%Z) [1; 2; 3; 4; 5]%Z [2; 3]%Z /\
  merge_time_series 9 (daily 10 [1; 2; 3; 4; 5]%Z) (daily 7 [2; 3]%Z) (lit "t") (lit "t") None = Ok out /\
  d_vars out = d_vars (Dataset [] [(lit "t", simple_var "t" ["t"] [4] [1; 2; 3; 5]%Z); (lit "v", simple_var "v" ["t"] [4] [10; 14; 21; 50]%Z)] [] [] 0 false).
Proof. eexists. split; [apply daily_mergeable|]. split; vm_compute; reflexivity. Qed.

(** C11 is false: merging the dates [5, 9] into [0, ..., 10] raises. *)
Theorem C11_raises_refuted :
  merge_time_series 9 (daily 10 [0; 1; 2; 3; 4; 5; 6; 7; 8; 9; 10]%Z) (daily 7 [5; 9]%Z) (lit "t") (lit "t") None = Raise IndexError.
Proof. vm_compute. reflexivity. Qed.

(** C12: a dataset without the axis is refused with KeyError, whichever it is,
    and one without records with ValueError. *)
Theorem C12_refused dim axis r ex ins :
  (dget (d_vars ex) axis = None -> merge_time_series r ex ins axis dim None = Raise KeyError) /\
  (forall te, axis_values ex axis = Ok te -> dget (d_vars ins) axis = None -> merge_time_series r ex ins axis dim None = Raise KeyError) /\
  (forall ti, series dim axis ex [] -> series dim axis ins ti -> merge_time_series r ex ins axis dim None = Raise ValueError) /\
  (forall te, series dim axis ex te -> te <> [] -> series dim axis ins [] -> merge_time_series r ex ins axis dim None = Raise ValueError).
Proof.
  change (merge_time_series r ex ins axis dim None) with (merge_time_series_ r ex ins axis dim). unfold merge_time_series_. split_and!.
  - intros E. unfold axis_values at 1. by rewrite E.
  - intros te E E'. rewrite E. cbn [rbind]. unfold axis_values at 1. by rewrite E'.
  - intros ti H1%series_axis_values H2%series_axis_values. by rewrite H1, H2.
  - intros te H1%series_axis_values Ne H2%series_axis_values. rewrite H1, H2. by destruct te.
Qed.

Print Assumptions C12_merge.
Print Assumptions C12_refused.
Print Assumptions C12_contents.
Print Assumptions C11_kept_partial.
Print Assumptions C11_lost_refuted.
Print Assumptions C11_raises_refuted.
Print Assumptions C13_tolerance.
Print Assumptions C13_gaps.
Print Assumptions C13_runs.

(** A concrete case of C11, C12 and C13: with no tolerance the stored record 4
    is replaced; with a tolerance of 1 it is in the gap, and kept. *)
Example C13_case :
  runs 1 [2; 6]%Z [(0, 1); (1, 2)] /\
  rmap (fun o => option_map v_array (dget (d_vars o) (lit "v")))
    (merge_time_series 9 (daily 10 [1; 2; 4; 6; 8]%Z) (daily 7 [2; 6]%Z) (lit "t") (lit "t") None)
  = Ok (Some (Arr [4] (nums [10; 14; 42; 80]%Z))) /\
  rmap (fun o => option_map v_array (dget (d_vars o) (lit "v")))
    (merge_time_series 9 (daily 10 [1; 2; 4; 6; 8]%Z) (daily 7 [2; 6]%Z) (lit "t") (lit "t") (Some 1%Z))
  = Ok (Some (Arr [5] (nums [10; 14; 40; 42; 80]%Z))) /\
  mergeable (lit "t") (lit "t") (daily 10 [1; 2; 4; 6; 8]%Z) (daily 7 [2; 6]%Z) [1; 2; 4; 6; 8]%Z [2; 6]%Z /\
  in_order [1; 2; 4; 6; 8]%Z /\ in_order [2; 6]%Z /\ (6 + 1)%Z ∉ [1; 2; 4; 6; 8]%Z /\ (2 + 1)%Z ∉ [1; 2; 4; 6; 8]%Z.
Proof.
  split_and!.
  - exact (runs_index 1 [2; 6]%Z ltac:(lia) ltac:(done)).
  - vm_compute. reflexivity.
  - vm_compute. reflexivity.
  - apply daily_mergeable.
  - repeat constructor; lia.
  - repeat constructor; lia.
  - apply (bool_decide_eq_true_1 (_ ∉ _)). vm_compute. reflexivity.
  - apply (bool_decide_eq_true_1 (_ ∉ _)). vm_compute. reflexivity.
Qed.
