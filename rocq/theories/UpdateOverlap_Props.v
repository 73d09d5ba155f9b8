(** * Properties of update with a depth *)
From Verif Require Import Py Dict NdArray_Model NdArray_Spec NdArray_Proofs Dataset_Model Dataset_Spec Dataset_Proofs Dataset_Props Dataset_Props2 Meta_Model PartPath_Model PartPath_Proofs
  Split_Spec DaskUtils_Model DaskUtils_Proofs FS_Model FS_Proofs Pool_Model Pool_Proofs Rely_Proofs Storage_Model Storage_Chunks Storage_Spec Storage_Proofs
  Listing_Model Listing_Spec Listing_Proofs Collection_Model Collection_Spec Collection_Split Collection_Proofs Collection_State Collection_Select Collection_Load
  Collection_Example Update_Model Update_Spec Storage_Change Update_State Update_Proofs Update_Example Update_Props Map_Props Overlap_Proofs UpdateOverlap_Spec UpdateOverlap_Proofs.

Lemma choose_map {A} (vs : list (list Z)) (R : list Z -> A -> Prop) : (forall v, v ∈ vs -> exists a, R v a) ->
  exists g : list Z -> option A, (forall v, v ∈ vs -> exists a, g v = Some a /\ R v a) /\ forall v, v ∉ vs -> g v = None.
Proof.
  induction vs as [|v vs IH]; intros H.
  - exists (fun _ => None). split; [intros v Hv; by apply elem_of_nil in Hv|done].
  - destruct IH as (g & H1 & H2); [intros w Hw; apply H; by right|]. destruct (H v ltac:(left)) as (a & Ha).
    exists (fun w => if decide (w = v) then Some a else g w). split.
    + intros w Hw. destruct (decide (w = v)) as [->|N]; [by exists a|]. apply elem_of_cons in Hw as [|Hw]; [done|]. by apply H1.
    + intros w Hw. rewrite decide_False by (intros ->; apply Hw; left). apply H2. intros Hin. apply Hw. by right.
Qed.
Lemma seen_around_wanted dim delayed sel sel' before old after ds range : (forall n, wanted sel n <-> wanted sel' n) ->
  seen_around dim delayed sel before old after ds range -> seen_around dim delayed sel' before old after ds range.
Proof. intros H [H1 H2 H3 H4 H5]. split; [|done..]. intros n. by rewrite H1, H. Qed.
Lemma measured_wanted dim sel sel' ds : (forall n, wanted sel n <-> wanted sel' n) -> measured dim sel ds -> measured dim sel' ds.
Proof. intros H (n & v & Hw & ?). exists n, v. by rewrite <-H. Qed.

Lemma within_any {A} (p : program A) : within (fun _ => True) (fun _ => True) p.
Proof. induction p as [r|o k IH]; [done|]. split; [by destruct o; cbn; auto|]. intros r _. apply IH. Qed.
Lemma single_task {A} sched (p : program A) s : exec (execute_transaction CTorn sched [p]) s = (rmap (fun a => [a]) (exec p s).1, (exec p s).2).
Proof.
  rewrite (exec_transaction CTorn sched [p] (fun _ _ => True) (fun _ _ => True)).
  - cbn [exec_all]. destruct (exec p s) as [[a|ex] s1]; done.
  - intros i q. by left.
  - split; [intros i p' _; apply within_any|]. intros i j p1 p2 Hi Hj N. exfalso. destruct i, j; done.
Qed.
Lemma single_batch {A} (l : list A) : l <> [] -> split_sequence l (Some 1%Z) = Ok [l].
Proof.
  intros Hne. pose proof (split_sequence_ok l (Some 1%Z) Hne ltac:(done)) as E. destruct (split_sequence l (Some 1%Z)) as [bs|] eqn:E'; [|done]. clear E. rename E' into E.
  apply split_sequence_lengths in E. cbn [default id] in E. cbv zeta in E. unfold id in E. assert (Hl : 1 <= length l) by (destruct l; [done|cbn; lia]).
  replace (Z.to_nat (Z.min 1 (Z.of_nat (length l)))) with 1 in E by lia. destruct E as (Hc & _ & Hlen). rewrite Nat.mod_1_r in Hlen. apply (f_equal length) in Hlen. rewrite map_length in Hlen. cbn in Hlen.
  destruct bs as [|b [|]]; try done. cbn in Hc. rewrite app_nil_r in Hc. by rewrite Hc.
Qed.

Section C53.
Context (e : env) (c : collection) (M : list Z -> option dataset) (I : option dataset) (s : store).
Context (workers : Z) (f : update_callback) (delayed : bool) (depth : nat) (filt : filter) (npartitions : option Z).
Context (selected : option (list str)) (trim : bool) (variables : list str) (P : list Z -> Prop).
Local Notation run sched := (update e sched workers c f delayed (Z.of_nat depth) filt npartitions selected trim variables).

(** The variables that are read. *)
Definition extended (names : list str) : option (list str) :=
  match selected with None => None | Some l => Some (l ++ List.filter (fun n => negb (memb n l)) names) end.
Lemma extended_wanted names sel : (forall n, wanted sel n <-> wanted selected n \/ n ∈ names) -> forall n, wanted (extended names) n <-> wanted sel n.
Proof.
  intros H n. rewrite H. unfold extended, wanted. destruct selected as [l|]; [|tauto]. rewrite elem_of_app, elem_of_list_In, (elem_of_list_In (List.filter _ _)), filter_In, <-!elem_of_list_In.
  destruct (memb n l) eqn:E; unfold memb in E; [apply bool_decide_eq_true in E|apply bool_decide_eq_false in E]; cbn; intuition.
Qed.
Lemma infer_exec vs : exec (select_parts e c filt) s = (Ok (map (part_dir c) vs), s) -> exists r, exec (infer_callable e c f filt delayed selected) s = (r, s) /\
  ((forall ds i l, cb_call f ds i = Ok l -> l <> []) -> r = Ok [] -> vs = []).
Proof.
  intros Esel. unfold infer_callable. rewrite exec_bind, Esel. destruct vs as [|v vs]; [by eexists|]. cbn [map]. rewrite exec_bind.
  destruct (open_pure (part_dir c v) delayed selected s) as [[ds|ex] Eo]; rewrite Eo; [|by eexists]. destruct (dget _ _) as [n|]; [|by eexists].
  unfold call_with. destruct (cb_call f ds _) as [l|] eqn:Ecb; cbn [call_dict rbind]; [|by eexists]. destruct (forallb _ _); [|by eexists].
  eexists. split; [done|]. intros Hne [= Ek]. exfalso. specialize (Hne _ _ _ Ecb). destruct l as [|[n' x] l]; [done|].
  assert (Hn : n' ∈ dkeys (dict_of ((n', x) :: l))) by (apply dict_of_keys; left). rewrite Ek in Hn. by apply elem_of_nil in Hn.
Qed.
(** What a call does. *)
Lemma overlap_call sched vs r s' : 0 < depth -> exec (select_parts e c filt) s = (Ok (map (part_dir c) vs), s) ->
  variables <> [] \/ selected = None /\ (forall ds i l, cb_call f ds i = Ok l -> l <> []) -> exec (run sched) s = (r, s') ->
  (s' = s /\ (r = Ok tt -> vs = [])) \/
  exists bs r1, concat bs = vs /\
    exec (execute_transaction CTorn sched (map (fun b => pfor b (update_overlap c delayed (Z.of_nat depth) (map (part_dir c) vs) (extended variables) trim f)) (map (map (part_dir c)) bs))) s = (r1, s') /\
    (r = Ok tt -> is_ok r1 = true).
Proof.
  intros Hd Esel Hvar E. unfold update in E. destruct (c_readonly c); [injection E as <- <-; by left|].
  assert (exists r0, exec (match variables with [] => infer_callable e c f filt delayed selected | _ => pret variables end) s = (r0, s) /\ (r0 = Ok [] -> vs = []) /\ forall names, r0 = Ok names -> extended names = extended variables) as (r0 & E0 & H0 & Hx).
  { destruct Hvar as [Hne|[Hsn Hne]].
    - exists (Ok variables). destruct variables; [done|]. split; [done|]. split; [done|]. by intros names [= <-].
    - destruct variables as [|x l] eqn:Ev.
      + destruct (infer_exec vs Esel) as (r0 & E0 & H0). exists r0. split; [done|]. split; [by apply H0|]. intros names _. unfold extended. by rewrite Hsn.
      + exists (Ok (x :: l)). split; [done|]. split; [done|]. by intros names [= <-]. }
  rewrite exec_bind, E0 in E. destruct r0 as [names|ex]; [|injection E as <- <-; by left].
  destruct names as [|n names]; [injection E as <- <-; left; split; [done|]; intros _; by apply H0|].
  rewrite exec_bind, Esel in E. rewrite (proj2 (Z.ltb_ge _ _)) in E by lia. rewrite (proj2 (Z.eqb_neq _ _)) in E by lia. fold (extended (n :: names)) in E. rewrite (Hx _ eq_refl) in E.
  rewrite exec_bind in E. cbn [exec] in E. destruct (split_sequence _ _) as [bs|ex] eqn:Esp; [|injection E as <- <-; by left].
  apply split_map in Esp as (bs' & _ & -> & Hc). right. exists bs'. rewrite exec_bind in E. destruct (exec (execute_transaction _ _ _) s) as [r1 s1] eqn:E1. exists r1. split; [done|].
  destruct r1 as [l|ex]; cbn [exec] in E; injection E as <- <-; done.
Qed.

Lemma run_done sched r s' sel :
  regular e c -> represents c M I s -> uniform c M I -> filterable c -> (forall v, is_Some (M v) -> says (c_part c) filt v (P v)) ->
  c_immutable c = false -> 0 < depth -> variables <> [] \/ selected = None /\ (forall ds i l, cb_call f ds i = Ok l -> l <> []) ->
  (forall n, wanted sel n <-> wanted selected n \/ n ∈ variables) -> (forall v old, M v = Some old -> P v -> measured (c_dim c) sel old) ->
  sane f -> blind f -> exec (run sched) s = (r, s') ->
  exists vs, StronglySorted row_lt vs /\ (forall v, v ∈ vs <-> is_Some (M v) /\ P v) /\ NoDup vs /\
    (forall v, v ∈ vs -> is_Some (M v) /\ forall d, M v = Some d -> measured (c_dim c) (extended variables) d) /\
    exec (select_parts e c filt) s = (Ok (map (part_dir c) vs), s) /\
    meanwhile c s f vs s' /\ forall v, v ∈ vs -> part_done c M s f delayed (extended variables) trim depth vs v (r = Ok tt) s'.
Proof.
  intros Hr Hs Hu Hfi HP Him Hd Hvar Hsel Hmea Hsa Hbl E. destruct (select_filter e c Hr M I s filt P Hs Hfi HP) as (vs & Hso & Hin & Esel).
  assert (Hnd : NoDup vs) by (by apply sorted_nodup_rows).
  assert (Hall : forall v, v ∈ vs -> is_Some (M v) /\ forall d, M v = Some d -> measured (c_dim c) (extended variables) d).
  { intros v Hv. apply Hin in Hv as [Hv Hp]. split; [done|]. intros d Ed. apply (measured_wanted _ sel); [|by eapply Hmea]. intros n. symmetry. by apply extended_wanted. }
  exists vs. do 5 (split; [done|]).
  destruct (overlap_call sched vs r s' Hd Esel Hvar E) as [[-> Hok]|(bs & r1 & Hc & E1 & Hok)].
  - split; [intros q; by left|]. intros v Hv. apply (part_done_not _ M I); [done|done|]. intros Er. rewrite (Hok Er) in Hv. by apply elem_of_nil in Hv.
  - destruct (safe_transaction e c Hr M I s Hs Hu Him f Hsa Hbl delayed (extended variables) trim depth vs Hnd Hall sched bs r1 s' Hc E1) as [Hm Hp].
    split; [done|]. intros v Hv. eapply part_done_local; [|done|by apply Hp]. done.
Qed.

(** The contents after a call. *)
Lemma run_built sched r s' sel :
  regular e c -> represents c M I s -> uniform c M I -> filterable c -> (forall v, is_Some (M v) -> says (c_part c) filt v (P v)) ->
  c_immutable c = false -> 0 < depth -> variables <> [] \/ selected = None /\ (forall ds i l, cb_call f ds i = Ok l -> l <> []) ->
  (forall n, wanted sel n <-> wanted selected n \/ n ∈ variables) -> (forall v old, M v = Some old -> P v -> measured (c_dim c) sel old) ->
  sane f -> blind f -> exec (run sched) s = (r, s') ->
  exists M' vs, represents c M' I s' /\ uniform c M' I /\ StronglySorted row_lt vs /\ NoDup vs /\ (forall v, v ∈ vs <-> is_Some (M v) /\ P v) /\
    (forall v, v ∈ vs -> is_Some (M v) /\ forall d, M v = Some d -> measured (c_dim c) (extended variables) d) /\
    (forall v, v ∈ vs -> exists before old after l, around M depth vs v before old after /\ fits old l /\ (forall n, n ∈ dkeys l -> returned f n) /\ M' v = Some (assign_all old l) /\
       (r = Ok tt -> made c s f delayed (extended variables) trim depth vs v before old after l)) /\
    (forall v, ~ (is_Some (M v) /\ P v) -> M' v = M v) /\
    (forall q, ~ (exists v n, is_Some (M v) /\ P v /\ returned f n /\ under (part_dir c v ++ [n]) q) -> s' !! q = s !! q).
Proof.
  intros Hr Hs Hu Hfi HP Him Hd Hvar Hsel Hmea Hsa Hbl E.
  destruct (run_done sched r s' sel Hr Hs Hu Hfi HP Him Hd Hvar Hsel Hmea Hsa Hbl E) as (vs & Hso & Hin & Hnd & Hall & _ & Hm & Hdone).
  assert (Hlen : forall v, v ∈ vs -> length v = length (p_keys (c_part c))) by (exact (vs_len c M I s Hs (extended variables) vs Hall)).
  destruct (choose_map vs (fun v new => exists before old after l, around M depth vs v before old after /\ fits old l /\ (forall n, n ∈ dkeys l -> returned f n) /\ new = assign_all old l /\
     holds_dataset (sub (part_dir c v) s') new /\ (r = Ok tt -> made c s f delayed (extended variables) trim depth vs v before old after l))) as (g & Hg & Hng).
  { intros v Hv. destruct (around_exists c M (extended variables) depth vs Hall v Hv) as (before & old & after & Har). destruct (Hdone v Hv before old after Har) as (l & H1 & H2 & H3 & H4).
    exists (assign_all old l), before, old, after, l. split_and!; done. }
  set (M' := fun v => match g v with Some new => Some new | None => M v end).
  assert (HM' : forall v new, g v = Some new -> exists old l, M v = Some old /\ fits old l /\ new = assign_all old l /\ holds_dataset (sub (part_dir c v) s') new).
  { intros v new Eg. assert (Hv : v ∈ vs) by (destruct (decide (v ∈ vs)) as [|N]; [done|]; by rewrite (Hng v N) in Eg).
    destruct (Hg v Hv) as (a & Ea & before & old & after & l & (pre & post & _ & Ho & _) & Hf & _ & -> & Hh & _). rewrite Eg in Ea. injection Ea as ->. by exists old, l. }
  exists M', vs.
  assert (Hrep : represents c M' I s').
  { apply (represents_change e c Hr M M' I s s' Hs).
    - intros v. unfold M'. destruct (g v) as [new|] eqn:Eg; [|done]. destruct (HM' v new Eg) as (old & l & -> & _). split; by eexists.
    - intros v ds. unfold M'. destruct (g v) as [new|] eqn:Eg.
      + intros [= <-]. right. destruct (HM' v new Eg) as (old & l & Eo & Hf & -> & Hh). destruct (rp_part _ _ _ _ Hs _ _ Eo) as (_ & Hsd & _). split; [by apply assign_sound|done].
      + intros Ev. left. split; [done|]. intros q Hq. destruct (Hm q) as [|[(w & n & ci & Hw & _ & ->) _]]; [done|]. exfalso.
        destruct (rp_part _ _ _ _ Hs _ _ Ev) as (Hl & _). assert (N : w <> v) by (intros ->; destruct (Hg v Hw) as (a & Ea & _); congruence).
        apply (parts_apart c w v (Hlen w Hw) Hl N (part_dir c w ++ [n; chunk_key ci])); [apply under_app|done].
    - intros q _ Hq. destruct (Hm q) as [|[(w & n & ci & Hw & _ & ->) _]]; [done|]. exfalso. apply Hin in Hw as [Hw _]. apply (Hq w Hw), under_app. }
  split; [exact Hrep|]. split.
  { apply (uniform_same_form c M); [done|]. intros v a'. unfold M'. destruct (g v) as [new|] eqn:Eg.
    - intros [= <-]. destruct (HM' v new Eg) as (old & l & Eo & Hf & -> & _). exists old. split; [done|]. by apply same_form_assign.
    - intros Ev. exists a'. split; [done|]. split; [done|]. intros n w Hw. by exists w. }
  split; [done|]. split; [done|]. split; [done|]. split; [done|]. split; [|split].
  - intros v Hv. destruct (Hg v Hv) as (new & Eg & before & old & after & l & Har & Hf & Hl & -> & Hh & Hmade). exists before, old, after, l. split_and!; try done. unfold M'. by rewrite Eg.
  - intros v Hv. unfold M'. rewrite Hng; [done|]. by rewrite Hin.
  - intros q Hq. destruct (Hm q) as [|[(w & n & ci & Hw & Hn & ->) _]]; [done|]. exfalso. apply Hq. apply Hin in Hw as [Hw Hp]. exists w, n. split_and!; try done.
    exists [chunk_key ci]. by rewrite <-app_assoc.
Qed.

(** A call that succeeds gives, in each partition that the filter selects, the
    values that the callback returns for the data that this partition and its
    neighbours hold before the call, whatever the order in which the tasks run,
    and even if they see files that the other tasks are writing. With [trim], the
    values of the records of the partition are kept. The callback must not look
    at the values of the variables that it returns. *)
Theorem C53_update sched s' sel :
  regular e c -> represents c M I s -> uniform c M I -> filterable c -> (forall v, is_Some (M v) -> says (c_part c) filt v (P v)) ->
  c_immutable c = false -> 0 < depth -> variables <> [] \/ selected = None /\ (forall ds i l, cb_call f ds i = Ok l -> l <> []) ->
  (forall n, wanted sel n <-> wanted selected n \/ n ∈ variables) -> (forall v old, M v = Some old -> P v -> measured (c_dim c) sel old) ->
  sane f -> blind f -> exec (run sched) s = (Ok tt, s') ->
  exists M' vs, represents c M' I s' /\ uniform c M' I /\ shows e c M' s' /\ StronglySorted row_lt vs /\ (forall v, v ∈ vs <-> is_Some (M v) /\ P v) /\
    (forall pre v post before old after, vs = pre ++ v :: post -> M v = Some old ->
       Forall2 (fun w d => M w = Some d) (drop (length pre - depth) pre) before -> Forall2 (fun w d => M w = Some d) (take depth post) after ->
       exists new, M' v = Some new /\ updated_around (c_dim c) delayed sel trim f before old after new) /\
    (forall v, ~ (is_Some (M v) /\ P v) -> M' v = M v) /\
    (forall q, ~ (exists v n, is_Some (M v) /\ P v /\ returned f n /\ under (part_dir c v ++ [n]) q) -> s' !! q = s !! q).
Proof.
  intros Hr Hs Hu Hfi HP Him Hd Hvar Hsel Hmea Hsa Hbl E.
  destruct (run_built sched _ s' sel Hr Hs Hu Hfi HP Him Hd Hvar Hsel Hmea Hsa Hbl E) as (M' & vs & Hs' & Hu' & Hso & Hnd & Hin & Hall & Hg & Hout & Hfr).
  exists M', vs. split; [done|]. split; [done|]. split; [by apply (represents_shows e c Hr M' I)|]. do 2 (split; [done|]). split; [|done].
  intros pre v post before old after Evs Hold Hb Ha. assert (Hv : v ∈ vs) by (rewrite Evs; apply elem_of_app; right; left).
  destruct (Hg v Hv) as (before' & old' & after' & l & Har & Hf & _ & Eg & Hmade). specialize (Hmade eq_refl).
  assert (Har' : around M depth vs v before old after) by (by exists pre, post).
  destruct (around_unique c M (extended variables) depth vs Hnd Hall v _ _ _ _ _ _ Har' Har) as (-> & -> & ->).
  exists (assign_all old l). split; [done|]. destruct (rp_part _ _ _ _ Hs _ _ Hold) as (_ & Hsd & _).
  destruct (made_updated _ _ _ _ _ _ _ _ _ _ _ _ _ Hsd Hmade) as (ds & range & l0 & xs & ys & H1 & H2 & H3 & H4 & H5). exists ds, range, l0, xs, ys. split_and!; try done.
  eapply seen_around_wanted; [|done]. by apply extended_wanted.
Qed.

(** The order in which the tasks run does not matter. *)
Theorem C53_any_order sched1 sched2 s1 s2 sel :
  regular e c -> represents c M I s -> uniform c M I -> filterable c -> (forall v, is_Some (M v) -> says (c_part c) filt v (P v)) ->
  c_immutable c = false -> 0 < depth -> variables <> [] \/ selected = None /\ (forall ds i l, cb_call f ds i = Ok l -> l <> []) ->
  (forall n, wanted sel n <-> wanted selected n \/ n ∈ variables) -> (forall v old, M v = Some old -> P v -> measured (c_dim c) sel old) ->
  sane f -> blind f -> exec (run sched1) s = (Ok tt, s1) -> exec (run sched2) s = (Ok tt, s2) ->
  exists M1 M2, represents c M1 I s1 /\ represents c M2 I s2 /\ forall v, M1 v = M2 v.
Proof.
  intros Hr Hs Hu Hfi HP Him Hd Hvar Hsel Hmea Hsa Hbl E1 E2.
  destruct (run_built sched1 _ s1 sel Hr Hs Hu Hfi HP Him Hd Hvar Hsel Hmea Hsa Hbl E1) as (M1 & vs & Hs1 & _ & Hso & Hnd & Hin & Hall & Hg & Hout & _).
  destruct (run_built sched2 _ s2 sel Hr Hs Hu Hfi HP Him Hd Hvar Hsel Hmea Hsa Hbl E2) as (M2 & vs2 & Hs2 & _ & Hso2 & _ & Hin2 & _ & Hg2 & Hout2 & _).
  assert (vs2 = vs) as ->.
  { apply (sorted_rows_unique (length (p_keys (c_part c)))); [done|done| |]; [|intros v; by rewrite Hin, Hin2]. intros v [[d Hv] _]%Hin2. by apply (rp_part _ _ _ _ Hs) in Hv as [? _]. }
  exists M1, M2. split; [done|]. split; [done|]. intros v. destruct (decide (v ∈ vs)) as [Hv|Hv]; [|rewrite Hout, Hout2 by (by rewrite <-Hin); done].
  destruct (Hg v Hv) as (before & old & after & l & Har & _ & _ & Eg & Hmade). destruct (Hg2 v Hv) as (before' & old' & after' & l' & Har' & _ & _ & Eg' & Hmade').
  destruct (around_unique c M (extended variables) depth vs Hnd Hall v _ _ _ _ _ _ Har Har') as (-> & -> & ->).
  rewrite Eg, Eg'. by rewrite (made_unique _ _ _ _ _ _ _ _ _ _ _ _ _ _ (Hmade eq_refl) (Hmade' eq_refl)).
Qed.

(** If the call raises: only the values of variables that the callback returns,
    in the selected partitions, may change. *)
Theorem C53_frame sched r s' sel :
  regular e c -> represents c M I s -> uniform c M I -> filterable c -> (forall v, is_Some (M v) -> says (c_part c) filt v (P v)) ->
  c_immutable c = false -> 0 < depth -> variables <> [] \/ selected = None /\ (forall ds i l, cb_call f ds i = Ok l -> l <> []) ->
  (forall n, wanted sel n <-> wanted selected n \/ n ∈ variables) -> (forall v old, M v = Some old -> P v -> measured (c_dim c) sel old) ->
  sane f -> blind f -> exec (run sched) s = (r, s') ->
  exists M', represents c M' I s' /\ uniform c M' I /\
    (forall v old, M v = Some old -> P v -> exists new, M' v = Some new /\ at_most (returned f) old new) /\
    (forall v, ~ (is_Some (M v) /\ P v) -> M' v = M v) /\
    (forall q, ~ (exists v n, is_Some (M v) /\ P v /\ returned f n /\ under (part_dir c v ++ [n]) q) -> s' !! q = s !! q).
Proof.
  intros Hr Hs Hu Hfi HP Him Hd Hvar Hsel Hmea Hsa Hbl E.
  destruct (run_built sched _ s' sel Hr Hs Hu Hfi HP Him Hd Hvar Hsel Hmea Hsa Hbl E) as (M' & vs & Hs' & Hu' & Hso & Hnd & Hin & Hall & Hg & Hout & Hfr).
  exists M'. split; [done|]. split; [done|]. split; [|done]. intros v old Hold Hp.
  destruct (Hg v) as (before & old' & after & l & (pre & post & _ & Ho & _) & Hf & Hl & Eg & _); [apply Hin; split; [by eexists|done]|].
  assert (old' = old) as -> by congruence. exists (assign_all old l). split; [done|]. destruct (rp_part _ _ _ _ Hs _ _ Hold) as (_ & Hsd & _). apply at_most_assign; [apply Hsd|done|done].
Qed.

(** The call succeeds when one task is asked for, some partition is selected, the
    names of the variables are given and the callback works on the data of each
    selected partition and of its neighbours. *)
Theorem C53_succeeds sched sel :
  regular e c -> represents c M I s -> uniform c M I -> filterable c -> (forall v, is_Some (M v) -> says (c_part c) filt v (P v)) ->
  c_immutable c = false -> c_readonly c = false -> 0 < depth -> variables <> [] -> batches_asked workers npartitions = 1%Z ->
  (forall n, wanted sel n <-> wanted selected n \/ n ∈ variables) -> (forall v old, M v = Some old -> P v -> measured (c_dim c) sel old) ->
  sane f -> blind f -> (exists v, is_Some (M v) /\ P v) ->
  (forall vs pre v post before old after, StronglySorted row_lt vs -> (forall v, v ∈ vs <-> is_Some (M v) /\ P v) -> vs = pre ++ v :: post -> M v = Some old ->
     Forall2 (fun w d => M w = Some d) (drop (length pre - depth) pre) before -> Forall2 (fun w d => M w = Some d) (take depth post) after ->
     works_around (c_dim c) delayed sel trim f before old after) ->
  exists s', exec (run sched) s = (Ok tt, s').
Proof.
  intros Hr Hs Hu Hfi HP Him Hro Hd Hvar Hone Hsel Hmea Hsa Hbl [v0 Hv0] Hw. destruct (select_filter e c Hr M I s filt P Hs Hfi HP) as (vs & Hso & Hin & Esel).
  assert (Hnd : NoDup vs) by (by apply sorted_nodup_rows).
  assert (Hall : forall v, v ∈ vs -> is_Some (M v) /\ forall d, M v = Some d -> measured (c_dim c) (extended variables) d).
  { intros v Hv. apply Hin in Hv as [Hv Hp]. split; [done|]. intros d Ed. apply (measured_wanted _ sel); [|by eapply Hmea]. intros n. symmetry. by apply extended_wanted. }
  destruct (parts_alone e c Hr M I s Hs Hu Him f Hsa delayed (extended variables) trim depth vs Hnd Hall vs Hbl Hnd) with (M1 := M) (s1 := s) as [s' E]; try done.
  { intros v Hv. split; [done|]. intros before old after (pre & post & Evs & Hold & Hb & Ha) ds range Hsee. apply (Hw vs pre v post before old after Hso Hin Evs Hold Hb Ha).
    eapply seen_around_wanted; [|done]. by apply extended_wanted. }
  { intros w. destruct (M w); [apply varies_refl|done]. }
  exists s'. unfold update. rewrite Hro. destruct variables as [|x l] eqn:Ev; [done|]. rewrite exec_bind. cbn [exec pret]. rewrite exec_bind, Esel.
  rewrite (proj2 (Z.ltb_ge _ _)) by lia. rewrite (proj2 (Z.eqb_neq _ _)) by lia. fold (extended (x :: l)). fold (batches_asked workers npartitions). rewrite Hone.
  rewrite exec_bind. cbn [exec]. rewrite single_batch by (intros Hn; apply map_eq_nil in Hn as ->; apply Hin in Hv0; by apply elem_of_nil in Hv0).
  cbn [map]. rewrite exec_bind, single_task, E. done.
Qed.
End C53.
(** A negative depth is refused, and nothing is written. *)
Theorem C53_negative e c M I s sched workers f delayed depth filt npartitions selected trim variables P :
  regular e c -> represents c M I s -> filterable c -> (forall v, is_Some (M v) -> says (c_part c) filt v (P v)) -> c_readonly c = false -> variables <> [] -> (depth < 0)%Z ->
  exec (update e sched workers c f delayed depth filt npartitions selected trim variables) s = (Raise ValueError, s).
Proof.
  intros Hr Hs Hfi HP Hro Hne Hd. destruct (select_filter e c Hr M I s filt P Hs Hfi HP) as (vs & _ & _ & Esel).
  unfold update. rewrite Hro. destruct variables as [|x l]; [done|]. rewrite exec_bind. cbn [exec pret]. rewrite exec_bind, Esel. by rewrite (proj2 (Z.ltb_lt _ _) Hd).
Qed.
Print Assumptions C53_update.
Print Assumptions C53_any_order.
Print Assumptions C53_frame.
Print Assumptions C53_succeeds.
Print Assumptions C53_negative.

(** ** Cases *)

(** The values of a variable are those of another one, in reverse order. *)
Definition backwards (from to : str) : update_callback :=
  Callback false (fun ds _ => match dget (d_vars ds) from with Some v => Ok [(to, Known (Plain (Arr (v_shape v) (rev (a_flat (v_array v))))))] | None => Raise KeyError end).
Lemma backwards_returned from to n : returned (backwards from to) n -> n = to.
Proof. intros (ds & i & l & E & Hn). cbn [backwards cb_call] in E. destruct (dget (d_vars ds) from); [|done]. injection E as <-. by apply elem_of_list_singleton in Hn. Qed.
Lemma backwards_sane from to : sane (backwards from to).
Proof.
  intros ds i l n r Hp E Hin ds' d _ Hd. cbn [backwards cb_call] in E. destruct (dget (d_vars ds) from) as [v|] eqn:Ev; [|done]. injection E as <-.
  apply elem_of_list_singleton in Hin. injection Hin as -> ->. injection Hd as <-. cbn. unfold arr_wf. cbn. rewrite rev_length.
  apply (proper_arrays _ Hp). eapply Storage_Proofs.vals_elem. by apply dget_elem.
Qed.
Lemma backwards_blind from to : from <> to -> blind (backwards from to).
Proof.
  intros N ds ds' i _ _ Hal. assert (dget (d_vars ds') from = dget (d_vars ds) from) as E.
  { specialize (Hal from). destruct (dget (d_vars ds) from) as [v|], (dget (d_vars ds') from) as [v'|]; try done. destruct Hal as (_ & _ & H). f_equal. apply H. by intros ?%backwards_returned. }
  cbn [backwards cb_call]. rewrite E. split; [done|]. intros l n r El Hin. destruct (dget (d_vars ds) from); [|done]. injection El as <-. apply elem_of_list_singleton in Hin. by injection Hin as -> ->.
Qed.
Lemma backwards_written to before old after new z a b v : updated_around (lit "time") true None true (backwards (lit "time") to) before old after new ->
  (forall ds range, seen_around (lit "time") true None before old after ds range -> dget (d_vars ds) (lit "time") = Some (with_delayed (X_time z) true) /\ range = (a, b)) ->
  dget (d_vars old) to = Some v -> v_dims v = [lit "time"] -> plain_times (rev z) ->
  exists v', dget (d_vars new) to = Some v' /\ v' = with_array v (v_array v') /\ records v' (lit "time") = Some (take (b - a) (drop a (map (fun x => Arr [] [Num x]) (rev z)))).
Proof.
  intros (ds & range & l & xs & ys & Hsee & Ecb & Hval & Hkept & Has) Hds Hv Hdims Hpl. destruct (Hds ds range Hsee) as [Ed ->].
  cbn [backwards cb_call cb_info] in Ecb. rewrite Ed in Ecb. injection Ecb as <-.
  inversion Hval as [|? [n x] ? ? [En Ex] Hnil]; subst. inversion Hnil; subst. cbn in En, Ex. subst n. injection Ex as <-.
  unfold kept_values in Hkept. inversion Hkept as [|? [n y] ? ? (En & v0 & ax & Ev0 & Hax & Htr) Hnil']; subst. inversion Hnil'; subst. cbn [fst snd] in *. subst n.
  assert (v0 = v) as -> by congruence. rewrite Hdims in Hax. destruct ax as [|ax]; [|done]. destruct y as [y|]; [|done]. destruct Htr as [_ Hrows]. cbn [fst snd] in Hrows.
  destruct Has as [_ Hrel]. destruct (Assemble_Proofs.related_get _ _ _ to Hrel) as [R _]. destruct (R _ Hv) as (v' & Hv' & H).
  cbn [dget] in H. rewrite decide_True in H by done. destruct H as (y' & -> & ->). eexists. split; [exact Hv'|]. split; [done|].
  rewrite records_index. cbn [v_dims with_array v_array to_store]. rewrite Hdims. change (index_of (lit "time") [lit "time"]) with (Some 0). f_equal. rewrite Hrows. f_equal. f_equal.
  unfold plain_times in Hpl. rewrite records_index in Hpl. change (index_of (lit "time") (v_dims (X_time (rev z)))) with (Some 0) in Hpl. injection Hpl as <-.
  f_equal. cbn. by rewrite rev_length, map_rev.
Qed.
Lemma time_first p1 p2 z1 z2 : dget (d_vars p1) (lit "time") = Some (X_time z1) -> dget (d_vars p2) (lit "time") = Some (X_time z2) -> plain_times z1 -> plain_times z2 -> plain_times (z1 ++ z2) ->
  forall ds range, seen_around (lit "time") true None [] p1 [p2] ds range -> dget (d_vars ds) (lit "time") = Some (with_delayed (X_time (z1 ++ z2)) true) /\ range = (0, length z1).
Proof.
  intros H1 H2 P1 P2 P3 ds range Hsee. destruct (X_around [] [p2] p1 ds range [] z1 [z2] Hsee H1) as [Ed ->]; cbn [concat app]; rewrite ?app_nil_r; try done; repeat constructor; try done.
  cbn [concat app] in Ed. by rewrite app_nil_r in Ed.
Qed.
Lemma time_second p1 p2 z1 z2 : dget (d_vars p1) (lit "time") = Some (X_time z1) -> dget (d_vars p2) (lit "time") = Some (X_time z2) -> plain_times z1 -> plain_times z2 -> plain_times (z1 ++ z2) ->
  forall ds range, seen_around (lit "time") true None [p1] p2 [] ds range -> dget (d_vars ds) (lit "time") = Some (with_delayed (X_time (z1 ++ z2)) true) /\ range = (length z1, length z1 + length z2).
Proof.
  intros H1 H2 P1 P2 P3 ds range Hsee. destruct (X_around [p1] [] p2 ds range [z1] z2 [] Hsee H2) as [Ed ->]; cbn [concat app]; rewrite ?app_nil_r; try done; repeat constructor; try done.
  cbn [concat app] in Ed. by rewrite !app_nil_r in Ed.
Qed.
Lemma backwards_works to before old after z a b v : (forall ds range, seen_around (lit "time") true None before old after ds range -> dget (d_vars ds) (lit "time") = Some (with_delayed (X_time z) true) /\ range = (a, b)) ->
  same_layout (lit "time") (hd old before) old -> dget (d_vars old) to = Some v -> v_dims v = [lit "time"] -> length (v_shape v) = 1 -> works_around (lit "time") true None true (backwards (lit "time") to) before old after.
Proof.
  intros Hds Hlay Hv Hdims Hne ds range Hsee. destruct (Hds ds range Hsee) as [Ed _]. cbn [backwards cb_call]. rewrite Ed. eexists. split; [reflexivity|].
  intros n r Hin. apply elem_of_list_singleton in Hin. injection Hin as -> ->. exists v. eexists. split; [done|]. split; [by destruct (v_shape v)|]. split; [reflexivity|]. rewrite Hdims. split; [left|].
  assert (Hn : to ∈ dkeys (d_vars ds)) by (apply (sa_names _ _ _ _ _ _ _ _ Hsee); split; [done|apply dget_is_Some; by eexists]). apply dget_is_Some in Hn as [w Hw]. exists w. split; [done|].
  cbn [vd_shape a_shape]. destruct (sa_vars _ _ _ _ _ _ _ _ Hsee _ _ Hw) as (vp & Evp & (E1 & L1 & _)). destruct (proj2 Hlay _ _ _ Evp Hv) as (E2 & L2 & _).
  pose proof (proper_consistent _ (sa_proper _ _ _ _ _ _ _ _ Hsee)) as Hc. destruct (Hc _ _ Hw) as (_ & _ & S1). destruct (Hc _ _ Ed) as (_ & _ & S2).
  assert (Hdw : v_dims w = [lit "time"]) by (rewrite E1; cbn; by rewrite <-E2, Hdims).
  destruct (S1 0 (lit "time")) as (m & Hm & Hm'); [by rewrite Hdw|]. destruct (S2 0 (lit "time")) as (k & Hk & Hk'); [done|]. assert (k = m) as -> by congruence.
  assert (Hlen : length (v_shape w) = 1) by (rewrite L1; change (v_shape (with_delayed (stored vp) true)) with (v_shape vp); by rewrite <-L2).
  destruct (v_shape w) as [|m' [|]]; try done. injection Hm as ->. cbn in Hk. by injection Hk as <-.
Qed.
Lemma X_sorted : StronglySorted row_lt [[1%Z]; [2%Z]].
Proof. repeat constructor. by exists [], 1%Z, 2%Z, [], []. Qed.
Lemma times_plain : plain_times [10; 20]%Z /\ plain_times [30]%Z /\ plain_times [10; 20; 30]%Z /\ plain_times [30; 20; 10]%Z /\ plain_times [30; 20]%Z /\ plain_times [30; 20; 30]%Z.
Proof. split_and!; vm_compute; reflexivity. Qed.
(** The neighbours of the two partitions. *)
Lemma X_split M vs pre v post before old after p1 p2 : X_contents M -> M [1%Z] = Some p1 -> M [2%Z] = Some p2 -> StronglySorted row_lt vs -> (forall v, v ∈ vs <-> is_Some (M v) /\ True) -> vs = pre ++ v :: post -> M v = Some old ->
  Forall2 (fun w d => M w = Some d) (drop (length pre - 1) pre) before -> Forall2 (fun w d => M w = Some d) (take 1 post) after ->
  (v = [1%Z] /\ before = [] /\ old = p1 /\ after = [p2]) \/ (v = [2%Z] /\ before = [p1] /\ old = p2 /\ after = []).
Proof.
  intros HM H1 H2 Hso Hin Evs Hold Hb Ha. rewrite (X_keys M vs HM Hso Hin) in Evs. clear Hso Hin.
  destruct pre as [|w [|w' pre]]; cbn in Evs; [injection Evs as <- <-|injection Evs as <- <- <-|injection Evs as _ _ Ep; by destruct pre].
  - left. inversion Hb; subst. inversion Ha as [|? d ? ? Hd Ha']; subst. inversion Ha'; subst. split_and!; try done; [congruence|]. f_equal. congruence.
  - right. inversion Ha; subst. inversion Hb as [|? d ? ? Hd Hb']; subst. inversion Hb'; subst. split_and!; try done; [f_equal|]; congruence.
Qed.
Example C53_case : exists M s s' M' n1 n2 v1 v2, represents Y_coll M None s /\
  exec (update X_env [(0, true); (0, true)] 4 Y_coll (backwards (lit "time") (lit "pass")) true 1 NoFilter (Some 1%Z) None true [lit "pass"]) s = (Ok tt, s') /\
  represents Y_coll M' None s' /\ M' [1%Z] = Some n1 /\ M' [2%Z] = Some n2 /\ dget (d_vars n1) (lit "pass") = Some v1 /\ dget (d_vars n2) (lit "pass") = Some v2 /\
  records v1 (lit "time") = Some [Arr [] [Num 30]; Arr [] [Num 20]] /\ records v2 (lit "time") = Some [Arr [] [Num 10]].
Proof.
  destruct Y_filled as (M & s & Hs & Hu & HM). pose proof HM as (p1 & p2 & H1 & H2 & H3 & _ & Ht1 & Hp1 & _ & _ & Ht2 & Hp2 & _). destruct times_plain as (P1 & P2 & P3 & P4 & _).
  assert (Hmea : forall v old, M v = Some old -> True -> measured (c_dim Y_coll) None old).
  { intros v old Hv _. destruct (decide (v = [1%Z])) as [->|N1].
    - assert (old = p1) as -> by congruence. exists (lit "time"), (X_time [10; 20]%Z). split; [done|]. split; [exact Ht1|left].
    - destruct (decide (v = [2%Z])) as [->|N2]; [|by rewrite H3 in Hv]. assert (old = p2) as -> by congruence.
      exists (lit "time"), (X_time [30]%Z). split; [done|]. split; [exact Ht2|left]. }
  set (f := backwards (lit "time") (lit "pass")). assert (Hbl : blind f) by (apply backwards_blind; discriminate). pose proof (backwards_sane (lit "time") (lit "pass")) as Hsa.
  pose proof (time_first p1 p2 _ _ Ht1 Ht2 P1 P2 P3) as W1. pose proof (time_second p1 p2 _ _ Ht1 Ht2 P1 P2 P3) as W2. cbn [app length Nat.add] in W1, W2.
  destruct (C53_succeeds X_env Y_coll M None s 4 f true 1 NoFilter (Some 1%Z) None true [lit "pass"] (fun _ => True) [(0, true); (0, true)] None) as [s' E].
  { exact Y_regular. } { exact Hs. } { exact Hu. } { exact Y_filterable. } { done. } { reflexivity. } { reflexivity. } { lia. } { discriminate. } { reflexivity. }
  { intros n. cbn. tauto. } { exact Hmea. } { exact Hsa. } { exact Hbl. } { exists [1%Z]. split; [by eexists|done]. }
  { intros vs pre v post before old after Hso Hin Evs Hold Hb Ha. destruct (X_split M vs pre v post before old after p1 p2 HM H1 H2 Hso Hin Evs Hold Hb Ha) as [(-> & -> & -> & ->)|(-> & -> & -> & ->)].
    - eapply backwards_works; [exact W1| |exact Hp1|done|done]. exact (un_layout _ _ _ Hu _ _ _ _ H1 H1).
    - eapply backwards_works; [exact W2| |exact Hp2|done|done]. exact (un_layout _ _ _ Hu _ _ _ _ H1 H2). }
  destruct (C53_update X_env Y_coll M None s 4 f true 1 NoFilter (Some 1%Z) None true [lit "pass"] (fun _ => True) [(0, true); (0, true)] s' None) as (M' & vs & Hs' & _ & _ & Hso & Hin & Hupd & _).
  { exact Y_regular. } { exact Hs. } { exact Hu. } { exact Y_filterable. } { done. } { reflexivity. } { lia. } { left. discriminate. }
  { intros n. cbn. tauto. } { exact Hmea. } { exact Hsa. } { exact Hbl. } { exact E. }
  pose proof (X_keys M vs HM Hso Hin) as Evs.
  destruct (Hupd [] [1%Z] [[2%Z]] [] p1 [p2] Evs H1 ltac:(constructor) ltac:(by repeat constructor)) as (n1 & E1 & U1).
  destruct (Hupd [[1%Z]] [2%Z] [] [p1] p2 [] Evs H2 ltac:(by repeat constructor) ltac:(constructor)) as (n2 & E2 & U2).
  destruct (backwards_written (lit "pass") [] p1 [p2] n1 _ _ _ _ U1 W1 Hp1 eq_refl P4) as (v1 & G1 & _ & R1).
  destruct (backwards_written (lit "pass") [p1] p2 [] n2 _ _ _ _ U2 W2 Hp2 eq_refl P4) as (v2 & G2 & _ & R2).
  exists M, s, s', M', n1, n2, v1, v2. split; [exact Hs|]. split; [exact E|]. split; [exact Hs'|]. split; [exact E1|]. split; [exact E2|]. split; [exact G1|]. split; [exact G2|]. split; [exact R1|exact R2].
Qed.

(** A callback that looks at the values of the variables that it returns: the
    second partition is computed from the new values of the first one. *)
Lemma time_determined d v z z0 : sound d -> dget (d_vars d) (lit "time") = Some v -> v = with_array (X_time z0) (v_array v) -> length z = length z0 -> v_shape v = [length z0] ->
  records v (lit "time") = Some (map (fun x => Arr [] [Num x]) z) -> plain_times z -> v = X_time z.
Proof.
  intros Hso Hv E Hl Hsh Hrec Hpl. apply (Dataset_Main.var_determined [(lit "time", length z)] (lit "time")).
  - intros k n Hk. destruct k as [|k]; cbn in Hk; [|done]. injection Hk as <-. exists (length z). split; [done|]. cbn. by rewrite decide_True.
  - cbn. apply NoDup_singleton.
  - unfold arr_wf. cbn. rewrite map_length. lia.
  - apply (proper_arrays _ (storable_proper _ (sound_storable _ Hso))). eapply Storage_Proofs.vals_elem. by apply dget_elem.
  - split; [rewrite E at 1; done|]. split; [rewrite Hsh; done|]. split; [|intros Hno; exfalso; apply Hno; left].
    intros [|k] Hk; [done|]. rewrite Hsh. done.
  - rewrite Hrec. symmetry. exact Hpl.
Qed.
Theorem C53_reads_refuted : exists e c M s s' M' f old1 old2 new2, regular e c /\ represents c M None s /\ uniform c M None /\ sane f /\
  (forall v, is_Some (M v) <-> v = [1%Z] \/ v = [2%Z]) /\ M [1%Z] = Some old1 /\ M [2%Z] = Some old2 /\
  works_around (c_dim c) true None true f [] old1 [old2] /\ works_around (c_dim c) true None true f [old1] old2 [] /\
  exec (update e [] 4 c f true 1 NoFilter (Some 1%Z) None true [lit "time"]) s = (Ok tt, s') /\
  represents c M' None s' /\ M' [2%Z] = Some new2 /\ ~ updated_around (c_dim c) true None true f [old1] old2 [] new2.
Proof.
  destruct Y_filled as (M & s & Hs & Hu & HM). pose proof HM as (p1 & p2 & H1 & H2 & H3 & _ & Ht1 & Hp1 & _ & _ & Ht2 & Hp2 & _). destruct times_plain as (P1 & P2 & P3 & P4 & P5 & P6).
  set (f := backwards (lit "time") (lit "time")). pose proof (backwards_sane (lit "time") (lit "time")) as Hsa.
  assert (Hkn : forall ds i l n r, cb_call f ds i = Ok l -> (n, r) ∈ l -> exists d, r = Known d).
  { intros ds i l n r E Hin. cbn [f backwards cb_call] in E. destruct (dget (d_vars ds) (lit "time")); [|done]. injection E as <-. apply elem_of_list_singleton in Hin. injection Hin as -> ->. by eexists. }
  assert (Hmea : forall M1, (forall w d, M1 w = Some d -> (w = [1%Z] \/ w = [2%Z]) /\ exists z, dget (d_vars d) (lit "time") = Some (X_time z)) -> forall v, is_Some (M1 v) -> forall d, M1 v = Some d -> measured (c_dim Y_coll) None d).
  { intros M1 H v _ d Hd. destruct (H v d Hd) as (_ & z & Hz). exists (lit "time"), (X_time z). split; [done|]. split; [exact Hz|left]. }
  assert (HM0 : forall w d, M w = Some d -> (w = [1%Z] \/ w = [2%Z]) /\ exists z, dget (d_vars d) (lit "time") = Some (X_time z)).
  { intros w d Hd. destruct (decide (w = [1%Z])) as [->|N1]; [|destruct (decide (w = [2%Z])) as [->|N2]; [|by rewrite H3 in Hd]].
    - split; [by left|]. assert (d = p1) as -> by congruence. by eexists.
    - split; [by right|]. assert (d = p2) as -> by congruence. by eexists. }
  set (vs := [[1%Z]; [2%Z]]). assert (Hnd : NoDup vs) by (apply sorted_nodup_rows, X_sorted).
  pose proof (time_first p1 p2 _ _ Ht1 Ht2 P1 P2 P3) as W1. pose proof (time_second p1 p2 _ _ Ht1 Ht2 P1 P2 P3) as W2. cbn [app length Nat.add] in W1, W2.
  assert (Hall : forall v, v ∈ vs -> is_Some (M v) /\ forall d, M v = Some d -> measured (c_dim Y_coll) None d).
  { intros v Hv. assert (is_Some (M v)) by (unfold vs in Hv; apply elem_of_cons in Hv as [->|Hv]; [by eexists|]; apply elem_of_list_singleton in Hv as ->; by eexists). split; [done|]. by apply Hmea. }
  assert (Hwk1 : works_around (c_dim Y_coll) true None true f [] p1 [p2]).
  { eapply backwards_works; [exact W1| |exact Ht1|done|done]. exact (un_layout _ _ _ Hu _ _ _ _ H1 H1). }
  assert (Hwk2 : works_around (c_dim Y_coll) true None true f [p1] p2 []).
  { eapply backwards_works; [exact W2| |exact Ht2|done|done]. exact (un_layout _ _ _ Hu _ _ _ _ H1 H2). }
  (* the first partition *)
  assert (A1 : around M 1 vs [1%Z] [] p1 [p2]) by (exists [], [[2%Z]]; split; [done|]; split; [exact H1|]; split; by repeat constructor).
  destruct (part_alone X_env Y_coll Y_regular M None s Hs Hu eq_refl f Hsa true None true 1 vs Hnd Hall M s [1%Z] [] p1 [p2]) as (s1 & l1 & E1 & F1 & _ & Hs1 & D1).
  { by apply known_steady. } { exact Hs. } { exact Hu. } { intros w. destruct (M w); [apply varies_refl|done]. } { exact A1. } { done. } { exact Hwk1. }
  destruct (rp_part _ _ _ _ Hs _ _ H1) as (_ & So1 & _). destruct (rp_part _ _ _ _ Hs _ _ H2) as (_ & So2 & _). apply made_updated in D1; [|exact So1].
  set (q1 := assign_all p1 l1) in *. set (M1 := set_part M [1%Z] q1) in *.
  destruct (backwards_written (lit "time") [] p1 [p2] q1 _ _ _ _ D1 W1 Ht1 eq_refl P4) as (v1 & G1 & Ev1 & R1). cbn [rev app map drop take Nat.sub] in R1.
  assert (v1 = X_time [30; 20]%Z) as ->.
  { eapply (time_determined q1 v1 [30; 20]%Z [10; 20]%Z); [by apply assign_sound|exact G1|exact Ev1|done| |exact R1|exact P5].
    assert (Hg : dget (d_vars q1) (lit "time") = Some v1) by exact G1. unfold q1 in Hg. rewrite assign_get, Ht1 in Hg. cbn [option_map] in Hg.
    destruct (dget l1 (lit "time")) as [a|] eqn:Ea; injection Hg as <-; [|done]. destruct (F1 _ _ Ea) as [_ Hsh]. exact (Hsh _ Ht1). }
  (* the second one *)
  assert (K1 : M1 [1%Z] = Some q1) by (unfold M1, set_part; by rewrite decide_True). assert (K2 : M1 [2%Z] = Some p2) by (unfold M1, set_part; rewrite decide_False by discriminate; exact H2).
  assert (Hu1 : uniform Y_coll M1 None) by (by apply uniform_assign).
  assert (HM1 : forall w d, M1 w = Some d -> (w = [1%Z] \/ w = [2%Z]) /\ exists z, dget (d_vars d) (lit "time") = Some (X_time z)).
  { intros w d. unfold M1, set_part. destruct (decide (w = [1%Z])) as [->|N]; [|apply HM0]. intros [= <-]. split; [by left|]. by eexists. }
  assert (Hall1 : forall v, v ∈ vs -> is_Some (M1 v) /\ forall d, M1 v = Some d -> measured (c_dim Y_coll) None d).
  { intros v Hv. assert (is_Some (M1 v)) by (unfold vs in Hv; apply elem_of_cons in Hv as [->|Hv]; [by eexists|]; apply elem_of_list_singleton in Hv as ->; by eexists). split; [done|]. by apply Hmea. }
  pose proof (time_second q1 p2 _ _ G1 Ht2 P5 P2 P6) as W3. cbn [app length Nat.add] in W3.
  assert (A2 : around M1 1 vs [2%Z] [q1] p2 []) by (exists [[1%Z]], []; split; [done|]; split; [exact K2|]; split; by repeat constructor).
  destruct (part_alone X_env Y_coll Y_regular M1 None s1 Hs1 Hu1 eq_refl f Hsa true None true 1 vs Hnd Hall1 M1 s1 [2%Z] [q1] p2 []) as (s2 & l2 & E2 & F2 & _ & Hs2 & D2).
  { by apply known_steady. } { exact Hs1. } { exact Hu1. } { intros w. destruct (M1 w); [apply varies_refl|done]. } { exact A2. } { done. }
  { eapply backwards_works; [exact W3| |exact Ht2|done|done]. exact (un_layout _ _ _ Hu1 _ _ _ _ K1 K2). }
  apply made_updated in D2; [|exact So2]. set (q2 := assign_all p2 l2) in *.
  destruct (backwards_written (lit "time") [q1] p2 [] q2 _ _ _ _ D2 W3 Ht2 eq_refl P6) as (v2 & G2 & _ & R2). cbn [rev app map drop take Nat.sub] in R2.
  exists X_env, Y_coll, M, s, s2, (set_part M1 [2%Z] q2), f, p1, p2, q2.
  split; [exact Y_regular|]. split; [exact Hs|]. split; [exact Hu|]. split; [exact Hsa|].
  split. { intros v. split; [intros [d Hd]; by apply HM0 in Hd as [? _]|intros [->| ->]; by eexists]. }
  split; [exact H1|]. split; [exact H2|]. split; [exact Hwk1|]. split; [exact Hwk2|]. split.
  - destruct (select_filter X_env Y_coll Y_regular M None s NoFilter (fun _ => True) Hs Y_filterable ltac:(done)) as (vs' & Hso' & Hin' & Esel). rewrite (X_keys M vs' HM Hso' Hin') in Esel. fold vs in Esel.
    unfold update. change (c_readonly Y_coll) with false. cbv iota. rewrite exec_bind. cbn [exec pret]. rewrite exec_bind, Esel. change (1 <? 0)%Z with false. change (1 =? 0)%Z with false. cbv iota.
    rewrite exec_bind. cbn [exec]. rewrite single_batch by discriminate. cbn [map]. rewrite exec_bind, single_task. unfold pfor. cbn [map pseq vs]. rewrite exec_bind, exec_bind.
    change (Z.of_nat 1) with 1%Z in E1, E2. unfold vs in E1, E2. cbn [map] in E1, E2. rewrite E1. rewrite !exec_bind. rewrite E2. reflexivity.
  - split; [exact Hs2|]. split; [unfold set_part; by rewrite decide_True|]. intros Hbad.
    destruct (backwards_written (lit "time") [p1] p2 [] q2 _ _ _ _ Hbad W2 Ht2 eq_refl P4) as (v3 & G3 & _ & R3). cbn [rev app map drop take Nat.sub] in R3.
    assert (v3 = v2) as -> by congruence. rewrite R2 in R3. discriminate R3.
Qed.
Print Assumptions C53_reads_refuted.
