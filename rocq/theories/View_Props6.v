(** * Updating the variables of a view with the data of the neighbours *)
From Verif Require Import Py Dict NdArray_Model NdArray_Spec NdArray_Proofs Dataset_Model Dataset_Spec Dataset_Proofs Dataset_Props2 Assemble_Proofs
  Meta_Model PartPath_Model PartPath_Proofs Split_Spec DaskUtils_Model DaskUtils_Proofs FS_Model FS_Proofs Pool_Model Pool_Proofs
  Storage_Model Storage_Spec Storage_Proofs
  Listing_Model Listing_Spec Listing_Proofs Collection_Model Collection_Spec Collection_Proofs Collection_State Collection_Select Collection_Load
  Collection_Example Update_Model Update_Spec Update_State Update_Proofs Update_Example Update_Props Overlap_Proofs UpdateOverlap_Spec UpdateOverlap_Props Validate_Proofs Map_Props
  View_Model View_Spec View_State View_Proofs View_Sync View_Example View_Vars View_Props2 View_Load View_Example2 View_Props3 View_Map View_Props4 View_Update View_Props5 View_Overlap.

Section C74.
Context (v : venv) (w : view) (M : list Z -> option dataset) (I : option dataset) (V : list Z -> option vpart) (s : store).
Local Notation c := (w_ref w).
Local Notation dim := (c_dim c).
Context (Hw : viewable v w) (Hs : represents c M I s) (Hu : uniform c M I) (Hmo : forall x ds, M x = Some ds -> made_of c ds) (Hv : holds_view v w V s).
Context (Hag : forall x ds p, M x = Some ds -> V x = Some p -> agrees ds p) (Hvar : md_vars (w_meta w) <> []).
Context (sel : option (list str)) (Hcov : covers w sel).
Context (filt : filter) (P : list Z -> Prop) (Hf : filt = NoFilter \/ filterable c) (HP : forall x, is_Some (M x) -> says (c_part c) filt x (P x)).
Context (sched : schedule) (workers : Z) (f : update_callback) (npartitions : option Z) (trim : bool) (depth : nat) (Hpos : 0 < depth).
Local Notation run := (view_update v sched workers w f false (Z.of_nat depth) filt npartitions sel trim).
Local Notation held := (Forall2 (fun x d => data_at M V x = Some d)).

  (** All the cases of the call. *)
  Lemma C74_cases : sane f -> ~ returned f CHECKSUM -> exists vs, StronglySorted row_lt vs /\ (forall x, x ∈ vs <-> is_Some (M x) /\ is_Some (V x) /\ P x) /\
    ((vs = [] /\ exec run s = (Ok tt, s)) \/
     ((exists ex, exec run s = (Raise ex, s)) /\ ~ (length vs <> 1 /\ (0 < batches_asked workers npartitions)%Z /\ (forall n, returned f n -> n ∈ dkeys (md_vars (w_meta w))) /\
        (forall ns ds i l, sel = Some ns -> cb_call f ds i = Ok l -> exists n, n ∈ dkeys l /\ n ∈ ns) /\
        forall x old ds i, x ∈ vs -> data_at M V x = Some old -> seen false sel None old ds -> exists l, cb_call f ds i = Ok l)) \/
     length vs <> 1 /\ exists r s' V', exec run s = (r, s') /\ shown v w M I V' s' /\ (forall x, x ∉ vs -> V' x = V x) /\
      (forall x old, x ∈ vs -> V x = Some old -> exists new, V' x = Some new /\ (new = old /\ is_ok r = false \/ exists rv, arel w M V sel f trim depth vs x old new rv /\ (r = Ok tt -> rv = Ok tt))) /\
      (forall ex, r = Raise ex -> exists x old new, x ∈ vs /\ V x = Some old /\ arel w M V sel f trim depth vs x old new (Raise ex)) /\
      forall q, (forall x, x ∈ vs -> ~ vregion_one w f x q) -> s' !! q = s !! q).
  Proof using All.
    intros Hsa Hck. assert (Hsh : shown v w M I V s) by (by split).
    destruct (view_update_call v w M I V s Hw Hmo Hsh Hvar false sel Hcov filt P Hf HP sched workers f (Z.of_nat depth) npartitions trim) as (vs & o_at & Sv & Hnd & Hvs & Hl & Hop & Hrun).
    exists vs. split; [done|]. split; [done|]. cbv zeta in Hrun. destruct vs as [|x vs]; [by left|right].
    destruct Hrun as (m & Em & [(ex & E & Hno)|(l & El & Hnames & _ & Hrun)]).
    - left. split; [by exists ex|]. intros (_ & _ & Hret & _ & Hcall). apply Hno. destruct (Hop x ltac:(left)) as (ds & p & HM & HV & Ho).
      destruct (Hcall x (combined ds p) (o_at x) (if cb_info f then Some (dim, (0, m)) else None)) as [l El]; [left|unfold data_at; by rewrite HM, HV|by apply opens_seen|].
      exists l. split; [done|]. intros n Hn. apply Hret. by exists (o_at x), (if cb_info f then Some (dim, (0, m)) else None), l.
    - destruct (Hrun ltac:(lia)) as [(ex & E & ns & Ens & Hns)|(Hns & Erun)].
      { left. split; [by exists ex|]. intros (_ & _ & _ & Hsel & _). destruct (Hsel ns (o_at x) (if cb_info f then Some (dim, (0, m)) else None) l Ens El) as (n & Hn & Hin). by apply (Hns n). }
      rewrite Erun. fold (batches_asked workers npartitions). clear Erun Hrun.
      destruct (decide (length (x :: vs) = 1)) as [H1|H1].
      + left. split; [|by intros [? _]]. destruct vs; [|done]. clear H1.
        set (one := view_update_overlap w false (Z.of_nat depth) sel trim f (map (vitem w o_at) [x])).
        assert (Eone : forall s1, exec (one (vitem w o_at x)) s1 = (Raise ValueError, s1)).
        { intros s1. unfold one, view_update_overlap. cbv zeta. rewrite exec_bind. cbn [exec map vitem fst snd].
          pose proof (select_overlap_alone w depth [] x [] [] (o_at x) [] Hnd Hl ltac:(by right) eq_refl eq_refl) as Es. cbn [app map zip zip_with] in Es. by rewrite Es. }
        destruct (batches_run v w Hw M I (vitem w o_at) one (fun _ _ => True) (fun _ old new r => new = old /\ r = Raise ValueError) (fun _ _ => False) sched (batches_asked workers npartitions) V s [x])
          as [(ex & E & _)|(r & s' & V' & E & Hs' & _ & Hin & Hex & Hreg)].
        * intros y Hy%elem_of_list_singleton V1 s1 Hs1 Hsome. subst y. destruct (Hsome x ltac:(left)) as (old & Hold & _). exists (Raise ValueError), s1, V1. split; [exact (Eone s1)|].
          split; [exact Hs1|]. split; [done|]. split; [|split; [|done]].
          { intros y old' _ Hy. exists old'. split; [done|]. by left. }
          { intros ex [= <-]. exists x, old, old. split; [left|done]. }
        * intros y ->%elem_of_list_singleton. apply within_around.
        * done.
        * done.
        * done.
        * intros y Hy. destruct (Hop y Hy) as (ds & p & HM & HV & Ho). by exists p.
        * by exists ex.
        * assert (s' = s) as -> by (apply map_eq; intros q; apply Hreg; intros y _ []).
          destruct (Hop x ltac:(left)) as (ds & p & HM & HV & Ho). destruct r as [[]|ex]; [|by exists ex]. exfalso.
          destruct (Hin x p ltac:(left) HV) as (new & _ & [[_ Hr]|(rv & [_ ->] & Hr)]); [discriminate Hr|by specialize (Hr eq_refl)].
      + destruct (batches_run v w Hw M I (vitem w o_at) (view_update_overlap w false (Z.of_nat depth) sel trim f (map (vitem w o_at) (x :: vs))) (apre V) (arel w M V sel f trim depth (x :: vs)) (vregion_one w f) sched (batches_asked workers npartitions) V s (x :: vs)) as [(ex & E & Hn)|H].
        * intros y Hy. by apply (around_does v w Hw M I V s Hsh Hu sel f Hsa Hck Hcov Hmo o_at trim depth Hpos).
        * intros y Hy. apply within_around.
        * done.
        * done.
        * done.
        * intros y Hy. destruct (Hop y Hy) as (ds & p & HM & HV & Ho). by exists p.
        * left. split; [by exists ex|]. intros (_ & Hp & _). specialize (Hn ltac:(done)). lia.
        * by right.
  Qed.

(** A call that succeeds gives, in each partition of the view that the filter
    selects, the values that the callback returns for the data of this partition
    and of its [depth] neighbours on each side, among the selected partitions of
    the view, as they were before the call: also if the callback reads variables
    that it returns, and in whichever order the partitions are written. The
    copies of the axis, the other variables, the other partitions, the reference
    and all the other files do not change. *)
Theorem C74_update s' : sane f -> ~ returned f CHECKSUM -> exec run s = (Ok tt, s') ->
  exists V' vs, represents c M I s' /\ holds_view v w V' s' /\ (forall x ds p, M x = Some ds -> V' x = Some p -> agrees ds p) /\
    StronglySorted row_lt vs /\ (forall x, x ∈ vs <-> is_Some (M x) /\ is_Some (V x) /\ P x) /\
    (forall pre x post before ds old after, vs = pre ++ x :: post -> M x = Some ds -> V x = Some old ->
       held (drop (length pre - depth) pre) before -> held (take depth post) after ->
       exists new, V' x = Some new /\ vp_axis new = vp_axis old /\ updated_around dim false sel trim f before (combined ds old) after (combined ds new)) /\
    (forall x, ~ (is_Some (M x) /\ is_Some (V x) /\ P x) -> V' x = V x) /\
    (forall q, ~ (exists x n, is_Some (M x) /\ is_Some (V x) /\ P x /\ returned f n /\ under (vdir w x ++ [n]) q) -> s' !! q = s !! q).
Proof using All.
  intros Hsa Hck E. destruct (C74_cases Hsa Hck) as (vs & Sv & Hvs & [[-> E']|[[(ex & E') _]|(_ & r & s1 & V' & E' & Hs' & Hout & Hin & _ & Hreg)]]); rewrite E in E'; [|done|].
  - injection E' as ->. exists V, []. split; [done|]. split; [done|]. split; [done|]. split; [done|]. split; [done|]. split; [|done]. intros pre x post before ds old after Evs. by destruct pre.
  - injection E' as <- <-. destruct Hs' as [H1 H2 H3]. exists V', vs. split; [done|]. split; [done|]. split; [done|]. split; [done|]. split; [done|]. split; [|split].
    + intros pre x post before ds old after Evs HM HV Hb Ha. destruct (Hin x old) as (new & En & [[_ ?]|(rv & (Hax & Hrel) & Hrv)]); [rewrite Evs; apply elem_of_app; right; left|done|done|].
      exists new. split; [done|]. split; [done|]. rewrite (Hrv eq_refl) in Hrel. destruct (Hrel ds HM) as [_ Hup]. by apply (Hup pre post).
    + intros x Hx. apply Hout. by rewrite Hvs.
    + intros q Hq. apply Hreg. intros x Hx (n & Hn & Un). apply Hq. exists x, n. apply Hvs in Hx as (? & ? & ?). done.
Qed.

(** Whatever the callback does, and if the call raises: only the values of
    variables that the callback returns, in the selected partitions of the view,
    may change; the reference does not. *)
Theorem C74_frame r s' : sane f -> ~ returned f CHECKSUM -> exec run s = (r, s') ->
  exists V', represents c M I s' /\ holds_view v w V' s' /\
    (forall x ds old, M x = Some ds -> V x = Some old -> P x -> exists new, V' x = Some new /\ vp_axis new = vp_axis old /\ at_most (returned f) (combined ds old) (combined ds new)) /\
    (forall x, ~ (is_Some (M x) /\ is_Some (V x) /\ P x) -> V' x = V x) /\
    (forall q, ~ (exists x n, is_Some (M x) /\ is_Some (V x) /\ P x /\ returned f n /\ under (vdir w x ++ [n]) q) -> s' !! q = s !! q).
Proof using All.
  intros Hsa Hck E.
  assert (Hsame : forall x ds old, M x = Some ds -> V x = Some old -> at_most (returned f) (combined ds old) (combined ds old)).
  { intros x ds old HM HV. apply at_most_refl.
    destruct (data_sound v w M I V s Hw Hs Hmo Hv Hag sel Hcov x (combined ds old)) as (_ & Hso & _); [unfold data_at; by rewrite HM, HV|]. apply Hso. }
  destruct (C74_cases Hsa Hck) as (vs & _ & Hvs & [[-> E']|[[(ex & E') _]|(_ & r' & s1 & V' & E' & Hs' & Hout & Hin & _ & Hreg)]]); rewrite E in E'.
  - injection E' as -> ->. exists V. split; [done|]. split; [done|]. split; [|done]. intros x ds old HM HV _. exists old. split; [done|]. split; [done|]. by apply (Hsame x).
  - injection E' as -> ->. exists V. split; [done|]. split; [done|]. split; [|done]. intros x ds old HM HV _. exists old. split; [done|]. split; [done|]. by apply (Hsame x).
  - injection E' as <- <-. destruct Hs' as [H1 H2 H3]. exists V'. split; [done|]. split; [done|]. split; [|split].
    + intros x ds old HM HV Hp. destruct (Hin x old) as (new & En & Hcase); [apply Hvs; eauto|done|]. exists new. split; [done|].
      destruct Hcase as [[-> _]|(rv & (Hax & Hrel) & _)]; [split; [done|]; by apply (Hsame x)|]. split; [done|]. by apply (Hrel ds HM).
    + intros x Hx. apply Hout. by rewrite Hvs.
    + intros q Hq. apply Hreg. intros x Hx (n & Hn & Un). apply Hq. exists x, n. apply Hvs in Hx as (? & ? & ?). done.
Qed.

(** The call succeeds if the filter does not select exactly one partition and the
    callback works on each partition with its neighbours, returns only variables
    of the view, at least one of those that are read, and never raises on
    the data of one partition. *)
Theorem C74_succeeds : sane f -> (forall n, returned f n -> n ∈ dkeys (md_vars (w_meta w))) -> (0 < batches_asked workers npartitions)%Z ->
  (forall ns ds i l, sel = Some ns -> cb_call f ds i = Ok l -> exists n, n ∈ dkeys l /\ n ∈ ns) ->
  (forall x old ds i, data_at M V x = Some old -> P x -> seen false sel None old ds -> exists l, cb_call f ds i = Ok l) ->
  exists vs, StronglySorted row_lt vs /\ (forall x, x ∈ vs <-> is_Some (M x) /\ is_Some (V x) /\ P x) /\
    (length vs <> 1 ->
     (forall pre x post before old after, vs = pre ++ x :: post -> data_at M V x = Some old -> held (drop (length pre - depth) pre) before -> held (take depth post) after ->
        works_around dim false sel trim f before old after) ->
     exists s', exec run s = (Ok tt, s')).
Proof using All.
  intros Hsa Hret Hnp Hsel Hcall.
  assert (Hck : ~ returned f CHECKSUM).
  { intros H. apply Hret in H. apply dget_is_Some in H as [mv Hmv]. by destruct (vw_vars _ _ Hw _ _ Hmv) as (_ & ? & _). }
  destruct (C74_cases Hsa Hck) as (vs & Sv & Hvs & Hcases). exists vs. split; [done|]. split; [done|]. intros Hone Hwk.
  destruct Hcases as [[_ E']|[[_ Hno]|(_ & r & s1 & V' & E' & _ & _ & _ & Hex & _)]].
  - by exists s.
  - exfalso. apply Hno. split; [done|]. split; [done|]. split; [done|]. split; [done|]. intros x old ds i Hx Hd Hsee. apply (Hcall x old); [done|by apply Hvs|done].
  - destruct r as [[]|ex]; [by exists s1|]. exfalso. destruct (Hex ex eq_refl) as (x & old & new & Hx & HV & (_ & Hrel)). pose proof Hx as ([ds HM] & _ & Hp)%Hvs.
    destruct (Hrel ds HM) as [_ Hr]. apply elem_of_list_split in Hx as (pre & post & Evs).
    assert (Hheld : forall ys, (forall y, y ∈ ys -> y ∈ vs) -> exists ds, held ys ds).
    { clear -Hvs. intros ys Hys. induction ys as [|y ys IH]; [by exists []|]. destruct IH as [ds Hds]; [intros z Hz; apply Hys; by right|].
      destruct (proj1 (Hvs y) (Hys y ltac:(left))) as ([d Hd] & [p Hp] & _). exists (combined d p :: ds). constructor; [|done]. unfold data_at. by rewrite Hd, Hp. }
    destruct (Hheld (drop (length pre - depth) pre)) as [before Hb].
    { intros y (i & Hi)%elem_of_list_lookup_1. rewrite lookup_drop in Hi. apply elem_of_list_lookup_2 in Hi. rewrite Evs. apply elem_of_app. by left. }
    destruct (Hheld (take depth post)) as [after Ha].
    { intros y (i & Hi & _)%elem_of_take. apply elem_of_list_lookup_2 in Hi. rewrite Evs. apply elem_of_app. right. by right. }
    apply (Hr pre post before after Evs Hb Ha Hret). apply (Hwk pre x post); try done. unfold data_at. by rewrite HM, HV.
Qed.

(** If the filter selects exactly one partition, the call raises and changes
    nothing, whatever the callback. *)
Theorem C72_update_refuted : sane f -> ~ returned f CHECKSUM -> exists vs, StronglySorted row_lt vs /\ (forall x, x ∈ vs <-> is_Some (M x) /\ is_Some (V x) /\ P x) /\
  (length vs = 1 -> exists ex, exec run s = (Raise ex, s)).
Proof using All.
  intros Hsa Hck. destruct (C74_cases Hsa Hck) as (vs & Sv & Hvs & Hcases). exists vs. split; [done|]. split; [done|]. intros H1.
  destruct Hcases as [[-> _]|[[H _]|(? & _)]]; done.
Qed.
End C74.
Print Assumptions C74_update.
Print Assumptions C74_frame.
Print Assumptions C74_succeeds.
Print Assumptions C72_update_refuted.

(** The order in which the batches run changes nothing, nor what they leave. *)
Lemma batches_any_order {A} v w (Hw : viewable v w) (item : list Z -> A) (one : A -> program unit) sched1 sched2 n s vs :
  (forall x, x ∈ vs -> within (under (c_dir (w_ref w))) (under (vdir w x)) (one (item x))) -> NoDup vs -> (forall x, x ∈ vs -> length x = length (p_keys (c_part (w_ref w)))) ->
  exec (in_batches sched1 n (map item vs) one) s = exec (in_batches sched2 n (map item vs) one) s.
Proof.
  intros Hwi Hnd Hlen. unfold in_batches. rewrite !exec_bind. cbn [exec]. destruct (split_sequence (map item vs) (Some n)) as [batches|ex] eqn:Eb; [|done].
  apply split_map in Eb as (bs & _ & -> & Hcat).
  set (task := fun b => pfor (map item b) one).
  assert (Etask : map (fun b => pfor b one) (map (map item) bs) = map task bs) by (by rewrite map_map).
  rewrite Etask, !exec_bind.
  assert (H : forall sched, exec (execute_transaction CTorn sched (map task bs)) s = (first_error (exec_all (map task bs) s).1, (exec_all (map task bs) s).2)).
  { intros sched. apply (view_transaction v w Hw); [by rewrite Hcat|by rewrite Hcat|]. intros b Hb. apply within_pfor. intros q Hq. apply elem_of_list_In, in_map_iff in Hq as (x & <- & Hx). eapply within_impl; [| |apply Hwi]; [done| |].
    - intros q Hq. apply Exists_exists. exists x. split; [by apply elem_of_list_In|exact Hq].
    - rewrite <-Hcat. apply elem_of_list_In, in_concat. exists b. split; [by apply elem_of_list_In|done]. }
  by rewrite !H.
Qed.
Theorem C74_any_order v w M I V s sched1 sched2 workers f delayed depth filt P npartitions sel trim :
  viewable v w -> represents (w_ref w) M I s -> (forall x ds, M x = Some ds -> made_of (w_ref w) ds) -> holds_view v w V s ->
  (forall x ds p, M x = Some ds -> V x = Some p -> agrees ds p) -> covers w sel -> filt = NoFilter \/ filterable (w_ref w) ->
  (forall x, is_Some (M x) -> says (c_part (w_ref w)) filt x (P x)) -> depth = 0%Z \/ delayed = false ->
  exec (view_update v sched1 workers w f delayed depth filt npartitions sel trim) s = exec (view_update v sched2 workers w f delayed depth filt npartitions sel trim) s.
Proof.
  intros Hw Hs Hmo Hv Hag Hcov Hf HP Hcase.
  destruct (load_list_ok v w M I V s Hw Hs Hmo Hv Hag delayed sel Hcov filt P Hf HP) as (vs & olds & os & Sv & Hvs & Hl & Ho & Hop & E).
  assert (Hnd : NoDup vs) by (by apply sorted_nodup_rows).
  assert (L1 : length vs = length olds) by (by eapply Forall2_length). assert (L2 : length olds = length os) by (by eapply Forall2_length).
  destruct (zip_fun (Dataset [] [] [] [] 0 false) vs Hnd os ltac:(lia)) as [o_at ->].
  assert (El : zip (map (zip (p_keys (c_part (w_ref w)))) vs) (zip (map o_at vs) (map (key_dirs (c_part (w_ref w))) vs)) = map (vitem w o_at) vs).
  { clear. induction vs as [|x vs IH]; [done|]. cbn [map zip zip_with]. f_equal. exact IH. }
  rewrite El in E. unfold view_update. rewrite !exec_bind. cbn [exec]. destruct (assert_have_variables w); [|done]. rewrite !exec_bind, E.
  destruct vs as [|x vs]; [done|]. cbn [map]. cbv zeta. rewrite !exec_bind. cbn [exec].
  destruct (dget _ _) as [m|]; [|done]. destruct (call_dict _) as [r|]; [|done]. rewrite !exec_bind. cbn [exec]. destruct (traverse _ _); [|done]. rewrite !exec_bind. cbn [exec].
  set (n := match npartitions with Some n => _ | None => _ end).
  assert (Hb : forall one, (forall x', x' ∈ x :: vs -> within (under (c_dir (w_ref w))) (under (vdir w x')) (one (vitem w o_at x'))) -> exec (in_batches sched1 n (map (vitem w o_at) (x :: vs)) one) s = exec (in_batches sched2 n (map (vitem w o_at) (x :: vs)) one) s).
  { intros one Hwi. by apply (batches_any_order v w Hw (vitem w o_at) one sched1 sched2 n s (x :: vs)). }
  destruct (depth =? 0)%Z eqn:Ed.
  - apply (Hb (view_update_one w delayed sel f)). intros y Hy. apply within_view_one.
  - destruct Hcase as [->| ->]; [done|]. destruct (match sel with None => false | Some s0 => _ end); [done|]. destruct (depth <? 0)%Z eqn:Ed2; [done|].
    apply (Hb (view_update_overlap w false depth sel trim f (map (vitem w o_at) (x :: vs)))). intros y Hy. replace depth with (Z.of_nat (Z.to_nat depth)) by lia. apply within_around.
Qed.
Print Assumptions C74_any_order.

(** A negative depth is refused before anything is written. *)
Theorem C74_negative v w M I V s sched workers f delayed depth filt P npartitions sel trim :
  viewable v w -> represents (w_ref w) M I s -> (forall x ds, M x = Some ds -> made_of (w_ref w) ds) -> holds_view v w V s ->
  (forall x ds p, M x = Some ds -> V x = Some p -> agrees ds p) -> covers w sel -> filt = NoFilter \/ filterable (w_ref w) ->
  (forall x, is_Some (M x) -> says (c_part (w_ref w)) filt x (P x)) -> (depth < 0)%Z -> (exists x, is_Some (M x) /\ is_Some (V x) /\ P x) ->
  exists ex, exec (view_update v sched workers w f delayed depth filt npartitions sel trim) s = (Raise ex, s).
Proof.
  intros Hw Hs Hmo Hv Hag Hcov Hf HP Hd [y Hy].
  destruct (load_list_ok v w M I V s Hw Hs Hmo Hv Hag delayed sel Hcov filt P Hf HP) as (vs & olds & os & Sv & Hvs & Hl & Ho & Hop & E).
  apply Hvs in Hy. unfold view_update. rewrite !exec_bind. cbn [exec]. destruct (assert_have_variables w) as [|ex]; [|by exists ex]. rewrite !exec_bind, E.
  destruct vs as [|x vs]; [by apply elem_of_nil in Hy|]. inversion Ho as [|? old ? olds' Hx Ho']; subst. inversion Hop as [|? o ? os' Hox Hop']; subst. cbn [map zip zip_with]. clear E Hop Ho Hop' Ho'. cbv zeta. rewrite !exec_bind. cbn [exec].
  destruct (dget _ _) as [m|]; [|by eexists]. destruct (call_dict _) as [r|]; [|by eexists]. rewrite !exec_bind. cbn [exec]. destruct (traverse _ _); [|by eexists]. rewrite !exec_bind. cbn [exec].
  rewrite (proj2 (Z.eqb_neq _ _)) by lia. destruct (match sel with None => false | Some s0 => _ end); [by eexists|]. rewrite (proj2 (Z.ltb_lt _ _)) by lia. by eexists.
Qed.
Print Assumptions C74_negative.

(** ** A case: the speeds in reverse order, which both partitions read and write. *)
Section case.
  Context (dl : bool) (d1 d2 : dataset) (Hn1 : dget (d_vars d1) (lit "speed") = None) (Hn2 : dget (d_vars d2) (lit "speed") = None).
  Local Notation c1 := (combined d1 (U_part [10; 20]%Z [1; 2; 3; 4]%Z)).
  Local Notation c2 := (combined d2 (U_part [30]%Z [5; 6]%Z)).
  Local Notation rec1 := [Arr [2] [Num 1; Num 2]; Arr [2] [Num 3; Num 4]].
  Local Notation rec2 := [Arr [2] [Num 5; Num 6]].
  Lemma speed_1 : dget (d_vars c1) (lit "speed") = Some (with_delayed (U_var [1; 2; 3; 4]%Z) (d_delayed d1)).
  Proof using Hn1. by rewrite part_get, Hn1. Qed.
  Lemma speed_2 : dget (d_vars c2) (lit "speed") = Some (with_delayed (U_var [5; 6]%Z) (d_delayed d2)).
  Proof using Hn2. by rewrite part_get, Hn2. Qed.
  Lemma recs_1 b : records (with_delayed (U_var [1; 2; 3; 4]%Z) b) (lit "time") = Some rec1.
  Proof using. reflexivity. Qed.
  Lemma recs_2 b : records (with_delayed (U_var [5; 6]%Z) b) (lit "time") = Some rec2.
  Proof using. reflexivity. Qed.
  Lemma speed_all before old after ds range : before = [] /\ old = c1 /\ after = [c2] \/ before = [c1] /\ old = c2 /\ after = [] ->
    seen_around (lit "time") dl None before old after ds range ->
    dget (d_vars ds) (lit "speed") = Some (with_delayed (U_var [1; 2; 3; 4; 5; 6]%Z) dl) /\ range = match before with [] => (0, 2) | _ => (2, 3) end.
  Proof using All.
    intros Hcase Hsee.
    assert (Hold : exists zs b, dget (d_vars old) (lit "speed") = Some (with_delayed (U_var zs) b)) by (destruct Hcase as [(-> & -> & ->)|(-> & -> & ->)]; [rewrite speed_1|rewrite speed_2]; by do 2 eexists).
    destruct Hold as (zo & bo & Hold).
    assert (Hin : lit "speed" ∈ dkeys (d_vars ds)) by (apply (sa_names _ _ _ _ _ _ _ _ Hsee); split; [done|apply dget_is_Some; by eexists]).
    apply dget_is_Some in Hin as [v' Hv']. destruct (sa_vars _ _ _ _ _ _ _ _ Hsee _ _ Hv') as (v & Hv & Hsame).
    assert (v = with_delayed (U_var [1; 2; 3; 4]%Z) (d_delayed d1)) as ->.
    { destruct Hcase as [(-> & -> & ->)|(-> & -> & ->)]; cbn [hd] in Hv; rewrite speed_1 in Hv; by injection Hv. }
    destruct (sa_records _ _ _ _ _ _ _ _ Hsee _ _ _ Hv' Hold ltac:(left)) as (brs & rs & ars & Hbr & Hrs & Har & Hr' & ->).
    assert (Hj : mjoin brs ++ rs ++ mjoin ars = rec1 ++ rec2 /\ (length (mjoin brs), length (mjoin brs) + length rs) = match before with [] => (0, 2) | _ => (2, 3) end).
    { destruct Hcase as [(-> & -> & ->)|(-> & -> & ->)].
      - inversion Hbr; subst. inversion Har as [|? r ? rss' (a & Ha & Hra) Har']; subst. inversion Har'; subst. rewrite speed_2 in Ha. injection Ha as <-. rewrite recs_2 in Hra. injection Hra as <-.
        assert (Eo : with_delayed (U_var zo) bo = with_delayed (U_var [1; 2; 3; 4]%Z) (d_delayed d1)) by (rewrite speed_1 in Hold; congruence). rewrite Eo, recs_1 in Hrs. injection Hrs as <-. done.
      - inversion Har; subst. inversion Hbr as [|? r ? rss' (a & Ha & Hra) Hbr']; subst. inversion Hbr'; subst. rewrite speed_1 in Ha. injection Ha as <-. rewrite recs_1 in Hra. injection Hra as <-.
        assert (Eo : with_delayed (U_var zo) bo = with_delayed (U_var [5; 6]%Z) (d_delayed d2)) by (rewrite speed_2 in Hold; congruence). rewrite Eo, recs_2 in Hrs. injection Hrs as <-. done. }
    destruct Hj as [Hj Hr]. split; [|exact Hr]. rewrite Hj in Hr'. rewrite Hv'. f_equal. clear Hj Hr.
    assert (Hwf : arr_wf (v_array v')) by (apply (proper_arrays _ (sa_proper _ _ _ _ _ _ _ _ Hsee)); eapply Storage_Proofs.vals_elem; by apply dget_elem).
    apply (Dataset_Main.var_determined [(lit "time", 3); (lit "x", 2)] (lit "time")).
    - intros [|[|k]] d Hk; cbn in Hk; [| |done]; injection Hk as <-; [exists 3|exists 2]; split; reflexivity.
    - apply (bool_decide_unpack _). vm_compute. done.
    - reflexivity.
    - exact Hwf.
    - destruct Hsame as (E & L & K & N). split; [|split; [|split]].
      + rewrite E. done.
      + rewrite L. done.
      + intros [|[|k]] Hk; [done| |]; rewrite K; done.
      + intros Hno. exfalso. apply Hno. left.
    - rewrite Hr'. reflexivity.
  Qed.
  Lemma speed_works before old after : before = [] /\ old = c1 /\ after = [c2] \/ before = [c1] /\ old = c2 /\ after = [] ->
    works_around (lit "time") dl None true (backwards (lit "speed") (lit "speed")) before old after.
  Proof using All.
    intros Hcase ds range Hsee. destruct (speed_all before old after ds range Hcase Hsee) as [Ed _]. cbn [backwards cb_call]. rewrite Ed. eexists. split; [reflexivity|].
    intros n r Hin. apply elem_of_list_singleton in Hin. injection Hin as -> ->.
    assert (Hold : exists zs b, dget (d_vars old) (lit "speed") = Some (with_delayed (U_var zs) b)) by (destruct Hcase as [(-> & -> & ->)|(-> & -> & ->)]; [rewrite speed_1|rewrite speed_2]; by do 2 eexists).
    destruct Hold as (zo & bo & Hold). eexists _, _. split; [exact Hold|]. split; [discriminate|]. split; [reflexivity|]. split; [left|]. eexists. split; [exact Ed|]. reflexivity.
  Qed.
  Lemma speed_written before old after new : before = [] /\ old = c1 /\ after = [c2] \/ before = [c1] /\ old = c2 /\ after = [] ->
    updated_around (lit "time") dl None true (backwards (lit "speed") (lit "speed")) before old after new ->
    exists v', dget (d_vars new) (lit "speed") = Some v' /\
      records v' (lit "time") = Some (match before with [] => [Arr [2] [Num 6; Num 5]; Arr [2] [Num 4; Num 3]] | _ => [Arr [2] [Num 2; Num 1]] end).
  Proof using All.
    intros Hcase (ds & range & l & xs & ys & Hsee & Ecb & Hval & Hkept & Has). destruct (speed_all before old after ds range Hcase Hsee) as [Ed ->].
    cbn [backwards cb_call cb_info] in Ecb. rewrite Ed in Ecb. injection Ecb as <-.
    inversion Hval as [|? [n x] ? ? [En Ex] Hnil]; subst. inversion Hnil; subst. cbn [fst snd] in En, Ex. subst n. injection Ex as <-.
    unfold kept_values in Hkept. inversion Hkept as [|? [n y] ? ? (En & v0 & ax & Ev0 & Hax & Htr) Hnil']; subst. inversion Hnil'; subst. cbn [fst snd] in *. subst n.
    assert (Hold : exists zs b, dget (d_vars old) (lit "speed") = Some (with_delayed (U_var zs) b)) by (destruct Hcase as [(-> & -> & ->)|(-> & -> & ->)]; [rewrite speed_1|rewrite speed_2]; by do 2 eexists).
    destruct Hold as (zo & bo & Hold). assert (Ev1 : dget (d_vars old) (lit "speed") = Some v0) by exact Ev0. rewrite Hold in Ev1. assert (v0 = with_delayed (U_var zo) bo) as -> by congruence. clear Ev1.
    assert (ax = 0) as -> by (destruct ax as [|[|ax]]; [done|discriminate Hax|discriminate Hax]). destruct y as [y|]; [|done]. destruct Htr as [_ Hrows]. cbn [fst snd] in Hrows.
    destruct Has as [_ Hrel]. destruct (Assemble_Proofs.related_get _ _ _ (lit "speed") Hrel) as [R _]. destruct (R _ Hold) as (v' & Hv' & H).
    cbn [dget] in H. rewrite decide_True in H by done. destruct H as (y' & -> & ->). eexists. split; [exact Hv'|].
    rewrite records_index. cbn [v_dims with_array v_array to_store with_delayed U_var]. change (index_of (lit "time") [lit "time"; lit "x"]) with (Some 0). f_equal. rewrite Hrows. by destruct before.
  Qed.
End case.

Example C74_case : exists s s' M V' p1 p2 d1 d2 v1 v2, represents Y_coll M None s /\ holds_view W_env W_view U_parts s /\
  exec (view_update W_env [(0, true); (1, false)] 4 W_view (backwards (lit "speed") (lit "speed")) false 1 NoFilter None None true) s = (Ok tt, s') /\
  represents Y_coll M None s' /\ holds_view W_env W_view V' s' /\ M [1%Z] = Some d1 /\ M [2%Z] = Some d2 /\ V' [1%Z] = Some p1 /\ V' [2%Z] = Some p2 /\
  dget (d_vars (combined d1 p1)) (lit "speed") = Some v1 /\ dget (d_vars (combined d2 p2)) (lit "speed") = Some v2 /\
  records v1 (lit "time") = Some [Arr [2] [Num 6; Num 5]; Arr [2] [Num 4; Num 3]] /\ records v2 (lit "time") = Some [Arr [2] [Num 2; Num 1]].
Proof.
  destruct U_filled as (M & s & Hs & Hu & HM & Hmo & Hv & Hag & _).
  pose proof HM as (d1 & d2 & H1 & H2 & H3 & _).
  set (f := backwards (lit "speed") (lit "speed")). pose proof (backwards_sane (lit "speed") (lit "speed")) as Hsa.
  assert (Hret : forall n, returned f n -> n ∈ dkeys (md_vars (w_meta W_view))) by (intros n ->%backwards_returned; left).
  assert (Hck : ~ returned f CHECKSUM) by (intros H; by apply backwards_returned in H).
  assert (HP : forall x, is_Some (M x) -> says (c_part (w_ref W_view)) NoFilter x True) by done.
  assert (Hno : forall x d, M x = Some d -> dget (d_vars d) (lit "speed") = None).
  { intros x d Hd. destruct (dget (d_vars d) (lit "speed")) as [a|] eqn:Ea; [|done]. apply (mo_only _ _ (Hmo _ _ Hd)) in Ea as [_ Ha]. apply is_Some_alt in Ha. vm_compute in Ha. done. }
  pose proof (Hno _ _ H1) as N1. pose proof (Hno _ _ H2) as N2.
  set (c1 := combined d1 (U_part [10; 20]%Z [1; 2; 3; 4]%Z)). set (c2 := combined d2 (U_part [30]%Z [5; 6]%Z)).
  assert (D1 : data_at M U_parts [1%Z] = Some c1) by (unfold data_at; by rewrite H1). assert (D2 : data_at M U_parts [2%Z] = Some c2) by (unfold data_at; by rewrite H2).
  destruct (C74_succeeds W_env W_view M None U_parts s W_viewable Hs Hu Hmo Hv Hag ltac:(discriminate) None Logic.I NoFilter (fun _ => True) ltac:(by left) HP
    [(0, true); (1, false)] 4 f None true 1 ltac:(lia) Hsa Hret ltac:(reflexivity)) as (vs & Sv & Hvs & Hsucc).
  { discriminate. }
  { intros x old ds i (d & p & Hd & Hp & ->)%data_at_some _ Hsn. cbn [f backwards cb_call].
    assert (exists a, dget (d_vars ds) (lit "speed") = Some a) as [a ->]; [|by eexists].
    assert (exists a, dget (d_vars (combined d p)) (lit "speed") = Some a) as [a Ha].
    { rewrite part_get, (Hno _ _ Hd). unfold U_parts in Hp. destruct (decide (x = [1%Z])); [injection Hp as <-; by eexists|]. destruct (decide (x = [2%Z])); [injection Hp as <-; by eexists|done]. }
    eexists. apply (se_vars _ _ _ _ _ Hsn). split; [done|]. exists a. split; [by left|reflexivity]. }
  pose proof (U_keys M vs HM Sv Hvs) as Evs.
  destruct Hsucc as [s' E].
  { by rewrite Evs. }
  { intros pre x post before old after Ep Hold Hb Ha. apply (speed_works false d1 d2 N1 N2). rewrite Evs in Ep. clear -Ep Hold Hb Ha D1 D2. subst c1 c2.
    destruct pre as [|y [|y' pre]]; cbn in Ep; [injection Ep as <- <-|injection Ep as <- <- <-|injection Ep as _ _ Ep; by destruct pre].
    - left. inversion Hb; subst. inversion Ha as [|? d ? ? Hd Ha']; subst. inversion Ha'; subst. split; [done|]. split; [congruence|]. f_equal. congruence.
    - right. inversion Ha; subst. inversion Hb as [|? d ? ? Hd Hb']; subst. inversion Hb'; subst. split; [f_equal; congruence|]. split; [congruence|done]. }
  destruct (C74_update W_env W_view M None U_parts s W_viewable Hs Hu Hmo Hv Hag ltac:(discriminate) None Logic.I NoFilter (fun _ => True) ltac:(by left) HP
    [(0, true); (1, false)] 4 f None true 1 ltac:(lia) s' Hsa Hck E) as (V' & vs' & Hs' & Hv' & _ & Sv' & Hvs' & Hupd & _).
  pose proof (U_keys M vs' HM Sv' Hvs') as Evs'.
  destruct (Hupd [] [1%Z] [[2%Z]] [] d1 _ [c2] Evs' H1 eq_refl ltac:(constructor) ltac:(by repeat constructor)) as (p1 & E1 & _ & U1).
  destruct (Hupd [[1%Z]] [2%Z] [] [c1] d2 _ [] Evs' H2 eq_refl ltac:(by repeat constructor) ltac:(constructor)) as (p2 & E2 & _ & U2).
  destruct (speed_written false d1 d2 N1 N2 [] _ [c2] _ ltac:(by left) U1) as (v1 & G1 & R1).
  destruct (speed_written false d1 d2 N1 N2 [c1] _ [] _ ltac:(by right) U2) as (v2 & G2 & R2).
  exists s, s', M, V', p1, p2, d1, d2, v1, v2. split; [exact Hs|]. split; [exact Hv|]. split; [exact E|]. split; [exact Hs'|]. split; [exact Hv'|]. split; [exact H1|]. split; [exact H2|]. split; [exact E1|]. split; [exact E2|].
  split; [exact G1|]. split; [exact G2|]. split; [exact R1|exact R2].
Qed.
