(** * Updating the variables of a view with the data of the neighbours, which the tasks read while the others write *)
From Verif Require Import Py Dict NdArray_Model NdArray_Spec NdArray_Proofs Dataset_Model Dataset_Spec Dataset_Proofs Dataset_Props2 Assemble_Proofs
  Meta_Model PartPath_Model PartPath_Proofs Split_Spec DaskUtils_Model DaskUtils_Proofs FS_Model FS_Proofs Pool_Model Pool_Proofs
  Storage_Model Storage_Spec Storage_Proofs Storage_Change
  Listing_Model Listing_Spec Listing_Proofs Collection_Model Collection_Spec Collection_Proofs Collection_State Collection_Select Collection_Load
  Collection_Example Update_Model Update_Spec Update_State Update_Proofs Update_Example Update_Props Overlap_Proofs UpdateOverlap_Spec UpdateOverlap_Proofs UpdateOverlap_Props Validate_Proofs Map_Props
  View_Model View_Spec View_State View_Proofs View_Sync View_Example View_Vars View_Props2 View_Load View_Example2 View_Props3 View_Map View_Props4 View_Update View_Props5 View_Overlap View_Props6 View_Rely.

Section C75.
Context (v : venv) (w : view) (M : list Z -> option dataset) (I : option dataset) (V : list Z -> option vpart) (s : store).
Local Notation c := (w_ref w).
Local Notation dim := (c_dim c).
Context (Hw : viewable v w) (Hs : represents c M I s) (Hu : uniform c M I) (Hmo : forall x ds, M x = Some ds -> made_of c ds) (Hv : holds_view v w V s).
Context (Hag : forall x ds p, M x = Some ds -> V x = Some p -> agrees ds p) (Hvar : md_vars (w_meta w) <> []).
Context (sel : option (list str)) (Hcov : covers w sel).
Context (filt : filter) (P : list Z -> Prop) (Hf : filt = NoFilter \/ filterable c) (HP : forall x, is_Some (M x) -> says (c_part c) filt x (P x)).
Context (workers : Z) (f : update_callback) (npartitions : option Z) (trim : bool) (depth : nat) (Hpos : 0 < depth).
Local Notation run sched := (view_update v sched workers w f true (Z.of_nat depth) filt npartitions sel trim).
Local Notation held := (Forall2 (fun x d => data_at M V x = Some d)).

  (** All the cases of the call. *)
  Lemma C75_cases sched : exists vs, StronglySorted row_lt vs /\ NoDup vs /\ (forall x, x ∈ vs <-> is_Some (M x) /\ is_Some (V x) /\ P x) /\
    ((vs = [] /\ exec (run sched) s = (Ok tt, s)) \/
     ((exists ex, exec (run sched) s = (Raise ex, s)) /\ ~ (length vs <> 1 /\ (0 < batches_asked workers npartitions)%Z /\ (forall n, returned f n -> n ∈ dkeys (md_vars (w_meta w))) /\
        (forall ns ds i l, sel = Some ns -> cb_call f ds i = Ok l -> exists n, n ∈ dkeys l /\ n ∈ ns) /\
        forall x old ds i, x ∈ vs -> data_at M V x = Some old -> seen true sel None old ds -> exists l, cb_call f ds i = Ok l)) \/
     vs <> [] /\ length vs <> 1 /\ exists o_at bs r1 s', concat bs = vs /\ (batches_asked workers npartitions = 1%Z -> bs = [vs]) /\
       exec (execute_transaction CTorn sched (map (fun b => pfor b (view_update_overlap w true (Z.of_nat depth) sel trim f (map (vitem w o_at) vs))) (map (map (vitem w o_at)) bs))) s = (r1, s') /\
       exec (run sched) s = (rmap (fun _ => tt) r1, s')).
  Proof using All.
    assert (Hsh : shown v w M I V s) by (by split).
    destruct (view_update_call v w M I V s Hw Hmo Hsh Hvar true sel Hcov filt P Hf HP sched workers f (Z.of_nat depth) npartitions trim) as (vs & o_at & Sv & Hnd & Hvs & Hl & Hop & Hrun).
    exists vs. split; [done|]. split; [done|]. split; [done|]. cbv zeta in Hrun. destruct vs as [|x vs]; [by left|right].
    destruct Hrun as (m & Em & [(ex & E & Hno)|(l & El & Hnames & _ & Hrun)]).
    - left. split; [by exists ex|]. intros (_ & _ & Hret & _ & Hcall). apply Hno. destruct (Hop x ltac:(left)) as (ds & p & HM & HV & Ho).
      destruct (Hcall x (combined ds p) (o_at x) (if cb_info f then Some (dim, (0, m)) else None)) as [l El]; [left|unfold data_at; by rewrite HM, HV|by apply opens_seen|].
      exists l. split; [done|]. intros n Hn. apply Hret. by exists (o_at x), (if cb_info f then Some (dim, (0, m)) else None), l.
    - destruct (Hrun ltac:(lia)) as [(ex & E & ns & Ens & Hns)|(Hns & Erun)].
      { left. split; [by exists ex|]. intros (_ & _ & _ & Hsel & _). destruct (Hsel ns (o_at x) (if cb_info f then Some (dim, (0, m)) else None) l Ens El) as (n & Hn & Hin). by apply (Hns n). }
      rewrite Erun. fold (batches_asked workers npartitions). clear Erun Hrun.
      destruct (decide (length (x :: vs) = 1)) as [H1|H1].
      + left. split; [|by intros [? _]]. destruct vs; [|done]. clear H1.
        set (one := view_update_overlap w true (Z.of_nat depth) sel trim f (map (vitem w o_at) [x])).
        assert (Eone : forall V1 s1, shown v w M I V1 s1 -> (exists old, V1 x = Some old) -> exec (one (vitem w o_at x)) s1 = (Raise ValueError, s1)).
        { intros V1 s1 Hsh1 [p1 Hp1]. destruct (Hop x ltac:(left)) as (ds & p & HM & HV & Ho).
          destruct (load_parts v w M I V1 s1 Hw (sh_ref _ _ _ _ _ _ Hsh1) Hmo (sh_view _ _ _ _ _ _ Hsh1) (sh_agrees _ _ _ _ _ _ Hsh1) true sel Hcov [x] [combined ds p1]) as (os & Eos & Hos).
          { constructor; [|constructor]. unfold data_at. by rewrite HM, Hp1. }
          inversion Hos as [|? o ? ? _ H0]; subst. inversion H0; subst. clear Hos H0.
          unfold one, view_update_overlap. cbv zeta. rewrite exec_bind. cbn [map vitem fst snd]. cbn [map] in Eos. rewrite exec_bind, Eos.
          pose proof (select_overlap_alone w depth [] x [] [] o [] Hnd Hl ltac:(by right) eq_refl eq_refl) as Es. cbn [app map zip zip_with] in Es. cbn [exec zip zip_with map]. by rewrite Es. }
        destruct (batches_run v w Hw M I (vitem w o_at) one (fun _ _ => True) (fun _ old new r => new = old /\ r = Raise ValueError) (fun _ _ => False) sched (batches_asked workers npartitions) V s [x])
          as [(ex & E & _)|(r & s' & V' & E & Hs' & _ & Hin & Hex & Hreg)].
        * intros y Hy%elem_of_list_singleton V1 s1 Hs1 Hsome. subst y. destruct (Hsome x ltac:(left)) as (old & Hold & _). exists (Raise ValueError), s1, V1. split; [apply (Eone V1 s1 Hs1); by eexists|].
          split; [exact Hs1|]. split; [done|]. split; [|split; [|done]].
          { intros y old' _ Hy. exists old'. split; [done|]. by left. }
          { intros ex [= <-]. exists x, old, old. split; [left|done]. }
        * intros y ->%elem_of_list_singleton. unfold one, view_update_overlap. cbv zeta. cbn [map vitem fst snd].
          assert (Hre : within (under (c_dir c)) (under (vdir w x)) (let! l <- pseq [load_part w true sel (zip (p_keys (c_part c)) x, [])]; Ret (select_overlap w (Z.of_nat depth) l (key_dirs (c_part c) x)))).
          { apply within_bind; [|by intros]. apply within_pseq. intros p ->%elem_of_list_singleton. apply within_load_own. by right. }
          apply within_bind; [exact Hre|]. intros [ds ix]. apply within_bind; [done|]. intros l'. apply within_pfor. intros [n r] _. cbn [fst snd].
          assert (Hwd : forall q, under (w_dir w ++ key_dirs (c_part c) x ++ [n]) q -> under (vdir w x) q) by (intros q Hq; eapply under_trans; [|exact Hq]; rewrite app_assoc; apply under_app).
          assert (Hev : within (under (c_dir c)) (under (vdir w x)) (evaluate (let! di <- (let! l <- pseq [load_part w true sel (zip (p_keys (c_part c)) x, [])]; Ret (select_overlap w (Z.of_nat depth) l (key_dirs (c_part c) x))); pret di.1) true ds r)).
          { destruct r as [d|g]; [done|]. cbn [evaluate]. apply within_bind; [|by intros]. apply within_bind; [exact Hre|]. by intros. }
          destruct trim.
          { apply within_bind; [done|]. intros a. apply within_bind; [done|]. intros key. apply within_update_array; [done|]. apply within_bind; [exact Hev|]. by intros. }
          { apply within_update_array; [done|]. exact Hev. }
        * done.
        * done.
        * done.
        * intros y Hy. destruct (Hop y Hy) as (ds & p & HM & HV & Ho). by exists p.
        * by exists ex.
        * assert (s' = s) as -> by (apply map_eq; intros q; apply Hreg; intros y _ []).
          destruct (Hop x ltac:(left)) as (ds & p & HM & HV & Ho). destruct r as [[]|ex]; [|by exists ex]. exfalso.
          destruct (Hin x p ltac:(left) HV) as (new & _ & [[_ Hr]|(rv & [_ ->] & Hr)]); [discriminate Hr|by specialize (Hr eq_refl)].
      + unfold in_batches. rewrite exec_bind. cbn [exec]. destruct (split_sequence (map (vitem w o_at) (x :: vs)) (Some (batches_asked workers npartitions))) as [batches|ex] eqn:Eb.
        * right. split; [done|]. split; [done|]. pose proof Eb as Eb'. apply split_map in Eb as (bs & Ebs & -> & Hcat).
          destruct (exec (execute_transaction CTorn sched (map (fun b => pfor b (view_update_overlap w true (Z.of_nat depth) sel trim f (map (vitem w o_at) (x :: vs)))) (map (map (vitem w o_at)) bs))) s) as [r1 s'] eqn:Et.
          exists o_at, bs, r1, s'. split; [done|]. split.
          { intros H. rewrite H in Ebs. rewrite single_batch in Ebs by done. by injection Ebs as <-. }
          split; [done|]. rewrite exec_bind, Et. by destruct r1.
        * left. split; [by exists ex|]. intros (_ & Hn & _). pose proof (split_sequence_ok (map (vitem w o_at) (x :: vs)) (Some (batches_asked workers npartitions)) ltac:(done) Hn) as Hok. by rewrite Eb in Hok.
  Qed.

  (** What the view holds after a call. *)
  Lemma C75_built sched r s' : sane f -> blind f -> ~ returned f CHECKSUM -> exec (run sched) s = (r, s') ->
    exists V' vs, shown v w M I V' s' /\ StronglySorted row_lt vs /\ NoDup vs /\ (forall x, x ∈ vs <-> is_Some (M x) /\ is_Some (V x) /\ P x) /\ (forall x, x ∉ vs -> V' x = V x) /\
      (forall x, x ∈ vs -> exists ds p before after l, M x = Some ds /\ V x = Some p /\ varound M V depth vs x before (combined ds p) after /\ V' x = Some (vassign p l) /\ vfits p l /\ (forall n, n ∈ dkeys l -> returned f n) /\
         (r = Ok tt -> vmade w s f sel trim depth vs x before (combined ds p) after l)) /\
      (forall q, (forall x n, x ∈ vs -> returned f n -> ~ under (vdir w x ++ [n]) q) -> s' !! q = s !! q).
  Proof using All.
    intros Hsa Hbl Hck E. assert (Hsh : shown v w M I V s) by (by split).
    destruct (C75_cases sched) as (vs & Sv & Hnd & Hvs & Hcases).
    assert (Hall : forall x, x ∈ vs -> is_Some (M x) /\ is_Some (V x)) by (intros x Hx; apply Hvs in Hx as (? & ? & _); done).
    destruct Hcases as [[-> E']|[[(ex & E') _]|(Hne & H2 & o_at & bs & r1 & s1 & Hcat & _ & Et & E')]]; rewrite E in E'.
    - injection E' as -> ->. exists V, []. do 5 (split; [done|]). split; [|done]. intros x Hx. by apply elem_of_nil in Hx.
    - injection E' as -> ->. exists V, vs. do 5 (split; [done|]). split; [|done]. intros x Hx.
      destruct (varound_exists M V depth vs Hall x Hx) as (ds & p & before & after & HM & HV & Har). exists ds, p, before, after, []. split; [done|]. split; [done|]. split; [done|].
      split; [by rewrite vassign_nil|]. split; [done|]. split; [intros n Hn; by apply elem_of_nil in Hn|done].
    - injection E' as -> ->. destruct (view_done v w Hw M I V s Hsh Hu f Hsa Hbl Hck Hmo sel Hcov trim depth Hpos vs Hnd H2 Hall o_at sched bs r1 s1 Hcat Et) as (V' & Hs' & Hout & Hin & Hreg).
      exists V', vs. do 5 (split; [done|]). split; [|done]. intros x Hx. destruct (Hin x Hx) as (ds & p & before & after & l & A1 & A2 & A3 & A4 & A5 & A6 & A7). exists ds, p, before, after, l. do 6 (split; [done|]).
      intros Hr. apply A7. by destruct r1.
  Qed.

(** A call that succeeds gives, in each partition of the view that the filter
    selects, the values that the callback returns for the data that this partition
    and its neighbours hold before the call, whatever the order in which the tasks
    run, and even if they see files that the other tasks are writing. The callback
    must not look at the values of the variables that it returns. *)
Theorem C75_update sched s' : sane f -> blind f -> ~ returned f CHECKSUM -> exec (run sched) s = (Ok tt, s') ->
  exists V' vs, represents c M I s' /\ holds_view v w V' s' /\ (forall x ds p, M x = Some ds -> V' x = Some p -> agrees ds p) /\
    StronglySorted row_lt vs /\ (forall x, x ∈ vs <-> is_Some (M x) /\ is_Some (V x) /\ P x) /\
    (forall pre x post before ds old after, vs = pre ++ x :: post -> M x = Some ds -> V x = Some old ->
       held (drop (length pre - depth) pre) before -> held (take depth post) after ->
       exists new, V' x = Some new /\ vp_axis new = vp_axis old /\ updated_around dim true sel trim f before (combined ds old) after (combined ds new)) /\
    (forall x, ~ (is_Some (M x) /\ is_Some (V x) /\ P x) -> V' x = V x) /\
    (forall q, ~ (exists x n, is_Some (M x) /\ is_Some (V x) /\ P x /\ returned f n /\ under (vdir w x ++ [n]) q) -> s' !! q = s !! q).
Proof using All.
  intros Hsa Hbl Hck E. assert (Hsh : shown v w M I V s) by (by split). destruct (C75_built sched _ s' Hsa Hbl Hck E) as (V' & vs & [H1 H2 H3] & Sv & Hnd & Hvs & Hout & Hin & Hreg).
  exists V', vs. do 5 (split; [done|]). split; [|split].
  - intros pre x post before ds old after Evs HM HV Hb Ha. destruct (Hin x) as (ds' & p & before' & after' & l & HM' & HV' & Har & En & Hfi & HW & Hm); [rewrite Evs; apply elem_of_app; right; left|].
    assert (ds' = ds) as -> by congruence. assert (p = old) as -> by congruence. specialize (Hm eq_refl).
    assert (Har' : varound M V depth vs x before (combined ds old) after) by (exists pre, post; split; [done|]; split; [unfold data_at; by rewrite HM, HV|done]).
    destruct (varound_unique M V depth vs Hnd x _ _ _ _ _ _ Har' Har) as (-> & _ & ->).
    exists (vassign old l). split; [done|]. split; [done|]. destruct (part_combined v w Hw M I V s Hsh Hmo x ds old l HM HV Hfi) as [-> _].
    destruct Hm as (d0 & range & l0 & _ & Hsee & Ecb & Hok). apply (written_updated c f true sel trim before (combined ds old) after d0 range l0 l); [|done..].
    apply (data_at_sound v w Hw M I V s Hsh Hmo sel Hcov x). unfold data_at. by rewrite HM, HV.
  - intros x Hx. apply Hout. by rewrite Hvs.
  - intros q Hq. apply Hreg. intros x n Hx Hn Un. apply Hq. exists x, n. apply Hvs in Hx as (? & ? & ?). done.
Qed.

(** If the call raises, at any point: only the values of variables that the
    callback returns, in the selected partitions of the view, may change; the
    reference does not. *)
Theorem C75_frame sched r s' : sane f -> blind f -> ~ returned f CHECKSUM -> exec (run sched) s = (r, s') ->
  exists V', represents c M I s' /\ holds_view v w V' s' /\
    (forall x ds old, M x = Some ds -> V x = Some old -> P x -> exists new, V' x = Some new /\ vp_axis new = vp_axis old /\ at_most (returned f) (combined ds old) (combined ds new)) /\
    (forall x, ~ (is_Some (M x) /\ is_Some (V x) /\ P x) -> V' x = V x) /\
    (forall q, ~ (exists x n, is_Some (M x) /\ is_Some (V x) /\ P x /\ returned f n /\ under (vdir w x ++ [n]) q) -> s' !! q = s !! q).
Proof using All.
  intros Hsa Hbl Hck E. assert (Hsh : shown v w M I V s) by (by split). destruct (C75_built sched _ s' Hsa Hbl Hck E) as (V' & vs & [H1 H2 H3] & Sv & Hnd & Hvs & Hout & Hin & Hreg).
  exists V'. do 2 (split; [done|]). split; [|split].
  - intros x ds old HM HV Hp. destruct (Hin x) as (ds' & p & before' & after' & l & HM' & HV' & Har & En & Hfi & HW & Hm); [apply Hvs; eauto|].
    assert (ds' = ds) as -> by congruence. assert (p = old) as -> by congruence. exists (vassign old l). split; [done|]. split; [done|].
    destruct (part_combined v w Hw M I V s Hsh Hmo x ds old l HM HV Hfi) as [-> Hfit]. apply at_most_assign; [|done|done].
    apply (data_at_sound v w Hw M I V s Hsh Hmo sel Hcov x). unfold data_at. by rewrite HM, HV.
  - intros x Hx. apply Hout. by rewrite Hvs.
  - intros q Hq. apply Hreg. intros x n Hx Hn Un. apply Hq. exists x, n. apply Hvs in Hx as (? & ? & ?). done.
Qed.

(** The order in which the tasks run does not matter. *)
Theorem C75_any_order sched1 sched2 s1 s2 : sane f -> blind f -> ~ returned f CHECKSUM -> exec (run sched1) s = (Ok tt, s1) -> exec (run sched2) s = (Ok tt, s2) ->
  exists V', holds_view v w V' s1 /\ holds_view v w V' s2 /\ represents c M I s1 /\ represents c M I s2.
Proof using All.
  intros Hsa Hbl Hck E1 E2. destruct (C75_built sched1 _ s1 Hsa Hbl Hck E1) as (V1 & vs & Hs1 & Sv & Hnd & Hvs & Hout & Hin & _).
  destruct (C75_built sched2 _ s2 Hsa Hbl Hck E2) as (V2 & vs2 & Hs2 & Sv2 & _ & Hvs2 & Hout2 & Hin2 & _).
  assert (vs2 = vs) as ->.
  { apply (sorted_rows_unique (length (p_keys (c_part c)))); [done|done| |]; [|intros x; by rewrite Hvs, Hvs2]. intros x ([d Hx] & _)%Hvs2. by apply (rp_part _ _ _ _ Hs) in Hx as [? _]. }
  assert (EV : forall x, V1 x = V2 x).
  { intros x. destruct (decide (x ∈ vs)) as [Hx|Hx]; [|by rewrite Hout, Hout2].
    destruct (Hin x Hx) as (ds & p & before & after & l & HM & HV & Har & En & _ & _ & Hm). destruct (Hin2 x Hx) as (ds' & p' & before' & after' & l' & HM' & HV' & Har' & En' & _ & _ & Hm').
    assert (ds' = ds) as -> by congruence. assert (p' = p) as -> by congruence. destruct (varound_unique M V depth vs Hnd x _ _ _ _ _ _ Har Har') as (-> & _ & ->).
    rewrite En, En'. by rewrite (vmade_unique _ _ _ _ _ _ _ _ _ _ _ _ _ (Hm eq_refl) (Hm' eq_refl)). }
  exists V1. split; [apply Hs1|]. split; [|split; [apply Hs1|apply Hs2]]. by apply (shown_ext v w M I V2 V1 s2 EV Hs2).
Qed.

(** The call succeeds when one task is asked for, the filter does not select
    exactly one partition and the callback works on each partition with its
    neighbours, returns only variables of the view, at least one of those that are
    read, and never raises on the data of one partition. *)
Theorem C75_succeeds sched : sane f -> blind f -> (forall n, returned f n -> n ∈ dkeys (md_vars (w_meta w))) -> batches_asked workers npartitions = 1%Z ->
  (forall ns ds i l, sel = Some ns -> cb_call f ds i = Ok l -> exists n, n ∈ dkeys l /\ n ∈ ns) ->
  (forall x old ds i, data_at M V x = Some old -> P x -> seen true sel None old ds -> exists l, cb_call f ds i = Ok l) ->
  exists vs, StronglySorted row_lt vs /\ (forall x, x ∈ vs <-> is_Some (M x) /\ is_Some (V x) /\ P x) /\
    (length vs <> 1 ->
     (forall pre x post before old after, vs = pre ++ x :: post -> data_at M V x = Some old -> held (drop (length pre - depth) pre) before -> held (take depth post) after ->
        works_around dim true sel trim f before old after) ->
     exists s', exec (run sched) s = (Ok tt, s')).
Proof using All.
  intros Hsa Hbl Hret Hnp Hsel Hcall. assert (Hsh : shown v w M I V s) by (by split).
  assert (Hck : ~ returned f CHECKSUM).
  { intros H. apply Hret in H. apply dget_is_Some in H as [mv Hmv]. by destruct (vw_vars _ _ Hw _ _ Hmv) as (_ & ? & _). }
  destruct (C75_cases sched) as (vs & Sv & Hnd & Hvs & Hcases). exists vs. split; [done|]. split; [done|]. intros Hone Hwk.
  assert (Hall : forall x, x ∈ vs -> is_Some (M x) /\ is_Some (V x)) by (intros x Hx; apply Hvs in Hx as (? & ? & _); done).
  destruct Hcases as [[_ E']|[[_ Hno]|(Hne & H2 & o_at & bs & r1 & s1 & Hcat & Hbs & Et & E')]].
  - by exists s.
  - exfalso. apply Hno. split; [done|]. split; [lia|]. split; [done|]. split; [done|]. intros x old ds i Hx Hd Hsee. apply (Hcall x old); [done|by apply Hvs|done].
  - exists s1. rewrite E'. specialize (Hbs Hnp). subst bs. cbn [map] in Et. rewrite single_task in Et.
    destruct (view_parts_alone v w Hw M I V s Hsh Hu f Hsa Hbl Hck Hmo sel Hcov trim depth Hpos vs Hnd H2 Hall o_at vs Hret Hnd) with (V1 := V) (s1 := s) as [s2 Es]; try done.
    { intros x Hx. split; [done|]. intros before old after (pre & post & Evs & Hold & Hb & Ha). by apply (Hwk pre x post). }
    { intros x ds p HM HV. exists p. split; [done|apply varies_refl]. }
    rewrite Es in Et. injection Et as <- <-. done.
Qed.

(** If the filter selects exactly one partition, the call raises and changes
    nothing, whatever the callback. *)
Theorem C72_delayed_refuted sched : exists vs, StronglySorted row_lt vs /\ (forall x, x ∈ vs <-> is_Some (M x) /\ is_Some (V x) /\ P x) /\
  (length vs = 1 -> exists ex, exec (run sched) s = (Raise ex, s)).
Proof using All.
  destruct (C75_cases sched) as (vs & Sv & Hnd & Hvs & Hcases). exists vs. split; [done|]. split; [done|]. intros H1.
  destruct Hcases as [[-> _]|[[H _]|(_ & ? & _)]]; done.
Qed.
End C75.
Print Assumptions C75_update.
Print Assumptions C75_frame.
Print Assumptions C75_any_order.
Print Assumptions C75_succeeds.
Print Assumptions C72_delayed_refuted.

(** ** A case: a value made of the range of the records of the partition and of
    the number of records that the callback sees. *)
Definition stamped : update_callback :=
  Callback true (fun ds i => match dget (d_vars ds) (lit "speed") with
    | Some a => Ok [(lit "speed", Known (Plain (full (v_shape a) (Num (match i with Some (_, r) => Z.of_nat (100 * r.1 + 10 * r.2 + hd 0 (v_shape a)) | None => 0 end)))))]
    | None => Raise KeyError
    end).
Lemma stamped_returned n : returned stamped n -> n = lit "speed".
Proof. intros (ds & i & l & E & Hn). cbn [stamped cb_call] in E. destruct (dget (d_vars ds) (lit "speed")); [|done]. injection E as <-. by apply elem_of_list_singleton in Hn. Qed.
Lemma stamped_sane : sane stamped.
Proof.
  intros ds i l n r Hp E Hin ds' d _ Hd. cbn [stamped cb_call] in E. destruct (dget (d_vars ds) (lit "speed")) as [a|]; [|done]. injection E as <-.
  apply elem_of_list_singleton in Hin. injection Hin as -> ->. injection Hd as <-. apply tabulate_wf.
Qed.
Lemma stamped_blind : blind stamped.
Proof.
  intros ds ds' i _ _ Hal. cbn [stamped cb_call]. specialize (Hal (lit "speed")). destruct (dget (d_vars ds) (lit "speed")) as [a|], (dget (d_vars ds') (lit "speed")) as [a'|]; try done.
  destruct Hal as (_ & -> & _). split; [done|]. intros l n r El Hin. injection El as <-. apply elem_of_list_singleton in Hin. by injection Hin as -> ->.
Qed.
Section case.
  Context (d1 d2 : dataset) (Hn1 : dget (d_vars d1) (lit "speed") = None) (Hn2 : dget (d_vars d2) (lit "speed") = None).
  Local Notation c1 := (combined d1 (U_part [10; 20]%Z [1; 2; 3; 4]%Z)).
  Local Notation c2 := (combined d2 (U_part [30]%Z [5; 6]%Z)).
  Lemma stamped_works before old after : before = [] /\ old = c1 /\ after = [c2] \/ before = [c1] /\ old = c2 /\ after = [] ->
    works_around (lit "time") true None true stamped before old after.
  Proof using All.
    intros Hcase ds range Hsee. destruct (speed_all true d1 d2 Hn1 Hn2 before old after ds range Hcase Hsee) as [Ed _]. cbn [stamped cb_call]. rewrite Ed. eexists. split; [reflexivity|].
    intros n r Hin. apply elem_of_list_singleton in Hin. injection Hin as -> ->.
    assert (Hold : exists zs b, dget (d_vars old) (lit "speed") = Some (with_delayed (U_var zs) b)) by (destruct Hcase as [(-> & -> & ->)|(-> & -> & ->)]; [rewrite (speed_1 d1 Hn1)|rewrite (speed_2 d2 Hn2)]; by do 2 eexists).
    destruct Hold as (zo & bo & Hold). eexists _, _. split; [exact Hold|]. split; [discriminate|]. split; [reflexivity|]. split; [left|]. eexists. split; [exact Ed|]. reflexivity.
  Qed.
  Lemma stamped_written before old after new : before = [] /\ old = c1 /\ after = [c2] \/ before = [c1] /\ old = c2 /\ after = [] ->
    updated_around (lit "time") true None true stamped before old after new ->
    exists v', dget (d_vars new) (lit "speed") = Some v' /\
      records v' (lit "time") = Some (match before with [] => [Arr [2] [Num 23; Num 23]; Arr [2] [Num 23; Num 23]] | _ => [Arr [2] [Num 233; Num 233]] end).
  Proof using All.
    intros Hcase (ds & range & l & xs & ys & Hsee & Ecb & Hval & Hkept & Has). destruct (speed_all true d1 d2 Hn1 Hn2 before old after ds range Hcase Hsee) as [Ed ->].
    cbn [stamped cb_call cb_info] in Ecb. rewrite Ed in Ecb. injection Ecb as <-.
    inversion Hval as [|? [n x] ? ? [En Ex] Hnil]; subst. inversion Hnil; subst. cbn [fst snd] in En, Ex. subst n. injection Ex as <-.
    unfold kept_values in Hkept. inversion Hkept as [|? [n y] ? ? (En & v0 & ax & Ev0 & Hax & Htr) Hnil']; subst. inversion Hnil'; subst. cbn [fst snd] in *. subst n.
    assert (Hold : exists zs b, dget (d_vars old) (lit "speed") = Some (with_delayed (U_var zs) b)) by (destruct Hcase as [(-> & -> & ->)|(-> & -> & ->)]; [rewrite (speed_1 d1 Hn1)|rewrite (speed_2 d2 Hn2)]; by do 2 eexists).
    destruct Hold as (zo & bo & Hold). assert (Ev1 : dget (d_vars old) (lit "speed") = Some v0) by exact Ev0. rewrite Hold in Ev1. assert (v0 = with_delayed (U_var zo) bo) as -> by congruence. clear Ev1.
    assert (ax = 0) as -> by (destruct ax as [|[|ax]]; [done|discriminate Hax|discriminate Hax]). destruct y as [y|]; [|done]. destruct Htr as [_ Hrows]. cbn [fst snd] in Hrows.
    destruct Has as [_ Hrel]. destruct (Assemble_Proofs.related_get _ _ _ (lit "speed") Hrel) as [R _]. destruct (R _ Hold) as (v' & Hv' & H).
    cbn [dget] in H. rewrite decide_True in H by done. destruct H as (y' & -> & ->). eexists. split; [exact Hv'|].
    rewrite records_index. cbn [v_dims with_array v_array to_store with_delayed U_var]. change (index_of (lit "time") [lit "time"; lit "x"]) with (Some 0). f_equal. rewrite Hrows. by destruct before.
  Qed.
End case.

Example C75_case : exists s s' M V' p1 p2 d1 d2 v1 v2, represents Y_coll M None s /\ holds_view W_env W_view U_parts s /\
  exec (view_update W_env [] 4 W_view stamped true 1 NoFilter (Some 1%Z) None true) s = (Ok tt, s') /\
  represents Y_coll M None s' /\ holds_view W_env W_view V' s' /\ M [1%Z] = Some d1 /\ M [2%Z] = Some d2 /\ V' [1%Z] = Some p1 /\ V' [2%Z] = Some p2 /\
  dget (d_vars (combined d1 p1)) (lit "speed") = Some v1 /\ dget (d_vars (combined d2 p2)) (lit "speed") = Some v2 /\
  records v1 (lit "time") = Some [Arr [2] [Num 23; Num 23]; Arr [2] [Num 23; Num 23]] /\ records v2 (lit "time") = Some [Arr [2] [Num 233; Num 233]].
Proof.
  destruct U_filled as (M & s & Hs & Hu & HM & Hmo & Hv & Hag & _).
  pose proof HM as (d1 & d2 & H1 & H2 & H3 & _).
  set (f := stamped). pose proof stamped_sane as Hsa. pose proof stamped_blind as Hbl.
  assert (Hret : forall n, returned f n -> n ∈ dkeys (md_vars (w_meta W_view))) by (intros n ->%stamped_returned; left).
  assert (Hck : ~ returned f CHECKSUM) by (intros H; by apply stamped_returned in H).
  assert (HP : forall x, is_Some (M x) -> says (c_part (w_ref W_view)) NoFilter x True) by done.
  assert (Hno : forall x d, M x = Some d -> dget (d_vars d) (lit "speed") = None).
  { intros x d Hd. destruct (dget (d_vars d) (lit "speed")) as [a|] eqn:Ea; [|done]. apply (mo_only _ _ (Hmo _ _ Hd)) in Ea as [_ Ha]. apply is_Some_alt in Ha. vm_compute in Ha. done. }
  pose proof (Hno _ _ H1) as N1. pose proof (Hno _ _ H2) as N2.
  set (c1 := combined d1 (U_part [10; 20]%Z [1; 2; 3; 4]%Z)). set (c2 := combined d2 (U_part [30]%Z [5; 6]%Z)).
  assert (D1 : data_at M U_parts [1%Z] = Some c1) by (unfold data_at; by rewrite H1). assert (D2 : data_at M U_parts [2%Z] = Some c2) by (unfold data_at; by rewrite H2).
  destruct (C75_succeeds W_env W_view M None U_parts s W_viewable Hs Hu Hmo Hv Hag ltac:(discriminate) None Logic.I NoFilter (fun _ => True) ltac:(by left) HP
    4 f (Some 1%Z) true 1 ltac:(lia) [] Hsa Hbl Hret ltac:(reflexivity)) as (vs & Sv & Hvs & Hsucc).
  { discriminate. }
  { intros x old ds i (d & p & Hd & Hp & ->)%data_at_some _ Hsn. cbn [f stamped cb_call].
    assert (exists a, dget (d_vars ds) (lit "speed") = Some a) as [a ->]; [|by eexists].
    assert (exists a, dget (d_vars (combined d p)) (lit "speed") = Some a) as [a Ha].
    { rewrite part_get, (Hno _ _ Hd). unfold U_parts in Hp. destruct (decide (x = [1%Z])); [injection Hp as <-; by eexists|]. destruct (decide (x = [2%Z])); [injection Hp as <-; by eexists|done]. }
    eexists. apply (se_vars _ _ _ _ _ Hsn). split; [done|]. exists a. split; [by left|reflexivity]. }
  pose proof (U_keys M vs HM Sv Hvs) as Evs.
  destruct Hsucc as [s' E].
  { by rewrite Evs. }
  { intros pre x post before old after Ep Hold Hb Ha. apply (stamped_works d1 d2 N1 N2). rewrite Evs in Ep. clear -Ep Hold Hb Ha D1 D2. subst c1 c2.
    destruct pre as [|y [|y' pre]]; cbn in Ep; [injection Ep as <- <-|injection Ep as <- <- <-|injection Ep as _ _ Ep; by destruct pre].
    - left. inversion Hb; subst. inversion Ha as [|? d ? ? Hd Ha']; subst. inversion Ha'; subst. split; [done|]. split; [congruence|]. f_equal. congruence.
    - right. inversion Ha; subst. inversion Hb as [|? d ? ? Hd Hb']; subst. inversion Hb'; subst. split; [f_equal; congruence|]. split; [congruence|done]. }
  destruct (C75_update W_env W_view M None U_parts s W_viewable Hs Hu Hmo Hv Hag ltac:(discriminate) None Logic.I NoFilter (fun _ => True) ltac:(by left) HP
    4 f (Some 1%Z) true 1 ltac:(lia) [] s' Hsa Hbl Hck E) as (V' & vs' & Hs' & Hv' & _ & Sv' & Hvs' & Hupd & _).
  pose proof (U_keys M vs' HM Sv' Hvs') as Evs'.
  destruct (Hupd [] [1%Z] [[2%Z]] [] d1 _ [c2] Evs' H1 eq_refl ltac:(constructor) ltac:(by repeat constructor)) as (p1 & E1 & _ & U1).
  destruct (Hupd [[1%Z]] [2%Z] [] [c1] d2 _ [] Evs' H2 eq_refl ltac:(by repeat constructor) ltac:(constructor)) as (p2 & E2 & _ & U2).
  destruct (stamped_written d1 d2 N1 N2 [] _ [c2] _ ltac:(by left) U1) as (v1 & G1 & R1).
  destruct (stamped_written d1 d2 N1 N2 [c1] _ [] _ ltac:(by right) U2) as (v2 & G2 & R2).
  exists s, s', M, V', p1, p2, d1, d2, v1, v2. split; [exact Hs|]. split; [exact Hv|]. split; [exact E|]. split; [exact Hs'|]. split; [exact Hv'|]. split; [exact H1|]. split; [exact H2|]. split; [exact E1|]. split; [exact E2|].
  split; [exact G1|]. split; [exact G2|]. split; [exact R1|exact R2].
Qed.
