(** * Mapping a function over the partitions (C26, C25) *)
From Verif Require Import Py Dict NdArray_Model NdArray_Spec Dataset_Model Dataset_Spec Dataset_Main Storage_Proofs Meta_Model PartPath_Model PartPath_Proofs
  Split_Spec FS_Model FS_Proofs Storage_Model Storage_Spec Listing_Model Listing_Spec Listing_Proofs Collection_Model Collection_Spec Collection_State Collection_Select Collection_Load
  Collection_Example Update_Model Update_Spec Update_Proofs Update_Example Overlap_Proofs.

(** Tasks that only read are run in order, until one raises. *)
Lemma exec_pseq_tasks {A B : Type} (task : A -> program B) (s : store) (Q : A -> res B -> Prop) : forall l,
  (forall x, x ∈ l -> exists r, exec (task x) s = (r, s) /\ Q x r) ->
  exists r, exec (pseq (map task l)) s = (r, s) /\
    match r with Ok out => Forall2 (fun x y => Q x (Ok y)) l out | Raise ex => exists x, x ∈ l /\ Q x (Raise ex) end.
Proof.
  induction l as [|x l IH]; intros H; [exists (Ok []); by split|].
  destruct (H x ltac:(left)) as (r & E & Hq). cbn [map pseq]. rewrite exec_bind, E. destruct r as [y|ex].
  - destruct IH as (r' & E' & Hq'); [intros z Hz; apply H; by right|]. rewrite exec_bind, E'. destruct r' as [out|ex].
    + exists (Ok (y :: out)). split; [done|]. by constructor.
    + exists (Raise ex). split; [done|]. destruct Hq' as (z & Hz & Hqz). exists z. split; [by right|done].
  - exists (Raise ex). split; [done|]. exists x. split; [left|done].
Qed.

Section map.
Context {B : Type} (e : env) (c : collection) (f : callback B) (delayed : bool) (filt : filter) (selected : option (list str)).
Context (M : list Z -> option dataset) (I : option dataset) (s : store) (P : list Z -> Prop).

(** C26: the function is called once for each selected partition, in the order
    of the keys, with the data of the partition, and nothing is changed. *)
Theorem C26_map :
  regular e c -> represents c M I s -> uniform c M I -> filterable c -> (forall v, is_Some (M v) -> says (c_part c) filt v (P v)) ->
  exists vs r, StronglySorted row_lt vs /\ (forall v, v ∈ vs <-> is_Some (M v) /\ P v) /\
    exec (map_partitions e c f delayed filt selected) s = (r, s) /\
    match r with
    | Ok out => Forall2 (fun v kb => kb.1 = zip (p_keys (c_part c)) v /\
        exists old ds, M v = Some old /\ seen delayed selected (fixed_part c I) old ds /\ cb_call f ds None = Ok kb.2) vs out
    | Raise ex => exists v old ds, v ∈ vs /\ M v = Some old /\ seen delayed selected (fixed_part c I) old ds /\ cb_call f ds None = Raise ex
    end.
Proof.
  intros Hr Hs Hu Hfi HP. destruct (select_filter e c Hr M I s filt P Hs Hfi HP) as (vs & Hso & Hin & Esel). exists vs.
  unfold map_partitions. rewrite exec_bind, Esel, map_map.
  destruct (exec_pseq_tasks (fun v => let! ds <- load_dataset c delayed selected (part_dir c v);
      let! k <- Ret (p_parse (c_part c) (path_str (part_dir c v))); let! b <- Ret (cb_call f ds None); pret (k, b)) s
      (fun v r => exists old ds, M v = Some old /\ seen delayed selected (fixed_part c I) old ds /\
         match r with Ok kb => kb.1 = zip (p_keys (c_part c)) v /\ cb_call f ds None = Ok kb.2 | Raise ex => cb_call f ds None = Raise ex end) vs) as (r & E & Hq).
  { intros v Hv. apply Hin in Hv as [[old Hv] _]. destruct (load_dataset_seen c M I s v old delayed selected Hs Hu Hv) as (ds & Ed & Hsee).
    destruct (rp_part _ _ _ _ Hs _ _ Hv) as (Hlen & _). rewrite exec_bind, Ed.
    rewrite exec_bind. cbn [exec]. unfold part_dir. rewrite (parse_key_dirs _ _ _ (rg_keys _ _ Hr) (rg_path _ _ Hr) Hlen). rewrite exec_bind. cbn [exec].
    destruct (cb_call f ds None) as [b|ex] eqn:Ec; (eexists; split; [reflexivity|]; exists old, ds; split; [done|split; [done|]]); done. }
  exists r. split; [done|]. split; [done|]. split; [done|]. destruct r as [out|ex].
  - eapply Forall2_impl; [exact Hq|]. intros v kb (old & ds & H1 & H2 & H3 & H4). split; [done|]. by exists old, ds.
  - destruct Hq as (v & Hv & old & ds & H1 & H2 & H3). by exists v, old, ds.
Qed.

(** C25: with a depth, the function is given the records of the partitions at
    distance at most [depth] among those selected, in the order of the keys; the
    slice it may ask for designates the records of the partition. *)
Theorem C25_map_overlap (depth : nat) :
  regular e c -> represents c M I s -> uniform c M I -> filterable c -> (forall v, is_Some (M v) -> says (c_part c) filt v (P v)) ->
  c_immutable c = false -> (forall v old, M v = Some old -> P v -> measured (c_dim c) selected old) ->
  exists vs r, StronglySorted row_lt vs /\ (forall v, v ∈ vs <-> is_Some (M v) /\ P v) /\
    exec (map_overlap e c f delayed (Z.of_nat depth) filt selected) s = (r, s) /\
    let called v pre post y := exists before old after ds range,
      Forall2 (fun w d => M w = Some d) (drop (length pre - depth) pre) before /\ M v = Some old /\ Forall2 (fun w d => M w = Some d) (take depth post) after /\
      seen_around (c_dim c) delayed selected before old after ds range /\
      cb_call f ds (if cb_info f then Some (c_dim c, range) else None) = y in
    match r with
    | Ok out => length out = length vs /\ forall pre v post i kb, vs = pre ++ v :: post -> i = length pre -> out !! i = Some kb ->
        kb.1 = zip (p_keys (c_part c)) v /\ called v pre post (Ok kb.2)
    | Raise ex => exists pre v post, vs = pre ++ v :: post /\ called v pre post (Raise ex)
    end.
Proof.
  intros Hr Hs Hu Hfi HP Him Hmea. destruct (select_filter e c Hr M I s filt P Hs Hfi HP) as (vs & Hso & Hin & Esel). exists vs.
  assert (Hnd : NoDup vs) by (by apply sorted_nodup_rows).
  unfold map_overlap. rewrite exec_bind, Esel, map_map.
  set (called := fun v pre post y => exists before old after ds range,
      Forall2 (fun w d => M w = Some d) (drop (length pre - depth) pre) before /\ M v = Some old /\ Forall2 (fun w d => M w = Some d) (take depth post) after /\
      seen_around (c_dim c) delayed selected before old after ds range /\
      cb_call f ds (if cb_info f then Some (c_dim c, range) else None) = y).
  destruct (exec_pseq_tasks (fun v => let! di <- load_overlap c delayed (Z.of_nat depth) (map (part_dir c) vs) selected (part_dir c v);
      let! k <- Ret (p_parse (c_part c) (path_str (part_dir c v))); let! b <- Ret (call_with f di.1 (c_dim c, di.2)); pret (k, b)) s
      (fun v r => forall pre post, vs = pre ++ v :: post -> 
         match r with Ok kb => kb.1 = zip (p_keys (c_part c)) v /\ called v pre post (Ok kb.2) | Raise ex => called v pre post (Raise ex) end) vs) as (r & E & Hq).
  { intros v Hv. destruct (elem_of_list_split _ _ Hv) as (pre & post & Evs). apply Hin in Hv as [[old Hv] Hp].
    assert (Hall : forall w, w ∈ pre ++ v :: post -> is_Some (M w) /\ forall d, M w = Some d -> measured (c_dim c) selected d).
    { rewrite <-Evs. intros w Hw. apply Hin in Hw as [Hw HPw]. split; [done|]. intros d Hd. by apply (Hmea w). }
    destruct (held M (drop (length pre - depth) pre)) as [before Hbe].
    { intros w Hw. apply Hall, elem_of_app. left. rewrite <-(take_drop (length pre - depth) pre). apply elem_of_app. by right. }
    destruct (held M (take depth post)) as [after Haf].
    { intros w Hw. apply Hall, elem_of_app. right. right. rewrite <-(take_drop depth post). apply elem_of_app. by left. }
    rewrite Evs in *. destruct (load_overlap_ok e c Hr M I s Hs Hu delayed selected depth pre v post old before after Him Hnd Hall Hv Hbe Haf) as (ds & range & Ed & Hsee).
    destruct (rp_part _ _ _ _ Hs _ _ Hv) as (Hlen & _). rewrite exec_bind, Ed.
    rewrite exec_bind. cbn [exec]. unfold part_dir. rewrite (parse_key_dirs _ _ _ (rg_keys _ _ Hr) (rg_path _ _ Hr) Hlen). rewrite exec_bind. cbn [exec fst snd].
    assert (Huniq : forall pre' post', pre ++ v :: post = pre' ++ v :: post' -> pre' = pre /\ post' = post).
    { intros pre' post' Epp. assert (El : length pre' = length pre).
      { eapply NoDup_lookup; [exact Hnd| |apply list_lookup_middle; reflexivity]. rewrite Epp. by apply list_lookup_middle. }
      symmetry in Epp. apply app_inj_1 in Epp as [-> [= ->]]; done. }
    unfold call_with. destruct (cb_call f ds _) as [b|ex] eqn:Ec; (eexists; split; [reflexivity|]); intros pre' post' [-> ->]%Huniq; [split; [done|]|]; by exists before, old, after, ds, range. }
  exists r. split; [done|]. split; [done|]. split; [done|]. cbv zeta. destruct r as [out|ex].
  - split; [symmetry; by eapply Forall2_length|]. intros pre v post i kb Evs -> Hi. 
    assert (Hvi : vs !! length pre = Some v) by (rewrite Evs; by apply list_lookup_middle).
    by apply (Forall2_lookup_lr _ _ _ _ _ _ Hq Hvi Hi).
  - destruct Hq as (v & Hv & Hq). destruct (elem_of_list_split _ _ Hv) as (pre & post & Evs). exists pre, v, post. split; [done|]. by apply Hq.
Qed.

(** When the collection has variables stored apart, map_overlap raises,
    whatever the function: the data of the partition is merged with itself. *)
Theorem C25_immutable_refuted (depth : nat) :
  regular e c -> represents c M I s -> uniform c M I -> filterable c -> (forall v, is_Some (M v) -> says (c_part c) filt v (P v)) ->
  c_immutable c = true -> (forall v old, M v = Some old -> P v -> measured (c_dim c) selected old) -> (exists v, is_Some (M v) /\ P v) ->
  exec (map_overlap e c f delayed (Z.of_nat depth) filt selected) s = (Raise ValueError, s).
Proof.
  intros Hr Hs Hu Hfi HP Him Hmea [v0 Hv0]. destruct (select_filter e c Hr M I s filt P Hs Hfi HP) as (vs & Hso & Hin & Esel).
  assert (Hnd : NoDup vs) by (by apply sorted_nodup_rows).
  unfold map_overlap. rewrite exec_bind, Esel. apply Hin in Hv0. destruct vs as [|v vs]; [by apply elem_of_nil in Hv0|].
  cbn [map pseq]. rewrite exec_bind, exec_bind.
  pose proof (load_overlap_immutable e c Hr M I s Hs Hu delayed selected depth [] v vs Him Hnd) as E. cbn [app map] in E. rewrite E; [done|].
  intros w Hw. apply Hin in Hw as [Hw HPw]. split; [done|]. intros d Hd. by apply (Hmea w).
Qed.
End map.
Print Assumptions C26_map.
Print Assumptions C25_map_overlap.
Print Assumptions C25_immutable_refuted.

(** ** Cases *)

(** The heights, and the slice given. *)
Definition heights : callback (list val * option info) :=
  Callback true (fun ds i => match dget (d_vars ds) (lit "height") with Some v => Ok (a_flat (v_array v), i) | None => Raise KeyError end).
Lemma X_all M : X_contents M -> forall v, is_Some (M v) -> says X_part NoFilter v True.
Proof. done. Qed.
Lemma X_keys M vs : X_contents M -> StronglySorted row_lt vs -> (forall v, v ∈ vs <-> is_Some (M v) /\ True) -> vs = [[1%Z]; [2%Z]].
Proof.
  intros (p1 & p2 & H1 & H2 & H3 & _) Hso Hin.
  assert (Hv : forall v, v ∈ vs <-> v ∈ [[1%Z]; [2%Z]]).
  { intros v. rewrite Hin, elem_of_cons, elem_of_list_singleton. split.
    - intros [[d Hd] _]. destruct (decide (v = [1%Z])); [by left|]. destruct (decide (v = [2%Z])); [by right|]. by rewrite H3 in Hd.
    - intros [->| ->]; (split; [by eexists|done]). }
  apply (sorted_rows_unique 1); [exact Hso| | |exact Hv].
  - repeat constructor. by exists [], 1%Z, 2%Z, [], [].
  - intros v H%Hv. apply elem_of_cons in H as [->|H]; [done|]. by apply elem_of_list_singleton in H as ->.
Qed.
Example C26_case : exists M i s, represents X_coll M (Some i) s /\
  exec (map_partitions X_env X_coll heights true NoFilter (Some [lit "height"])) s =
    (Ok [([(lit "pass", 1%Z)], ([Num 5; Num 6; Num 7; Num 8], None)); ([(lit "pass", 2%Z)], ([Num 9; Num 4], None))], s).
Proof.
  destruct X_filled as (M & i & s & Hs & Hu & HM). exists M, i, s. split; [exact Hs|].
  destruct (C26_map X_env X_coll heights true NoFilter (Some [lit "height"]) M (Some i) s (fun _ => True) X_regular Hs Hu X_filterable ltac:(done)) as (vs & r & Hso & Hin & E & Hr).
  rewrite (X_keys M vs HM Hso Hin) in *. rewrite E. f_equal.
  destruct HM as (p1 & p2 & H1 & H2 & _ & _ & _ & _ & Hh1 & _ & _ & _ & Hh2).
  assert (Hval : forall v old ds zs, M v = Some old -> dget (d_vars old) (lit "height") = Some (X_height zs) -> seen true (Some [lit "height"]) (fixed_part X_coll (Some i)) old ds ->
    cb_call heights ds None = Ok (map Num zs, None)).
  { intros v old ds zs Hv Hh Hsn. cbn [heights cb_call].
    assert (dget (d_vars ds) (lit "height") = Some (with_delayed (stored (X_height zs)) true)) as ->; [|done].
    apply (se_vars _ _ _ _ _ Hsn). split; [cbn; left|]. exists (X_height zs). split; [by left|done]. }
  destruct r as [out|ex].
  - inversion Hr as [|? [k1 b1] ? ? (K1 & o1 & d1 & M1 & S1 & C1) Hr1]; subst. inversion Hr1 as [|? [k2 b2] ? ? (K2 & o2 & d2 & M2 & S2 & C2) Hr2]; subst. inversion Hr2; subst.
    assert (o1 = p1) as -> by congruence. assert (o2 = p2) as -> by congruence.
    rewrite (Hval _ _ _ _ H1 Hh1 S1) in C1. rewrite (Hval _ _ _ _ H2 Hh2 S2) in C2. cbn in *. by injection C1 as <-; injection C2 as <-; subst.
  - exfalso. destruct Hr as (v & old & ds & Hv & Ho & Hsn & Ec). apply elem_of_cons in Hv as [->|Hv]; [|apply elem_of_list_singleton in Hv as ->].
    + assert (old = p1) as -> by congruence. by rewrite (Hval _ _ _ _ H1 Hh1 Hsn) in Ec.
    + assert (old = p2) as -> by congruence. by rewrite (Hval _ _ _ _ H2 Hh2 Hsn) in Ec.
Qed.

(** The times, and the slice given. *)
Definition times : callback (list val * option info) :=
  Callback true (fun ds i => match dget (d_vars ds) (lit "time") with Some v => Ok (a_flat (v_array v), i) | None => Raise KeyError end).
Definition plain_times (l : list Z) : Prop := records (X_time l) (lit "time") = Some (map (fun x => Arr [] [Num x]) l).
Lemma X_around (before after : list dataset) old ds range zb zs za :
  seen_around (lit "time") true None before old after ds range -> dget (d_vars old) (lit "time") = Some (X_time zs) ->
  Forall2 (fun d z => dget (d_vars d) (lit "time") = Some (X_time z)) before zb -> Forall2 (fun d z => dget (d_vars d) (lit "time") = Some (X_time z)) after za ->
  Forall plain_times zb -> plain_times zs -> Forall plain_times za -> plain_times (concat zb ++ zs ++ concat za) ->
  dget (d_vars ds) (lit "time") = Some (with_delayed (X_time (concat zb ++ zs ++ concat za)) true) /\ range = (length (concat zb), length (concat zb) + length zs).
Proof.
  intros Hsee Hold Hb Ha Pb Ps Pa Pall.
  assert (Hin : lit "time" ∈ dkeys (d_vars ds)) by (apply (sa_names _ _ _ _ _ _ _ _ Hsee); split; [done|apply dget_is_Some; by eexists]).
  apply dget_is_Some in Hin as [v' Hv'].
  destruct (sa_vars _ _ _ _ _ _ _ _ Hsee _ _ Hv') as (v & Hv & Hsame).
  assert (exists z, v = X_time z) as [z ->].
  { destruct Hb as [|d z ? ? Hd]; cbn [hd] in Hv; [exists zs; congruence|exists z; congruence]. }
  destruct (sa_records _ _ _ _ _ _ _ _ Hsee _ _ _ Hv' Hold ltac:(left)) as (brs & rs & ars & Hbr & Hrs & Har & Hr' & ->).
  assert (Hjoin : forall dss zss rss, Forall2 (fun d z => dget (d_vars d) (lit "time") = Some (X_time z)) dss zss -> Forall plain_times zss -> records_in (lit "time") (lit "time") dss rss ->
    mjoin rss = map (fun x => Arr [] [Num x]) (concat zss)).
  { intros dss zss rss H. revert rss. induction H as [|d z1 dss zss Hd _ IH]; intros rss Hpl Hri; inversion Hri as [|? r ? rss' (w & Hw & Hwr) Hri']; subst; [done|].
    inversion Hpl as [|? ? Hz Hpl']; subst. rewrite Hd in Hw. injection Hw as <-. rewrite Hz in Hwr. injection Hwr as <-.
    change (mjoin (?a :: rss')) with (a ++ mjoin rss'). cbn [concat]. rewrite map_app. f_equal. by apply IH. }
  rewrite (Hjoin _ _ _ Hb Pb Hbr) in *. rewrite (Hjoin _ _ _ Ha Pa Har) in *. rewrite Ps in Hrs. injection Hrs as <-. rewrite !map_length. split; [|done].
  rewrite Hv'. f_equal. set (all := concat zb ++ zs ++ concat za) in *.
  assert (Hwf : arr_wf (v_array v')) by (apply (proper_arrays _ (sa_proper _ _ _ _ _ _ _ _ Hsee)); eapply Storage_Proofs.vals_elem; by apply dget_elem).
  apply (Dataset_Main.var_determined [(lit "time", length all)] (lit "time")).
  - intros k d Hk. destruct k as [|k]; cbn in Hk; [|done]. injection Hk as <-. exists (length all). split; [done|]. cbn. by rewrite decide_True.
  - cbn. apply NoDup_singleton.
  - unfold arr_wf. cbn. rewrite map_length. lia.
  - exact Hwf.
  - destruct Hsame as (E & L & K & N). split; [|split; [|split]].
    + rewrite E. done.
    + rewrite L. done.
    + intros [|k] Hk; [done|]. rewrite K; [done|]. done.
    + intros Hno. exfalso. apply Hno. left.
  - rewrite Hr'. rewrite <-!map_app. unfold plain_times in Pall. fold all. symmetry. exact Pall.
Qed.
Example C25_case : exists M s, represents Y_coll M None s /\
  exec (map_overlap X_env Y_coll times true 1 NoFilter None) s =
    (Ok [([(lit "pass", 1%Z)], ([Num 10; Num 20; Num 30], Some (lit "time", (0, 2)))); ([(lit "pass", 2%Z)], ([Num 10; Num 20; Num 30], Some (lit "time", (2, 3))))], s).
Proof.
  destruct Y_filled as (M & s & Hs & Hu & HM). exists M, s. split; [exact Hs|].
  pose proof HM as (p1 & p2 & H1 & H2 & H3 & _ & Hh1 & _ & _ & _ & Hh2 & _ & _).
  assert (Hmea : forall v old, M v = Some old -> True -> measured (c_dim Y_coll) None old).
  { intros v old Hv _. destruct (decide (v = [1%Z])) as [->|N1].
    - assert (old = p1) as -> by congruence. exists (lit "time"), (X_time [10; 20]%Z). split; [done|]. split; [exact Hh1|left].
    - destruct (decide (v = [2%Z])) as [->|N2]; [|by rewrite H3 in Hv]. assert (old = p2) as -> by congruence.
      exists (lit "time"), (X_time [30]%Z). split; [done|]. split; [exact Hh2|left]. }
  destruct (C25_map_overlap X_env Y_coll times true NoFilter None M None s (fun _ => True) 1 Y_regular Hs Hu Y_filterable ltac:(done) eq_refl Hmea) as (vs & r & Hso & Hin & E & Hr).
  pose proof (X_keys M vs HM Hso Hin) as Evs. change (Z.of_nat 1) with 1%Z in E. rewrite E. f_equal. clear E Hs Hu.
  assert (P1 : plain_times [10; 20]%Z) by (vm_compute; reflexivity). assert (P2 : plain_times [30]%Z) by (vm_compute; reflexivity).
  assert (P3 : plain_times [10; 20; 30]%Z) by (vm_compute; reflexivity).
  assert (C1 : forall before old after ds range, Forall2 (fun w d => M w = Some d) [] before -> M [1%Z] = Some old -> Forall2 (fun w d => M w = Some d) [[2%Z]] after ->
     seen_around (lit "time") true None before old after ds range -> cb_call times ds (Some (lit "time", range)) = Ok ([Num 10; Num 20; Num 30], Some (lit "time", (0, 2)))).
  { intros before old after ds range Hb Ho Ha Hsee. inversion Hb; subst. inversion Ha as [|? d ? ? Hd Ha']; subst. inversion Ha'; subst.
    assert (old = p1) as -> by congruence. assert (d = p2) as -> by congruence.
    destruct (X_around [] [p2] p1 ds range [] [10; 20]%Z [[30]]%Z Hsee Hh1) as [Ed ->]; [constructor|by repeat constructor|constructor|exact P1|by repeat constructor|exact P3|].
    cbn [times cb_call]. rewrite Ed. reflexivity. }
  assert (C2 : forall before old after ds range, Forall2 (fun w d => M w = Some d) [[1%Z]] before -> M [2%Z] = Some old -> Forall2 (fun w d => M w = Some d) [] after ->
     seen_around (lit "time") true None before old after ds range -> cb_call times ds (Some (lit "time", range)) = Ok ([Num 10; Num 20; Num 30], Some (lit "time", (2, 3)))).
  { intros before old after ds range Hb Ho Ha Hsee. inversion Ha; subst. inversion Hb as [|? d ? ? Hd Hb']; subst. inversion Hb'; subst.
    assert (old = p2) as -> by congruence. assert (d = p1) as -> by congruence.
    destruct (X_around [p1] [] p2 ds range [[10; 20]]%Z [30]%Z [] Hsee Hh2) as [Ed ->]; [by repeat constructor|constructor|by repeat constructor|exact P2|constructor|exact P3|].
    cbn [times cb_call]. rewrite Ed. reflexivity. }
  destruct r as [out|ex].
  - destruct Hr as [Hl Hr]. rewrite Evs in Hl. destruct out as [|[k1 b1] [|[k2 b2] [|]]]; try discriminate Hl.
    destruct (Hr [] [1%Z] [[2%Z]] 0 (k1, b1) Evs eq_refl eq_refl) as (K1 & b & o & a & ds & rg & Hb & Ho & Ha & Hsee & Ec).
    cbn [fst snd] in K1, Ec. pose proof (C1 b o a ds rg Hb Ho Ha Hsee) as Ex. change (cb_call times ds (Some (lit "time", rg)) = Ok b1) in Ec. rewrite Ex in Ec. clear Ex. clear b o a ds rg Hb Ho Ha Hsee.
    destruct (Hr [[1%Z]] [2%Z] [] 1 (k2, b2) Evs eq_refl eq_refl) as (K2 & b & o & a & ds & rg & Hb & Ho & Ha & Hsee & Ec').
    cbn [fst snd] in K2, Ec'. pose proof (C2 b o a ds rg Hb Ho Ha Hsee) as Ex. change (cb_call times ds (Some (lit "time", rg)) = Ok b2) in Ec'. rewrite Ex in Ec'. clear Ex. injection Ec as <-. injection Ec' as <-. subst k1 k2. reflexivity.
  - exfalso. destruct Hr as (pre & v & post & Ep & b & o & a & ds & rg & Hb & Ho & Ha & Hsee & Ec). rewrite Evs in Ep. clear Evs.
    destruct pre as [|w [|w' pre]]; cbn in Ep; [injection Ep as <- <-|injection Ep as <- <- <-|injection Ep as _ _ Ep; by destruct pre].
    + pose proof (C1 b o a ds rg Hb Ho Ha Hsee) as Ex. change (cb_call times ds (Some (lit "time", rg)) = Raise ex) in Ec. rewrite Ex in Ec. discriminate Ec.
    + pose proof (C2 b o a ds rg Hb Ho Ha Hsee) as Ex. change (cb_call times ds (Some (lit "time", rg)) = Raise ex) in Ec. rewrite Ex in Ec. discriminate Ec.
Qed.
