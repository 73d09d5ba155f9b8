(** * Updating the variables of a view *)
From Verif Require Import Py Dict NdArray_Model NdArray_Spec NdArray_Proofs Dataset_Model Dataset_Spec Dataset_Proofs Dataset_Props2 Assemble_Proofs
  Meta_Model PartPath_Model PartPath_Proofs Split_Spec FS_Model FS_Proofs Pool_Model Pool_Proofs
  Storage_Model Storage_Spec Storage_Proofs
  Listing_Model Listing_Spec Listing_Proofs Collection_Model Collection_Spec Collection_Proofs Collection_State Collection_Select Collection_Load
  Collection_Example Update_Model Update_Spec Update_State Update_Proofs Update_Example Update_Props Overlap_Proofs Validate_Proofs Map_Props
  View_Model View_Spec View_State View_Proofs View_Sync View_Example View_Vars View_Props2 View_Load View_Example2 View_Props3 View_Map View_Props4 View_Update.

Section C73.
Context (v : venv) (w : view) (M : list Z -> option dataset) (I : option dataset) (V : list Z -> option vpart) (s : store).
Local Notation c := (w_ref w).
Local Notation dim := (c_dim c).
Context (Hw : viewable v w) (Hs : represents c M I s) (Hmo : forall x ds, M x = Some ds -> made_of c ds) (Hv : holds_view v w V s).
Context (Hag : forall x ds p, M x = Some ds -> V x = Some p -> agrees ds p) (Hvar : md_vars (w_meta w) <> []).
Context (delayed : bool) (sel : option (list str)) (Hcov : covers w sel).
Context (filt : filter) (P : list Z -> Prop) (Hf : filt = NoFilter \/ filterable c) (HP : forall x, is_Some (M x) -> says (c_part c) filt x (P x)).
Context (sched : schedule) (workers : Z) (f : update_callback) (npartitions : option Z) (trim : bool).
Local Notation run := (view_update v sched workers w f delayed 0 filt npartitions sel trim).

  Lemma shown_now : shown v w M I V s.
  Proof using Hs Hv Hag. by split. Qed.
  (** All the cases of the call. *)
  Lemma C73_cases : sane f -> ~ returned f CHECKSUM -> exists vs, (forall x, x ∈ vs <-> is_Some (M x) /\ is_Some (V x) /\ P x) /\
    ((vs = [] /\ exec run s = (Ok tt, s)) \/
     ((exists ex, exec run s = (Raise ex, s)) /\ ~ ((0 < batches_asked workers npartitions)%Z /\ (forall n, returned f n -> n ∈ dkeys (md_vars (w_meta w))) /\
        forall x old ds i, x ∈ vs -> data_at M V x = Some old -> seen delayed sel None old ds -> exists l, cb_call f ds i = Ok l)) \/
     exists r s' V', exec run s = (r, s') /\ shown v w M I V' s' /\ (forall x, x ∉ vs -> V' x = V x) /\
      (forall x old, x ∈ vs -> V x = Some old -> exists new, V' x = Some new /\ (new = old /\ is_ok r = false \/ exists rv, vrel w M delayed sel f x old new rv /\ (r = Ok tt -> rv = Ok tt))) /\
      (forall ex, r = Raise ex -> exists x old new, x ∈ vs /\ V x = Some old /\ vrel w M delayed sel f x old new (Raise ex)) /\
      forall q, (forall x, x ∈ vs -> ~ vregion_one w f x q) -> s' !! q = s !! q).
  Proof using All.
    intros Hsa Hck. pose proof shown_now as Hsh.
    destruct (view_update_call v w M I V s Hw Hmo Hsh Hvar delayed sel Hcov filt P Hf HP sched workers f 0 npartitions trim) as (vs & o_at & Sv & Hnd & Hvs & Hl & Hop & Hrun).
    exists vs. split; [done|]. cbv zeta in Hrun. destruct vs as [|x vs]; [by left|right].
    destruct Hrun as (m & Em & [(ex & E & Hno)|(l & El & Hnames & Hrun & _)]).
    - left. split; [by exists ex|]. intros (_ & Hret & Hcall). apply Hno. destruct (Hop x ltac:(left)) as (ds & p & HM & HV & Ho).
      destruct (Hcall x (combined ds p) (o_at x) (if cb_info f then Some (dim, (0, m)) else None)) as [l El]; [left|unfold data_at; by rewrite HM, HV|by apply opens_seen|].
      exists l. split; [done|]. intros n Hn. apply Hret. by exists (o_at x), (if cb_info f then Some (dim, (0, m)) else None), l.
    - rewrite (Hrun eq_refl). fold (batches_asked workers npartitions).
      destruct (batches_run v w Hw M I (vitem w o_at) (view_update_one w delayed sel f) (vpre M delayed sel o_at) (vrel w M delayed sel f) (vregion_one w f) sched (batches_asked workers npartitions) V s (x :: vs)) as [(ex & E & Hn)|H].
      + intros y Hy. by apply view_update_does.
      + intros y Hy. apply within_view_one.
      + done.
      + done.
      + done.
      + intros y Hy. destruct (Hop y Hy) as (ds & p & HM & HV & Ho). exists p. split; [done|]. exists ds. done.
      + left. split; [by exists ex|]. intros (Hpos & _). specialize (Hn ltac:(done)). lia.
      + by right.
  Qed.

(** A call that succeeds gives, in each partition of the view that the filter
    selects, the values that the callback returns for the data of this partition
    to the variables that it names. The copies of the axis, the other variables,
    the other partitions, the reference and all the other files do not
    change. A lazy array that the callback returns does not use the variables
    that it returns. *)
Theorem C73_update s' : sane f -> ~ returned f CHECKSUM -> delayed = false \/ settled f -> exec run s = (Ok tt, s') ->
  exists V', represents c M I s' /\ holds_view v w V' s' /\ (forall x ds p, M x = Some ds -> V' x = Some p -> agrees ds p) /\
    (forall x ds old, M x = Some ds -> V x = Some old -> P x -> exists new, V' x = Some new /\ vp_axis new = vp_axis old /\ updated delayed sel None f (combined ds old) (combined ds new)) /\
    (forall x, ~ (is_Some (M x) /\ is_Some (V x) /\ P x) -> V' x = V x) /\
    (forall q, ~ (exists x n, is_Some (M x) /\ is_Some (V x) /\ P x /\ returned f n /\ under (vdir w x ++ [n]) q) -> s' !! q = s !! q).
Proof using All.
  intros Hsa Hck Hset E. destruct (C73_cases Hsa Hck) as (vs & Hvs & [[-> E']|[[(ex & E') _]|(r & s1 & V' & E' & Hs' & Hout & Hin & _ & Hreg)]]); rewrite E in E'; [|done|].
  - injection E' as ->. exists V. split; [done|]. split; [done|]. split; [done|]. split; [|done]. intros x ds old HM HV Hp. exfalso.
    assert (Hx : x ∈ []) by (apply Hvs; eauto). by apply elem_of_nil in Hx.
  - injection E' as <- <-. destruct Hs' as [H1 H2 H3]. exists V'. split; [done|]. split; [done|]. split; [done|]. split; [|split].
    + intros x ds old HM HV Hp. destruct (Hin x old) as (new & En & [[_ ?]|(rv & (Hax & Hrel) & Hrv)]); [apply Hvs; eauto|done|done|].
      exists new. split; [done|]. split; [done|]. rewrite (Hrv eq_refl) in Hrel. by apply (Hrel ds HM).
    + intros x Hx. apply Hout. by rewrite Hvs.
    + intros q Hq. apply Hreg. intros x Hx (n & Hn & Un). apply Hq. exists x, n. apply Hvs in Hx as (? & ? & ?). done.
Qed.

(** Whatever the callback does, and if the call raises: only the values of
    variables that the callback returns, in the selected partitions of the view,
    may change; the reference does not. *)
Theorem C73_frame r s' : sane f -> ~ returned f CHECKSUM -> exec run s = (r, s') ->
  exists V', represents c M I s' /\ holds_view v w V' s' /\
    (forall x ds old, M x = Some ds -> V x = Some old -> P x -> exists new, V' x = Some new /\ vp_axis new = vp_axis old /\ at_most (returned f) (combined ds old) (combined ds new)) /\
    (forall x, ~ (is_Some (M x) /\ is_Some (V x) /\ P x) -> V' x = V x) /\
    (forall q, ~ (exists x n, is_Some (M x) /\ is_Some (V x) /\ P x /\ returned f n /\ under (vdir w x ++ [n]) q) -> s' !! q = s !! q).
Proof using All.
  intros Hsa Hck E.
  assert (Hsame : forall x ds old, M x = Some ds -> V x = Some old -> at_most (returned f) (combined ds old) (combined ds old)).
  { intros x ds old HM HV. apply at_most_refl.
    destruct (data_sound v w M I V s Hw Hs Hmo Hv Hag sel Hcov x (combined ds old)) as (_ & Hso & _); [unfold data_at; by rewrite HM, HV|]. apply Hso. }
  destruct (C73_cases Hsa Hck) as (vs & Hvs & [[-> E']|[[(ex & E') _]|(r' & s1 & V' & E' & Hs' & Hout & Hin & _ & Hreg)]]); rewrite E in E'.
  - injection E' as -> ->. exists V. split; [done|]. split; [done|]. split; [|done]. intros x ds old HM HV _. exists old. split; [done|]. split; [done|]. by apply (Hsame x).
  - injection E' as -> ->. exists V. split; [done|]. split; [done|]. split; [|done]. intros x ds old HM HV _. exists old. split; [done|]. split; [done|]. by apply (Hsame x).
  - injection E' as <- <-. destruct Hs' as [H1 H2 H3]. exists V'. split; [done|]. split; [done|]. split; [|split].
    + intros x ds old HM HV Hp. destruct (Hin x old) as (new & En & Hcase); [apply Hvs; eauto|done|]. exists new. split; [done|].
      destruct Hcase as [[-> _]|(rv & (Hax & Hrel) & _)]; [split; [done|]; by apply (Hsame x)|]. split; [done|]. by apply (Hrel ds HM).
    + intros x Hx. apply Hout. by rewrite Hvs.
    + intros q Hq. apply Hreg. intros x Hx (n & Hn & Un). apply Hq. exists x, n. apply Hvs in Hx as (? & ? & ?). done.
Qed.

(** The call succeeds if the callback works on each selected partition, returns
    only variables of the view, and never raises on the data of the partitions,
    whatever the information given with it: a first call, on one of them, only
    serves to know the names. *)
Theorem C73_succeeds : sane f -> (forall n, returned f n -> n ∈ dkeys (md_vars (w_meta w))) -> delayed = false \/ settled f -> (0 < batches_asked workers npartitions)%Z ->
  (forall x old, data_at M V x = Some old -> P x -> works delayed sel None f old) ->
  (forall x old ds i, data_at M V x = Some old -> P x -> seen delayed sel None old ds -> exists l, cb_call f ds i = Ok l) ->
  exists s', exec run s = (Ok tt, s').
Proof using All.
  intros Hsa Hret Hset Hpos Hwk Hcall.
  assert (Hck : ~ returned f CHECKSUM).
  { intros H. apply Hret in H. apply dget_is_Some in H as [mv Hmv]. by destruct (vw_vars _ _ Hw _ _ Hmv) as (_ & ? & _). }
  destruct (C73_cases Hsa Hck) as (vs & Hvs & [[_ E']|[[_ Hno]|(r & s1 & V' & E' & _ & _ & _ & Hex & _)]]).
  - by exists s.
  - exfalso. apply Hno. split; [done|]. split; [done|]. intros x old ds i Hx Hd Hsee. apply (Hcall x old); [done|by apply Hvs|done].
  - destruct r as [[]|ex]; [by exists s1|]. exfalso. destruct (Hex ex eq_refl) as (x & old & new & Hx & HV & (_ & Hrel)). apply Hvs in Hx as ([ds HM] & _ & Hp).
    destruct (Hrel ds HM) as [_ Hr]. apply (Hr Hset Hret). apply (Hwk x); [unfold data_at; by rewrite HM, HV|done].
Qed.
End C73.
Print Assumptions C73_update.
Print Assumptions C73_frame.
Print Assumptions C73_succeeds.

(** The speeds become the heights of the reference, plus one. *)
Definition U_callback : update_callback := Callback false (fun ds _ => do d <- plus_one (lit "height") ds; Ok [(lit "speed", Known d)]).
Lemma U_callback_sane : sane U_callback.
Proof.
  intros ds i l n r Hp E Hin ds' d _ Hd. cbn [U_callback cb_call] in E. unfold plus_one in E. destruct (dget (d_vars ds) (lit "height")) as [x|] eqn:Ev; [|done]. injection E as <-.
  apply elem_of_list_singleton in Hin. injection Hin as -> ->. injection Hd as <-. cbn. unfold arr_wf. cbn. rewrite map_length.
  apply (proper_arrays _ Hp). eapply vals_elem. by apply dget_elem.
Qed.
Lemma U_callback_settled : settled U_callback.
Proof.
  intros ds i l n g E Hin. exfalso. cbn [U_callback cb_call] in E. destruct (plus_one _ ds); [|done]. injection E as <-. by apply elem_of_list_singleton in Hin.
Qed.
Lemma U_callback_names n : returned U_callback n -> n = lit "speed".
Proof. intros (ds & i & l & E & Hin). cbn [U_callback cb_call] in E. destruct (plus_one _ ds); [|done]. injection E as <-. by apply elem_of_list_singleton in Hin. Qed.
Example C73_case : exists s s' M V' p1 p2, represents Y_coll M None s /\ holds_view W_env W_view U_parts s /\
  exec (view_update W_env [(0, true); (1, false)] 4 W_view U_callback true 0 NoFilter None None false) s = (Ok tt, s') /\
  represents Y_coll M None s' /\ holds_view W_env W_view V' s' /\ V' [1%Z] = Some p1 /\ V' [2%Z] = Some p2 /\
  option_map (fun x => a_flat (v_array x)) (dget (vp_vars p1) (lit "speed")) = Some [Num 6; Num 7; Num 8; Num 9] /\
  option_map (fun x => a_flat (v_array x)) (dget (vp_vars p2) (lit "speed")) = Some [Num 10; Num 5].
Proof.
  destruct U_filled as (M & s & Hs & Hu & HM & Hmo & Hv & Hag & _).
  pose proof HM as (p1 & p2 & H1 & H2 & H3 & _ & _ & _ & Hh1 & _ & _ & _ & Hh2).
  assert (Hread : forall x old ds, data_at M U_parts x = Some old -> seen true None None old ds ->
     exists zs ts us, M x = Some (if decide (x = [1%Z]) then p1 else p2) /\ U_parts x = Some (U_part ts us) /\ length zs = length us /\
       dget (d_vars (if decide (x = [1%Z]) then p1 else p2)) (lit "height") = Some (X_height zs) /\ (x = [1%Z] /\ zs = [5; 6; 7; 8]%Z \/ x = [2%Z] /\ zs = [9; 4]%Z) /\
       dget (d_vars ds) (lit "height") = Some (with_delayed (X_height zs) true)).
  { intros x old ds (d & p & Hd & Hp & ->)%data_at_some Hsn.
    assert (Hg : forall zs, dget (d_vars d) (lit "height") = Some (X_height zs) -> dget (d_vars ds) (lit "height") = Some (with_delayed (X_height zs) true)).
    { intros zs Ez. apply (se_vars _ _ _ _ _ Hsn). split; [done|]. exists (X_height zs). split; [left; by rewrite part_get, Ez|done]. }
    destruct (decide (x = [1%Z])) as [->|N1].
    - assert (d = p1) as -> by congruence. exists [5; 6; 7; 8]%Z, [10; 20]%Z, [1; 2; 3; 4]%Z. split; [done|]. split; [reflexivity|]. split; [reflexivity|]. split; [exact Hh1|]. split; [by left|]. by apply Hg.
    - destruct (decide (x = [2%Z])) as [->|N2]; [|by rewrite H3 in Hd]. assert (d = p2) as -> by congruence. exists [9; 4]%Z, [30]%Z, [5; 6]%Z. split; [done|]. split; [reflexivity|]. split; [reflexivity|]. split; [exact Hh2|]. split; [by right|]. by apply Hg. }
  assert (Hnames : forall n, returned U_callback n -> n ∈ dkeys (md_vars (w_meta W_view))) by (intros n ->%U_callback_names; left).
  assert (Hck : ~ returned U_callback CHECKSUM) by (intros H; by apply U_callback_names in H).
  assert (HP : forall x, is_Some (M x) -> says (c_part (w_ref W_view)) NoFilter x True) by done.
  destruct (C73_succeeds W_env W_view M None U_parts s W_viewable Hs Hmo Hv Hag ltac:(discriminate) true None Logic.I NoFilter (fun _ => True) ltac:(by left) HP
    [(0, true); (1, false)] 4 U_callback None false U_callback_sane Hnames ltac:(right; exact U_callback_settled) ltac:(reflexivity)) as [s' E].
  { intros x old Hd _ ds Hsn. destruct (Hread x old ds Hd Hsn) as (zs & ts & us & HMx & HVx & Hlen & Hh & _ & Hg). cbn [U_callback cb_call]. unfold plus_one. rewrite Hg. eexists. split; [reflexivity|].
    intros n r Hin. apply elem_of_list_singleton in Hin. injection Hin as -> ->. apply data_at_some in Hd as (d & p & Hd & Hp & ->). assert (p = U_part ts us) as -> by congruence.
    assert (d = if decide (x = [1%Z]) then p1 else p2) as -> by congruence.
    destruct (hw_part _ _ _ _ Hv _ _ Hp) as (_ & Hk). destruct (part_name W_env W_view W_viewable _ _ s x (Hmo _ _ HMx) Hk (lit "speed") (U_var us) eq_refl) as (_ & _ & Hno).
    assert (Hsp : dget (d_vars (combined (if decide (x = [1%Z]) then p1 else p2) (U_part ts us))) (lit "speed") = Some (with_delayed (U_var us) (d_delayed (if decide (x = [1%Z]) then p1 else p2)))).
    { rewrite part_get, Hno. reflexivity. }
    eexists _, _. split; [exact Hsp|]. split; [reflexivity|]. split; [|discriminate]. cbn. by rewrite Hlen. }
  { intros x old ds i Hd _ Hsn. destruct (Hread x old ds Hd Hsn) as (zs & ts & us & _ & _ & _ & _ & _ & Hg). cbn [U_callback cb_call]. unfold plus_one. rewrite Hg. by eexists. }
  destruct (C73_update W_env W_view M None U_parts s W_viewable Hs Hmo Hv Hag ltac:(discriminate) true None Logic.I NoFilter (fun _ => True) ltac:(by left) HP
    [(0, true); (1, false)] 4 U_callback None false s' U_callback_sane Hck ltac:(right; exact U_callback_settled) E) as (V' & Hs' & Hv' & _ & Hupd & _).
  assert (Hval : forall x ds p new zs ts us, M x = Some ds -> U_parts x = Some p -> p = U_part ts us -> V' x = Some new -> dget (d_vars ds) (lit "height") = Some (X_height zs) ->
     updated true None None U_callback (combined ds p) (combined ds new) ->
     option_map (fun x => a_flat (v_array x)) (dget (vp_vars new) (lit "speed")) = Some (map (fun z => Num (z + 1)) zs)).
  { intros x ds p new zs ts us HMx HVx -> HVn Hh (o & l & xs & Hsn & Ecb & Hva & _ & Hrel).
    assert (Hg : dget (d_vars o) (lit "height") = Some (with_delayed (X_height zs) true)).
    { apply (se_vars _ _ _ _ _ Hsn). split; [done|]. exists (X_height zs). split; [left; by rewrite part_get, Hh|done]. }
    cbn [U_callback cb_call] in Ecb. unfold plus_one in Ecb. rewrite Hg in Ecb. injection Ecb as <-.
    inversion Hva as [|? [n y] ? ? [En' Ey] Hnil]; subst. inversion Hnil; subst. cbn [fst snd] in En', Ey. subst n. injection Ey as <-.
    destruct (hw_part _ _ _ _ Hv _ _ HVx) as (_ & Hk). destruct (part_name W_env W_view W_viewable _ _ s x (Hmo _ _ HMx) Hk (lit "speed") (U_var us) eq_refl) as (_ & _ & Hno).
    destruct (Assemble_Proofs.related_get _ _ _ (lit "speed") Hrel) as [R _]. destruct (R (with_delayed (U_var us) (d_delayed ds))) as (y & Hy & a & Ha & ->).
    { rewrite part_get, Hno. reflexivity. }
    rewrite part_get, Hno in Hy. destruct (dget (vp_vars new) (lit "speed")) as [z|] eqn:Ez; [|done]. cbn [option_map] in Hy |- *. f_equal.
    assert (Hza : v_array z = a) by (apply (f_equal (fun o => match o with Some y => v_array y | None => a end)) in Hy; exact Hy). rewrite Hza.
    cbn in Ha. subst a. cbn. rewrite map_map. done. }
  destruct (Hupd [1%Z] p1 _ H1 eq_refl Logic.I) as (n1 & E1 & _ & Hu1). destruct (Hupd [2%Z] p2 _ H2 eq_refl Logic.I) as (n2 & E2 & _ & Hu2).
  exists s, s', M, V', n1, n2. split; [exact Hs|]. split; [exact Hv|]. split; [exact E|]. split; [exact Hs'|]. split; [exact Hv'|]. split; [exact E1|]. split; [exact E2|]. split.
  - exact (Hval [1%Z] p1 _ n1 [5; 6; 7; 8]%Z [10; 20]%Z [1; 2; 3; 4]%Z H1 eq_refl eq_refl E1 Hh1 Hu1).
  - exact (Hval [2%Z] p2 _ n2 [9; 4]%Z [30]%Z [5; 6]%Z H2 eq_refl eq_refl E2 Hh2 Hu2).
Qed.
