(** * Properties of the calls that transform partitions: update *)
From Verif Require Import Py Dict NdArray_Model NdArray_Spec NdArray_Proofs Dataset_Model Dataset_Spec Dataset_Proofs Dataset_Props Dataset_Props2 Meta_Model PartPath_Model PartPath_Proofs
  Split_Spec DaskUtils_Model DaskUtils_Proofs FS_Model FS_Proofs Pool_Model Pool_Proofs Storage_Model Storage_Chunks Storage_Spec Storage_Proofs
  Listing_Model Listing_Spec Listing_Proofs Collection_Model Collection_Spec Collection_Split Collection_Proofs Collection_State Collection_Select Collection_Load
  Collection_Example Update_Model Update_Spec Storage_Change Update_State Update_Proofs Update_Example.

(** ** C24: update *)

(** The number of batches. *)
Definition batches_asked (workers : Z) (npartitions : option Z) : Z :=
  match npartitions with Some n => if (n =? 0)%Z then workers else n | None => workers end.

Section C24.
Context (e : env) (c : collection) (M : list Z -> option dataset) (I : option dataset) (s : store).
Context (sched : schedule) (workers : Z) (f : update_callback) (delayed : bool) (filt : filter) (npartitions : option Z).
Context (selected : option (list str)) (trim : bool) (variables : list str) (P : list Z -> Prop).
Local Notation run := (update e sched workers c f delayed 0 filt npartitions selected trim variables).

(** A call that succeeds gives, in each partition that the filter selects, the
    values that the callback returns for the data of this partition to the
    variables that it names. The other variables, the other partitions and all
    the other files do not change. Two conditions: a lazy array that the callback
    returns does not use the variables that it returns, and the callback
    returns something if the names of the variables are not given. *)
Theorem C24_update s' :
  regular e c -> represents c M I s -> uniform c M I -> filterable c -> (forall v, is_Some (M v) -> says (c_part c) filt v (P v)) ->
  sane f -> delayed = false \/ settled f -> variables <> [] \/ (forall ds i l, cb_call f ds i = Ok l -> l <> []) ->
  exec run s = (Ok tt, s') ->
  exists M', represents c M' I s' /\ uniform c M' I /\ shows e c M' s' /\
    (forall v old, M v = Some old -> P v -> exists new, M' v = Some new /\ updated delayed selected (fixed_part c I) f old new) /\
    (forall v, ~ (is_Some (M v) /\ P v) -> M' v = M v) /\
    (forall q, ~ (exists v n, is_Some (M v) /\ P v /\ returned f n /\ under (part_dir c v ++ [n]) q) -> s' !! q = s !! q).
Proof.
  intros Hr Hs Hu Hfi HP Hsa Hset Hvar E. destruct (select_filter e c Hr M I s filt P Hs Hfi HP) as (vs & Hso & Hin & Esel).
  assert (Hnd : NoDup vs) by (by apply sorted_nodup_rows).
  destruct (update_call e c Hr I delayed f (update_inv c I True) (update_rel c I delayed selected f True) (update_region c f) sched workers filt npartitions selected trim variables M s vs)
    as [(r & E' & Hcase)|(_ & _ & r & s1 & M' & E' & Hs' & Hu' & Hout & Hupd & _ & Hreg)].
  { intros v. by apply (update_does e). }
  { done. }
  { by intros _. }
  { done. }
  { intros v Hv. by apply Hin. }
  { done. }
  - rewrite E' in E. injection E as -> ->. destruct Hcase as [(ex & ? & _)|(_ & Hv & Einf)]; [done|]. destruct Hvar as [|Hvar]; [done|].
    assert (vs = []) as ->.
    { unfold infer_callable in Einf. rewrite exec_bind, Esel in Einf. destruct vs as [|v vs]; [done|]. exfalso. cbn [map] in Einf. rewrite exec_bind in Einf.
      destruct (open_pure (part_dir c v) delayed selected s') as [[ds|ex] Eo]; rewrite Eo in Einf; [|done]. destruct (dget _ _) as [n|]; [|done].
      unfold call_with in Einf. destruct (cb_call f ds _) as [l|] eqn:Ecb; cbn [call_dict rbind] in Einf; [|done]. destruct (forallb _ _); [|done].
      apply (Hvar _ _ _ Ecb). injection Einf as Ek. destruct l as [|[n' x] l]; [done|]. exfalso.
      assert (Hn : n' ∈ dkeys (dict_of ((n', x) :: l))) by (apply dict_of_keys; left). rewrite Ek in Hn. by apply elem_of_nil in Hn. }
    exists M. split_and!; try done.
    + by eapply represents_shows.
    + intros v old Hv' Hp. exfalso. assert (H : v ∈ []) by (apply Hin; split; [by eexists|done]). by apply elem_of_nil in H.
  - rewrite E' in E. injection E as -> ->. exists M'. split_and!; try done.
    + by apply Hu'.
    + by eapply represents_shows.
    + intros v old Hv Hp. destruct (Hupd v old) as (new & En & [[_ ?]|(rv & (_ & _ & Hrel) & Hrv)]); [apply Hin; split; [by eexists|done]|done|done|].
      exists new. split; [done|]. rewrite (Hrv eq_refl) in Hrel. by apply Hrel.
    + intros v Hv. apply Hout. by rewrite Hin.
    + intros q Hq. apply Hreg. intros v Hv (n & Hn & Un). apply Hq. exists v, n. apply Hin in Hv as [? ?]. done.
Qed.

(** Whatever the callback does, and if the call raises: only the values of
    variables that the callback returns, in the selected partitions, may change. *)
Theorem C24_frame r s' :
  regular e c -> represents c M I s -> filterable c -> (forall v, is_Some (M v) -> says (c_part c) filt v (P v)) -> sane f ->
  exec run s = (r, s') ->
  exists M', represents c M' I s' /\
    (forall v old, M v = Some old -> P v -> exists new, M' v = Some new /\ at_most (returned f) old new) /\
    (forall v, ~ (is_Some (M v) /\ P v) -> M' v = M v) /\
    (forall q, ~ (exists v n, is_Some (M v) /\ P v /\ returned f n /\ under (part_dir c v ++ [n]) q) -> s' !! q = s !! q).
Proof.
  intros Hr Hs Hfi HP Hsa E. destruct (select_filter e c Hr M I s filt P Hs Hfi HP) as (vs & Hso & Hin & Esel).
  assert (Hnd : NoDup vs) by (by apply sorted_nodup_rows).
  assert (Hsame : forall v old, M v = Some old -> at_most (returned f) old old).
  { intros v old Hv. destruct (rp_part _ _ _ _ Hs _ _ Hv) as (_ & Hso' & _). apply at_most_refl, Hso'. }
  destruct (update_call e c Hr I delayed f (update_inv c I False) (update_rel c I delayed selected f False) (update_region c f) sched workers filt npartitions selected trim variables M s vs)
    as [(r' & E' & _)|(_ & _ & r' & s1 & M' & E' & Hs' & _ & Hout & Hupd & _ & Hreg)].
  { intros v. by apply (update_does e). }
  { done. }
  { by intros []. }
  { done. }
  { intros v Hv. by apply Hin. }
  { done. }
  - rewrite E' in E. injection E as -> ->. exists M. split_and!; try done. intros v old Hv _. exists old. split; [done|]. by eapply Hsame.
  - rewrite E' in E. injection E as -> ->. exists M'. split_and!; try done.
    + intros v old Hv Hp. destruct (Hupd v old) as (new & En & Hcase); [apply Hin; split; [by eexists|done]|done|]. exists new. split; [done|].
      destruct Hcase as [[-> _]|(rv & (Ham & _) & _)]; [by eapply Hsame|done].
    + intros v Hv. apply Hout. by rewrite Hin.
    + intros q Hq. apply Hreg. intros v Hv (n & Hn & Un). apply Hq. exists v, n. apply Hin in Hv as [? ?]. done.
Qed.

(** The call succeeds when some partition is selected, the names of the
    variables are given and the callback works on each selected partition. *)
Theorem C24_succeeds :
  regular e c -> represents c M I s -> uniform c M I -> filterable c -> (forall v, is_Some (M v) -> says (c_part c) filt v (P v)) ->
  sane f -> delayed = false \/ settled f -> variables <> [] -> c_readonly c = false -> (0 < batches_asked workers npartitions)%Z ->
  (exists v, is_Some (M v) /\ P v) -> (forall v old, M v = Some old -> P v -> works delayed selected (fixed_part c I) f old) ->
  exists s', exec run s = (Ok tt, s').
Proof.
  intros Hr Hs Hu Hfi HP Hsa Hset Hvar Hro Hn [v0 Hv0] Hw. destruct (select_filter e c Hr M I s filt P Hs Hfi HP) as (vs & Hso & Hin & Esel).
  assert (Hnd : NoDup vs) by (by apply sorted_nodup_rows).
  destruct (update_call e c Hr I delayed f (update_inv c I True) (update_rel c I delayed selected f True) (update_region c f) sched workers filt npartitions selected trim variables M s vs)
    as [(r & E' & Hcase)|(_ & _ & r & s1 & M' & E' & Hs' & Hu' & Hout & Hupd & Hex & Hreg)].
  { intros v. by apply (update_does e). }
  { done. }
  { by intros _. }
  { done. }
  { intros v Hv. by apply Hin. }
  { done. }
  - exfalso. destruct Hcase as [(ex & _ & Hvs)|(_ & ? & _)]; [|done]. specialize (Hvs Hvar Hro Hn). subst vs. apply Hin in Hv0. by apply elem_of_nil in Hv0.
  - destruct r as [[]|ex]; [by exists s1|]. exfalso. destruct (Hex ex eq_refl) as (v & old & new & Hv & Hold & (_ & _ & Hrel)).
    apply (Hrel Hset Logic.I). apply Hin in Hv as [_ Hp]. by apply (Hw v).
Qed.
End C24.
Print Assumptions C24_update.
Print Assumptions C24_frame.
Print Assumptions C24_succeeds.

(** A selected partition of a collection is updated with the values of its own
    data: a callback that gives the heights plus one. *)
Definition plus_one (n : str) (ds : dataset) : res vdata :=
  match dget (d_vars ds) n with
  | Some v => Ok (Plain (Arr (v_shape v) (map (fun x => match x with Num z => Num (z + 1) | NaN => NaN end) (a_flat (v_array v)))))
  | None => Raise KeyError
  end.
Definition X_callback : update_callback := Callback false (fun ds _ => do d <- plus_one (lit "height") ds; Ok [(lit "height", Known d)]).
Lemma X_callback_sane : sane X_callback.
Proof.
  intros ds i l n r Hp E Hin ds' d _ Hd. cbn [X_callback cb_call] in E. unfold plus_one in E. destruct (dget (d_vars ds) (lit "height")) as [v|] eqn:Ev; [|done]. injection E as <-.
  apply elem_of_list_singleton in Hin. injection Hin as -> ->. injection Hd as <-. cbn. unfold arr_wf. cbn. rewrite map_length.
  apply (proper_arrays _ Hp). eapply vals_elem. by apply dget_elem.
Qed.
Lemma X_callback_settled : settled X_callback.
Proof.
  intros ds i l n g E Hin. exfalso. cbn [X_callback cb_call] in E. destruct (plus_one _ ds); [|done]. injection E as <-. by apply elem_of_list_singleton in Hin.
Qed.
Example C24_case : exists s s' M M' I p1 v, represents X_coll M I s /\
  exec (update X_env [(0, true); (1, false)] 4 X_coll X_callback true 0 X_filter None None false [lit "height"]) s = (Ok tt, s') /\
  represents X_coll M' I s' /\ M' [1%Z] = M [1%Z] /\ M' [2%Z] = Some p1 /\ dget (d_vars p1) (lit "height") = Some v /\ a_flat (v_array v) = [Num 10; Num 5].
Proof.
  destruct X_filled as (M & i & s & Hs & Hu & (p1 & p2 & H1 & H2 & H3 & _ & _ & _ & _ & K2 & _ & _ & Hh)).
  assert (HP : forall v, is_Some (M v) -> says (c_part X_coll) X_filter v (hd 0%Z v = 2%Z)).
  { intros v [d Hd]. destruct (decide (v = [1%Z])) as [->|N1]; [exact (X_says 1)|]. destruct (decide (v = [2%Z])) as [->|N2]; [exact (X_says 2)|]. by rewrite H3 in Hd. }
  assert (Hseen : forall ds, seen true None (fixed_part X_coll (Some i)) p2 ds -> dget (d_vars ds) (lit "height") = Some (with_delayed (X_height [9; 4]%Z) true)).
  { intros ds Hsn. apply (se_vars _ _ _ _ _ Hsn). split; [done|]. exists (X_height [9; 4]%Z). split; [by left|done]. }
  destruct (C24_succeeds X_env X_coll M (Some i) s [(0, true); (1, false)] 4 X_callback true X_filter None None false [lit "height"] (fun v => hd 0%Z v = 2%Z)) as [s' E].
  { exact X_regular. } { exact Hs. } { exact Hu. } { exact X_filterable. } { exact HP. } { exact X_callback_sane. } { right. exact X_callback_settled. }
  { discriminate. } { reflexivity. } { reflexivity. } { exists [2%Z]. split; [by eexists|reflexivity]. }
  { intros v old Hv Hp. assert (v = [2%Z]) as ->.
    { destruct (decide (v = [2%Z])) as [|N2]; [done|]. destruct (decide (v = [1%Z])) as [->|N1]; [done|]. by rewrite H3 in Hv. }
    assert (old = p2) as -> by congruence. intros ds Hsn. eexists. cbn [X_callback cb_call]. unfold plus_one. rewrite (Hseen ds Hsn). split; [reflexivity|].
    intros n r Hin. apply elem_of_list_singleton in Hin. injection Hin as -> ->. eexists. eexists. split; [exact Hh|]. split; [reflexivity|]. split; [reflexivity|discriminate]. }
  destruct (C24_update X_env X_coll M (Some i) s [(0, true); (1, false)] 4 X_callback true X_filter None None false [lit "height"] (fun v => hd 0%Z v = 2%Z) s' X_regular Hs Hu X_filterable HP X_callback_sane
    ltac:(right; exact X_callback_settled) ltac:(left; discriminate) E) as (M' & Hs' & _ & _ & Hupd & Hno & _).
  destruct (Hupd [2%Z] p2 H2 eq_refl) as (new & En & ds & l & xs & Hsn & Ecb & Hval & Has). exists s, s', M, M', (Some i), new.
  cbn [X_callback cb_call] in Ecb. unfold plus_one in Ecb. rewrite (Hseen ds Hsn) in Ecb. injection Ecb as <-.
  inversion Hval as [|? [n x] ? ? [En' Ex] Hnil]; subst. inversion Hnil; subst. cbn in En', Ex. subst n. injection Ex as <-.
  destruct Has as [_ Hrel]. destruct (Assemble_Proofs.related_get _ _ _ (lit "height") Hrel) as [R _]. destruct (R _ Hh) as (v & Hv & a & Ha & ->).
  eexists. split; [exact Hs|]. split; [exact E|]. split; [exact Hs'|]. split; [apply Hno; by intros [_ ?]|]. split; [exact En|]. split; [exact Hv|].
  cbn in Ha. subst a. reflexivity.
Qed.

(** ** C52: the values that a callback returns *)

(** The callback that exchanges two variables. *)
Definition read (n : str) (ds : dataset) : res vdata := match dget (d_vars ds) n with Some v => Ok (Plain (v_array v)) | None => Raise KeyError end.
Definition exchange (a b : str) : update_callback := Callback false (fun _ _ => Ok [(a, Lazy (read b)); (b, Lazy (read a))]).
Lemma exchange_sane a b : sane (exchange a b).
Proof.
  intros ds i l n r _ [= <-] Hin ds' d Hp Hd.
  assert (Hr : forall m, read m ds' = Ok d -> vd_wf d).
  { intros m. unfold read. destruct (dget (d_vars ds') m) as [v|] eqn:E; [|done]. intros [= <-]. apply (proper_arrays _ Hp). eapply vals_elem. by apply dget_elem. }
  apply elem_of_cons in Hin as [[= -> ->]|Hin]; [by eapply Hr|]. apply elem_of_list_singleton in Hin. injection Hin as -> ->. by eapply Hr.
Qed.

Section C52.
Context (e : env) (c : collection) (Hr : regular e c) (I : option dataset) (a b : str) (Hab : a <> b).
Definition exchangeable (ds : dataset) : Prop :=
  exists va vb, dget (d_vars ds) a = Some va /\ dget (d_vars ds) b = Some vb /\ v_shape va = v_shape vb /\ v_shape va <> [].
Lemma exchange_does v : does c I (fun M => uniform c M I /\ forall v old, M v = Some old -> exchangeable old) (fun v => [v])
  (fun v => update_partition c true None (exchange a b) (part_dir c v))
  (fun _ old new r => r = Ok tt /\ forall vb, dget (d_vars old) b = Some vb -> new = assign_all old [(a, v_array vb); (b, v_array vb)])
  (fun v q => under (part_dir c v) q) v.
Proof using Hr Hab.
  intros M s Hs [Hu Hx] Hsome. destruct (Hsome v ltac:(left)) as [old Hv]. clear Hsome. destruct (rp_part _ _ _ _ Hs _ _ Hv) as (_ & Hso & _).
  destruct (Hx v old Hv) as (va & vb & Ea & Eb & Hsh & Hne).
  assert (Hwb : arr_wf (v_array vb)) by (apply (proper_arrays _ (storable_proper _ (sound_storable _ Hso))); eapply vals_elem; by apply dget_elem).
  pose proof (update_does e c Hr I true None (exchange a b) (exchange_sane a b) True v M s Hs (fun _ => Hu) ltac:(intros w Hw; apply elem_of_list_singleton in Hw as ->; by eexists))
    as (r0 & s0 & M0 & E0 & _ & _ & _ & _ & _ & Hreg).
  unfold update_partition in *. set (load := load_dataset c true None (part_dir c v)) in *.
  destruct (load_dataset_seen c M I s v old true None Hs Hu Hv) as (ds & E & Hsn). fold load in E. rewrite exec_bind, E, exec_bind in E0 |- *. cbn [exec] in E0 |- *.
  assert (Hd : call_dict (cb_call (exchange a b) ds None) = Ok [(a, Lazy (read b)); (b, Lazy (read a))]).
  { unfold call_dict. cbn. rewrite decide_False by congruence. done. }
  rewrite Hd in E0 |- *. cbn [pbind exec] in E0 |- *.
  set (body := fun nr : str * result => update_zarr_array (part_dir c v ++ [nr.1]) (evaluate load true ds nr.2)) in *.
  assert (Hload : forall l s1, fits old l -> represents c (set_part M v (assign_all old l)) I s1 -> exists ds1, exec load s1 = (Ok ds1, s1) /\ seen true None (fixed_part c I) (assign_all old l) ds1).
  { intros l s1 Hf Hs1. apply (load_dataset_seen c (set_part M v (assign_all old l)) I s1 v (assign_all old l) true None Hs1); [by apply uniform_assign|]. unfold set_part. by rewrite decide_True. }
  assert (Hget : forall l ds1 n w, seen true None (fixed_part c I) (assign_all old l) ds1 -> dget (d_vars (assign_all old l)) n = Some w -> read n ds1 = Ok (Plain (v_array w))).
  { intros l ds1 n w Hsn1 Hw. unfold read. rewrite (proj2 (se_vars _ _ _ _ _ Hsn1 n (with_delayed (stored w) true))); [done|]. split; [done|]. exists w. split; [by left|done]. }
  assert (Hs0 : represents c (set_part M v (assign_all old [])) I s) by (rewrite assign_nil; by eapply set_same).
  (* the first variable *)
  destruct (Hload [] s ltac:(done) Hs0) as (ds1 & El1 & Hsn1).
  assert (Ex1 : exec (evaluate load true ds (Lazy (read b))) s = (Ok (Plain (v_array vb)), s)).
  { cbn [evaluate]. rewrite exec_bind, El1. cbn [exec]. f_equal. eapply Hget; [done|]. by rewrite assign_nil. }
  destruct (update_variable e c Hr M I s v old [] a _ _ Hs0 Hso ltac:(done) ltac:(by intros ?%elem_of_nil) Ex1 ltac:(by intros x [= <-])) as (r1 & s1 & E1 & Hc1 & Hok1).
  specialize (Hok1 va (Plain (v_array vb)) Ea eq_refl Hne (eq_sym Hsh)). subst r1.
  destruct Hc1 as [(_ & ex & ?)|(va' & x & _ & Ea' & [= <-] & _ & Hf1 & Hs1 & _)]; [done|]. cbn [app to_store] in Hf1, Hs1.
  (* the second variable *)
  destruct (Hload _ s1 Hf1 Hs1) as (ds2 & El2 & Hsn2).
  assert (Ex2 : exec (evaluate load true ds (Lazy (read a))) s1 = (Ok (Plain (v_array vb)), s1)).
  { cbn [evaluate]. rewrite exec_bind, El2. cbn [exec]. f_equal. rewrite (Hget [(a, v_array vb)] ds2 a (with_array va (v_array vb)) Hsn2); [done|].
    rewrite assign_get, Ea. cbn. by rewrite decide_True. }
  destruct (update_variable e c Hr M I s1 v old [(a, v_array vb)] b _ _ Hs1 Hso Hf1 ltac:(cbn; rewrite elem_of_list_singleton; congruence) Ex2 ltac:(by intros x [= <-])) as (r2 & s2 & E2 & Hc2 & Hok2).
  specialize (Hok2 vb (Plain (v_array vb)) Eb eq_refl ltac:(congruence) eq_refl). subst r2.
  destruct Hc2 as [(_ & ex & ?)|(vb' & x & _ & Eb' & [= <-] & _ & Hf2 & Hs2 & _)]; [done|]. cbn [app to_store] in Hf2, Hs2.
  assert (Efin : exec (pfor [(a, Lazy (read b)); (b, Lazy (read a))] body) s = (Ok tt, s2)).
  { unfold pfor, body. cbn [map pseq fst snd]. rewrite exec_bind, exec_bind, E1, exec_bind, exec_bind, E2. done. }
  rewrite Efin in E0. injection E0 as <- <-.
  exists (Ok tt), s2, (set_part M v (assign_all old [(a, v_array vb); (b, v_array vb)])). split_and!; try done.
  - by apply uniform_assign.
  - intros w old'. unfold set_part. destruct (decide (w = v)) as [->|]; [|apply Hx]. intros [= <-].
    destruct (same_form_assign old _ Hf2) as [Hk Hg].
    exists (with_array va (v_array vb)), (with_array vb (v_array vb)). rewrite !assign_get, Ea, Eb. cbn. rewrite decide_True by done. rewrite decide_False by congruence. rewrite decide_True by done.
    split_and!; try done. change (v_shape vb <> []). by rewrite <-Hsh.
  - intros w Hw. unfold set_part. rewrite decide_False; [done|]. intros ->. apply Hw. left.
  - intros w old' Hw Hold. apply elem_of_list_singleton in Hw as ->. assert (old' = old) as -> by congruence. eexists. split; [unfold set_part; by rewrite decide_True|].
    right. exists (Ok tt). split; [|done]. split; [done|]. intros vb'' Hb''. by assert (vb'' = vb) as -> by congruence.
  - intros q Hq. apply Hreg. intros w Hw (n & _ & Un). apply (Hq w Hw). eapply under_trans; [apply under_app|done].
Qed.
End C52.

(** With delayed arrays, a callback that exchanges two variables loses one of
    them: the second value is computed after the first one is written. The
    update succeeds and both variables have the values of the second one. *)
Theorem C52_exchange_refuted : exists e c M I s s' M' old new va vb va' vb',
  regular e c /\ represents c M I s /\ uniform c M I /\
  exec (update e [] 4 c (exchange (lit "time") (lit "pass")) true 0 NoFilter None None false [lit "time"; lit "pass"]) s = (Ok tt, s') /\
  represents c M' I s' /\ M [1%Z] = Some old /\ M' [1%Z] = Some new /\
  dget (d_vars old) (lit "time") = Some va /\ dget (d_vars old) (lit "pass") = Some vb /\ a_flat (v_array va) = [Num 10; Num 20] /\ a_flat (v_array vb) = [Num 1; Num 1] /\
  dget (d_vars new) (lit "time") = Some va' /\ dget (d_vars new) (lit "pass") = Some vb' /\ a_flat (v_array va') = [Num 1; Num 1] /\ a_flat (v_array vb') = [Num 1; Num 1].
Proof.
  destruct X_filled as (M & i & s & Hs & Hu & (p1 & p2 & H1 & H2 & H3 & _ & Ht1 & Hp1 & _ & _ & Ht2 & Hp2 & _)).
  destruct (select_all X_env X_coll X_regular M (Some i) s Hs) as (vs & Hso & Hin & Esel).
  assert (Hx : forall v old, M v = Some old -> exchangeable (lit "time") (lit "pass") old).
  { intros v old Hv. destruct (decide (v = [1%Z])) as [->|N1]; [|destruct (decide (v = [2%Z])) as [->|N2]; [|by rewrite H3 in Hv]].
    - assert (old = p1) as -> by congruence. exists (X_time [10; 20]%Z), (X_pass [1; 1]%Z). split_and!; [exact Ht1|exact Hp1|reflexivity|discriminate].
    - assert (old = p2) as -> by congruence. exists (X_time [30]%Z), (X_pass [2]%Z). split_and!; [exact Ht2|exact Hp2|reflexivity|discriminate]. }
  destruct (update_call X_env X_coll X_regular (Some i) true (exchange (lit "time") (lit "pass")) _ _ _ [] 4 NoFilter None None false [lit "time"; lit "pass"] M s vs
    (fun v => exchange_does X_env X_coll X_regular (Some i) (lit "time") (lit "pass") ltac:(discriminate) v) Hs (conj Hu Hx) (sorted_nodup_rows _ Hso) (fun v => proj1 (Hin v)) Esel)
    as [(r & E' & Hcase)|(_ & _ & r & s1 & M' & E' & Hs' & _ & _ & Hupd & Hex & _)].
  - exfalso. destruct Hcase as [(ex & _ & Hvs)|(_ & ? & _)]; [|done]. specialize (Hvs ltac:(discriminate) eq_refl eq_refl). subst vs.
    assert (Hn : [1%Z] ∈ []) by (apply Hin; by eexists). by apply elem_of_nil in Hn.
  - assert (r = Ok tt) as ->.
    { destruct r as [[]|ex]; [done|]. exfalso. destruct (Hex ex eq_refl) as (v & old & new & _ & _ & ? & _). done. }
    destruct (Hupd [1%Z] p1) as (new & En & [[_ ?]|(rv & [_ Hnew] & _)]); [apply Hin; by eexists|exact H1|done|].
    specialize (Hnew _ Hp1).
    exists X_env, X_coll, M, (Some i), s, s1, M', p1, new, (X_time [10; 20]%Z), (X_pass [1; 1]%Z). eexists. eexists.
    split; [exact X_regular|]. split; [exact Hs|]. split; [exact Hu|]. split; [exact E'|]. split; [exact Hs'|]. split; [exact H1|]. split; [exact En|].
    split; [exact Ht1|]. split; [exact Hp1|]. split; [reflexivity|]. split; [reflexivity|]. subst new. rewrite !assign_get, Ht1, Hp1. split; [reflexivity|]. split; [reflexivity|]. split; reflexivity.
Qed.
Print Assumptions C52_exchange_refuted.

(** When the names of the variables are not given, and the callback returns
    nothing for the first partition, no partition is updated. *)
Definition X_not_first : update_callback :=
  Callback false (fun ds _ => match dget (d_vars ds) (lit "time") with
                              | Some v => if bool_decide (v_shape v = [2]) then Ok [] else cb_call X_callback ds None
                              | None => Raise KeyError
                              end).
Theorem C52_first_refuted : exists e c M I s ds2 l, regular e c /\ represents c M I s /\ uniform c M I /\
  exec (update e [] 4 c X_not_first true 0 NoFilter None None false []) s = (Ok tt, s) /\
  exec (load_dataset c true None (part_dir c [2%Z])) s = (Ok ds2, s) /\ cb_call X_not_first ds2 None = Ok l /\ l <> [].
Proof.
  destruct X_filled as (M & i & s & Hs & Hu & (p1 & p2 & H1 & H2 & H3 & _ & Ht1 & Hp1 & _ & _ & Ht2 & Hp2 & Hh2)).
  destruct (load_dataset_seen X_coll M (Some i) s [2%Z] p2 true None Hs Hu H2) as (ds2 & E2 & Hsn2).
  assert (exists l, cb_call X_not_first ds2 None = Ok l /\ l <> []) as (l & El & Hl).
  { cbn [X_not_first cb_call]. rewrite (proj2 (se_vars _ _ _ _ _ Hsn2 (lit "time") (with_delayed (X_time [30]%Z) true))).
    - cbn [X_callback cb_call]. unfold plus_one. rewrite (proj2 (se_vars _ _ _ _ _ Hsn2 (lit "height") (with_delayed (X_height [9; 4]%Z) true))).
      + eexists. split; [reflexivity|discriminate].
      + split; [exact Logic.I|]. exists (X_height [9; 4]%Z). split; [by left|reflexivity].
    - split; [exact Logic.I|]. exists (X_time [30]%Z). split; [by left|reflexivity]. }
  exists X_env, X_coll, M, (Some i), s, ds2, l. split; [exact X_regular|]. split; [exact Hs|]. split; [exact Hu|]. split; [|split; [exact E2|split; [exact El|exact Hl]]].
  clear E2 El Hl Hsn2. destruct (select_all X_env X_coll X_regular M (Some i) s Hs) as (vs & Hso & Hin & Esel).
  assert (exists vs', vs = [1%Z] :: vs') as (vs' & ->).
  { destruct vs as [|v vs']; [exfalso; assert (Hn : [1%Z] ∈ []) by (apply Hin; by eexists); by apply elem_of_nil in Hn|].
    exists vs'. f_equal. assert (Hv : is_Some (M v)) by (apply Hin; left). destruct (decide (v = [1%Z])) as [|N1]; [done|].
    assert (v = [2%Z]) as ->. { destruct (decide (v = [2%Z])) as [|N2]; [done|]. rewrite H3 in Hv by done. by destruct Hv. }
    exfalso. assert (Hn : [1%Z] ∈ [2%Z] :: vs') by (apply Hin; by eexists). apply elem_of_cons in Hn as [|Hn]; [done|].
    inversion Hso as [|? ? _ Hall]; subst. rewrite Forall_forall in Hall. specialize (Hall _ Hn). unfold row_lt in Hall.
    destruct Hall as (pre & x & y & r1 & r2 & Ea & Eb & Hlt). destruct pre; [|by destruct pre]. cbn in Ea, Eb. injection Ea as <- <-. injection Eb as <- <-. lia. }
  unfold update. cbn [c_readonly X_coll]. rewrite exec_bind.
  assert (exec (infer_callable X_env X_coll X_not_first NoFilter true None) s = (Ok [], s)) as ->; [|reflexivity].
  unfold infer_callable. rewrite exec_bind, Esel. cbn [map]. rewrite exec_bind.
  destruct (rp_part _ _ _ _ Hs _ _ H1) as (_ & Hso1 & Hh1). destruct (open_opens _ s p1 true None Hso1 Hh1) as (o & Eo & Hro & Hio & Hd).
  rewrite Eo. pose proof (reads_vars _ _ _ _ Hro (lit "time") (with_delayed (X_time [10; 20]%Z) true)) as Hv.
  assert (Ho : dget (d_vars o) (lit "time") = Some (with_delayed (X_time [10; 20]%Z) true)) by (apply Hv; split; [exact Logic.I|]; exists (X_time [10; 20]%Z); split; [exact Ht1|reflexivity]).
  destruct (proj1 Hio _ _ Ho) as (_ & _ & Hsz). destruct (Hsz 0 (lit "time") eq_refl) as (n & _ & Hn). change (c_dim X_coll) with (lit "time"). rewrite Hn.
  unfold call_with. cbn [X_not_first cb_info cb_call]. rewrite Ho. reflexivity.
Qed.
Print Assumptions C52_first_refuted.
