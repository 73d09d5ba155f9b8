(** * Properties of interrupted calls: update *)
From Verif Require Import Py Dict NdArray_Model NdArray_Spec NdArray_Proofs Dataset_Model Dataset_Spec Dataset_Proofs Dataset_Props Dataset_Props2 Meta_Model PartPath_Model PartPath_Proofs
  Split_Spec DaskUtils_Model DaskUtils_Proofs FS_Model FS_Proofs Pool_Model Pool_Proofs Storage_Model Storage_Chunks Storage_Spec Storage_Proofs
  Listing_Model Listing_Spec Listing_Proofs Collection_Model Collection_Spec Collection_Split Collection_Proofs Collection_State Collection_Select Collection_Load
  Crash_Spec Collection_Crash Crash_Props Collection_Example Update_Model Update_Spec Storage_Change Update_State Update_Proofs Update_Example Update_Props Validate_Proofs Validate_Props Update_Crash.

(** ** C78: an interrupted update *)
Section C78.
Context (e : env) (c : collection) (M : list Z -> option dataset) (I : option dataset) (s : store).
Context (f : update_callback) (delayed : bool) (filt : filter).
Context (selected : option (list str)) (trim : bool) (variables : list str) (P : list Z -> Prop).
Local Notation run sched workers npartitions := (update e sched workers c f delayed 0 filt npartitions selected trim variables).
(** The files that the call may write: the chunks of the variables that the
    callback returns, in the selected partitions. *)
Definition target (q : path) : Prop := exists v n ci, is_Some (M v) /\ P v /\ returned f n /\ q = part_dir c v ++ [n; chunk_key ci].
(** The call was started, and stopped, any number of times. *)
Definition attempted (u u' : store) : Prop := exists sched workers npartitions, (0 < batches_asked workers npartitions)%Z /\ stopped_at (run sched workers npartitions) u u'.

Lemma target_chunks vs : (forall v, v ∈ vs <-> is_Some (M v) /\ P v) -> forall q, target q <-> chunk_files c (returned f) vs q.
Proof.
  intros Hin q. split.
  - intros (v & n & ci & Hv & Hp & Hn & ->). exists v, n, ci. split; [by apply Hin|done].
  - intros (v & n & ci & Hv & Hn & ->). apply Hin in Hv as [? ?]. by exists v, n, ci.
Qed.

(** Wherever the calls were stopped, only these files changed: the partitions
    not selected, the variables that the callback does not return and the
    metadata are as they were. *)
Theorem C78_frame u :
  regular e c -> represents c M I s -> filterable c -> (forall v, is_Some (M v) -> says (c_part c) filt v (P v)) ->
  rtc attempted s u ->
  (forall q, ~ target q -> u !! q = s !! q) /\
  (forall v, length v = length (p_keys (c_part c)) -> ~ (is_Some (M v) /\ P v) -> untouched s u (part_dir c v)) /\
  forall delayed' filt' selected', (forall n, returned f n -> ~ wanted selected' n) ->
    (exec (load e c delayed' filt' selected') u).1 = (exec (load e c delayed' filt' selected') s).1.
Proof.
  intros Hr Hs Hfi HP Hst. destruct (select_filter e c Hr M I s filt P Hs Hfi HP) as (vs & Hso & Hin & Esel).
  assert (Hvs : forall v, v ∈ vs -> is_Some (M v)) by (intros v; apply Hin).
  assert (Hu : agree_out (chunk_files c (returned f) vs) s u).
  { assert (H : forall u0, agree_out (chunk_files c (returned f) vs) s u0 -> rtc attempted u0 u -> agree_out (chunk_files c (returned f) vs) s u); [|by apply (H s)].
    clear Hst. intros u0 H0 Hst. induction Hst as [|u0 u1 u2 (sched & workers & np & _ & H1) _ IH]; [done|]. apply IH. exact (stopped_out e c Hr M I s Hs f delayed selected vs Hvs filt Esel _ _ _ _ _ _ _ H0 H1). }
  assert (Hq : forall q, ~ target q -> u !! q = s !! q) by (intros q Hq; apply Hu; intros H; by apply Hq, (target_chunks vs Hin)).
  split; [done|]. split.
  - intros v Hl Hv q [t ->]. apply Hq. intros (w & n & ci & Hw & Hp & _ & E). apply Hv.
    destruct (part_dir_inj c v w t [n; chunk_key ci] Hl (key_len c M I s Hs w Hw) E) as [-> _]. done.
  - intros delayed' filt' selected' HX. exact (load_all_blind e c Hr M I s Hs (returned f) vs Hvs u delayed' filt' selected' HX Hu).
Qed.

(** When the callback does not receive the variables that it returns, each file
    is as before the call, or it is the one being written, or it is as the call
    leaves it when it is not stopped. *)
Theorem C78_files sched workers npartitions r s' u :
  regular e c -> represents c M I s -> filterable c -> (forall v, is_Some (M v) -> says (c_part c) filt v (P v)) ->
  (forall n, returned f n -> ~ wanted selected n) ->
  exec (run sched workers npartitions) s = (r, s') -> stopped_at (run sched workers npartitions) s u ->
  forall q, u !! q = s !! q \/ u !! q = Some CTorn \/ u !! q = s' !! q.
Proof.
  intros Hr Hs Hfi HP HX E [p Hst] q. destruct (select_filter e c Hr M I s filt P Hs Hfi HP) as (vs & Hso & Hin & Esel).
  assert (Hvs : forall v, v ∈ vs -> is_Some (M v)) by (intros v; apply Hin).
  destruct (interrupted e c Hr M I s Hs f delayed selected HX vs Hvs (sorted_nodup_rows _ Hso) filt Esel workers npartitions trim variables) as (r' & T & Hnd & HT & Hends & _).
  destruct (Hends sched s ltac:(done)) as [E' Ha]. rewrite E in E'. injection E' as <- ->. pose proof (always_sound CTorn _ _ _ _ _ Ha Hst) as Hb.
  destruct (Hb q) as [|(x & Hx & [|Hq])]; [by left|by right; left|]. right. right. by rewrite Hq, (writes_last T s q x Hnd Hx).
Qed.

(** Then calling again, after any number of interruptions, gives the result and
    the files of a call that is not stopped, whatever the scheduling and the
    number of batches. *)
Theorem C78_retry sched workers npartitions sched' workers' npartitions' s' u :
  regular e c -> represents c M I s -> filterable c -> (forall v, is_Some (M v) -> says (c_part c) filt v (P v)) ->
  (forall n, returned f n -> ~ wanted selected n) ->
  exec (run sched workers npartitions) s = (Ok tt, s') -> rtc attempted s u -> (0 < batches_asked workers' npartitions')%Z ->
  exec (run sched' workers' npartitions') u = (Ok tt, s').
Proof.
  intros Hr Hs Hfi HP HX E Hst Hn. destruct (select_filter e c Hr M I s filt P Hs Hfi HP) as (vs & Hso & Hin & Esel).
  assert (Hvs : forall v, v ∈ vs -> is_Some (M v)) by (intros v; apply Hin).
  destruct (interrupted e c Hr M I s Hs f delayed selected HX vs Hvs (sorted_nodup_rows _ Hso) filt Esel workers npartitions trim variables) as (r' & T & Hnd & HT & Hends & Hany).
  destruct (Hends sched s ltac:(done)) as [E' _]. rewrite E in E'. injection E' as <- ->. specialize (Hany eq_refl).
  assert (Hu : forall q, q ∉ map fst T -> u !! q = s !! q).
  { assert (Hsame : forall u0 : store, (forall q, q ∉ map fst T -> u0 !! q = s !! q) -> agree_out (chunk_files c (returned f) vs) s u0).
    { intros u0 H0 q Hq. apply H0. intros Hin'. rewrite Forall_forall in HT. by apply Hq, HT. }
    assert (H : forall u0 : store, (forall q, q ∉ map fst T -> u0 !! q = s !! q) -> rtc attempted u0 u -> forall q, q ∉ map fst T -> u !! q = s !! q); [|by apply (H s)].
    clear Hst. intros u0 H0 Hst. induction Hst as [|u0 u1 u2 (sc & w & np & Hpos & [p H1]) _ IH]; [done|]. apply IH. intros q Hq.
    destruct (Hany w np sc Hpos u0 (Hsame u0 H0)) as [_ Ha]. destruct (always_sound CTorn _ _ _ _ _ Ha H1 q) as [->|(x & Hx & _)]; [by apply H0|].
    exfalso. apply Hq. apply elem_of_list_In, in_map_iff. exists (q, x). split; [done|by apply elem_of_list_In]. }
  destruct (Hany workers' npartitions' sched' Hn u) as [-> _].
  - intros q Hq. apply Hu. intros Hin'. rewrite Forall_forall in HT. by apply Hq, HT.
  - f_equal. by apply writes_over.
Qed.
(** The same, when the call raises. *)
Theorem C78_retry_raises sched workers npartitions sched' u :
  regular e c -> represents c M I s -> filterable c -> (forall v, is_Some (M v) -> says (c_part c) filt v (P v)) ->
  (forall n, returned f n -> ~ wanted selected n) -> stopped_at (run sched workers npartitions) s u ->
  exec (run sched' workers npartitions) u = exec (run sched workers npartitions) s.
Proof.
  intros Hr Hs Hfi HP HX [p Hst]. destruct (select_filter e c Hr M I s filt P Hs Hfi HP) as (vs & Hso & Hin & Esel).
  assert (Hvs : forall v, v ∈ vs -> is_Some (M v)) by (intros v; apply Hin).
  destruct (interrupted e c Hr M I s Hs f delayed selected HX vs Hvs (sorted_nodup_rows _ Hso) filt Esel workers npartitions trim variables) as (r' & T & Hnd & HT & Hends & _).
  destruct (Hends sched s ltac:(done)) as [-> Ha]. pose proof (always_sound CTorn _ _ _ _ _ Ha Hst) as Hb.
  assert (Hu : forall q, q ∉ map fst T -> u !! q = s !! q).
  { intros q Hq. destruct (Hb q) as [|(x & Hx & _)]; [done|]. exfalso. apply Hq. apply elem_of_list_In, in_map_iff. exists (q, x). split; [done|by apply elem_of_list_In]. }
  destruct (Hends sched' u) as [-> _].
  - intros q Hq. apply Hu. intros Hin'. rewrite Forall_forall in HT. by apply Hq, HT.
  - f_equal. by apply writes_over.
Qed.
End C78.
Print Assumptions C78_frame.
Print Assumptions C78_files.
Print Assumptions C78_retry.
Print Assumptions C78_retry_raises.

(** The values of a variable, one of whose files was being written when the call
    was stopped, cannot be loaded. *)
Lemma chunk_has_item shape cs ci : chunked shape cs -> valid (grid shape cs) ci -> exists idx, valid shape idx /\ chunk_of cs idx = ci.
Proof.
  intros [Hl Hc]. revert cs ci Hl Hc. induction shape as [|n shape IH]; intros [|k cs] ci Hl Hc Hv; try done; cbn in Hv.
  - inversion Hv; subst. exists []. split; [constructor|done].
  - inversion Hv as [|i ? ci' ? Hi Hv']; subst. inversion Hc as [|? ? Hk Hc']; subst. injection Hl as Hl. destruct (IH cs ci' Hl Hc' Hv') as (idx & H1 & H2).
    exists (i * k :: idx). split.
    + constructor; [|done]. assert (i * k < n); [|done]. assert (i + 1 <= (n + k - 1) / k) as Hd by lia.
      apply (Nat.mul_le_mono_r _ _ k) in Hd. pose proof (Nat.mul_div_le (n + k - 1) k ltac:(lia)). nia.
    + unfold chunk_of in *. cbn. f_equal; [|done]. by rewrite Nat.div_mul by lia.
Qed.
Lemma torn_read t t' attrs vars n v z ci delayed sel : holds_group t attrs vars -> dget vars n = Some v -> t !! [n; ZARRAY] = Some (CMeta (MArray z)) ->
  valid (grid (z_shape z) (z_chunks z)) ci -> t' !! [ZMETADATA] = t !! [ZMETADATA] -> t' !! [n; chunk_key ci] = Some CTorn -> wanted sel n ->
  exists ex, read_group t' delayed sel = Raise ex.
Proof.
  intros Hg Ev Ez Hci Hm Ht Hw. unfold read_group. assert (read_cons t' = Ok (metas t)) as ->.
  { rewrite <-(group_read_cons _ _ _ Hg). unfold read_cons. by rewrite Hm. }
  cbn [rbind]. set (names := match sel with None => array_names (metas t) | Some l => List.filter (fun n => memb n l) (array_names (metas t)) end).
  assert (Hn : n ∈ names).
  { assert (n ∈ array_names (metas t)) by (apply (group_names _ _ _ _ Hg), dget_is_Some; by eexists). unfold names. destruct sel as [l|]; [|done].
    apply elem_of_list_In, filter_In. split; [by apply elem_of_list_In|]. unfold memb. by apply bool_decide_eq_true. }
  destruct (hg_vars _ _ _ Hg _ _ Ev) as (_ & _ & [(cs & Hch & Ez' & _) _]). rewrite sub_lookup in Ez'. cbn [app] in Ez'. rewrite Ez in Ez'. injection Ez' as ->.
  assert (Hbad : exists ex, open_zarr_array (metas t) t' delayed n = Raise ex).
  { unfold open_zarr_array, array_meta. rewrite metas_at by done. rewrite Ez. cbn [meta_of rbind].
    destruct (chunk_has_item _ _ ci Hch Hci) as (idx & Hv & Hc). assert (exists ex, read_array (zarr_for v cs) (sub [n] t') = Raise ex) as [ex ->]; [|by exists ex].
    unfold read_array. pose proof (traverse_res (read_item (zarr_for v cs) (sub [n] t')) (indices (z_shape (zarr_for v cs)))) as Htr.
    destruct (traverse _ _) as [l|ex]; [|by exists ex]. exfalso. rewrite Forall_forall in Htr. destruct (Htr idx) as [y Hy]; [by apply indices_elem|].
    unfold read_item in Hy. change (z_chunks (zarr_for v cs)) with cs in Hy. rewrite Hc, sub_lookup in Hy. cbn [app] in Hy. rewrite Ht in Hy. done. }
  destruct Hbad as [ex Hex]. pose proof (traverse_res (open_zarr_array (metas t) t' delayed) names) as Htr. destruct (traverse _ names) as [l|ex']; [|by exists ex'].
  exfalso. rewrite Forall_forall in Htr. destruct (Htr n Hn) as [y Hy]. congruence.
Qed.
Theorem C78_torn c M I s u v old n z ci delayed selected :
  represents c M I s -> M v = Some old -> n ∈ dkeys (d_vars old) -> s !! (part_dir c v ++ [n; ZARRAY]) = Some (CMeta (MArray z)) ->
  valid (grid (z_shape z) (z_chunks z)) ci -> u !! (part_dir c v ++ [ZMETADATA]) = s !! (part_dir c v ++ [ZMETADATA]) ->
  u !! (part_dir c v ++ [n; chunk_key ci]) = Some CTorn -> wanted selected n ->
  exists ex, exec (open_zarr_group (part_dir c v) delayed selected) u = (Raise ex, u).
Proof.
  intros Hs Hv Hn Hz Hci Hm Ht Hw. destruct (rp_part _ _ _ _ Hs _ _ Hv) as (_ & Hso & [_ Hg]). apply dget_is_Some in Hn as [va Hva].
  destruct (torn_read (sub (part_dir c v) s) (sub (part_dir c v) u) _ _ n (stored va) z ci delayed selected Hg) as [ex Hex]; try (by rewrite ?sub_lookup).
  - by rewrite dget_stored, Hva.
  - exists ex. unfold open_zarr_group. rewrite exec_bind, exec_get_tree. cbn [exec]. by rewrite Hex.
Qed.
Print Assumptions C78_torn.

(** A callback that returns the same heights whatever the data. *)
Definition X_zero : update_callback := Callback false (fun _ _ => Ok [(lit "height", Known (Plain (Arr [1; 2] [Num 0; Num 0])))]).
Lemma X_zero_sane : sane X_zero.
Proof. intros ds i l n r Hp [= <-] Hin ds' d _ Hd. apply elem_of_list_singleton in Hin. injection Hin as -> ->. by injection Hd as <-. Qed.
Lemma X_zero_settled : settled X_zero.
Proof. intros ds i l n g [= <-] Hin. exfalso. by apply elem_of_list_singleton in Hin. Qed.
Lemma X_zero_returned n : returned X_zero n <-> n = lit "height".
Proof.
  split; [intros (ds & i & l & [= <-] & Hn); by apply elem_of_list_singleton in Hn|]. intros ->. exists (Dataset [] [] [] [] 0 false), None. eexists. split; [reflexivity|left].
Qed.
Lemma X_chosen M : X_contents M -> (forall v, is_Some (M v) -> says (c_part X_coll) X_filter v (hd 0%Z v = 2%Z)) /\
  forall v old, M v = Some old -> hd 0%Z v = 2%Z -> v = [2%Z].
Proof.
  intros (p1 & p2 & H1 & H2 & H3 & _). split.
  - intros v [d Hd]. destruct (decide (v = [1%Z])) as [->|N1]; [exact (X_says 1)|]. destruct (decide (v = [2%Z])) as [->|N2]; [exact (X_says 2)|]. by rewrite H3 in Hd.
  - intros v old Hv Hp. destruct (decide (v = [2%Z])) as [|N2]; [done|]. destruct (decide (v = [1%Z])) as [->|N1]; [done|]. by rewrite H3 in Hv.
Qed.
(** The call succeeds, with the variables selected or not. *)
Lemma X_zero_works M i s delayed selected sched workers : X_contents M -> represents X_coll M (Some i) s -> uniform X_coll M (Some i) -> (0 < workers)%Z ->
  exists s', exec (update X_env sched workers X_coll X_zero delayed 0 X_filter None selected false [lit "height"]) s = (Ok tt, s').
Proof.
  intros HM Hs Hu Hn. destruct (X_chosen M HM) as [HP H2']. destruct HM as (p1 & p2 & H1 & H2 & H3 & _ & _ & _ & _ & _ & _ & _ & Hh).
  apply (C24_succeeds X_env X_coll M (Some i) s sched workers X_zero delayed X_filter None selected false [lit "height"] (fun v => hd 0%Z v = 2%Z));
    [exact X_regular|exact Hs|exact Hu|exact X_filterable|exact HP|exact X_zero_sane|right; exact X_zero_settled|discriminate|reflexivity|exact Hn|exists [2%Z]; split; [by eexists|reflexivity]|].
  intros v old Hv Hp. rewrite (H2' v old Hv Hp), H2 in Hv. injection Hv as <-. intros ds Hsn. eexists. split; [reflexivity|].
  intros n r Hin. apply elem_of_list_singleton in Hin. injection Hin as -> ->. eexists. eexists. split; [exact Hh|]. split; [reflexivity|]. split; [reflexivity|discriminate].
Qed.

(** When the variables to load are not selected, a call that was stopped while
    it wrote a file cannot be repeated: it raises because it loads the values it
    is about to replace. *)
Theorem C78_default_refuted : exists e c M I s s' u (f : update_callback) filt ex,
  regular e c /\ represents c M I s /\ uniform c M I /\ (forall ds i ds' i', cb_call f ds i = cb_call f ds' i') /\
  exec (update e [] 4 c f false 0 filt None None false [lit "height"]) s = (Ok tt, s') /\
  stopped_at (update e [] 4 c f false 0 filt None None false [lit "height"]) s u /\
  exec (update e [] 4 c f false 0 filt None None false [lit "height"]) u = (Raise ex, u).
Proof.
  destruct X_filled as (M & i & s & Hs & Hu & HM). destruct (X_zero_works M i s false None [] 4 HM Hs Hu eq_refl) as [s' E]. destruct (X_chosen M HM) as [HP H2'].
  destruct (select_filter X_env X_coll X_regular M (Some i) s X_filter _ Hs X_filterable HP) as (vs & Hso & Hin & Esel).
  destruct HM as (p1 & p2 & H1 & H2 & H3 & _ & _ & _ & _ & _ & _ & _ & Hh).
  assert (vs = [[2%Z]]) as ->.
  { apply (sorted_rows_unique 1); [done|repeat constructor| |].
    - intros v Hv. apply Hin in Hv as [[d Hd] Hp]. by rewrite (H2' v d Hd Hp).
    - intros v. rewrite Hin, elem_of_list_singleton. split; [intros [[d Hd] Hp]; by eapply H2'|]. intros ->. split; [by eexists|done]. }
  destruct (rp_part _ _ _ _ Hs _ _ H2) as (_ & Hso2 & [_ Hg]).
  destruct (hg_vars _ _ _ Hg (lit "height") (stored (X_height [9; 4]%Z)) ltac:(by rewrite dget_stored, Hh)) as (_ & _ & [(cs & Hch & Ez & _) _]). rewrite !sub_lookup in Ez.
  set (z := zarr_for (stored (X_height [9; 4]%Z)) cs) in *. change ([lit "height"] ++ [ZARRAY]) with [lit "height"; ZARRAY] in Ez.
  assert (Hsh : z_shape z = [1; 2]) by reflexivity.
  assert (exists ci l, indices (grid (z_shape z) (z_chunks z)) = ci :: l) as (ci & l & Eci).
  { destruct (chunk_position (z_shape z) cs [0; 0] Hch) as [Hv _]; [rewrite Hsh; repeat constructor|]. apply indices_elem in Hv. change (chunk_of cs [0; 0] ∈ indices (grid (z_shape z) (z_chunks z))) in Hv.
    destruct (indices (grid (z_shape z) (z_chunks z))) as [|ci l]; [by apply elem_of_nil in Hv|]. by exists ci, l. }
  set (d := part_dir X_coll [2%Z]) in *. set (u := <[d ++ [lit "height"; chunk_key ci] := CTorn]> s).
  destruct (load_dataset_seen X_coll M (Some i) s [2%Z] p2 false None Hs Hu H2) as (ds & Eds & _). fold d in Eds.
  assert (Hst1 : stopped_at (update_partition X_coll false None X_zero d) s u).
  { unfold update_partition. eapply stopped_then; [exact Eds|]. eapply stopped_then; [reflexivity|]. unfold pfor. apply stopped_first. cbn [map pseq dict_of fold_left]. apply stopped_first.
    cbn [fst snd evaluate]. unfold update_zarr_array. eapply stopped_then; [rewrite exec_read_file, <-app_assoc; cbn [app]; rewrite Ez; reflexivity|]. cbv iota beta. eapply stopped_then; [reflexivity|].
    cbv zeta. rewrite Hsh. rewrite bool_decide_eq_true_2 by reflexivity. cbv iota. unfold write_chunks, pfor. rewrite Eci. apply stopped_first. cbn [map pseq]. apply stopped_first.
    cbn [andb]. eexists. eapply rtc_l; [|apply rtc_refl]. unfold write_file, u. rewrite <-app_assoc. cbn [app]. apply step_tear. }
  exists X_env, X_coll, M, (Some i), s, s', u, X_zero, X_filter.
  assert (Hm : forall q, q <> d ++ [lit "height"; chunk_key ci] -> u !! q = s !! q) by (intros q Hq; unfold u; by rewrite lookup_insert_ne).
  assert (Hbad : exists ex, exec (open_zarr_group d false None) u = (Raise ex, u)).
  { apply (C78_torn X_coll M (Some i) s u [2%Z] p2 (lit "height") z ci false None Hs H2).
    - apply dget_is_Some. by eexists.
    - exact Ez.
    - apply indices_elem. rewrite Eci. left.
    - apply Hm. fold d. intros Eq. apply app_inv_head in Eq. done.
    - unfold u. apply lookup_insert.
    - exact Logic.I. }
  destruct Hbad as [ex Hbad].
  assert (Esel' : exec (select_parts X_env X_coll X_filter) u = (Ok [d], u)).
  { pose proof (select_blind X_env X_coll X_regular M (Some i) s Hs (fun n => n = lit "height") [[2%Z]] ltac:(intros v Hv; apply elem_of_list_singleton in Hv as ->; by eexists) u X_filter) as Eb.
    assert (Ho : agree_out (chunk_files X_coll (fun n => n = lit "height") [[2%Z]]) s u).
    { intros q Hq. apply Hm. intros ->. apply Hq. exists [2%Z], (lit "height"), ci. split; [left|done]. }
    specialize (Eb Ho). rewrite Esel in Eb. destruct (exec (select_parts X_env X_coll X_filter) u) as [r1 u1] eqn:E1. cbn [fst map] in Eb. subst r1. f_equal.
    apply (f_equal snd) in E1. cbn [snd] in E1. rewrite <-E1. apply map_eq. intros q. apply (exec_outside (fun _ => True) (fun _ => False) (select_parts X_env X_coll X_filter) u q); [apply select_reads|tauto]. }
  exists ex. split; [exact X_regular|]. split; [exact Hs|]. split; [exact Hu|]. split; [done|]. split; [exact E|]. clear E.
  assert (Eup : update X_env [] 4 X_coll X_zero false 0 X_filter None None false [lit "height"] =
    let! parts <- select_parts X_env X_coll X_filter; let! batches <- Ret (split_sequence parts (Some 4%Z));
    let! _ <- execute_transaction CTorn [] (map (fun b => pfor b (update_partition X_coll false None X_zero)) batches); pret tt) by reflexivity.
  assert (Esp : split_sequence [d] (Some 4%Z) = Ok [[d]]) by reflexivity.
  split.
  - rewrite Eup. eapply stopped_then; [exact Esel|]. change (map (part_dir X_coll) [[2%Z]]) with [d]. rewrite Esp. eapply stopped_then; [reflexivity|]. apply stopped_first.
    unfold execute_transaction. apply stopped_first. cbn [map interleave run_all]. apply stopped_first, stopped_attempt. unfold pfor. apply stopped_first. cbn [map pseq]. apply stopped_first. exact Hst1.
  - assert (Eone : exec (update_partition X_coll false None X_zero d) u = (Raise ex, u)).
    { unfold update_partition, load_dataset. rewrite !exec_bind, Hbad. reflexivity. }
    assert (Ebatch : exec (pfor [d] (update_partition X_coll false None X_zero)) u = (Raise ex, u)).
    { unfold pfor. cbn [map pseq]. rewrite !exec_bind, Eone. reflexivity. }
    rewrite Eup, exec_bind, Esel'. rewrite Esp. rewrite exec_bind. cbn [exec]. rewrite exec_bind. unfold execute_transaction. cbn [map interleave run_all].
    rewrite !exec_bind, exec_attempt, Ebatch. reflexivity.
Qed.
Print Assumptions C78_default_refuted.

(** A callback that reads what it writes (the heights plus one) cannot be called
    again: the partitions already updated are updated twice. *)
Theorem C78_increment_refuted : exists e c M I s s' u u' M1 M2 p1 p2 v1 v2,
  regular e c /\ represents c M I s /\ uniform c M I /\
  exec (update e [] 4 c X_callback true 0 X_filter None None false [lit "height"]) s = (Ok tt, s') /\ represents c M1 I s' /\
  stopped_at (update e [] 4 c X_callback true 0 X_filter None None false [lit "height"]) s u /\
  exec (update e [] 4 c X_callback true 0 X_filter None None false [lit "height"]) u = (Ok tt, u') /\ represents c M2 I u' /\
  M1 [2%Z] = Some p1 /\ dget (d_vars p1) (lit "height") = Some v1 /\ a_flat (v_array v1) = [Num 10; Num 5] /\
  M2 [2%Z] = Some p2 /\ dget (d_vars p2) (lit "height") = Some v2 /\ a_flat (v_array v2) = [Num 11; Num 6].
Proof.
  destruct X_filled as (M & i & s & Hs & Hu & HM). destruct (X_chosen M HM) as [HP H2'].
  assert (Hstep : forall M s old zs, represents X_coll M (Some i) s -> uniform X_coll M (Some i) -> (forall v, is_Some (M v) -> says (c_part X_coll) X_filter v (hd 0%Z v = 2%Z)) ->
    (forall v old, M v = Some old -> hd 0%Z v = 2%Z -> v = [2%Z]) -> M [2%Z] = Some old -> dget (d_vars old) (lit "height") = Some (X_height zs) -> length zs = 2 ->
    exists s' M' new, exec (update X_env [] 4 X_coll X_callback true 0 X_filter None None false [lit "height"]) s = (Ok tt, s') /\ represents X_coll M' (Some i) s' /\ uniform X_coll M' (Some i) /\
      (forall v, is_Some (M' v) <-> is_Some (M v)) /\ M' [2%Z] = Some new /\ dget (d_vars new) (lit "height") = Some (X_height (map (fun z => z + 1)%Z zs))).
  { clear. intros M s old zs Hs Hu HP H2' H2 Hh Hlen.
    assert (Hseen : forall ds, seen true None (fixed_part X_coll (Some i)) old ds -> dget (d_vars ds) (lit "height") = Some (with_delayed (X_height zs) true)).
    { intros ds Hsn. apply (se_vars _ _ _ _ _ Hsn). split; [done|]. exists (X_height zs). split; [by left|done]. }
    destruct (C24_succeeds X_env X_coll M (Some i) s [] 4 X_callback true X_filter None None false [lit "height"] (fun v => hd 0%Z v = 2%Z)) as [s' E].
    { exact X_regular. } { exact Hs. } { exact Hu. } { exact X_filterable. } { exact HP. } { exact X_callback_sane. } { right. exact X_callback_settled. }
    { discriminate. } { reflexivity. } { reflexivity. } { exists [2%Z]. split; [by eexists|reflexivity]. }
    { intros v old' Hv Hp. rewrite (H2' v old' Hv Hp), H2 in Hv. injection Hv as <-. intros ds Hsn. eexists. cbn [X_callback cb_call]. unfold plus_one. rewrite (Hseen ds Hsn). split; [reflexivity|].
      intros n r Hin. apply elem_of_list_singleton in Hin. injection Hin as -> ->. eexists. eexists. split; [exact Hh|]. split; [reflexivity|]. split; [reflexivity|]. discriminate. }
    destruct (C24_update X_env X_coll M (Some i) s [] 4 X_callback true X_filter None None false [lit "height"] (fun v => hd 0%Z v = 2%Z) s' X_regular Hs Hu X_filterable HP X_callback_sane
      ltac:(right; exact X_callback_settled) ltac:(left; discriminate) E) as (M' & Hs' & Hu' & _ & Hupd & Hno & _).
    destruct (Hupd [2%Z] old H2 eq_refl) as (new & En & ds & l & xs & Hsn & Ecb & Hval & Has). exists s', M', new.
    cbn [X_callback cb_call] in Ecb. unfold plus_one in Ecb. rewrite (Hseen ds Hsn) in Ecb. injection Ecb as <-.
    inversion Hval as [|? [n x] ? ? [En' Ex] Hnil]; subst. inversion Hnil; subst. cbn in En', Ex. subst n. injection Ex as <-.
    destruct Has as [_ Hrel]. destruct (Assemble_Proofs.related_get _ _ _ (lit "height") Hrel) as [R _]. destruct (R _ Hh) as (v & Hv & a & Ha & ->).
    split; [exact E|]. split; [exact Hs'|]. split; [exact Hu'|]. split; [|split; [exact En|]].
    - intros v. destruct (decide (v = [2%Z])) as [->|N]; [split; intros _; by eexists|]. rewrite Hno; [done|]. intros [[d Hd] Hp]. by apply N, (H2' v d).
    - rewrite Hv. f_equal. cbn in Ha. subst a. destruct zs as [|a [|b [|? ?]]]; try done. }
  destruct HM as (p1 & p2 & H1 & H2 & H3 & _ & _ & _ & _ & _ & _ & _ & Hh).
  destruct (Hstep M s p2 [9; 4]%Z Hs Hu HP H2' H2 Hh eq_refl) as (s' & M1 & n1 & E1 & Hs1 & Hu1 & Hd1 & En1 & Hh1).
  assert (HP1 : forall v, is_Some (M1 v) -> says (c_part X_coll) X_filter v (hd 0%Z v = 2%Z)) by (intros v Hv; by apply HP, Hd1).
  assert (H21 : forall v old, M1 v = Some old -> hd 0%Z v = 2%Z -> v = [2%Z]).
  { intros v old Hv Hp. assert (is_Some (M v)) as [d Hd] by (apply Hd1; by eexists). by eapply H2'. }
  destruct (Hstep M1 s' n1 _ Hs1 Hu1 HP1 H21 En1 Hh1 eq_refl) as (u' & M2 & n2 & E2 & Hs2 & _ & _ & En2 & Hh2).
  exists X_env, X_coll, M, (Some i), s, s', s', u', M1, M2, n1, n2. eexists. eexists.
  split; [exact X_regular|]. split; [exact Hs|]. split; [exact Hu|]. split; [exact E1|]. split; [exact Hs1|]. split; [exact (stopped_end _ _ _ _ E1)|].
  split; [exact E2|]. split; [exact Hs2|]. split; [exact En1|]. split; [exact Hh1|]. split; [reflexivity|]. split; [exact En2|]. split; [exact Hh2|]. reflexivity.
Qed.
Print Assumptions C78_increment_refuted.

(** The hypotheses are met: the selected variables are not those that are
    returned, and the call was stopped at its end. *)
Example C78_case : exists M I s s' u, represents X_coll M I s /\ (forall n, returned X_zero n -> ~ wanted (Some [lit "time"]) n) /\
  (forall v, is_Some (M v) -> says (c_part X_coll) X_filter v (hd 0%Z v = 2%Z)) /\
  exec (update X_env [(0, true)] 4 X_coll X_zero true 0 X_filter None (Some [lit "time"]) false [lit "height"]) s = (Ok tt, s') /\
  rtc (attempted X_env X_coll X_zero true X_filter (Some [lit "time"]) false [lit "height"]) s u /\
  exec (update X_env [] 7 X_coll X_zero true 0 X_filter None (Some [lit "time"]) false [lit "height"]) u = (Ok tt, s').
Proof.
  destruct X_filled as (M & i & s & Hs & Hu & HM). destruct (X_zero_works M i s true (Some [lit "time"]) [(0, true)] 4 HM Hs Hu eq_refl) as [s' E]. destruct (X_chosen M HM) as [HP _].
  assert (HX : forall n, returned X_zero n -> ~ wanted (Some [lit "time"]) n) by (intros n ->%X_zero_returned Hw; by apply elem_of_list_singleton in Hw).
  assert (Hat : rtc (attempted X_env X_coll X_zero true X_filter (Some [lit "time"]) false [lit "height"]) s s').
  { apply rtc_once. exists [(0, true)], 4%Z, None. split; [reflexivity|]. exact (stopped_end _ _ _ _ E). }
  exists M, (Some i), s, s', s'. split; [exact Hs|]. split; [exact HX|]. split; [exact HP|]. split; [exact E|]. split; [exact Hat|].
  exact (C78_retry X_env X_coll M (Some i) s X_zero true X_filter (Some [lit "time"]) false [lit "height"] _ [(0, true)] 4 None [] 7 None s' s' X_regular Hs X_filterable HP HX E Hat eq_refl).
Qed.
