(** * Properties of insertions on a file system that is not local *)
From Verif Require Import Py Dict NdArray_Model NdArray_Spec NdArray_Proofs Dataset_Model Dataset_Spec Dataset_Proofs Meta_Model Meta_Spec PartPath_Model PartPath_Proofs
  Split_Model Split_Spec DaskUtils_Model DaskUtils_Proofs DaskUtils_Props FS_Model FS_Proofs Pool_Model Pool_Proofs Storage_Model Storage_Chunks Storage_Spec Storage_Proofs
  Listing_Model Listing_Spec Listing_Proofs Collection_Model Collection_Spec Collection_Split Collection_Proofs Collection_State Collection_Prepare Collection_Select Collection_Insert Collection_Total
  Collection_Props Crash_Spec Retry_Spec Collection_Crash Crash_Props Collection_Example Storage_Change Validate_Props Insert_Retry Insert_Again Recovery_Props3 Recovery_Props4
  Remote_Model Remote_Proofs Remote_Read.

(** On a file system that has no rename, whatever the order in which it copies
    the files, an insertion that runs to its end returns the same value, or
    raises the same exception, and leaves the same files, as on a local one. *)
Theorem C85_same_insertion order e c ds rows merge np validate scheds inner M I s :
  (forall l, Permutation (order l) l) -> regular e c -> declared c -> insertable e c ds rows merge -> represents c M I s ->
  exec (insert_remote order e scheds inner c ds merge np validate) s = exec (insert e scheds inner c ds merge np validate) s.
Proof. intros Ho Hr Hc Hi Hs. by apply (insert_remote_eq order Ho e c ds rows merge np validate scheds inner M I s). Qed.
Print Assumptions C85_same_insertion.

(** Stopped anywhere, it has changed nothing out of the partitions of the
    dataset and of their temporary directories. *)
Theorem C85_elsewhere order e c ds rows merge np validate scheds inner M I s u :
  (forall l, Permutation (order l) l) -> regular e c -> declared c -> insertable e c ds rows merge -> represents c M I s -> is_Some I \/ c_immutable c = false ->
  stopped_at (insert_remote order e scheds inner c ds merge np validate) s u ->
  forall q, (forall v, v ∈ rows -> ~ under (part_dir c v) q /\ ~ under (c_dir c ++ [e_hash e (part_dir c v)]) q) -> u !! q = s !! q.
Proof.
  intros Ho Hr Hc Hi Hs HI [p' Hst] q Hq. destruct (insert_remote_any order Ho e c ds rows merge np validate scheds inner M I s s Hr Hc Hi Hs HI) as [_ Hal]; [done|].
  apply (always_sound CTorn _ _ _ _ _ Hal Hst). intros v Hv. destruct (Hq v Hv) as [H1 H2]. intros [U|U]; [done|]. apply H2. by rewrite <-(temp_part e c Hr v).
Qed.
Print Assumptions C85_elsewhere.

(** Without merging, the call that is repeated after any number of interruptions
    ends well there too (compare [C84_many]). *)
Theorem C85_many order e c ds rows np validate M I s dirs s' scheds0 inner0 u (scheds : nat -> nat -> schedule) (inner : nat -> path -> schedule) :
  (forall l, Permutation (order l) l) -> regular e c -> declared c -> insertable e c ds rows None -> represents c M I s -> is_Some I \/ c_immutable c = false ->
  exec (insert_remote order e scheds0 inner0 c ds None np validate) s = (Ok dirs, s') ->
  left_by (fun p => exists sc inn, p = insert_remote order e sc inn c ds None np validate) s u ->
  let call k := insert_remote order e (scheds k) (inner k) c ds None np validate in
  exists k, k <= length dirs /\
    (forall j, j < k -> exists ex, (call_of call u j).1 = Raise ex) /\
    (call_of call u k).1 = Ok dirs /\
    forall j, k < j -> call_of call u j = (Ok dirs, s').
Proof.
  intros Ho Hr Hc Hi Hs HI Hx Hu call. rewrite (C85_same_insertion order e c ds rows None np validate scheds0 inner0 M I s Ho Hr Hc Hi Hs) in Hx.
  set (out := fun w : store => forall q, (forall v, v ∈ rows -> ~ part_region e (part_dir c v) q) -> w !! q = s !! q).
  assert (Himm : forall w, out w -> untouched s w (c_dir c ++ [IMMUTABLE])).
  { intros w Hw q (f & ->). apply Hw. intros v Hv. apply (immutable_apart e c Hr). eapply record_keys_length; [apply (in_keys _ _ _ _ _ Hi)|done]. }
  assert (Hany : forall sc inn w, out w -> exec (insert_remote order e sc inn c ds None np validate) w = exec (insert e sc inn c ds None np validate) w /\
     forall u, stopped_at (insert_remote order e sc inn c ds None np validate) w u -> out u).
  { intros sc inn w Hw. destruct (insert_remote_any order Ho e c ds rows None np validate sc inn M I s w Hr Hc Hi Hs HI (Himm w Hw)) as [E Hal]. split; [exact E|].
    intros u' [p' Hst] q Hq. rewrite (always_sound CTorn _ _ _ _ _ Hal Hst q Hq). by apply Hw. }
  assert (Hou : out u).
  { induction Hu as [|p w u Hw IH (sc & inn & ->) Hst]; [by intros q _|]. by apply (Hany sc inn w IH). }
  assert (Hsame : forall k, Retry_Spec.state_before call u k = Retry_Spec.state_before (fun k => insert e (scheds k) (inner k) c ds None np validate) u k /\ out (Retry_Spec.state_before call u k)).
  { induction k as [|k [IH1 IH2]]; [done|]. cbn [Retry_Spec.state_before]. destruct (Hany (scheds k) (inner k) _ IH2) as [E Hst]. split; [unfold call; unfold call in E; rewrite E, <-IH1; done|].
    apply Hst. eexists. apply exec_steps. }
  assert (Hcall : forall k, call_of call u k = call_of (fun k => insert e (scheds k) (inner k) c ds None np validate) u k).
  { intros k. unfold call_of. destruct (Hsame k) as [E1 E2]. destruct (Hany (scheds k) (inner k) _ E2) as [E _]. rewrite <-E1. exact E. }
  destruct (C84_any_files e c ds rows np validate M I s dirs s' scheds0 inner0 u scheds inner Hr Hc Hi Hs HI Hx) as (k & Hk & H1 & H2 & H3).
  { intros q Hq. apply Hou. intros v Hv [U|U]; destruct (Hq v Hv) as [N1 N2]; [done|]. apply N2. by rewrite <-(temp_part e c Hr v). }
  exists k. split; [exact Hk|]. split; [intros j Hj; rewrite Hcall; by apply H1|]. split; [by rewrite Hcall|]. intros j Hj. rewrite Hcall. by apply H3.
Qed.
Print Assumptions C85_many.

(** ** Interrupted replacements *)
Section first.
  Context (order : list path -> list path) (e : env) (c : collection) (ds : dataset) (v : list Z) (rest : list (list Z)) (merge : option merge_callable)
    (inner : path -> schedule) (validate : bool) (M : list Z -> option dataset) (I : option dataset) (s : store) (dirs : list path) (s' : store).
  Hypothesis Hr : regular e c.
  Hypothesis Hc : declared c.
  Hypothesis Hi : insertable e c ds (v :: rest) merge.
  Hypothesis Hs : represents c M I s.
  Hypothesis HI : is_Some I \/ c_immutable c = false.
  Hypothesis Hx : exec (insert_remote order e (fun _ => []) inner c ds merge None validate) s = (Ok dirs, s').

  Lemma first_remote : exists part sl, sound part /\ fitted c (moving c) ds part /\ sl.1 <= sl.2 <= length (v :: rest) /\
    positions_of (v :: rest) v (seq sl.1 (sl.2 - sl.1)) /\ dget (d_dims part) (c_dim c) = Some (length (v :: rest)) /\
    forall w, stopped_at (insert_partition_remote order e inner c part merge (key_dirs (c_part c) v, sl)) s w ->
      stopped_at (insert_remote order e (fun _ => []) inner c ds merge None validate) s w.
  Proof.
    unfold insert_remote in *. destruct (c_readonly c); [done|]. destruct (prepare c ds validate) as [out|ex] eqn:Ep; [|done]. cbn [pbind] in *.
    destruct (exec_insert_immutable e c Hr Hc ds (in_sound _ _ _ _ _ Hi) (in_conforms _ _ _ _ _ Hi) M I s validate out Ep Hs)
      as (part & I' & s1 & E & Hp & Hf & Hs1 & Hout & HI').
    assert (s1 = s) as ->.
    { destruct I; [by destruct HI'|]. destruct HI as [[? ?]|Ei]; [done|]. rewrite Ei in HI'. by destruct HI'. }
    rewrite exec_bind, E in Hx. cbv iota in Hx.
    destruct (split_dataset (c_part c) part) as [parts|ex] eqn:Es; cbn [pbind] in *; [|done].
    destruct (batches_of parts None) as [bs|ex] eqn:Eb; cbn [pbind] in *; [|done].
    destruct (part_rows e c Hr Hc ds (v :: rest) merge Hi part Hp Hf) as [Hrk Hn].
    destruct (split_sound _ _ _ _ (rg_keys _ _ Hr) Hrk (in_size _ _ _ _ _ Hi) Es) as (kparts & -> & Hk & Hlz).
    assert (Hsorted : never_decreases row_lt (v :: rest)).
    { destruct (in_sorted _ _ _ _ _ Hi) as [Hd|]; [|done]. apply Hlz. by rewrite (ft_delayed _ _ _ _ Hf). }
    assert (Hfi : files_every_record_once (v :: rest) kparts) by (by apply (ks_files _ _ Hk)).
    destruct kparts as [|[w sl] l]; [by pose proof (batches_concat _ _ _ Eb) as [_ ?]|].
    assert (Hb : bs = [(key_dirs (c_part c) w, sl)] :: map (fun x => [x]) (map (fun ks => (key_dirs (c_part c) ks.1, ks.2)) l)).
    { unfold batches_of in Eb. rewrite C08_split_sequence_default in Eb by done. by injection Eb as <-. }
    assert (Hw : w = v).
    { pose proof (ks_cover _ _ Hk) as Hcv. pose proof (ks_first _ _ Hk) as Hf1. pose proof (ks_some _ _ Hk) as Hsm.
      inversion Hf1 as [|? ? Hw _]; subst. inversion Hsm as [|? ? Hlt _]; subst. cbn in Hw, Hlt, Hcv.
      destruct (sl.2 - sl.1) as [|k] eqn:Ek; [lia|]. cbn in Hcv. injection Hcv as Hz _. rewrite Hz in Hw. by injection Hw. }
    subst w. exists part, sl. split; [done|]. split; [done|]. split; [apply (keyed_bounds _ _ Hk (v, sl)); left|]. split; [apply (keyed_positions _ _ Hk Hfi (v, sl)); left|]. split; [done|].
    intros w Hst. eapply stopped_then; [exact E|]. rewrite Es. cbn [pbind]. rewrite Eb, Hb. cbn [pbind].
    apply stopped_first. unfold pfor. apply stopped_first. cbn [imap map pseq fst snd]. apply stopped_first.
    unfold execute_transaction. cbn [interleave]. apply stopped_first. cbn [run_all]. apply stopped_first. by apply stopped_attempt.
  Qed.
End first.

Lemma stopped_done {A} (p : program A) (s : store) : stopped_at p s (exec p s).2.
Proof. eexists. apply exec_steps. Qed.
Lemma stopped_copies a b pre post (s : store) : stopped_at (pfor (pre ++ post) (fun q => copy_file (a ++ q) (b ++ q))) s (copied a b pre s).
Proof.
  unfold pfor. apply stopped_first. revert s. induction pre as [|q pre IH]; intros s; [eexists; apply rtc_refl|].
  cbn [app map pseq copied fold_left]. set (s1 := match s !! (a ++ q) with Some x => <[b ++ q := x]> s | None => s end).
  assert (E : exec (copy_file (a ++ q) (b ++ q)) s = (Ok tt, s1)).
  { unfold copy_file. rewrite exec_bind, exec_read_file. cbv iota. subst s1. by destruct (s !! (a ++ q)). }
  eapply stopped_then; [exact E|]. apply stopped_first. apply IH.
Qed.
(** Where the files of the directory itself are copied before those of its
    subdirectories, as they are in the order of the paths (the names of the
    metadata files begin with a dot), an insertion may be stopped when the
    partition that it replaces can be opened, has all its variables, and holds
    the fill value in place of every value, old or new. *)
Theorem C86_blank_refuted order e c ds v rest inner validate M I s dirs s' :
  (forall l, exists pre post, order l = pre ++ post /\ forall q, q ∈ pre <-> q ∈ l /\ length q = 1) ->
  regular e c -> declared c -> insertable e c ds (v :: rest) None -> represents c M I s -> is_Some (M v) -> is_Some I \/ c_immutable c = false ->
  exec (insert_remote order e (fun _ => []) inner c ds None None validate) s = (Ok dirs, s') ->
  exists u ps, stopped_at (insert_remote order e (fun _ => []) inner c ds None None validate) s u /\ positions_of (v :: rest) v ps /\
    forall delayed, exists ds', exec (open_zarr_group (part_dir c v) delayed None) u = (Ok ds', u) /\
      (forall n, n ∈ dkeys (d_vars ds') <-> exists mv, dget (md_vars (c_meta c)) n = Some mv /\ c_dim c ∈ mv_dims mv) /\
      (forall n w k, dget (d_vars ds') n = Some w -> v_dims w !! k = Some (c_dim c) -> v_shape w !! k = Some (length ps)) /\
      forall n w, dget (d_vars ds') n = Some w -> Forall (fun x => x = default (Num 0) (v_fill w)) (a_flat (v_array w)).
Proof.
  intros Hord Hr Hc Hi Hs [old HM] HI Hx.
  assert (Hl : length v = length (p_keys (c_part c))) by (eapply record_keys_length; [apply (in_keys _ _ _ _ _ Hi)|left]).
  destruct (first_remote order e c ds v rest None inner validate M I s dirs s' Hr Hc Hi Hs HI Hx) as (part & sl & Hp & Hf & Hsl & Hpos & Hn & Hst). clear Hx.
  destruct (slice_ok c part (length (v :: rest)) Hp Hn sl Hsl) as (piece & E & Hpi & Hred & Hvars & _).
  destruct (rp_part _ _ _ _ Hs _ _ HM) as (_ & Ho & Hh).
  pose proof (temp_apart e c Hr v v Hl) as Ha. pose proof (temp_nothing e c Hr M I s v Hs) as Ht.
  assert (Hz : empty_at (part_dir c v ++ [ZMETADATA]) s = false).
  { apply empty_at_false. exists (part_dir c v ++ [ZMETADATA]). destruct Hh as [_ Hh]. pose proof (hg_cons _ _ _ Hh) as Hcons. rewrite sub_lookup in Hcons.
    eexists. split; [apply under_refl|exact Hcons]. }
  clear Hh. set (d := part_dir c v) in *. set (t := temp_dir e d) in *.
  assert (Hf' : fresh_at t (<[t ++ [ZGROUP] := CMeta MGroup]> s)).
  { intros q x0. destruct (decide (q = [ZGROUP])) as [->|Nq]; [done|]. rewrite lookup_insert_ne by (intros E'; by apply app_inv_head in E').
    rewrite Ht by apply under_app. done. }
  set (s2 := graft t (group_tree piece) (prune t s)).
  assert (Hsub : sub t (prune d s2) = group_tree piece).
  { apply map_eq. intros q. rewrite sub_lookup, prune_lookup, decide_False by (intros U; apply (Ha (t ++ q)); [done|apply under_app]). unfold s2. apply graft_lookup_under. }
  destruct (Hord (map fst (map_to_list (sub t (prune d s2))))) as (pre & post & Epre & Hpre).
  set (u := copied t d pre (prune d s2)).
  assert (Hu : forall q, u !! (d ++ q) = if decide (q ∈ pre) then group_tree piece !! q else None).
  { intros q. unfold u. rewrite (copied_in t d (apart_sym _ _ Ha)); [|by rewrite prune_lookup, decide_True by apply under_app].
    rewrite <-(sub_lookup t), Hsub. done. }
  assert (Hd2 : empty_at d s2 = false).
  { apply empty_at_false in Hz as (q & x & Hq & Hx). assert (under d q) by (by eapply under_snoc). apply empty_at_false. exists q, x. split; [done|].
    unfold s2. assert (~ under t q) by (intros U; by apply (Ha q)). by rewrite graft_lookup_out, prune_lookup, decide_False. }
  exists u, (seq sl.1 (sl.2 - sl.1)). split; [|split; [exact Hpos|]].
  - apply Hst. unfold insert_partition_remote. cbv zeta. cbn [fst snd]. change (c_dir c ++ key_dirs (c_part c) v) with d.
    eapply stopped_then; [apply exec_exists|]. rewrite Hz. cbn [negb].
    change [(c_dim c, ISlice (Some (Z.of_nat sl.1)) (Some (Z.of_nat sl.2)))] with (slice_of c sl). rewrite E. cbn [pbind]. unfold perform_remote. cbn [pbind pret].
    unfold update_fs_remote. cbv zeta. fold t.
    eapply stopped_then; [apply exec_exists|]. rewrite (proj1 (nothing_empty _ _) Ht). cbn [negb].
    eapply stopped_then; [reflexivity|].
    eapply stopped_then; [by apply exec_init_group|].
    eapply stopped_then; [rewrite exec_catch, exec_write_group by (by try apply Hpi); reflexivity|].
    rewrite prune_insert. fold s2. unfold rename_remote. eapply stopped_then; [rewrite exec_rm, Hd2; reflexivity|].
    unfold move_remote. eapply stopped_then; [apply exec_get_tree|]. rewrite Epre. apply stopped_first. apply stopped_copies.
  - intros delayed. destruct (read_bare piece (sub d u) delayed) as (ds' & Er & Hnames & Hv).
    + apply Hpi.
    + apply Hpi.
    + rewrite sub_lookup, Hu, decide_True; [done|]. apply Hpre. split; [|done]. rewrite Hsub. apply elem_of_list_In, in_map_iff.
      eexists ([ZMETADATA], _). split; [done|]. apply elem_of_list_In, elem_of_map_to_list. apply lookup_insert.
    + intros n ci. rewrite sub_lookup, Hu, decide_False; [done|]. intros Hq. apply Hpre in Hq as [_ Hq]. discriminate.
    + exists ds'. split; [unfold open_zarr_group; rewrite exec_bind, exec_get_tree; cbv iota; by rewrite Er|].
      assert (Hk : dkeys (d_vars piece) = dkeys (d_vars part)) by (rewrite Hvars; unfold dkeys; by rewrite map_map).
      split; [intros n; rewrite Hnames, Hk; apply (ft_names _ _ _ _ Hf)|]. split.
      * intros n w k Ew Hd. destruct (Hv n w Ew) as (w0 & Ew0 & Ed & Esh & _ & _ & _). rewrite Esh. rewrite Ed in Hd.
        assert (Ew1 : exists w1, dget (d_vars part) n = Some w1 /\ w0 = var_take (c_dim c) (seq sl.1 (sl.2 - sl.1)) w1).
        { apply dget_elem in Ew0. rewrite Hvars in Ew0. apply elem_of_list_In, in_map_iff in Ew0 as ([n1 w1] & [= <- <-] & Hin). exists w1. split; [|done].
          apply elem_dget; [apply (storable_proper _ (sound_storable _ Hp))|by apply elem_of_list_In]. }
        destruct Ew1 as (w1 & Ew1 & ->). unfold var_take, with_array in Hd |- *. cbn [v_dims] in Hd. unfold v_shape. cbn [v_array].
        rewrite (index_of_nodup (c_dim c) (v_dims w1) k); [|eapply (sound_dims _ Hp), vals_elem, dget_elem; exact Ew1|done].
        unfold take_axis, tabulate. cbn [a_shape]. apply list_lookup_insert.
        pose proof (storable_rank _ (sound_storable _ Hp) w1 ltac:(eapply vals_elem, dget_elem; exact Ew1)) as Hrk. unfold v_shape in Hrk. rewrite <-Hrk. by eapply lookup_lt_Some.
      * intros n w Ew. destruct (Hv n w Ew) as (w0 & Ew0 & Ed & Esh & _ & Efl & H). by rewrite Efl.
Qed.
Print Assumptions C86_blank_refuted.


(** ** The example *)
Definition X_order (l : list path) : list path := List.filter (fun q => Nat.eqb (length q) 1) l ++ List.filter (fun q => negb (Nat.eqb (length q) 1)) l.
Lemma X_order_perm l : Permutation (X_order l) l.
Proof.
  unfold X_order. induction l as [|q l IH]; [done|]. cbn [List.filter]. destruct (Nat.eqb (length q) 1); cbn [negb app]; [by constructor|].
  rewrite <-Permutation_middle. by constructor.
Qed.
Lemma X_order_depth l : exists pre post, X_order l = pre ++ post /\ forall q, q ∈ pre <-> q ∈ l /\ length q = 1.
Proof.
  eexists _, _. split; [reflexivity|]. intros q. rewrite !elem_of_list_In, filter_In, Nat.eqb_eq. done.
Qed.
Definition X_remote : program (list path) := insert_remote X_order X_env (fun _ => []) X_inner X_coll X_ds None None true.
(** Two partitions are inserted twice: the second call is stopped, the first
    partition is blank, and the call is repeated. *)
Example C86_case : exists s dirs s' u, exec X_remote s = (Ok dirs, s') /\ stopped_at X_remote s u /\
  (exists ds', exec (open_zarr_group (part_dir X_coll [1%Z]) false None) u = (Ok ds', u) /\
     exists w, dget (d_vars ds') (lit "time") = Some w /\ Forall (fun x => x = default (Num 0) (v_fill w)) (a_flat (v_array w))) /\
  call_of (fun _ => X_remote) u (S (length dirs)) = (Ok dirs, s').
Proof.
  destruct (X_again _ _ _ X_empty) as (_ & s & M & I & _ & Hs & HM & HI). destruct (X_again _ _ _ Hs) as (dirs & s' & _ & _ & E & _).
  assert (Er : exec X_remote s = (Ok dirs, s')).
  { unfold X_remote. rewrite (C85_same_insertion X_order X_env X_coll X_ds X_rows None None true (fun _ => []) X_inner M I s X_order_perm X_regular X_declared X_insertable Hs). exact E. }
  destruct (C86_blank_refuted X_order X_env X_coll X_ds [1%Z] [[1%Z]; [2%Z]] X_inner true M I s dirs s' X_order_depth X_regular X_declared X_insertable Hs HM ltac:(by left) Er)
    as (u & ps & Hu & Hps & Hop).
  destruct (Hop false) as (ds' & Eo & Hn & Hsh & Hfl).
  exists s, dirs, s', u. split; [exact Er|]. split; [exact Hu|]. split.
  - exists ds'. split; [exact Eo|]. assert (Hin : lit "time" ∈ dkeys (d_vars ds')).
    { apply Hn. eexists. split; [reflexivity|]. apply elem_of_list_In. by left. }
    apply dget_is_Some in Hin as [w Ew]. exists w. split; [exact Ew|]. exact (Hfl _ w Ew).
  - destruct (C85_many X_order X_env X_coll X_ds X_rows None true M I s dirs s' _ X_inner u (fun _ _ => []) (fun _ => X_inner) X_order_perm X_regular X_declared X_insertable Hs ltac:(by left) Er) as (k & Hk & H1 & H2 & H3).
    + eapply left_more; [apply left_none|by eexists _, _|exact Hu].
    + apply H3. lia.
Qed.
