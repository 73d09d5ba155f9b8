(** * Properties of interrupted calls: repeating an insertion *)
From Verif Require Import Py Dict NdArray_Model NdArray_Spec NdArray_Proofs Dataset_Model Dataset_Spec Dataset_Proofs Meta_Model Meta_Spec PartPath_Model PartPath_Proofs
  Split_Spec DaskUtils_Model DaskUtils_Proofs FS_Model FS_Proofs Pool_Model Pool_Proofs Storage_Model Storage_Chunks Storage_Spec Storage_Proofs
  Listing_Model Listing_Spec Listing_Proofs Collection_Model Collection_Spec Collection_Split Collection_Proofs Collection_State Collection_Select Collection_Insert Collection_Total
  Collection_Props Crash_Spec Retry_Spec Collection_Crash Crash_Props Collection_Example Storage_Change Validate_Props Insert_Retry.

(** The directory of the partition [v] is a group without consolidated
    metadata: the window in which a new partition is half written. *)
Definition half_made (c : collection) (u : store) (v : list Z) : Prop :=
  absent u (part_dir c v ++ [ZMETADATA]) /\ (is_Some (u !! (part_dir c v ++ [ZGROUP])) \/ is_Some (u !! (part_dir c v ++ [ZARRAY]))).

(** An insertion without merging is interrupted, wherever it was and whatever
    the schedule, then repeated. At most one of the next calls raises; the
    following one returns what the uninterrupted insertion returns; every
    later call also leaves exactly the files of the uninterrupted insertion.
    The first successful call already does, if the interrupted one was not
    removing a partition to replace it. The first call raises exactly when a
    new partition was left half made. *)
Theorem C82_retry e c ds rows np validate M I s dirs s' scheds0 inner0 scheds1 inner1 u (scheds : nat -> nat -> schedule) (inner : nat -> path -> schedule) :
  regular e c -> declared c -> insertable e c ds rows None -> represents c M I s -> is_Some I \/ c_immutable c = false ->
  exec (insert e scheds0 inner0 c ds None np validate) s = (Ok dirs, s') ->
  stopped_at (insert e scheds1 inner1 c ds None np validate) s u ->
  let call k := insert e (scheds k) (inner k) c ds None np validate in
  exists k, k <= 1 /\
    (k = 1 <-> exists v, v ∈ rows /\ half_made c u v) /\
    (forall j, j < k -> exists ex, (call_of call u j).1 = Raise ex) /\
    (call_of call u k).1 = Ok dirs /\
    (forall j, k < j -> call_of call u j = (Ok dirs, s')) /\
    ((forall v, v ∈ rows -> is_Some (M v) -> is_Some (u !! (part_dir c v ++ [ZMETADATA]))) -> (call_of call u k).2 = s').
Proof.
  intros Hr Hc Hi Hs HI Hx Hst call.
  destruct (retry_setup e c Hr Hc ds rows Hi M I s scheds0 inner0 np validate dirs s' Hs HI Hx) as (part & kbs & Hlen & Hrows & His & Hps & Hstop & Hrs & Hstep').
  destruct (Hstop scheds1 inner1 u Hst) as (Hu & He2 & Hpl). clear Hstop Hst. pose proof (fun sc inn w => Hstep' s sc inn w Hrs) as Hstep. clear Hstep'.
  set (outside := outside e c s kbs) in *. set (inv := inv e c s kbs) in *.
  assert (Hdone : forall w, outside w -> (forall ks, ks ∈ concat kbs -> done_ e c part w ks) ->  forall w', outside w' -> (forall ks, ks ∈ concat kbs -> done_ e c part w' ks) -> w = w').
  { intros w Ho Hd w' Ho' Hd'. apply map_eq. intros q. destruct (decide (Exists (fun ks => under (part_dir c ks.1) q \/ under (temp_dir e (part_dir c ks.1)) q) (concat kbs))) as [X|X].
    - apply Exists_exists in X as (ks & Hk & [(f & ->)|(f & ->)]); destruct (Hd ks Hk) as [D1 D2], (Hd' ks Hk) as [D3 D4].
      + by rewrite <-!(sub_lookup (part_dir c ks.1)), D2, D4.
      + by rewrite <-!(sub_lookup (temp_dir e (part_dir c ks.1))), D1, D3.
    - assert (forall ks, ks ∈ concat kbs -> ~ part_region e (part_dir c ks.1) q) as N; [|by rewrite Ho, Ho'].
      intros ks Hk Hreg. apply X, Exists_exists. exists ks. split; [done|exact Hreg]. }
  assert (Hs' : outside s' /\ forall ks, ks ∈ concat kbs -> done_ e c part s' ks).
  { destruct (Hstep scheds0 inner0 s) as (r & w' & E & Hw' & _ & _ & Hcases); [done|]. rewrite Hx in E. injection E as <- <-.
    split; [apply Hw'|]. destruct Hcases as [(_ & _ & H)|((ex & [=]) & _)]. by apply H. }
  destruct Hs' as [Hs1 Hs2].
  (* once the consolidated metadata are there, a call leaves the right files *)
  assert (Hlast : forall sc inn w, inv w -> (forall ks, ks ∈ concat kbs -> is_Some (w !! (part_dir c ks.1 ++ [ZMETADATA]))) ->
     exec (insert e sc inn c ds None np validate) w = (Ok dirs, s')).
  { intros sc inn w Hw Hz. destruct (Hstep sc inn w Hw) as (r & w' & E & Hw' & _ & _ & Hcases). rewrite E.
    assert (Hz' : forall ks, ks ∈ concat kbs -> plain e c w ks) by (intros ks Hk; left; by apply present_full, Hz).
    destruct Hcases as [(-> & _ & H)|(_ & (ks & Hk & Hb) & _)].
    - f_equal. apply Hdone; [apply Hw'|by apply H|done|done].
    - unfold broken in Hb. by rewrite (present_full _ _ (Hz ks Hk)) in Hb. }
  assert (Hs'inv : inv s' /\ forall ks, ks ∈ concat kbs -> is_Some (s' !! (part_dir c ks.1 ++ [ZMETADATA]))).
  { assert (Hz : forall ks, ks ∈ concat kbs -> is_Some (s' !! (part_dir c ks.1 ++ [ZMETADATA]))).
    { intros ks Hk. destruct (Hs2 ks Hk) as [_ D]. rewrite <-sub_lookup, D. apply tree_zmeta. }
    split; [|done]. split; [|done]. intros ks Hk. left. by apply present_full, Hz. }
  destruct Hs'inv as [Hi' Hz'].
  assert (Hrest : forall k w', (exec (call k) (state_before call u k)).2 = w' -> inv w' -> (forall ks, ks ∈ concat kbs -> is_Some (w' !! (part_dir c ks.1 ++ [ZMETADATA]))) ->
     forall j, k < j -> call_of call u j = (Ok dirs, s')).
  { intros k w' E Hw' Hz j Hj. induction Hj as [|j Hj IH].
    - unfold call_of. cbn [state_before]. change (@snd (res (list path)) store) with (fun x : res (list path) * store => x.2). cbv beta. rewrite E. by apply Hlast.
    - unfold call_of. cbn [state_before]. fold (call_of call u j). rewrite IH. cbn [snd]. by apply Hlast. }
  assert (Hhalf : (exists v, v ∈ rows /\ half_made c u v) <-> exists ks, ks ∈ concat kbs /\ broken c u ks = true).
  { split.
    - intros (v & Hv & Ha & Hg). apply Hrows in Hv as (sl & Hk). exists (v, sl). split; [done|]. unfold broken, has. cbn [fst].
      apply nothing_empty in Ha. rewrite Ha. destruct Hg as [Hg|Hg]; rewrite (bool_decide_eq_true_2 _ Hg); [by rewrite orb_true_r|done].
    - intros ([v sl] & Hk & Hb). exists v. split; [apply Hrows; by exists sl|]. unfold broken, has in Hb. cbn [fst] in Hb. apply andb_true_iff in Hb as [Ha Hg].
      apply nothing_empty in Ha. split; [exact Ha|]. apply orb_true_iff in Hg as [Hg|Hg]; apply bool_decide_eq_true in Hg; auto. }
  destruct (Hstep (scheds 0) (inner 0) u Hu) as (r & w1 & E1 & Hw1 & Hp1 & _ & [(-> & Hok & Hex)|((ex & ->) & Hbr & Hone)]).
  - exists 0. split; [lia|]. split; [split; [lia|]; intros H; apply Hhalf in H as (ks & Hk & Hb); destruct (Hok ks Hk); congruence|].
    split; [lia|]. unfold call_of at 1 3. cbn [state_before]. split; [by unfold call; rewrite E1|]. split.
    + apply (Hrest 0 w1); [cbn [state_before]; by unfold call; rewrite E1|done|]. intros ks Hk. by apply Hok.
    + intros Hw. unfold call. rewrite E1. cbn [snd]. apply Hdone; [apply Hw1|apply Hex; by apply Hpl|done|done].
  - exists 1. split; [lia|]. split; [split; [intros _; by apply Hhalf|done]|].
    specialize (Hone He2).
    destruct (Hstep (scheds 1) (inner 1) w1 Hw1) as (r & w2 & E2 & Hw2 & Hp2 & _ & [(-> & Hok & Hex)|(_ & (ks & Hk & Hb) & _)]); [|rewrite Hone in Hb; done].
    assert (Est : state_before call u 1 = w1) by (cbn [state_before]; unfold call; by rewrite E1).
    split; [intros j Hj; replace j with 0 by lia; exists ex; unfold call_of; cbn [state_before]; unfold call; by rewrite E1|].
    split; [unfold call_of; rewrite Est; unfold call; by rewrite E2|]. split.
    + apply (Hrest 1 w2); [rewrite Est; unfold call; by rewrite E2|done|]. intros ks Hk. by apply Hok.
    + intros Hw. unfold call_of. rewrite Est. unfold call. rewrite E2. cbn [snd]. apply Hdone; [apply Hw2|apply Hex, Hp1; by apply Hpl|done|done].
Qed.
Print Assumptions C82_retry.

(** A call that returns normally may leave a collection that cannot be listed:
    the insertion was interrupted while it removed a partition to replace it
    by the one it had written elsewhere. The next call raises, the second one
    returns, and the directory written elsewhere is still in the collection. *)
Theorem C83_returns_refuted e c ds v rest inner validate M I s dirs s' :
  regular e c -> declared c -> insertable e c ds (v :: rest) None -> represents c M I s -> is_Some (M v) ->
  is_Some I \/ c_immutable c = false -> p_len (c_part c) = 1 ->
  exec (insert e (fun _ => []) inner c ds None None validate) s = (Ok dirs, s') ->
  exists u, stopped_at (insert e (fun _ => []) inner c ds None None validate) s u /\
    forall scheds1 inner1 scheds2 inner2, exists ex w1 w2,
      exec (insert e scheds1 inner1 c ds None None validate) u = (Raise ex, w1) /\
      exec (insert e scheds2 inner2 c ds None None validate) w1 = (Ok dirs, w2) /\
      forall f, exists ex, exec (select_parts e c f) w2 = (Raise ex, w2).
Proof.
  intros Hr Hc Hi Hs HM HI Hlp Hx.
  destruct (C23_window e c ds v rest inner validate M I s dirs s' Hr Hc Hi Hs HM HI Hx (fun q => bool_decide (q = [ZGROUP]))) as (u & Hu & H1 & H2).
  exists u. split; [done|]. intros scheds1 inner1 scheds2 inner2.
  destruct (retry_setup e c Hr Hc ds (v :: rest) Hi M I s _ inner None validate dirs s' Hs HI Hx) as (part & kbs & Hlen & Hrows & His & Hps & Hstop & Hrs & Hstep').
  destruct (Hstop _ _ u Hu) as (Hiu & He2 & _). pose proof (fun sc inn w => Hstep' s sc inn w Hrs) as Hstep. destruct (proj1 (Hrows v) ltac:(left)) as [sl Hk].
  assert (Hz : empty_at (part_dir c v ++ [ZMETADATA]) u = true).
  { apply nothing_empty. intros q (f & ->). rewrite <-app_assoc, H1, bool_decide_eq_false_2; [done|]. by intros [=]. }
  assert (Hb : broken c u (v, sl) = true).
  { unfold broken. cbn [fst]. rewrite Hz. cbn [andb].
    apply orb_true_iff. right. apply bool_decide_eq_true. rewrite (H1 [ZGROUP]), bool_decide_eq_true_2 by reflexivity. destruct HM as [d Hd]. destruct (rp_part _ _ _ _ Hs _ _ Hd) as (_ & _ & Hh).
    rewrite <-sub_lookup, (hg_group _ _ _ (proj2 Hh)). by eexists. }
  destruct (Hstep scheds1 inner1 u Hiu) as (r1 & w1 & E1 & Hi1 & _ & Ho1 & [(_ & Hno & _)|((ex & ->) & _ & Hn1)]); [destruct (Hno _ Hk); congruence|].
  specialize (Hn1 He2).
  assert (Ht1 : sub (temp_dir e (part_dir c v)) w1 = sub (temp_dir e (part_dir c v)) u /\ sub (part_dir c v) w1 = ∅).
  { destruct (Ho1 _ Hk) as [Ho|Hsame].
    - unfold outcome in Ho. cbn [fst] in Ho. rewrite Hz, Hb in Ho. exact Ho.
    - specialize (Hn1 _ Hk). rewrite (same_broken e c _ _ _ Hsame) in Hn1. congruence. }
  destruct Ht1 as [Ht1 Hd1].
  destruct (Hstep scheds2 inner2 w1 Hi1) as (r2 & w2 & E2 & Hi2 & _ & Ho2 & [(-> & Hok & _)|(_ & (k & Hkk & Hbk) & _)]); [|specialize (Hn1 _ Hkk); congruence].
  exists ex, w1, w2. split; [exact E1|]. split; [exact E2|]. destruct (Hok _ Hk) as [Hnb Hz2]. cbn [fst] in Hz2.
  assert (Hz1 : empty_at (part_dir c v ++ [ZMETADATA]) w1 = true).
  { apply nothing_empty. intros q (f & ->). by rewrite <-app_assoc, <-sub_lookup, Hd1, lookup_empty. }
  assert (Ht2 : sub (temp_dir e (part_dir c v)) w2 = sub (temp_dir e (part_dir c v)) w1).
  { destruct (Ho2 _ Hk) as [Ho|Hsame].
    - unfold outcome in Ho. cbn [fst] in Ho. rewrite Hz1 in Ho. apply Ho.
    - exfalso. apply present_full in Hz2. pose proof (same_empty e c _ _ _ Hsame) as Es. cbn [fst] in Es. congruence. }
  intros f. destruct H2 as [x Hx2]. eapply (listing_stray e c f w2 (e_hash e (part_dir c v)) ZGROUP x Hr Hlp); [|apply (rg_digest _ _ Hr)].
  rewrite <-Hx2. change [e_hash e (part_dir c v); ZGROUP] with ([e_hash e (part_dir c v)] ++ [ZGROUP]). rewrite app_assoc, <-(temp_part e c Hr v), <-!sub_lookup. by rewrite Ht2, Ht1.
Qed.
Print Assumptions C83_returns_refuted.

(** The claim is false of the variables without the dimension of the axis: if
    the first insertion is interrupted while it writes them, every later
    insertion returns normally and leaves them unreadable. *)
Lemma insert_rest e c ds rows np validate M s scheds inner dirs s' : regular e c -> declared c -> insertable e c ds rows None -> represents c M None s -> c_immutable c = true ->
  exec (insert e scheds inner c ds None np validate) s = (Ok dirs, s') ->
  exists i s1, represents c M (Some i) s1 /\ (forall q, ~ under (c_dir c ++ [IMMUTABLE]) q -> s1 !! q = s !! q) /\
    exec (insert e scheds inner c ds None np validate) s1 = (Ok dirs, s') /\
    stopped_at (insert e scheds inner c ds None np validate) s (<[(c_dir c ++ [IMMUTABLE]) ++ [ZGROUP] := CMeta MGroup]> s).
Proof.
  intros Hr Hc Hi Hs Him Hx. unfold insert in Hx |- *. destruct (c_readonly c); [done|]. rewrite exec_bind in Hx.
  destruct (prepare c ds validate) as [out|ex] eqn:Ep; cbn [exec] in Hx; [|done]. cbn [pbind]. rewrite exec_bind in Hx.
  destruct (exec_insert_immutable e c Hr Hc ds (in_sound _ _ _ _ _ Hi) (in_conforms _ _ _ _ _ Hi) M None s validate out Ep Hs)
    as (part & I' & s1 & E & Hp & Hf & Hs1 & Hout & HI'). rewrite Him in HI'. destruct HI' as (i & -> & Hfx).
  destruct (exec_insert_immutable e c Hr Hc ds (in_sound _ _ _ _ _ Hi) (in_conforms _ _ _ _ _ Hi) M (Some i) s1 validate out Ep Hs1)
    as (part' & I'' & s1' & E' & _ & _ & _ & _ & (_ & ->)).
  assert (part' = part) as ->.
  { revert E E'. unfold insert_immutable. rewrite Him. generalize (ds_select_variables_by_dims out [c_axis c] true). intros rp. rewrite !exec_bind, !exec_exists. cbv iota.
    rewrite !exec_bind.
    destruct (exec (if negb (empty_at (c_dir c ++ [IMMUTABLE]) s) then _ else _) s) as [[?|?] ?], (exec (if negb (empty_at (c_dir c ++ [IMMUTABLE]) s1) then _ else _) s1) as [[?|?] ?]; cbn; congruence. }
  exists i, s1. split; [done|]. split; [done|]. split; [rewrite exec_bind, E'; cbv iota; rewrite E in Hx; exact Hx|].
  apply stopped_first.
  assert (Hno : empty_at (c_dir c ++ [IMMUTABLE]) s = true).
  { apply nothing_empty. intros q (t & ->). destruct (s !! _) as [x|] eqn:Eq; [|done]. rewrite <-app_assoc in Eq.
    apply (rp_files _ _ _ _ Hs) in Eq as [Eq|[([? ?] & _)|(v & f & [d Hv] & Eq)]]; [done|done|].
    apply (rp_part _ _ _ _ Hs) in Hv as (Hl & _). destruct (key_head e c Hr v Hl) as (a & r & Ea' & Ha & Hd). rewrite Ea' in Eq. injection Eq as <- _. by exfalso. }
  revert E. unfold insert_immutable. rewrite Him. rewrite exec_bind, exec_exists. cbv iota. rewrite Hno. cbn [negb]. rewrite exec_bind. intros E.
  eapply stopped_then; [apply exec_exists|]. rewrite Hno. cbn [negb]. apply stopped_first. unfold write_immutable in E |- *.
  destruct (ds_select_variables_by_dims out [c_axis c] false) as [ids|ex]; [|done]. cbn [pbind] in E |- *. destruct (length (d_vars ids) =? 0); [done|].
  unfold write_zarr_group. cbv zeta. apply stopped_first, stopped_first. apply stopped_end with (r := Ok tt). unfold require_group. rewrite exec_bind, exec_read_file. cbv iota.
  assert (s !! ((c_dir c ++ [IMMUTABLE]) ++ [ZGROUP]) = None) as ->; [apply (proj2 (nothing_empty _ _) Hno), under_app|]. done.
Qed.
Theorem C83_immutable_refuted e c ds rows np validate M s scheds inner dirs s' :
  regular e c -> declared c -> insertable e c ds rows None -> represents c M None s -> c_immutable c = true ->
  exec (insert e scheds inner c ds None np validate) s = (Ok dirs, s') ->
  exists u, stopped_at (insert e scheds inner c ds None np validate) s u /\
    forall (scheds : nat -> nat -> schedule) (inner : nat -> path -> schedule) k,
      let call k := insert e (scheds k) (inner k) c ds None np validate in
      (call_of call u k).1 = Ok dirs /\ unreadable (call_of call u k).2 (c_dir c ++ [IMMUTABLE]).
Proof.
  intros Hr Hc Hi Hs Him Hx. destruct (insert_rest e c ds rows np validate M s scheds inner dirs s' Hr Hc Hi Hs Him Hx) as (i & s1 & Hs1 & Hout & Hx1 & Hst).
  set (d := c_dir c ++ [IMMUTABLE]) in *. set (u := <[d ++ [ZGROUP] := CMeta MGroup]> s) in *. exists u. split; [done|]. clear Hst.
  destruct (retry_setup e c Hr Hc ds rows Hi M (Some i) s1 scheds inner np validate dirs s' Hs1 ltac:(left; by eexists) Hx1) as (part & kbs & Hlen & Hrows & His & Hps & _ & Hrs & Hstep).
  destruct (Hstep s1 scheds inner s1 Hrs His) as (r0 & w0 & E0 & _ & _ & _ & [(_ & Hok & _)|((ex & ->) & _)]); [|congruence].
  clear Hx Hx1 E0.
  assert (Hsame : forall ks, ks ∈ concat kbs -> same_region e c s1 u ks).
  { intros ks Hk q Hq. assert (N : ~ under d q). { intros (f & ->). by apply (immutable_apart e c Hr ks.1 f (Hlen ks Hk)). }
    rewrite Hout by done. apply lookup_insert_ne. intros <-. apply N, under_app. }
  set (ok := fun w : store => inv e c u kbs w /\ forall ks, ks ∈ concat kbs -> broken c w ks = false).
  assert (Hu : ok u).
  { split; [split; [|by intros q _]|].
    - intros ks Hk. apply (same_good e c s1 u ks (Hsame ks Hk)). by apply His.
    - intros ks Hk. rewrite (same_broken e c s1 u ks (Hsame ks Hk)). by apply Hok. }
  assert (Hru : ready c u).
  { intros _. apply empty_at_false. exists (d ++ [ZGROUP]), (CMeta MGroup). split; [apply under_app|]. apply lookup_insert. }
  assert (Hgo : forall sc inn w, ok w -> exists w', exec (insert e sc inn c ds None np validate) w = (Ok dirs, w') /\ ok w').
  { intros sc inn w [Hw Hb]. destruct (Hstep u sc inn w Hru Hw) as (r & w' & E & Hw' & _ & _ & [(-> & Hok' & _)|(_ & (ks & Hk & Hbk) & _)]); [|rewrite Hb in Hbk; done].
    exists w'. split; [exact E|]. split; [done|]. intros ks Hk. destruct (Hok' ks Hk) as [_ Hz]. unfold broken. by rewrite (present_full _ _ Hz). }
  intros scheds' inner' k call.
  assert (Hst : forall j, ok (state_before call u j)).
  { induction j as [|j IH]; [exact Hu|]. cbn [state_before]. destruct (Hgo (scheds' j) (inner' j) _ IH) as (w' & E & Hw'). unfold call at 1. rewrite E. exact Hw'. }
  destruct (Hgo (scheds' k) (inner' k) _ (Hst k)) as (w' & E & [[_ Hw'] _]). unfold call_of, call at 1 3. rewrite E. split; [done|]. cbn [snd].
  apply unreadable_cons. left. rewrite Hw' by (intros ks Hk; apply (immutable_apart e c Hr); by apply Hlen). unfold u. rewrite lookup_insert_ne by (intros E'; by apply app_inv_head in E').
  destruct (s !! (d ++ [ZMETADATA])) as [x|] eqn:Eq; [|done]. unfold d in Eq. rewrite <-app_assoc in Eq.
  apply (rp_files _ _ _ _ Hs) in Eq as [Eq|[([? ?] & _)|(v & f & [d' Hv] & Eq)]]; [done|done|].
  apply (rp_part _ _ _ _ Hs) in Hv as (Hl & _). destruct (key_head e c Hr v Hl) as (a & r & Ea' & Ha & Hd). rewrite Ea' in Eq. injection Eq as <- _. by exfalso.
Qed.
Print Assumptions C83_immutable_refuted.

(** ** The example *)
(** Two partitions are inserted, removed, and inserted again by a call that is
    stopped when the group of the first one is made. *)
Lemma X_stopped : exists M I s u dirs s', represents X_coll M I s /\ (forall v, M v = None) /\ is_Some I /\ exec X_insert s = (Ok dirs, s') /\ stopped_at X_insert s u /\ half_made X_coll u [1%Z].
Proof.
  destruct (X_again _ _ _ X_empty) as (_ & s0 & M0 & I & _ & Hs0 & HM0 & HI).
  destruct (C28_drop X_env X_coll M0 I s0 [] NoFilter None (fun _ => True) X_regular eq_refl Hs0 X_filterable ltac:(done)) as (vs & s & _ & _ & Hin & _ & _ & M & Hrem & Hs & _).
  assert (HM : forall v, M v = None).
  { intros v. destruct (decide (v ∈ vs)) as [D|D]; [by apply Hrem|]. rewrite (proj2 (Hrem v)) by done. destruct (M0 v) eqn:E; [|done]. exfalso. apply D, Hin. rewrite E. split; [by eexists|done]. }
  destruct (X_again _ _ _ Hs) as (dirs & s' & _ & _ & E & _). clear Hs0 HM0 Hin Hrem M0 s0 vs.
  destruct (first_partition X_env X_coll X_ds [1%Z] [[1%Z]; [2%Z]] None X_inner true M I s dirs s' X_regular X_declared X_insertable Hs ltac:(by left) E)
    as (part & sl & _ & _ & _ & _ & _ & Hst).
  destruct (Hst s ltac:(intros q _; reflexivity)) as [Hst' _]. clear Hst.
  pose proof (part_nothing X_env X_coll X_regular M I s [1%Z] Hs eq_refl (HM _)) as Hno.
  set (d := part_dir X_coll [1%Z]) in *.
  exists M, I, s, (<[d ++ [ZGROUP] := CMeta MGroup]> s), dirs, s'. split; [exact Hs|]. split; [exact HM|]. split; [exact HI|]. split; [exact E|]. split; [|split].
  - apply Hst'. unfold insert_partition. cbv zeta. cbn [fst snd]. change (c_dir X_coll ++ key_dirs (c_part X_coll) [1%Z]) with d.
    eapply stopped_then; [apply exec_exists|].
    assert (empty_at (d ++ [ZMETADATA]) s = true) as -> by (apply empty_at_true; intros q Hq; apply Hno; by eapply under_snoc). cbn [negb].
    apply stopped_catch. eapply stopped_then; [by apply exec_init_group|]. by exists (let! piece <- Ret (ds_isel part [(c_dim X_coll, ISlice (Some (Z.of_nat sl.1)) (Some (Z.of_nat sl.2)))]); write_zarr_group d piece (Some (X_inner d))).
  - intros q (x & ->). rewrite lookup_insert_ne; [apply Hno; exists (ZMETADATA :: x); by rewrite <-app_assoc|].
    rewrite <-app_assoc. intros Eq. apply app_inv_head in Eq. discriminate.
  - left. change (part_dir X_coll [1%Z]) with d. rewrite lookup_insert. by eexists.
Qed.
Example C82_case : exists s u dirs s' ex, stopped_at X_insert s u /\ exec X_insert s = (Ok dirs, s') /\
  (call_of (fun _ => X_insert) u 0).1 = Raise ex /\ call_of (fun _ => X_insert) u 1 = (Ok dirs, s') /\ call_of (fun _ => X_insert) u 7 = (Ok dirs, s').
Proof.
  destruct X_stopped as (M & I & s & u & dirs & s' & Hs & HM & HI & E & Hu & Hh).
  destruct (C82_retry X_env X_coll X_ds X_rows None true M I s dirs s' _ X_inner _ X_inner u (fun _ _ => []) (fun _ => X_inner) X_regular X_declared X_insertable Hs ltac:(by left) E Hu)
    as (k & Hk & H1 & H2 & H3 & H4 & H5).
  assert (k = 1) as -> by (apply H1; exists [1%Z]; split; [left|exact Hh]).
  destruct (H2 0 ltac:(lia)) as [ex Hex]. exists s, u, dirs, s', ex. split; [exact Hu|]. split; [exact E|]. split; [exact Hex|]. split; [|apply H4; lia].
  rewrite <-H3. rewrite <-(H5 ltac:(intros v _ [d Hd]; rewrite HM in Hd; discriminate)). apply surjective_pairing.
Qed.
(** The first insertion of the same dataset. *)
Example C83_immutable_case : exists s u dirs s', exec X_insert s = (Ok dirs, s') /\ stopped_at X_insert s u /\ (exec X_insert u).1 = Ok dirs /\
  unreadable (exec X_insert u).2 (c_dir X_coll ++ [IMMUTABLE]).
Proof.
  destruct (X_again _ _ _ X_empty) as (dirs & s' & _ & _ & E & _).
  destruct (C83_immutable_refuted X_env X_coll X_ds X_rows None true _ _ _ X_inner dirs s' X_regular X_declared X_insertable X_empty eq_refl E) as (u & Hu & H).
  destruct (H (fun _ _ => []) (fun _ => X_inner) 0) as [H1 H2]. eexists _, u, dirs, s'. split; [exact E|]. split; [exact Hu|]. split; [exact H1|exact H2].
Qed.
Example C83_returns_case : exists s u ex w1 dirs w2, stopped_at X_insert s u /\ exec X_insert u = (Raise ex, w1) /\ exec X_insert w1 = (Ok dirs, w2) /\
  exists ex, exec (select_parts X_env X_coll NoFilter) w2 = (Raise ex, w2).
Proof.
  destruct (X_again _ _ _ X_empty) as (_ & s & M & I & _ & Hs & HM & HI). destruct (X_again _ _ _ Hs) as (dirs & s' & _ & _ & E & _).
  destruct (C83_returns_refuted X_env X_coll X_ds [1%Z] [[1%Z]; [2%Z]] X_inner true M I s dirs s' X_regular X_declared X_insertable Hs HM ltac:(by left) eq_refl E) as (u & Hu & H).
  destruct (H (fun _ => []) X_inner (fun _ => []) X_inner) as (ex & w1 & w2 & E1 & E2 & Hl). exists s, u, ex, w1, dirs, w2.
  split; [exact Hu|]. split; [exact E1|]. split; [exact E2|exact (Hl NoFilter)].
Qed.
