(** * Properties of interrupted calls: repeating an insertion that was
    interrupted several times *)
From Verif Require Import Py Dict NdArray_Model NdArray_Spec NdArray_Proofs Dataset_Model Dataset_Spec Dataset_Proofs Meta_Model Meta_Spec PartPath_Model PartPath_Proofs
  Split_Spec DaskUtils_Model DaskUtils_Proofs FS_Model FS_Proofs Pool_Model Pool_Proofs Storage_Model Storage_Chunks Storage_Spec Storage_Proofs
  Listing_Model Listing_Spec Listing_Proofs Collection_Model Collection_Spec Collection_Split Collection_Proofs Collection_State Collection_Select Collection_Insert Collection_Total
  Collection_Props Crash_Spec Retry_Spec Collection_Crash Crash_Props Collection_Example Storage_Change Validate_Props Insert_Retry Insert_Again Recovery_Props3.

(** An insertion without merging returns [dirs] and leaves [s']. The same call
    is repeated from a state [u] in which the directories of the partitions of
    the dataset, and the temporary ones beside them, hold any files whatever.
    At most one call per partition raises; the next one returns [dirs]; every
    later one returns [dirs] and leaves exactly [s']. *)
Theorem C84_any_files e c ds rows np validate M I s dirs s' scheds0 inner0 u (scheds : nat -> nat -> schedule) (inner : nat -> path -> schedule) :
  regular e c -> declared c -> insertable e c ds rows None -> represents c M I s -> is_Some I \/ c_immutable c = false ->
  exec (insert e scheds0 inner0 c ds None np validate) s = (Ok dirs, s') ->
  (forall q, (forall v, v ∈ rows -> ~ under (part_dir c v) q /\ ~ under (c_dir c ++ [e_hash e (part_dir c v)]) q) -> u !! q = s !! q) ->
  let call k := insert e (scheds k) (inner k) c ds None np validate in
  exists k, k <= length dirs /\
    (forall j, j < k -> exists ex, (call_of call u j).1 = Raise ex) /\
    (call_of call u k).1 = Ok dirs /\
    forall j, k < j -> call_of call u j = (Ok dirs, s').
Proof.
  intros Hr Hc Hi Hs HI Hx Hu. destruct (again e c Hr Hc ds rows Hi M I s scheds0 inner0 np validate dirs s' Hs HI Hx) as (kbs & Hrows & Hlen & Hkl & _ & Hcall).
  destruct (Hcall u scheds inner) as (k & Hk & H1 & H2 & H3).
  { intros q Hq. apply Hu. intros v Hv. apply Hrows in Hv as (sl & Hv). specialize (Hq _ Hv). split; intros U; apply Hq; [by left|right]. cbn [fst]. by rewrite (temp_part e c Hr v). }
  exists k. split; [done|]. split; [|done]. intros j Hj. destruct (H1 j Hj) as [ex E]. exists ex. unfold call_of. by rewrite E.
Qed.
Print Assumptions C84_any_files.

(** The same of the states left by any number of calls, each of them stopped
    anywhere, with any schedules. *)
Theorem C84_many e c ds rows np validate M I s dirs s' scheds0 inner0 u (scheds : nat -> nat -> schedule) (inner : nat -> path -> schedule) :
  regular e c -> declared c -> insertable e c ds rows None -> represents c M I s -> is_Some I \/ c_immutable c = false ->
  exec (insert e scheds0 inner0 c ds None np validate) s = (Ok dirs, s') ->
  left_by (fun p => exists sc inn, p = insert e sc inn c ds None np validate) s u ->
  let call k := insert e (scheds k) (inner k) c ds None np validate in
  exists k, k <= length dirs /\
    (forall j, j < k -> exists ex, (call_of call u j).1 = Raise ex) /\
    (call_of call u k).1 = Ok dirs /\
    forall j, k < j -> call_of call u j = (Ok dirs, s').
Proof.
  intros Hr Hc Hi Hs HI Hx Hu. destruct (again e c Hr Hc ds rows Hi M I s scheds0 inner0 np validate dirs s' Hs HI Hx) as (kbs & Hrows & Hlen & Hkl & Hstop & Hcall).
  destruct (Hcall u scheds inner) as (k & Hk & H1 & H2 & H3).
  { induction Hu as [|p w u Hw IH (sc & inn & ->) Hst]; [by intros q _|]. by eapply Hstop. }
  exists k. split; [done|]. split; [|done]. intros j Hj. destruct (H1 j Hj) as [ex E]. exists ex. unfold call_of. by rewrite E.
Qed.
Print Assumptions C84_many.

(** The example: two partitions, whose insertion is stopped when the group of
    the first one is made; repeated; and stopped again at its beginning. *)
Example C84_case : exists s u dirs s', left_by (fun p => exists sc inn, p = insert X_env sc inn X_coll X_ds None None true) s u /\ exec X_insert s = (Ok dirs, s') /\ u <> s /\
  call_of (fun _ => X_insert) u (S (length dirs)) = (Ok dirs, s').
Proof.
  destruct X_stopped as (M & I & s & u & dirs & s' & Hs & HM & HI & E & Hu & Hh).
  assert (Hl : left_by (fun p => exists sc inn, p = insert X_env sc inn X_coll X_ds None None true) s u).
  { eapply left_more; [eapply left_more; [apply left_none|by eexists _, _|exact Hu]|by eexists _, _|]. exists X_insert. apply rtc_refl. }
  destruct (C84_many X_env X_coll X_ds X_rows None true M I s dirs s' _ X_inner u (fun _ _ => []) (fun _ => X_inner) X_regular X_declared X_insertable Hs ltac:(by left) E Hl)
    as (k & Hk & H1 & H2 & H3).
  exists s, u, dirs, s'. split; [exact Hl|]. split; [exact E|]. split; [|apply H3; lia].
  intros ->. destruct Hh as [_ Hg]. pose proof (part_nothing X_env X_coll X_regular M I s [1%Z] Hs eq_refl (HM _)) as Hno.
  destruct Hg as [[x Hg]|[x Hg]]; rewrite Hno in Hg by apply under_app; discriminate.
Qed.
