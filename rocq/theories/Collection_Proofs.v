(** * Writing the partitions of a collection *)
From Verif Require Import Py Dict NdArray_Model NdArray_Spec NdArray_Proofs Dataset_Model Dataset_Spec Dataset_Proofs Meta_Model PartPath_Model
  Split_Spec FS_Model FS_Proofs Pool_Model Pool_Proofs Storage_Model Storage_Chunks Storage_Spec Storage_Proofs
  Listing_Model Listing_Spec Listing_Proofs Collection_Model Collection_Spec Collection_Split.

(** ** Regions *)
Lemma under_snoc (d q : path) x : under (d ++ x) q -> under d q.
Proof. intros (t & ->). exists (x ++ t). by rewrite app_assoc. Qed.
Lemma within_consolidate (R W : path -> Prop) d : (forall q, under d q -> W q) -> within R W (consolidate d).
Proof.
  intros H. unfold consolidate. apply within_bind; [apply within_get_tree; auto|]. intros t. apply within_bind; [done|]. intros m.
  apply within_bind; [apply within_write, H, under_app|]. intros _. by destruct (bool_decide _).
Qed.
Lemma within_del_array (R W : path -> Prop) d n : (forall q, under d q -> W q) -> within R W (del_zarr_array d n).
Proof.
  intros H. unfold del_zarr_array. apply within_bind; [apply within_exists; intros q Hq; right; apply H; by eapply under_snoc|]. intros [|]; [|done].
  apply within_bind; [apply within_rm; intros q Hq; apply H; by eapply under_snoc|]. intros _. by apply within_consolidate.
Qed.
Lemma within_write_variable_any (R W : path -> Prop) d chunks nv : (forall q, under d q -> W q) -> within R W (write_zarr_variable d chunks nv).
Proof.
  intros H. unfold write_zarr_variable, to_zarr, write_zattrs. apply within_catch.
  - apply within_bind; [|intros; apply within_write, H, under_app].
    apply within_bind; [apply within_rmtree; intros q Hq; apply H; by eapply under_snoc|]. intros _.
    apply within_bind; [apply within_write, H, under_app|]. intros _. apply within_write_chunks. intros q Hq; apply H; by eapply under_snoc.
  - intros e. apply within_bind; [by apply within_del_array|done].
Qed.
Lemma within_write_group_any (R W : path -> Prop) d ds sched : (forall q, under d q -> W q) -> within R W (write_zarr_group d ds sched).
Proof.
  intros H. unfold write_zarr_group. cbv zeta.
  assert (Hw : forall p : program unit, p ∈ map (write_zarr_variable d (d_chunks ds)) (d_vars ds) -> within R W p).
  { intros p Hp. apply elem_of_list_In, in_map_iff in Hp as (nv & <- & _). by apply within_write_variable_any. }
  apply within_bind.
  - destruct sched as [sched|]; [by apply within_transaction|]. apply within_bind; [|intros _; by apply within_pseq].
    unfold require_group. apply within_bind; [apply within_read_file; intros q Hq; right; apply H; by eapply under_snoc|].
    intros g. destruct (bool_decide _); [done|]. apply within_write, H, under_app.
  - intros _. unfold write_meta. apply within_bind; [apply within_write, H, under_app|]. intros _.
    apply within_bind; [apply within_write, H, under_app|]. intros _. by apply within_consolidate.
Qed.
Lemma within_init_group (R W : path -> Prop) d : (forall q, under d q -> W q) -> within R W (init_group d).
Proof.
  intros H. unfold init_group. apply within_bind; [apply within_read_file; intros q Hq; right; apply H; by eapply under_snoc|].
  intros a. apply within_bind; [apply within_read_file; intros q Hq; right; apply H; by eapply under_snoc|]. intros g.
  destruct (bool_decide _); [done|]. destruct (bool_decide _); [done|]. apply within_write, H, under_app.
Qed.
Lemma within_open_group (R W : path -> Prop) d delayed sel : (forall q, under d q -> R q \/ W q) -> within R W (open_zarr_group d delayed sel).
Proof. intros H. unfold open_zarr_group. apply within_bind; [by apply within_get_tree|done]. Qed.

(** The files that the insertion in the directory [d] may touch. *)
Definition part_region (e : env) (d : path) (q : path) : Prop := under d q \/ under (temp_dir e d) q.
Global Instance part_region_dec e d q : Decision (part_region e d q).
Proof. unfold part_region. apply _. Defined.
Lemma within_update_fs (R W : path -> Prop) e inner d ds : (forall q, part_region e d q -> W q) -> within R W (update_fs e inner d ds).
Proof.
  intros H. assert (H1 : forall q, under d q -> W q) by (intros q Hq; apply H; by left).
  assert (H2 : forall q, under (temp_dir e d) q -> W q) by (intros q Hq; apply H; by right).
  unfold update_fs. cbv zeta. apply within_bind; [apply within_exists; auto|]. intros x.
  apply within_bind; [destruct x; [by apply within_rm|done]|]. intros _.
  apply within_bind; [by apply within_init_group|]. intros _.
  apply within_bind.
  - apply within_catch; [by apply within_write_group_any|]. intros ex. apply within_bind; [by apply within_rm|done].
  - intros _. unfold rename. apply within_bind; [by apply within_rmtree|]. intros _. apply within_move. intros q [Hq|Hq]; auto.
Qed.
Lemma within_insert_partition (R W : path -> Prop) e inner c ds merge part :
  (forall q, part_region e (c_dir c ++ part.1) q -> W q) -> within R W (insert_partition e inner c ds merge part).
Proof.
  intros H. set (d := c_dir c ++ part.1) in *. assert (H1 : forall q, under d q -> W q) by (intros q Hq; apply H; by left).
  unfold insert_partition. cbv zeta. fold d. generalize (inner d) as sc. intros sc.
  apply within_bind; [apply within_exists; intros q Hq; right; apply H1; by eapply under_snoc|]. intros [|].
  - apply within_bind; [done|]. intros piece. unfold perform. apply within_bind; [|intros; by apply within_update_fs].
    destruct merge; [|done]. apply within_bind; [apply within_open_group; auto|]. intros; done.
  - apply within_catch.
    + apply within_bind; [by apply within_init_group|]. intros _. apply within_bind; [done|]. intros piece. by apply within_write_group_any.
    + intros ex. apply within_bind; [by apply within_rmtree|done].
Qed.

(** ** One partition *)
Definition nothing_at (d : path) (s : store) : Prop := forall q, under d q -> s !! q = None.
Lemma nothing_empty d s : nothing_at d s <-> empty_at d s = true.
Proof. unfold nothing_at. by rewrite empty_at_true. Qed.
Lemma exec_init_group d s : nothing_at d s -> exec (init_group d) s = (Ok tt, <[d ++ [ZGROUP] := CMeta MGroup]> s).
Proof.
  intros H. unfold init_group. rewrite exec_bind, exec_read_file. cbv iota. rewrite exec_bind, exec_read_file. cbv iota.
  rewrite !H by apply under_app. rewrite !bool_decide_eq_false_2 by (by intros [? ?]). apply exec_write.
Qed.
Lemma prune_insert (d : path) (x : path) c (s : store) : prune d (<[d ++ x := c]> s) = prune d s.
Proof.
  apply map_eq. intros q. rewrite !prune_lookup. destruct (decide _) as [|N]; [done|]. rewrite lookup_insert_ne; [done|].
  intros <-. apply N, under_app.
Qed.
Lemma prune_nothing d s : nothing_at d s -> prune d s = s.
Proof. intros H. apply map_eq. intros q. rewrite prune_lookup. destruct (decide _); [symmetry; by apply H|done]. Qed.
Lemma exec_write_new d ds sched s : storable ds -> nothing_at d s ->
  exec (let! _ <- init_group d; write_zarr_group d ds sched) s = (Ok tt, graft d (group_tree ds) s).
Proof.
  intros Hs Hn. rewrite exec_bind, exec_init_group by done. cbv iota. rewrite exec_write_group; [|done|].
  - by rewrite prune_insert, prune_nothing.
  - intros q c. destruct (decide (q = [ZGROUP])) as [->|N]; [done|]. rewrite lookup_insert_ne by (intros E; by apply app_inv_head in E).
    rewrite Hn by apply under_app. done.
Qed.

Lemma prune_prune_comm (p q : path) (s : store) : prune p (prune q s) = prune q (prune p s).
Proof. apply map_eq. intros r. rewrite !prune_lookup. by destruct (decide (under p r)), (decide (under q r)). Qed.
Lemma prune_graft_apart (p q : path) (t s : store) : apart p q -> prune p (graft q t s) = graft q t (prune p s).
Proof.
  intros H. apply map_eq. intros r. rewrite prune_lookup, !graft_lookup, prune_lookup.
  destruct (decide (under p r)) as [U|U]; [|done]. destruct (strip q r) as [x|] eqn:E; [|done].
  apply strip_Some in E as ->. exfalso. eapply H; [exact U|apply under_app].
Qed.
Lemma prune_graft_same (p : path) (t s : store) : prune p (graft p t s) = prune p s.
Proof.
  apply map_eq. intros r. rewrite !prune_lookup, graft_lookup. destruct (decide (under p r)) as [U|U]; [done|].
  apply strip_None in U. by rewrite U.
Qed.
Lemma exec_update_fs e inner d ds s : storable ds -> apart d (temp_dir e d) ->
  exec (update_fs e inner d ds) s = (Ok tt, graft d (group_tree ds) (prune d (prune (temp_dir e d) s))).
Proof.
  intros Hs Ha. unfold update_fs. cbv zeta. set (temp := temp_dir e d) in *. clearbody temp.
  rewrite exec_bind, exec_exists. cbv iota.
  assert (exec (if negb (empty_at temp s) then rm temp else pret tt) s = (Ok tt, prune temp s)) as E.
  { destruct (empty_at temp s) eqn:E; cbn [negb].
    - cbn. rewrite prune_nothing; [done|]. by apply nothing_empty.
    - rewrite exec_rm, E. done. }
  rewrite exec_bind, E. cbv iota.
  assert (Hn : nothing_at temp (prune temp s)) by (intros q Hq; by rewrite prune_lookup, decide_True).
  rewrite exec_bind, exec_init_group by done. cbv iota.
  rewrite exec_bind, exec_catch, exec_write_group; [|done|].
  2:{ intros q c. destruct (decide (q = [ZGROUP])) as [->|N]; [done|]. rewrite lookup_insert_ne by (intros E'; by apply app_inv_head in E').
      rewrite Hn by apply under_app. done. }
  cbv iota. rewrite prune_insert, (prune_nothing _ _ Hn). unfold rename. rewrite exec_bind, exec_rmtree. cbv iota.
  rewrite prune_graft_apart by done. set (u := prune d (prune temp s)).
  assert (Hu : nothing_at temp u) by (intros q Hq; unfold u; rewrite prune_lookup; destruct (decide _); [done|]; by apply Hn).
  assert (Et : sub temp (graft temp (group_tree ds) u) = group_tree ds) by (rewrite <-(prune_nothing _ _ Hu); apply sub_graft_prune).
  unfold move. cbn [exec exec_op].
  assert (empty_at temp (graft temp (group_tree ds) u) = false) as ->.
  { apply empty_at_false. exists (temp ++ [ZMETADATA]), (CCons (metas (body_tree ds))). split; [apply under_app|].
    rewrite graft_lookup, strip_app. unfold group_tree. by rewrite lookup_insert. }
  rewrite prune_graft_same, (prune_nothing _ _ Hu), Et.
  assert (empty_at d u = true) as ->.
  { apply empty_at_true. intros q Hq. unfold u. by rewrite prune_lookup, decide_True. }
  done.
Qed.
