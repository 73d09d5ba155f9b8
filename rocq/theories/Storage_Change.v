(** * Changing the arrays of a group *)
From Verif Require Import Py Dict NdArray_Model NdArray_Spec NdArray_Proofs Dataset_Model Dataset_Spec Meta_Model PartPath_Model
  FS_Model FS_Proofs Pool_Model Storage_Model Storage_Chunks Storage_Spec Storage_Proofs Collection_Model Collection_Spec Collection_Proofs Update_Model Update_Spec.

Lemma strip_app_l (d p q : path) : strip (d ++ p) (d ++ q) = strip p q.
Proof.
  destruct (strip p q) as [r|] eqn:E.
  - apply strip_Some in E as ->. rewrite app_assoc. apply strip_app.
  - apply strip_None. apply strip_None in E. intros (r & U). apply E. exists r. rewrite <-app_assoc in U. by apply app_inv_head in U.
Qed.
Lemma sub_graft_in (d p : path) (t s : store) : sub d (graft (d ++ p) t s) = graft p t (sub d s).
Proof.
  apply map_eq. intros q. rewrite sub_lookup, !graft_lookup, strip_app_l. by rewrite sub_lookup.
Qed.
Lemma sub_prune_in (d p : path) (s : store) : sub d (prune (d ++ p) s) = prune p (sub d s).
Proof.
  apply map_eq. intros q. rewrite sub_lookup, !prune_lookup, sub_lookup.
  destruct (decide (under p q)) as [U|U]; [rewrite decide_True; [done|]|rewrite decide_False; [done|]].
  - destruct U as (r & ->). exists r. by rewrite <-app_assoc.
  - intros (r & E). apply U. exists r. rewrite <-app_assoc in E. by apply app_inv_head in E.
Qed.
Lemma sub_insert_in (d q : path) c (s : store) : sub d (<[d ++ q := c]> s) = <[q := c]> (sub d s).
Proof.
  apply map_eq. intros r. rewrite sub_lookup. destruct (decide (q = r)) as [<-|N]; [by rewrite !lookup_insert|].
  rewrite !lookup_insert_ne, sub_lookup; [done|done|]. intros E. by apply app_inv_head in E.
Qed.
Lemma is_zarr_key_snoc q n : is_zarr_key (q ++ [n]) = memb n [ZARRAY; ZGROUP; ZATTRS].
Proof. unfold is_zarr_key. by rewrite last_snoc. Qed.
Lemma chunk_not_zarr_key ci : is_zarr_key [chunk_key ci] = false.
Proof.
  unfold is_zarr_key. cbn [last]. unfold memb. apply bool_decide_eq_false. intros H. apply (chunk_key_not_meta ci (chunk_key ci)); [|done].
  change (chunk_key ci ∈ [ZARRAY; ZGROUP; ZATTRS] ++ [ZMETADATA]). apply elem_of_app. left. exact H.
Qed.

(** ** Files that are not metadata *)
(** The files [t'] differ from [t] in the directory [n], in files that are not
    metadata. *)
Lemma metas_same t t' : (forall q, is_zarr_key q = true -> t' !! q = t !! q) -> metas t' = metas t.
Proof. intros H. apply map_eq. intros q. rewrite !metas_lookup. destruct (is_zarr_key q) eqn:E; [|done]. by rewrite H. Qed.
Lemma clean_same t t' : (forall q, is_zarr_key q = true -> t' !! q = t !! q) -> clean t -> clean t'.
Proof. intros H Hc q c E K. rewrite H in E by done. by eapply Hc. Qed.

(** ** Replacing the values of a variable *)
Lemma chunk_graft_zarr n z b a (t : store) q : is_zarr_key q = true -> graft [n] (chunk_tree z b a) t !! q = t !! q.
Proof.
  intros K. rewrite graft_lookup. destruct (strip [n] q) as [r|] eqn:E; [|done]. apply strip_Some in E as ->.
  destruct (chunk_tree z b a !! r) as [x|] eqn:Ec; [|done]. apply chunk_tree_Some in Ec as (ci & _ & -> & _).
  rewrite is_zarr_key_snoc in K. pose proof (chunk_not_zarr_key ci) as K'. unfold is_zarr_key in K'. cbn in K'. cbn in K. congruence.
Qed.
Lemma holds_group_update t attrs vars n v cs a : holds_group t attrs vars -> dget vars n = Some v ->
  chunked (v_shape v) cs -> t !! [n; ZARRAY] = Some (CMeta (MArray (zarr_for v cs))) -> arr_wf a -> a_shape a = v_shape v ->
  holds_group (graft [n] (chunk_tree (zarr_for v cs) false a) t) attrs (dset vars n (with_array v a)).
Proof.
  intros H Ev Hc Hz Hw Hs. set (t' := graft _ _ t).
  assert (Hk : forall q, is_zarr_key q = true -> t' !! q = t !! q) by (intros q; apply chunk_graft_zarr).
  destruct (hg_vars _ _ _ H _ _ Ev) as (Hvn & Hpl & Hhv).
  assert (Hout : forall q, ~ under [n] q -> t' !! q = t !! q) by (intros q Hq; by apply graft_lookup_out).
  split.
  - rewrite (metas_same t t') by done. rewrite Hout; [apply H|]. intros (r & E). cbn in E. injection E as <- _. apply Hpl. set_solver.
  - eapply clean_same; [done|apply H].
  - rewrite Hk by done. apply H.
  - rewrite Hk by done. apply H.
  - apply dset_NoDup, H.
  - intros m w Em. destruct (decide (m = n)) as [->|Nm].
    + rewrite dget_dset_eq in Em. injection Em as <-. split_and!; [done|done|]. split.
      * exists cs. split_and!.
        -- unfold v_shape. cbn. by rewrite Hs.
        -- rewrite sub_lookup. cbn [app]. rewrite Hk by done. rewrite Hz. unfold zarr_for, v_shape. cbn. by rewrite Hs.
        -- apply (read_array_ok _ false).
           ++ done.
           ++ done.
           ++ unfold zarr_for, v_shape. cbn. by rewrite Hs.
           ++ intros ci Hci. rewrite sub_lookup. subst t'. rewrite graft_lookup, strip_app.
              assert (Ez : zarr_for (with_array v a) cs = zarr_for v cs) by (unfold zarr_for, v_shape; cbn; by rewrite Hs).
              rewrite Ez in *. cbn [v_array with_array]. rewrite chunk_tree_at; [done| |done]. done.
      * rewrite sub_lookup. cbn [app]. rewrite Hk by done. pose proof (hv_attrs _ _ Hhv) as E. rewrite sub_lookup in E. exact E.
    + rewrite dget_dset_ne in Em by done. destruct (hg_vars _ _ _ H _ _ Em) as (H1 & H2 & H3). split_and!; [done..|].
      replace (sub [m] t') with (sub [m] t); [done|]. apply map_eq. intros q. rewrite !sub_lookup. symmetry. apply Hout.
      intros (r & E). cbn in E. injection E as E' _. congruence.
  - intros m x E. rewrite Hk in E by done. apply (hg_only _ _ _ H) in E. apply dget_is_Some. apply dget_is_Some in E as [w Ew].
    destruct (decide (m = n)) as [->|Nm]; [rewrite dget_dset_eq; by eexists|]. rewrite dget_dset_ne by done. by eexists.
Qed.

Lemma to_store_wf fill d : vd_wf d -> arr_wf (to_store fill d).
Proof.
  destruct d as [a|m]; [done|]. intros [H1 H2]. cbn. destruct fill as [f|]; [|done]. unfold arr_wf, NdArray_Model.filled. cbn.
  rewrite zip_with_length. unfold arr_wf in H1. lia.
Qed.
Lemma to_store_shape fill d : a_shape (to_store fill d) = vd_shape d.
Proof. destruct d as [a|m]; [done|]. cbn. by destruct fill. Qed.

Lemma update_array_spec d n (array : program vdata) s attrs vars r : holds_group (sub d s) attrs vars -> exec array s = (r, s) ->
  exists r' s', exec (update_zarr_array (d ++ [n]) array) s = (r', s') /\
    ((s' = s /\ exists e, r' = Raise e) \/
     exists v x, r' = Ok tt /\ dget vars n = Some v /\ r = Ok x /\ v_shape v <> [] /\ vd_shape x = v_shape v /\
       (forall q, ~ under (d ++ [n]) q -> s' !! q = s !! q) /\ (forall q, is_zarr_key q = true -> s' !! (d ++ q) = s !! (d ++ q)) /\
       (vd_wf x -> holds_group (sub d s') attrs (dset vars n (with_array v (to_store (v_fill v) x))))) /\
    (forall v x, dget vars n = Some v -> r = Ok x -> v_shape v <> [] -> vd_shape x = v_shape v -> r' = Ok tt).
Proof.
  intros H Ea. unfold update_zarr_array. rewrite exec_bind, exec_read_file, <-app_assoc. cbn [app].
  destruct (dget vars n) as [v|] eqn:Ev.
  2: { assert (s !! (d ++ [n; ZARRAY]) = None) as ->.
       { destruct (s !! (d ++ [n; ZARRAY])) as [x|] eqn:E; [|done]. rewrite <-sub_lookup in E. apply (hg_only _ _ _ H) in E.
         apply dget_is_Some in E as [? E]. congruence. }
       exists (Raise TypeError), s. split; [done|]. split; [left; eauto|done]. }
  destruct (hg_vars _ _ _ H _ _ Ev) as (_ & _ & [(cs & Hc & Hz & _) _]). rewrite !sub_lookup in Hz. cbn [app] in Hz. rewrite Hz.
  rewrite exec_bind, Ea. destruct r as [x|e]; [|exists (Raise e), s; split; [done|]; split; [left; eauto|done]].
  cbn [z_shape z_fill zarr_for]. destruct (v_shape v) as [|k sh] eqn:Es.
  { exists (Raise IndexError), s. split; [done|]. split; [left; eauto|]. congruence. }
  case_bool_decide as Hsh.
  2: { exists (Raise ValueError), s. split; [done|]. split; [left; eauto|]. intros v' x' [= <-] [= <-] _ E. rewrite to_store_shape in Hsh. congruence. }
  rewrite to_store_shape in Hsh. rewrite exec_write_chunks by (cbn; by rewrite Es).
  eexists _, _. split; [reflexivity|]. split; [|done]. right. exists v, x. split_and!; try congruence.
  - intros q Hq. by apply graft_lookup_out.
  - intros q Hq. pose proof (chunk_graft_zarr n (zarr_for v cs) false (to_store (v_fill v) x) (sub d s) q Hq) as E.
    rewrite <-sub_graft_in, !sub_lookup in E. exact E.
  - intros Hw. rewrite sub_graft_in. apply holds_group_update; try done.
    + by rewrite Es.
    + rewrite sub_lookup. exact Hz.
    + by apply to_store_wf.
    + rewrite to_store_shape. congruence.
Qed.
Lemma within_update_array (R W : path -> Prop) d array : (forall q, under d q -> W q) -> within R W array -> within R W (update_zarr_array d array).
Proof.
  intros H Ha. unfold update_zarr_array. apply within_bind.
  - apply within_read_file. intros q Hq. right. apply H. eapply under_trans; [apply under_app|done].
  - intros [x|]; [|done]. destruct x as [m| | | | | |]; try done. destruct m as [z| |]; try done. apply within_bind; [done|]. intros x. cbv zeta. destruct (z_shape z); [done|].
    case_bool_decide; [|done]. by apply within_write_chunks.
Qed.

(** ** Removing a variable *)
Definition del_tree (t : store) (n : str) : store := <[[ZMETADATA] := CCons (metas (prune [n] t))]> (prune [n] t).
Lemma exec_consolidate d s : clean (sub d s) -> sub d s !! [ZGROUP] = Some (CMeta MGroup) ->
  exec (consolidate d) s = (Ok tt, <[d ++ [ZMETADATA] := CCons (metas (sub d s))]> s).
Proof.
  intros Hc Hg. unfold consolidate. rewrite exec_bind, exec_get_tree, exec_bind. rewrite collect_clean by done. cbn [exec].
  rewrite exec_bind, exec_write. rewrite bool_decide_eq_true_2; [done|]. rewrite metas_at by done. rewrite Hg. by eexists.
Qed.
Lemma not_under_one n m r : n <> m -> ~ under [n] (m :: r).
Proof. intros N (x & E). cbn in E. injection E as E _. congruence. Qed.
Lemma prune_clean t n : clean t -> clean (prune [n] t).
Proof. intros H q c. rewrite prune_lookup. destruct (decide _); [done|]. apply H. Qed.
Lemma holds_group_del t attrs vars n : holds_group t attrs vars -> plain_name n -> holds_group (del_tree t n) attrs (ddel vars n).
Proof.
  intros H Hp. unfold del_tree.
  assert (Hne : forall x, x ∈ [ZARRAY; ZATTRS; ZGROUP; ZMETADATA] -> n <> x) by (intros x Hx ->; by apply Hp).
  assert (Hout : forall m r, n <> m -> prune [n] t !! (m :: r) = t !! (m :: r)).
  { intros m r N. rewrite prune_lookup, decide_False; [done|]. by apply not_under_one. }
  split.
  - by rewrite lookup_insert, metas_insert_cons.
  - apply clean_insert; [|done]. apply prune_clean, H.
  - rewrite lookup_insert_ne by done. rewrite Hout by (apply Hne; set_solver). apply H.
  - rewrite lookup_insert_ne by done. rewrite Hout by (apply Hne; set_solver). apply H.
  - apply ddel_NoDup, H.
  - intros m w Em. destruct (decide (m = n)) as [->|Nm]; [by rewrite dget_ddel_eq in Em by apply H|]. rewrite dget_ddel_ne in Em by done.
    destruct (hg_vars _ _ _ H _ _ Em) as (H1 & H2 & H3). split_and!; [done..|].
    replace (sub [m] _) with (sub [m] t); [done|]. apply map_eq. intros q. rewrite !sub_lookup. cbn [app].
    rewrite lookup_insert_ne by (intros [= E _]; apply H2; rewrite <-E; set_solver). by rewrite Hout.
  - intros m x E. rewrite lookup_insert_ne in E by done. rewrite prune_lookup in E. destruct (decide _) as [|U]; [done|].
    assert (n <> m) as N by (intros ->; apply U; by exists [ZARRAY]).
    apply (hg_only _ _ _ H) in E. apply dget_is_Some. apply dget_is_Some in E as [w Ew]. exists w. by rewrite dget_ddel_ne.
Qed.
Lemma del_array_spec d n s attrs vars : holds_group (sub d s) attrs vars -> plain_name n ->
  exists s', exec (del_zarr_array d n) s = (Ok tt, s') /\ s' = graft d (del_tree (sub d s) n) (prune d s).
Proof.
  intros H Hp. unfold del_zarr_array. rewrite exec_bind, exec_exists. destruct (empty_at (d ++ [n]) s) eqn:E; cbn [negb].
  - exists s. split; [done|]. rewrite <-(graft_sub_prune d s) at 1. f_equal. apply nothing_empty in E. unfold del_tree.
    assert (prune [n] (sub d s) = sub d s) as ->.
    { apply map_eq. intros q. rewrite prune_lookup. destruct (decide _) as [(r & ->)|]; [|done]. rewrite sub_lookup. symmetry. apply E.
      rewrite app_assoc. apply under_app. }
    symmetry. apply insert_id. apply H.
  - rewrite exec_bind, exec_rm, E.
    assert (Hne : n <> ZGROUP) by (intros ->; apply Hp; set_solver).
    rewrite exec_consolidate.
    + eexists. split; [reflexivity|]. rewrite sub_prune_in. unfold del_tree. rewrite <-graft_insert. f_equal.
      apply map_eq. intros q. rewrite graft_lookup_case. rewrite prune_lookup. destruct (strip d q) as [r|] eqn:Er.
      * apply strip_Some in Er as ->. rewrite prune_lookup, sub_lookup. destruct (decide (under [n] r)) as [U|U]; [rewrite decide_True; [done|]|rewrite decide_False; [done|]].
        -- destruct U as (x & ->). exists x. by rewrite <-app_assoc.
        -- intros (x & Ex). apply U. exists x. rewrite <-app_assoc in Ex. by apply app_inv_head in Ex.
      * rewrite decide_False; [done|]. intros U. apply strip_None in Er. apply Er. eapply under_trans; [apply under_app|done].
    + rewrite sub_prune_in. apply prune_clean, H.
    + rewrite sub_prune_in, prune_lookup, decide_False by (by apply not_under_one). apply H.
Qed.

(** ** Adding a variable *)
Definition add_tree (t : store) (v : mvar) (shape cs : list nat) : store :=
  let t := <[[mv_name v; ZATTRS] := CMeta (zattrs_of (mv_attrs v) (mv_dims v))]>
          (<[[mv_name v; ZARRAY] := CMeta (MArray (ZArr shape cs (mv_dtype v) (mv_compressor v) (mv_fill v) (mv_filters v)))]> t) in
  <[[ZMETADATA] := CCons (metas t)]> t.
(** The variable [v] with this shape, and its fill value everywhere. *)
Definition new_var (v : mvar) (shape : list nat) : variable :=
  Var (mv_name v) true (full shape (default (Num 0) (mv_fill v))) (mv_dtype v) (mv_dims v)
      (ddel (dict_of (mv_attrs v)) DIMENSIONS) (mv_compressor v) (mv_fill v) (mv_filters v).

Lemma holds_group_add t attrs vars v shape cs : holds_group t attrs vars -> plain_name (mv_name v) -> mv_name v ∉ dkeys vars ->
  chunked shape cs -> (forall q, under [mv_name v] q -> t !! q = None) ->
  holds_group (add_tree t v shape cs) attrs (vars ++ [(mv_name v, new_var v shape)]).
Proof.
  intros H Hp Hn Hc Hno. unfold add_tree. set (n := mv_name v) in *. set (t1 := <[_ := _]> (<[_ := _]> t)).
  assert (Hne : forall x, x ∈ [ZARRAY; ZATTRS; ZGROUP; ZMETADATA] -> n <> x) by (intros x Hx ->; by apply Hp).
  assert (Hout : forall m r, n <> m -> t1 !! (m :: r) = t !! (m :: r)).
  { intros m r N. subst t1. rewrite !lookup_insert_ne by (intros [= E _]; congruence). done. }
  assert (Hz : t1 !! [n; ZARRAY] = Some (CMeta (MArray (zarr_for (new_var v shape) cs)))).
  { subst t1. rewrite lookup_insert_ne by done. rewrite lookup_insert. done. }
  assert (Ht : t1 !! [n; ZATTRS] = Some (CMeta (zattrs_of (mv_attrs v) (mv_dims v)))) by (subst t1; by rewrite lookup_insert).
  split.
  - by rewrite lookup_insert, metas_insert_cons.
  - apply clean_insert; [|done]. apply clean_insert; [|by intros; eexists]. apply clean_insert; [|by intros; eexists]. apply H.
  - rewrite lookup_insert_ne by done. rewrite Hout by (apply Hne; set_solver). apply H.
  - rewrite lookup_insert_ne by done. rewrite Hout by (apply Hne; set_solver). apply H.
  - unfold dkeys. rewrite map_app. apply NoDup_app. split_and!; [apply H| |cbn; apply NoDup_singleton]. intros x Hx E. cbn in E.
    apply elem_of_list_singleton in E as ->. done.
  - intros m w Em. rewrite dget_app in Em. destruct (dget vars m) as [w'|] eqn:Ev.
    + injection Em as <-. destruct (hg_vars _ _ _ H _ _ Ev) as (H1 & H2 & H3). split_and!; [done..|].
      assert (n <> m) by (intros ->; apply Hn, dget_is_Some; by eexists).
      replace (sub [m] _) with (sub [m] t); [done|]. apply map_eq. intros q. rewrite !sub_lookup. cbn [app].
      rewrite lookup_insert_ne by (intros [= E _]; apply H2; rewrite <-E; set_solver). by rewrite Hout.
    + cbn in Em. destruct (decide (m = n)) as [->|]; [|done]. injection Em as <-. split_and!; [done..|]. split.
      * exists cs. split_and!.
        -- unfold v_shape. cbn. done.
        -- rewrite sub_lookup. cbn [app]. rewrite lookup_insert_ne by (intros [= E _]; by apply (Hne ZMETADATA); [set_solver|]). done.
        -- unfold read_array. rewrite (traverse_Ok _ (fun _ => default (Num 0) (mv_fill v))); [done|].
           intros idx _. unfold read_item.
           assert (sub [n] (<[[ZMETADATA]:=CCons (metas t1)]> t1) !! [chunk_key (chunk_of (z_chunks (zarr_for (new_var v shape) cs)) idx)] = None) as ->; [|done].
           rewrite sub_lookup. cbn [app]. rewrite lookup_insert_ne by done. subst t1.
           rewrite !lookup_insert_ne by (intros [= E]; eapply chunk_key_not_meta; [|symmetry; exact E]; set_solver). apply Hno. by eexists.
      * rewrite sub_lookup. cbn [app]. rewrite lookup_insert_ne by done. done.
  - intros m x E. rewrite lookup_insert_ne in E by done. unfold dkeys. rewrite map_app. apply elem_of_app.
    destruct (decide (n = m)) as [->|N]; [right; cbn; set_solver|]. rewrite Hout in E by done. left. by eapply (hg_only _ _ _ H).
Qed.
(** The chunk lengths of an added variable. *)
Definition add_chunks (chunks : list (str * nat)) (v : mvar) (shape : list nat) : list nat :=
  zip_with (fun dim n => Nat.max 1 (default n (dget chunks dim))) (mv_dims v) shape.
Lemma add_chunks_ok chunks v shape : length (mv_dims v) = length shape -> chunked shape (add_chunks chunks v shape).
Proof.
  intros L. unfold add_chunks. split; [rewrite zip_with_length; lia|]. apply Forall_forall. intros x Hx.
  apply elem_of_lookup_zip_with in Hx as (i & a & b & -> & _). lia.
Qed.
Lemma add_array_spec d s attrs vars v template w chunks : holds_group (sub d s) attrs vars -> dget vars template = Some w ->
  plain_name (mv_name v) -> (forall q, under (d ++ [mv_name v]) q -> s !! q = None) ->
  exec (add_zarr_array d v template chunks) s =
    (Ok tt, graft d (add_tree (sub d s) v (v_shape w) (add_chunks chunks v (v_shape w))) (prune d s)).
Proof.
  intros H Ew Hp Hno. unfold add_zarr_array. rewrite exec_bind, exec_read_file.
  destruct (hg_vars _ _ _ H _ _ Ew) as (_ & _ & [(cs & _ & Hz & _) _]). rewrite !sub_lookup in Hz. cbn [app] in Hz. rewrite Hz.
  rewrite !exec_bind, !exec_read_file. rewrite exec_bind, exec_read_file.
  assert (Hno' : forall x, s !! (d ++ [mv_name v; x]) = None).
  { intros x. apply Hno. exists [x]. by rewrite <-app_assoc. }
  rewrite !Hno'. rewrite bool_decide_eq_false_2 by (by intros []). rewrite exec_bind, exec_write. unfold write_zattrs. rewrite exec_bind, exec_write.
  cbn [z_shape zarr_for]. fold (add_chunks chunks v (v_shape w)).
  assert (Hne : mv_name v <> ZGROUP) by (intros E; apply Hp; rewrite E; set_solver).
  rewrite exec_consolidate.
  - rewrite !sub_insert_in. f_equal. unfold add_tree. rewrite <-!graft_insert, graft_sub_prune. done.
  - rewrite !sub_insert_in. apply clean_insert; [|by intros; eexists]. apply clean_insert; [|by intros; eexists]. apply H.
  - rewrite !sub_insert_in. rewrite !lookup_insert_ne by (intros [= E _]; congruence). apply H.
Qed.
(** Removing a variable that was added gives back the same files. *)
Lemma del_add_tree t attrs vars v shape cs : holds_group t attrs vars -> plain_name (mv_name v) -> (forall q, under [mv_name v] q -> t !! q = None) ->
  del_tree (add_tree t v shape cs) (mv_name v) = t.
Proof.
  intros H Hp Hno. unfold del_tree. set (n := mv_name v) in *.
  set (t1 := <[[n; ZATTRS] := CMeta (zattrs_of (mv_attrs v) (mv_dims v))]>
     (<[[n; ZARRAY] := CMeta (MArray (ZArr shape cs (mv_dtype v) (mv_compressor v) (mv_fill v) (mv_filters v)))]> t)).
  assert (E : prune [n] (add_tree t v shape cs) = <[[ZMETADATA] := CCons (metas t1)]> t).
  { apply map_eq. intros q. rewrite prune_lookup. destruct (decide (under [n] q)) as [U|U].
    - rewrite lookup_insert_ne; [symmetry; by apply Hno|]. intros <-. destruct U as (r & E). injection E as E _. apply Hp. fold n. rewrite <-E. set_solver.
    - change (add_tree t v shape cs) with (<[[ZMETADATA] := CCons (metas t1)]> t1).
      destruct (decide (q = [ZMETADATA])) as [->|N]; [by rewrite !lookup_insert|].
      rewrite !(lookup_insert_ne _ [ZMETADATA]) by done. subst t1. rewrite !lookup_insert_ne; try done; intros <-; apply U; by eexists. }
  rewrite E, metas_insert_cons, insert_insert. apply insert_id. apply H.
Qed.
Lemma within_consolidate (R W : path -> Prop) d : (forall q, under d q -> W q) -> within R W (consolidate d).
Proof.
  intros H. unfold consolidate. apply within_bind; [apply within_get_tree; auto|]. intros t. apply within_bind; [done|]. intros m.
  apply within_bind; [apply within_write, H, under_app|]. intros _. by case_bool_decide.
Qed.
Lemma within_add_array (R W : path -> Prop) d v template chunks : (forall q, under d q -> W q) -> within R W (add_zarr_array d v template chunks).
Proof.
  intros H. assert (Hu : forall p q, under (d ++ p) q -> W q) by (intros p q Hq; apply H; eapply under_trans; [apply under_app|done]).
  unfold add_zarr_array. apply within_bind; [apply within_read_file; eauto|]. intros [x|]; [destruct x as [m| | | | | |]; try done; destruct m as [z| |]; try done|].
  - apply within_bind; [apply within_read_file; eauto|]. intros a. apply within_bind; [apply within_read_file; eauto|]. intros g.
    case_bool_decide; [done|]. case_bool_decide; [done|]. apply within_bind; [apply within_write, H, under_app|]. intros _.
    apply within_bind; [apply within_write, H, under_app|]. intros _. by apply within_consolidate.
  - apply within_bind; [apply within_read_file; eauto|]. intros g. apply within_bind; [|done].
    case_bool_decide; [done|]. apply within_write, H, under_app.
Qed.
