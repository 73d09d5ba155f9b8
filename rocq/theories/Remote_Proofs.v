(** * Replacing a partition on a file system that is not local: proofs *)
From Verif Require Import Py Dict NdArray_Model NdArray_Spec NdArray_Proofs Dataset_Model Dataset_Spec Dataset_Proofs Meta_Model Meta_Spec PartPath_Model PartPath_Proofs
  Split_Model Split_Spec DaskUtils_Model DaskUtils_Proofs FS_Model FS_Proofs Pool_Model Pool_Proofs Storage_Model Storage_Chunks Storage_Spec Storage_Proofs
  Listing_Model Listing_Spec Listing_Proofs Collection_Model Collection_Spec Collection_Split Collection_Proofs Collection_State Collection_Prepare Collection_Insert
  Collection_Crash Crash_Spec Storage_Change Insert_Retry Insert_Again Remote_Model.

Section copies.
  Context (a b : path) (Hap : apart a b).
  Definition copied (l : list path) (s : store) : store :=
    fold_left (fun s q => match s !! (a ++ q) with Some x => <[b ++ q := x]> s | None => s end) l s.
  Lemma copied_source l s q : copied l s !! (a ++ q) = s !! (a ++ q).
  Proof using Hap.
    revert s. induction l as [|r l IH]; intros s; [done|]. cbn. rewrite IH. destruct (s !! (a ++ r)); [|done].
    apply lookup_insert_ne. intros E. apply (Hap (a ++ q)); [apply under_app|]. rewrite <-E. apply under_app.
  Qed.
  Lemma copied_out l s q : ~ under b q -> copied l s !! q = s !! q.
  Proof using.
    intros N. revert s. induction l as [|r l IH]; intros s; [done|]. cbn. rewrite IH. destruct (s !! (a ++ r)); [|done].
    apply lookup_insert_ne. intros <-. apply N, under_app.
  Qed.
  Lemma copied_in l s q : s !! (b ++ q) = None -> copied l s !! (b ++ q) = if decide (q ∈ l) then s !! (a ++ q) else None.
  Proof using Hap.
    intros Hn. enough (H : forall s', (forall r, s' !! (a ++ r) = s !! (a ++ r)) -> s' !! (b ++ q) = None \/ s' !! (b ++ q) = s !! (a ++ q) ->
       copied l s' !! (b ++ q) = if decide (q ∈ l) then s !! (a ++ q) else s' !! (b ++ q)).
    { rewrite H by auto. by rewrite Hn. }
    induction l as [|r l IH]; intros s' Hs Hq; [rewrite decide_False by apply not_elem_of_nil; done|]. cbn.
    assert (Hs2 : forall x y, (match s' !! (a ++ x) with Some c => <[b ++ x := c]> s' | None => s' end) !! (a ++ y) = s !! (a ++ y)).
    { intros x y. destruct (s' !! (a ++ x)); [|done]. rewrite lookup_insert_ne; [done|]. intros E. apply (Hap (a ++ y)); [apply under_app|]. rewrite <-E. apply under_app. }
    destruct (decide (q = r)) as [<-|N].
    - rewrite (decide_True (P := q ∈ q :: l)) by left. rewrite IH; [|by apply Hs2|].
      + destruct (decide (q ∈ l)) as [D|D]; [done|]. rewrite Hs. destruct (s !! (a ++ q)) as [x|] eqn:E; [by rewrite lookup_insert|]. by destruct Hq as [-> | ->].
      + rewrite Hs. destruct (s !! (a ++ q)) as [x|] eqn:E; [rewrite lookup_insert; auto|]. destruct Hq as [-> | ->]; auto.
    - assert ((match s' !! (a ++ r) with Some c => <[b ++ r := c]> s' | None => s' end) !! (b ++ q) = s' !! (b ++ q)) as Eq.
      { destruct (s' !! (a ++ r)); [|done]. rewrite lookup_insert_ne; [done|]. intros E. by apply app_inv_head in E. }
      rewrite IH; [|by apply Hs2|by rewrite Eq]. rewrite Eq. destruct (decide (q ∈ l)) as [D|D]; [by rewrite decide_True by (by right)|].
      rewrite decide_False; [done|]. by intros [?|?]%elem_of_cons.
  Qed.
  Lemma exec_copies l s : exec (pfor l (fun q => copy_file (a ++ q) (b ++ q))) s = (Ok tt, copied l s).
  Proof using.
    unfold pfor. rewrite exec_bind. assert (exists us, exec (pseq (map (fun q => copy_file (a ++ q) (b ++ q)) l)) s = (Ok us, copied l s)) as [us ->]; [|done].
    revert s. induction l as [|q l IH]; intros s; [by exists []|]. cbn [map pseq copied fold_left]. unfold copy_file at 1. rewrite exec_bind, exec_bind, exec_read_file. cbv iota.
    destruct (s !! (a ++ q)) as [x|].
    - rewrite exec_write. cbv iota. destruct (IH (<[b ++ q := x]> s)) as [us E]. rewrite exec_bind, E. by eexists.
    - cbn [exec pret]. destruct (IH s) as [us E]. rewrite exec_bind, E. by eexists.
  Qed.
End copies.

Section remote.
  Context (order : list path -> list path) (Hord : forall l, Permutation (order l) l).
  Lemma move_remote_eq a b (s : store) : apart a b -> empty_at a s = false -> empty_at b s = true -> exec (move_remote order a b) s = exec (move a b) s.
  Proof using Hord.
    intros Ha Hs Hb. unfold move_remote. rewrite exec_bind, exec_get_tree. cbv iota. rewrite exec_bind, exec_copies. cbv iota.
    assert (Hc : forall q, copied a b (order (map fst (map_to_list (sub a s)))) s !! q = match strip b q with Some r => s !! (a ++ r) | None => s !! q end).
    { intros q. destruct (strip b q) as [r|] eqn:E.
      - apply strip_Some in E as ->. rewrite (copied_in a b Ha); [|apply (proj2 (nothing_empty b s) Hb), under_app]. destruct (decide _) as [D|D]; [done|].
        destruct (s !! (a ++ r)) as [x|] eqn:Ex; [|done]. exfalso. apply D. rewrite Hord. apply elem_of_list_In, in_map_iff. exists (r, x). split; [done|].
        apply elem_of_list_In, elem_of_map_to_list. by rewrite sub_lookup.
      - apply strip_None in E. by apply copied_out. }
    rewrite exec_rm. assert (empty_at a (copied a b (order (map fst (map_to_list (sub a s)))) s) = false) as ->.
    { apply empty_at_false in Hs as (q & x & Hq & Hx). apply empty_at_false. exists q, x. split; [done|]. destruct Hq as (r & ->). by rewrite (copied_source a b Ha). }
    cbn. rewrite Hs. assert (Hb' : empty_at b (prune a s) = true).
    { apply nothing_empty. intros q Hq. rewrite prune_lookup. destruct (decide _); [done|]. by apply (proj2 (nothing_empty b s) Hb). }
    rewrite Hb'. f_equal. apply map_eq. intros q. rewrite prune_lookup, Hc, graft_lookup. destruct (strip b q) as [r|] eqn:E.
    - apply strip_Some in E as ->. rewrite decide_False by (intros U; apply (Ha (b ++ r)); [done|apply under_app]). rewrite sub_lookup. destruct (s !! (a ++ r)); [done|].
      symmetry. apply (proj2 (nothing_empty b _) Hb'), under_app.
    - by rewrite prune_lookup.
  Qed.
  Lemma rename_remote_eq a b (s : store) : apart a b -> empty_at a s = false -> empty_at b s = false -> exec (rename_remote order a b) s = exec (rename a b) s.
  Proof using Hord.
    intros Ha Hs Hb. unfold rename_remote, rename. rewrite !exec_bind, exec_rm, exec_rmtree, Hb. cbv iota. apply move_remote_eq; [done| |].
    - apply empty_at_false in Hs as (q & x & Hq & Hx). apply empty_at_false. exists q, x. split; [done|]. rewrite prune_lookup, decide_False; [done|]. intros U. by apply (Ha q).
    - apply nothing_empty. intros q Hq. by rewrite prune_lookup, decide_True.
  Qed.
  Lemma apart_sym a b : apart a b -> apart b a.
  Proof. intros H q Ha Hb. by apply (H q). Qed.
  Lemma update_fs_remote_eq e inner d ds (s : store) : apart d (temp_dir e d) -> empty_at d s = false ->
    exec (update_fs_remote order e inner d ds) s = exec (update_fs e inner d ds) s.
  Proof using Hord.
    intros Ha Hd. unfold update_fs_remote, update_fs. cbv zeta. set (t := temp_dir e d) in *. rewrite !exec_bind, !exec_exists. cbv iota. rewrite !exec_bind.
    assert (Hpre : forall A (p : program A) w, within (fun _ => True) (under t) p -> empty_at d w = false -> empty_at d (exec p w).2 = false).
    { intros A p w Hw Hne. rewrite <-Hne. apply empty_at_agree. intros q Hq. apply (exec_outside (fun _ => True) (under t) p w q Hw). intros U. by apply (Ha q). }
    pose proof (Hpre _ (if negb (empty_at t s) then rm t else pret tt) s ltac:(destruct (negb _); [by apply within_rm|done]) Hd) as H1.
    destruct (exec (if negb (empty_at t s) then rm t else pret tt) s) as [[u1|ex] s1]; [|done]. cbn [snd] in H1. rewrite !exec_bind.
    pose proof (Hpre _ (init_group t) s1 ltac:(by apply within_init_group) H1) as H2.
    destruct (exec (init_group t) s1) as [[u2|ex] s2]; [|done]. cbn [snd] in H2. rewrite !exec_bind.
    rewrite !exec_catch. pose proof (Hpre _ (write_zarr_group t ds (Some inner)) s2 ltac:(by apply within_write_group_any) H2) as H3.
    destruct (exec (write_zarr_group t ds (Some inner)) s2) as [[[]|ex] s3] eqn:E3; cbn [snd] in H3.
    - apply rename_remote_eq; [by apply apart_sym| |done]. apply empty_at_false. destruct (exec_group_stamp _ _ _ _ _ E3) as [x Hx]. exists (t ++ [ZMETADATA]), x. split; [apply under_app|done].
    - rewrite !exec_bind, !exec_rm. by destruct (empty_at t s3).
  Qed.

  (** ** A partition *)
  Lemma insert_partition_remote_eq e inner c ds merge p (s : store) : apart (c_dir c ++ p.1) (temp_dir e (c_dir c ++ p.1)) ->
    exec (insert_partition_remote order e inner c ds merge p) s = exec (insert_partition e inner c ds merge p) s.
  Proof using Hord.
    intros Ha. unfold insert_partition_remote, insert_partition. cbv zeta. set (d := c_dir c ++ p.1) in *. rewrite !exec_bind, !exec_exists. cbv iota.
    destruct (empty_at (d ++ [ZMETADATA]) s) eqn:Hz; cbn [negb]; [done|].
    assert (Hd : empty_at d s = false).
    { apply empty_at_false in Hz as (q & x & Hq & Hx). apply empty_at_false. exists q, x. split; [by eapply under_snoc|done]. }
    destruct (ds_isel _ _) as [piece|ex]; cbn [pbind]; [|done]. unfold perform_remote, perform. destruct merge as [f|].
    - unfold open_zarr_group. rewrite !exec_bind, !exec_get_tree. cbv iota. destruct (read_group _ _ _) as [o|ex]; cbn [exec]; [|done].
      destruct (f _ _ _ _) as [n|ex]; cbn [exec pbind]; [|done]. by apply update_fs_remote_eq.
    - cbn [pbind pret]. by apply update_fs_remote_eq.
  Qed.
  Lemma within_update_fs_remote (R W : path -> Prop) e inner d ds : (forall q, part_region e d q -> W q) -> within R W (update_fs_remote order e inner d ds).
  Proof using.
    intros H. assert (H1 : forall q, under d q -> W q) by (intros q Hq; apply H; by left).
    assert (H2 : forall q, under (temp_dir e d) q -> W q) by (intros q Hq; apply H; by right).
    unfold update_fs_remote. cbv zeta. apply within_bind; [apply within_exists; auto|]. intros x.
    apply within_bind; [destruct x; [by apply within_rm|done]|]. intros _.
    apply within_bind; [by apply within_init_group|]. intros _.
    apply within_bind.
    - apply within_catch; [by apply within_write_group_any|]. intros ex. apply within_bind; [by apply within_rm|done].
    - intros _. unfold rename_remote, move_remote. apply within_bind; [by apply within_rm|]. intros _. apply within_bind; [apply within_get_tree; auto|]. intros t.
      apply within_bind; [|intros _; by apply within_rm]. unfold pfor. apply within_bind; [|done]. apply within_pseq. intros p Hp.
      apply elem_of_list_In, in_map_iff in Hp as (q & <- & _). unfold copy_file. apply within_bind.
      + apply within_read_file. intros r Hr. right. apply H2. destruct Hr as (y & ->). exists (q ++ y). by rewrite app_assoc.
      + intros [x0|]; [|done]. apply within_write, H1, under_app.
  Qed.
  Lemma within_insert_partition_remote (R W : path -> Prop) e inner c ds merge part :
    (forall q, part_region e (c_dir c ++ part.1) q -> W q) -> within R W (insert_partition_remote order e inner c ds merge part).
  Proof using.
    intros H. set (d := c_dir c ++ part.1) in *. assert (H1 : forall q, under d q -> W q) by (intros q Hq; apply H; by left).
    unfold insert_partition_remote. cbv zeta. fold d. generalize (inner d) as sc. intros sc.
    apply within_bind; [apply within_exists; intros q Hq; right; apply H1; by eapply under_snoc|]. intros [|].
    - apply within_bind; [done|]. intros piece. unfold perform_remote. apply within_bind; [|intros; by apply within_update_fs_remote].
      destruct merge; [|done]. apply within_bind; [apply within_open_group; auto|]. intros; done.
    - apply within_catch.
      + apply within_bind; [by apply within_init_group|]. intros _. apply within_bind; [done|]. intros piece. by apply within_write_group_any.
      + intros ex. apply within_bind; [by apply within_rmtree|done].
  Qed.

  (** ** An insertion *)
  Definition tasks_remote (e : env) (c : collection) part merge inner (kparts : list (list Z * (nat * nat))) : list (program unit) :=
    map (insert_partition_remote order e inner c part merge) (map (fun ks => (key_dirs (c_part c) ks.1, ks.2)) kparts).
  Lemma batch_remote_eq e c (Hr : regular e c) part n merge inner sched l (w : store) : fit e c n l ->
    exec (execute_transaction CTorn sched (tasks_remote e c part merge inner l)) w = exec (execute_transaction CTorn sched (tasks e c part merge inner l)) w.
  Proof using Hord.
    intros Hf. pose proof (tasks_independent e c Hr part n merge inner l Hf) as Hi.
    assert (Hi' : independent (tasks_remote e c part merge inner l) (fun _ _ => False) (task_region e c l)).
    { destruct Hi as [_ Hi2]. split.
      - intros i p Ei. unfold tasks_remote in Ei. rewrite map_map in Ei. apply (list_lookup_fmap_inv (fun x => insert_partition_remote order e inner c part merge (key_dirs (c_part c) x.1, x.2)) l i p) in Ei as (ks & -> & El).
        apply within_insert_partition_remote. cbn [fst]. intros q Hq. unfold task_region. by rewrite El.
      - intros i j p p' Ei Ej N q. assert (Hlen : forall k x, tasks_remote e c part merge inner l !! k = Some x -> exists y, tasks e c part merge inner l !! k = Some y).
        { intros k x Hk. apply lookup_lt_is_Some_2. apply lookup_lt_Some in Hk. unfold tasks, tasks_remote in *. by rewrite !map_length in *. }
        destruct (Hlen _ _ Ei) as [y Ey], (Hlen _ _ Ej) as [y' Ey']. by apply (Hi2 i j y y'). }
    rewrite (exec_transaction CTorn sched _ _ _ w (task_region_dec e c l) Hi), (exec_transaction CTorn sched _ _ _ w (task_region_dec e c l) Hi').
    assert (Hall : exec_all (tasks_remote e c part merge inner l) w = exec_all (tasks e c part merge inner l) w); [|by rewrite Hall].
    clear Hi Hi'. assert (Hap : forall ks, ks ∈ l -> apart (part_dir c ks.1) (temp_dir e (part_dir c ks.1))).
    { intros ks Hk. apply (temp_apart e c Hr). by apply (fit_len _ _ _ _ Hf). }
    clear Hf. revert w. induction l as [|ks l IH]; intros w; [done|]. unfold tasks, tasks_remote in *. cbn [map exec_all].
    rewrite insert_partition_remote_eq by (apply Hap; left). destruct (exec _ w) as [r w1]. rewrite IH; [done|]. intros k Hk. apply Hap. by right.
  Qed.
  Lemma batches_remote_eq e c (Hr : regular e c) part n merge scheds inner kbs : forall (w : store) (g : nat -> nat), fit e c n (concat kbs) ->
    exec (pseq (map (fun ib => execute_transaction CTorn (scheds ib.1) (map (insert_partition_remote order e inner c part merge) ib.2))
      (imap (fun i b => (g i, b)) (map (map (fun ks => (key_dirs (c_part c) ks.1, ks.2))) kbs)))) w =
    exec (pseq (map (fun ib => execute_transaction CTorn (scheds ib.1) (map (insert_partition e inner c part merge) ib.2))
      (imap (fun i b => (g i, b)) (map (map (fun ks => (key_dirs (c_part c) ks.1, ks.2))) kbs)))) w.
  Proof using Hord.
    induction kbs as [|b kbs IH]; intros w g Hf; [done|]. cbn [concat] in Hf. destruct (fit_app e c n b (concat kbs) Hf) as (F1 & F2 & _).
    cbn [map imap pseq fst snd]. rewrite !exec_bind.
    change (map (insert_partition e inner c part merge) (map _ b)) with (tasks e c part merge inner b).
    change (map (insert_partition_remote order e inner c part merge) (map _ b)) with (tasks_remote e c part merge inner b).
    rewrite (batch_remote_eq e c Hr part n) by done. destruct (exec (execute_transaction _ _ _) w) as [[us|ex] w1]; [|done]. rewrite !exec_bind.
    pose proof (IH w1 (g ∘ S) F2) as H. cbn [imap] in H |- *.
    match type of H with exec ?x _ = exec ?y _ => match goal with |- context [exec ?x' w1] => change (exec x' w1) with (exec x w1) end end. rewrite H. done.
  Qed.
  Lemma insert_remote_eq e c ds rows merge np validate scheds inner M I (s : store) :
    regular e c -> declared c -> insertable e c ds rows merge -> represents c M I s ->
    exec (insert_remote order e scheds inner c ds merge np validate) s = exec (insert e scheds inner c ds merge np validate) s.
  Proof using Hord.
    intros Hr Hc Hi Hs. unfold insert_remote, insert. destruct (c_readonly c); [done|].
    destruct (prepare c ds validate) as [out|ex] eqn:Ep; cbn [pbind]; [|done]. rewrite !exec_bind.
    destruct (exec_insert_immutable e c Hr Hc ds (in_sound _ _ _ _ _ Hi) (in_conforms _ _ _ _ _ Hi) M I s validate out Ep Hs) as (part & I' & s1 & E & Hp & Hf & Hs1 & Hout & HI').
    rewrite E. destruct (split_dataset (c_part c) part) as [parts|ex] eqn:Es; cbn [pbind]; [|done].
    destruct (batches_of parts np) as [bs|ex] eqn:Eb; cbn [pbind]; [|done].
    destruct (part_rows e c Hr Hc ds rows merge Hi part Hp Hf) as [Hrk Hn].
    destruct (split_sound _ _ _ _ (rg_keys _ _ Hr) Hrk (in_size _ _ _ _ _ Hi) Es) as (kparts & -> & Hk & Hlz).
    apply batches_concat in Eb as [Ec Hne]. apply concat_map_inv in Ec as (kbs & -> & Ec).
    assert (Hsorted : never_decreases row_lt rows).
    { destruct (in_sorted _ _ _ _ _ Hi) as [Hd|]; [|done]. apply Hlz. by rewrite (ft_delayed _ _ _ _ Hf). }
    assert (Hfit : fit e c (length rows) (concat kbs)) by (rewrite Ec; by eapply kparts_fit).
    rewrite !exec_bind. unfold pfor. rewrite !exec_bind. pose proof (batches_remote_eq e c Hr part (length rows) merge scheds inner kbs s1 (fun i => i) Hfit) as H.
    match goal with |- match (match exec ?x' s1 with _ => _ end) with _ => _ end = match (match exec ?y' s1 with _ => _ end) with _ => _ end =>
      assert (E2 : exec x' s1 = exec y' s1) by exact H end.
    rewrite E2. reflexivity.
  Qed.

  (** From any state in which the immutable variables are the same. *)
  Lemma insert_remote_any e c ds rows merge np validate scheds inner M I (s u : store) :
    regular e c -> declared c -> insertable e c ds rows merge -> represents c M I s -> is_Some I \/ c_immutable c = false -> untouched s u (c_dir c ++ [IMMUTABLE]) ->
    exec (insert_remote order e scheds inner c ds merge np validate) u = exec (insert e scheds inner c ds merge np validate) u /\
    always CTorn (fun w => forall q, (forall v, v ∈ rows -> ~ part_region e (part_dir c v) q) -> w !! q = u !! q) (insert_remote order e scheds inner c ds merge np validate) u.
  Proof using Hord.
    intros Hr Hc Hi Hs HI Hu. unfold insert_remote, insert. destruct (c_readonly c); [by split|].
    destruct (prepare c ds validate) as [out|ex] eqn:Ep; cbn [pbind]; [|by split].
    destruct (exec_insert_immutable e c Hr Hc ds (in_sound _ _ _ _ _ Hi) (in_conforms _ _ _ _ _ Hi) M I s validate out Ep Hs) as (part & I' & s1 & E & Hp & Hf & Hs1 & Hout & HI').
    assert (s1 = s) as ->.
    { destruct I; [by destruct HI'|]. destruct HI as [[? ?]|Ei]; [done|]. rewrite Ei in HI'. by destruct HI'. }
    assert (Hready : ready c s).
    { intros Ei. destruct HI as [[i HI]|]; [|congruence]. apply empty_at_false. exists ((c_dir c ++ [IMMUTABLE]) ++ [ZGROUP]), (CMeta MGroup). split; [apply under_app|].
      rewrite <-sub_lookup. apply (rp_immutable _ _ _ _ Hs i HI). }
    assert (Hw : ready c u).
    { intros Ei. rewrite <-(Hready Ei). apply empty_at_agree. intros q (f & ->). apply Hu, under_app. }
    assert (Himm : exec (insert_immutable c out) u = (Ok part, u)).
    { revert E. unfold insert_immutable, ready in *. destruct (c_immutable c); [|cbn; by intros [= ->]].
      rewrite !exec_bind, !exec_exists. rewrite Hw, Hready by done. cbn [negb]. rewrite !exec_bind. cbn. by intros [= ->]. }
    assert (Hal : forall (k : dataset -> program (list path)) (Phi : store -> Prop), Phi u -> always CTorn Phi (k part) u -> always CTorn Phi (let! ds <- insert_immutable c out; k ds) u).
    { intros k Phi H0 Hk. apply always_bind.
      - unfold insert_immutable. destruct (c_immutable c) eqn:Ei; [|by cbn]. apply always_bind; [by apply always_exists|]. intros x w' Ex. rewrite exec_exists in Ex. injection Ex as <- <-.
        rewrite (Hw Ei). by cbn.
      - intros part' w' E'. rewrite Himm in E'. by injection E' as <- <-. }
    destruct (split_dataset (c_part c) part) as [parts|ex] eqn:Es; cbn [pbind].
    2:{ split; [rewrite !exec_bind, Himm; by rewrite Es|]. apply Hal; [done|]. by rewrite Es. }
    destruct (batches_of parts np) as [bs|ex] eqn:Eb.
    2:{ split; [rewrite !exec_bind, Himm, Es; cbn [pbind]; by rewrite Eb|]. apply Hal; [done|]. rewrite Es. cbn [pbind]. by rewrite Eb. }
    destruct (part_rows e c Hr Hc ds rows merge Hi part Hp Hf) as [Hrk Hn].
    destruct (split_sound _ _ _ _ (rg_keys _ _ Hr) Hrk (in_size _ _ _ _ _ Hi) Es) as (kparts & -> & Hk & Hlz).
    pose proof Eb as Eb'. apply batches_concat in Eb as [Ec Hne]. apply concat_map_inv in Ec as (kbs & -> & Ec).
    assert (Hsorted : never_decreases row_lt rows).
    { destruct (in_sorted _ _ _ _ _ Hi) as [Hd|]; [|done]. apply Hlz. by rewrite (ft_delayed _ _ _ _ Hf). }
    assert (Hfit : fit e c (length rows) (concat kbs)) by (rewrite Ec; by eapply kparts_fit).
    split.
    - rewrite !exec_bind, Himm, Es. cbn [pbind]. rewrite Eb'. cbn [pbind]. rewrite !exec_bind. unfold pfor. rewrite !exec_bind.
      pose proof (batches_remote_eq e c Hr part (length rows) merge scheds inner kbs u (fun i => i) Hfit) as H.
      match goal with |- match (match exec ?x' u with _ => _ end) with _ => _ end = match (match exec ?y' u with _ => _ end) with _ => _ end =>
        assert (E2 : exec x' u = exec y' u) by exact H end.
      rewrite E2. reflexivity.
    - apply Hal; [done|]. rewrite Es. cbn [pbind]. rewrite Eb'. cbn [pbind].
      unfold pfor. apply (always_pbind_end _ _ (fun _ => Ok _)). apply (always_pbind_end _ _ (fun _ => Ok tt)).
      apply (always_within (fun q => exists ks, ks ∈ concat kbs /\ part_region e (part_dir c ks.1) q) _ _ u u); [|done|].
      + apply within_pseq. intros p Hin. apply elem_of_list_In, in_map_iff in Hin as ([i b] & <- & Hib). apply within_transaction. cbn [fst snd].
        intros p Hin. apply elem_of_list_In, in_map_iff in Hin as (pt & <- & Hpt). apply within_insert_partition_remote. intros q Hq.
        apply elem_of_list_In, elem_of_lookup_imap in Hib as (j & b' & [= -> ->] & Hb). change (map ?f kbs) with (f <$> kbs) in Hb. rewrite list_lookup_fmap in Hb.
        destruct (kbs !! j) as [kb|] eqn:Ekb; cbn in Hb; [|done]. injection Hb as <-. apply in_map_iff in Hpt as (ks & <- & Hks). exists ks. split; [|exact Hq].
        apply elem_of_list_In, in_concat. exists kb. split; [|done]. apply elem_of_list_In. by eapply elem_of_list_lookup_2.
      + intros w Hu' q Hq. apply Hu'. intros (ks & Hks & H). apply (Hq ks.1); [|done].
        rewrite <-(keyed_keys _ _ Hk (proj2 (ks_files _ _ Hk) Hsorted)), <-Ec. unfold dkeys. apply elem_of_list_In, in_map. by apply elem_of_list_In.
  Qed.
End remote.
