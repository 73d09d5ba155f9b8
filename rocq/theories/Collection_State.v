(** * The state of a collection and its changes *)
From Verif Require Import Py Dict NdArray_Model NdArray_Spec NdArray_Proofs Dataset_Model Dataset_Spec Dataset_Proofs Dataset_Props Meta_Model PartPath_Model PartPath_Proofs
  Split_Spec FS_Model FS_Proofs Pool_Model Pool_Proofs Storage_Model Storage_Chunks Storage_Spec Storage_Proofs
  Listing_Model Listing_Spec Listing_Proofs Collection_Model Collection_Spec Collection_Split Collection_Proofs.

(** The files [t] hold the dataset [ds]. *)
Definition holds_dataset (t : store) (ds : dataset) : Prop :=
  t !! [] = None /\ holds_group t (dict_of (d_attrs ds)) (stored_vars (d_vars ds)).

(** The files of the collection are its configuration, the immutable group if
    there is one, and the partitions [M]. *)
Record represents (c : collection) (M : list Z -> option dataset) (I : option dataset) (s : store) : Prop := {
  rp_files : forall q x, s !! (c_dir c ++ q) = Some x ->
    q = [CONFIG] \/ (is_Some I /\ exists f, q = IMMUTABLE :: f) \/
    exists values f, is_Some (M values) /\ q = key_dirs (c_part c) values ++ f;
  rp_part : forall values ds, M values = Some ds ->
    length values = length (p_keys (c_part c)) /\ sound ds /\ holds_dataset (sub (part_dir c values) s) ds;
  rp_immutable : forall ds, I = Some ds -> sound ds /\ holds_dataset (sub (c_dir c ++ [IMMUTABLE]) s) ds;
}.

(** A collection whose keys have ordinary names, in a directory whose path does
    not contain '='. *)
Record regular (e : env) (c : collection) : Prop := {
  rg_keys : plain_keys (c_part c);
  rg_path : plain_path (c_dir c);
  rg_digest : forall d, digest (e_hash e d);
  rg_order : forall l, e_order e l ≡ₚ l;
}.

Section state.
  Context (e : env) (c : collection) (Hr : regular e c).
  Local Notation keys := (p_keys (c_part c)).

  Lemma digest_no_eq n : digest n -> has_eq n = false.
  Proof.
    intros [_ H]. unfold has_eq. destruct (memb _ n) eqn:E; [|done]. unfold memb in E. apply bool_decide_eq_true in E.
    apply H in E. vm_compute in E. exfalso. repeat (apply elem_of_cons in E as [E|E]; [done|]). by apply elem_of_nil in E.
  Qed.
  Lemma key_head values : length values = length keys ->
    exists a r, key_dirs (c_part c) values = a :: r /\ has_eq a = true /\ ~ starts_with_dot a.
  Proof.
    intros Hl. destruct (key_dirs_head _ _ (rg_keys _ _ Hr) Hl) as (a & r & E & Ha). exists a, r. split_and!; [done| |done].
    unfold key_dirs in E. destruct (zip keys values) as [|[k v] l]; [done|]. cbn [map] in E.
    injection E as <- _. rewrite p_dir_kvs. unfold has_eq, memb. apply bool_decide_eq_true. unfold kvs. cbn. set_solver.
  Qed.
  Lemma key_dirs_all_eq values x : x ∈ key_dirs (c_part c) values -> has_eq x = true.
  Proof.
    unfold key_dirs. intros H. apply elem_of_list_In, in_map_iff in H as ([k v] & <- & _).
    rewrite p_dir_kvs. unfold has_eq, memb. apply bool_decide_eq_true. unfold kvs. cbn. set_solver.
  Qed.
  Lemma filter_all {A} (f : A -> bool) l : (forall x, x ∈ l -> f x = true) -> List.filter f l = l.
  Proof.
    induction l as [|x l IH]; intros H; [done|]. cbn. rewrite H by left. f_equal. apply IH. intros y Hy. apply H. by right.
  Qed.
  Lemma filter_none {A} (f : A -> bool) l : (forall x, x ∈ l -> f x = false) -> List.filter f l = [].
  Proof.
    induction l as [|x l IH]; intros H; [done|]. cbn. rewrite H by left. apply IH. intros y Hy. apply H. by right.
  Qed.
  Lemma temp_part values : temp_dir e (part_dir c values) = c_dir c ++ [e_hash e (part_dir c values)].
  Proof.
    unfold temp_dir. f_equal. unfold part_dir. rewrite List.filter_app, filter_all, filter_none.
    - apply app_nil_r.
    - intros x Hx. by rewrite (key_dirs_all_eq values).
    - intros x Hx. pose proof (rg_path _ _ Hr) as Hp. unfold plain_path in Hp. rewrite Forall_forall in Hp.
      apply Hp in Hx. unfold has_eq, memb. by rewrite bool_decide_eq_false_2.
  Qed.
  Lemma temp_apart values values' : length values = length keys -> apart (part_dir c values) (temp_dir e (part_dir c values')).
  Proof.
    intros Hl. rewrite temp_part. unfold part_dir. destruct (key_head values Hl) as (a & r & -> & Ha & _).
    apply (apart_app (c_dir c) a _ r []). intros Ea. rewrite Ea, digest_no_eq in Ha; [done|]. apply (rg_digest _ _ Hr).
  Qed.
  Lemma parts_apart v1 v2 : length v1 = length keys -> length v2 = length keys -> v1 <> v2 -> apart (part_dir c v1) (part_dir c v2).
  Proof.
    intros H1 H2 N r (f & ->) (g & E). apply N. unfold part_dir in E. rewrite <-!app_assoc in E.
    by apply (key_dirs_prefix (c_part c) (c_dir c) v1 v2 f g H1 H2) in E as [? _].
  Qed.
  Lemma digest_not_dot n : digest n -> n <> CONFIG /\ n <> IMMUTABLE.
  Proof.
    intros [_ H]. assert ("."%char ∉ n) as Hn.
    { intros E. apply H in E. vm_compute in E. repeat (apply elem_of_cons in E as [E|E]; [done|]). by apply elem_of_nil in E. }
    split; intros ->; apply Hn; left.
  Qed.
  (** There is no file in the temporary directory of a partition. *)
  Lemma temp_nothing M I s values : represents c M I s -> nothing_at (temp_dir e (part_dir c values)) s.
  Proof.
    intros Hs q (t & ->). rewrite temp_part, <-app_assoc. cbn [app].
    destruct (s !! _) as [x|] eqn:E; [|done]. pose proof (rg_digest _ _ Hr (part_dir c values)) as Hd.
    destruct (digest_not_dot _ Hd) as [N1 N2].
    apply (rp_files _ _ _ _ Hs) in E as [E|[(_ & f & E)|(v & f & Hv & E)]].
    - by injection E.
    - by injection E.
    - destruct Hv as [ds Hv]. destruct (rp_part _ _ _ _ Hs _ _ Hv) as (Hl & _). destruct (key_head v Hl) as (a & r & Ea & Ha & _).
      rewrite Ea in E. injection E as <- _. rewrite digest_no_eq in Ha; [done|]. done.
  Qed.
  Lemma part_nothing M I s values : represents c M I s -> length values = length keys -> M values = None -> nothing_at (part_dir c values) s.
  Proof.
    intros Hs Hl Hn q (t & ->). unfold part_dir. rewrite <-app_assoc. destruct (s !! _) as [x|] eqn:E; [|done].
    destruct (key_head values Hl) as (a & r & Ea & Ha & Hd).
    apply (rp_files _ _ _ _ Hs) in E as [E|[(_ & f & E)|(v & f & Hv & E)]].
    - rewrite Ea in E. injection E as -> _. done.
    - rewrite Ea in E. injection E as -> _. done.
    - destruct Hv as [ds Hv]. destruct (rp_part _ _ _ _ Hs _ _ Hv) as (Hl' & _).
      destruct (key_dirs_prefix (c_part c) [] values v t f Hl Hl' E) as [-> _]. congruence.
  Qed.

  (** ** One partition *)
  Lemma holds_reads t ds delayed sel : sound ds -> holds_dataset t ds -> exists ds', read_group t delayed sel = Ok ds' /\ reads_as delayed sel ds ds'.
  Proof.
    intros [Hs _] [_ H]. destruct (read_group_ok t _ _ delayed sel (dget (d_dims ds)) H) as (ds' & E & H1 & H2 & H3 & _ & _ & H4).
    - apply agree_stored, Hs.
    - intros n v'. rewrite dget_stored. destruct (dget (d_vars ds) n) as [v|] eqn:E; [|done]. intros [= <-]. cbn.
      apply (proper_arrays _ (storable_proper _ Hs)). eapply vals_elem. by apply dget_elem.
    - exists ds'. split; [done|]. split; [|done..]. intros n v. rewrite H4. split; intros (Hw & v0 & E0 & ->); (split; [done|]).
      + rewrite dget_stored in E0. destruct (dget (d_vars ds) n) as [v1|]; [|done]. injection E0 as <-. by exists v1.
      + exists (stored v0). by rewrite dget_stored, E0.
  Qed.
  Lemma holds_tree ds : storable ds -> holds_dataset (group_tree ds) ds.
  Proof.
    intros Hs. split; [|by apply holds_group_tree]. unfold group_tree, body_tree. rewrite !lookup_insert_ne by done.
    rewrite vars_tree_lookup by apply Hs. done.
  Qed.
  (** What is read of a stored dataset can be stored. *)
  Lemma reads_sound delayed ds ds' chunks : sound ds -> reads_as delayed None ds ds' -> NoDup (dkeys (d_chunks chunks)) -> d_block chunks <> 0%Z ->
    sound (ds_copy_properties ds' chunks).
  Proof.
    intros [Hs Hn] H Hc Hb. pose proof (reads_proper _ _ _ _ H) as Hp.
    assert (Hv : forall v, v ∈ dvals (d_vars ds') -> exists n v0, dget (d_vars ds) n = Some v0 /\ v = with_delayed (stored v0) delayed).
    { intros v Hv. apply elem_dvals in Hv as [n Hv]. apply elem_dget in Hv; [|apply Hp]. apply (reads_vars _ _ _ _ H) in Hv as (_ & v0 & H0 & ->). eauto. }
    split; [split|].
    - destruct Hp as [P1 P2 P3 P4 P5]. split; try done.
    - intros v Hin. apply Hv in Hin as (n & v0 & H0 & ->). apply (storable_rank _ Hs v0). eapply vals_elem. by apply dget_elem.
    - intros n Hin. cbn in Hin. apply dget_is_Some in Hin as [v Hv']. apply (reads_vars _ _ _ _ H) in Hv' as (_ & v0 & H0 & _).
      apply Hs. apply dget_is_Some. eauto.
    - intros v Hin. apply Hv in Hin as (n & v0 & H0 & ->). cbn. apply Hn. eapply vals_elem. by apply dget_elem.
  Qed.

  Context (ds : dataset) (n : nat) (merge : option merge_callable).
  Hypothesis Hds : sound ds.
  Hypothesis Hn : dget (d_dims ds) (c_dim c) = Some n.
  Hypothesis Hm : merges_sound c merge.

  Definition slice_of (sl : nat * nat) : list (str * indexer) := [(c_dim c, ISlice (Some (Z.of_nat sl.1)) (Some (Z.of_nat sl.2)))].
  (** What the insertion of a slice puts in the directory of a partition. *)
  Definition new_of (s : store) (values : list Z) (sl : nat * nat) : res dataset :=
    do piece <- ds_isel ds (slice_of sl);
    match merge with
    | Some f =>
        if empty_at (part_dir c values) s then Ok piece else
        do o <- read_group (sub (part_dir c values) s) (d_delayed ds) None;
        f (ds_copy_properties o piece) piece (c_axis c) (c_dim c)
    | None => Ok piece
    end.

  Lemma slice_ok sl : sl.1 <= sl.2 <= n ->
    exists piece, ds_isel ds (slice_of sl) = Ok piece /\ sound piece /\ reduced (c_dim c) ds (seq sl.1 (sl.2 - sl.1)) piece /\
      d_vars piece = map (fun nv => (nv.1, var_take (c_dim c) (seq sl.1 (sl.2 - sl.1)) nv.2)) (d_vars ds) /\
      d_chunks piece = d_chunks ds /\ d_block piece = d_block ds.
  Proof.
    intros Hsl. destruct Hds as [Hst Hnr].
    destruct (C14_isel ds (c_dim c) n _ _ (storable_proper _ Hst) Hnr Hn (proj1 (C14_designates n) _ _ Hsl)) as (piece & E & _ & Hrel).
    exists piece. split; [exact E|].
    destruct (isel_ok ds (c_dim c) n _ _ (storable_proper _ Hst) Hnr Hn (proj1 (C14_designates n) _ _ Hsl))
      as (piece' & E' & Ev & _ & Ec & Eb & _ & Hp & Hnr' & _).
    assert (piece' = piece) as -> by congruence. split_and!; [|done..]. split; [|done]. split; [done| |].
    - intros v Hv. rewrite Ev in Hv. unfold dvals in Hv. rewrite map_map in Hv. cbn in Hv.
      apply elem_of_list_In, in_map_iff in Hv as ([k w] & <- & Hw). apply elem_of_list_In in Hw.
      assert (Hw' : w ∈ dvals (d_vars ds)) by (by eapply vals_elem).
      destruct (var_take_same (c_dim c) (seq sl.1 (sl.2 - sl.1)) w (Hnr _ Hw')) as (_ & L & _). cbn [snd]. rewrite L.
      by apply (storable_rank _ Hst w).
    - intros k Hk. rewrite Ev in Hk. unfold dkeys in Hk. rewrite map_map in Hk. by apply Hst.
  Qed.

  Lemma new_of_spec M I s values sl : represents c M I s -> length values = length keys -> sl.1 <= sl.2 <= n ->
    match new_of s values sl with
    | Ok new => sound new /\ exists piece, ds_isel ds (slice_of sl) = Ok piece /\ sound piece /\
        reduced (c_dim c) ds (seq sl.1 (sl.2 - sl.1)) piece /\ merged c merge (d_delayed ds) (M values) piece new
    | Raise _ => is_Some (M values) /\ is_Some merge
    end.
  Proof.
    intros Hs Hl Hsl. unfold new_of. destruct (slice_ok sl Hsl) as (piece & E & Hp & Hrel & _ & Ec & Eb). rewrite E. cbn [rbind].
    destruct merge as [f|] eqn:Em; [|split; [done|]; exists piece; split_and!; [done..|]; cbn; by destruct (M values)].
    destruct (M values) as [old|] eqn:EM.
    - destruct (rp_part _ _ _ _ Hs _ _ EM) as (_ & Ho & Hh).
      assert (empty_at (part_dir c values) s = false) as ->.
      { apply empty_at_false. exists (part_dir c values ++ [ZGROUP]), (CMeta MGroup). split; [apply under_app|].
        rewrite <-sub_lookup. apply Hh. }
      destruct (holds_reads _ _ (d_delayed ds) None Ho Hh) as (o' & -> & Ho'). cbn [rbind].
      destruct (f _ _ _ _) as [new|ex] eqn:Ef; [|by split].
      split; [|exists piece; split_and!; try done; by exists o'].
      eapply Hm; [done| | |exact Ef]; [|done]. eapply reads_sound; [done..| |].
      + apply Hp.
      + apply Hp.
    - assert (empty_at (part_dir c values) s = true) as ->.
      { apply nothing_empty. by eapply part_nothing. }
      split; [done|]. by exists piece.
  Qed.

  Lemma exec_insert_partition M I s inner values sl : represents c M I s -> length values = length keys -> sl.1 <= sl.2 <= n ->
    exec (insert_partition e inner c ds merge (key_dirs (c_part c) values, sl)) s =
      match new_of s values sl with
      | Ok new => (Ok tt, graft (part_dir c values) (group_tree new) (prune (part_dir c values) s))
      | Raise ex => (Raise ex, s)
      end.
  Proof.
    intros Hs Hl Hsl. pose proof (new_of_spec M I s values sl Hs Hl Hsl) as Hnew. unfold new_of in *.
    destruct (slice_ok sl Hsl) as (piece & E & Hp & Hrel & _). rewrite E in *. cbn [rbind] in *.
    unfold insert_partition. cbv zeta. cbn [fst snd]. fold (slice_of sl). rewrite E. fold (part_dir c values). set (d := part_dir c values) in *.
    generalize (inner d) as sc. intros sc.
    rewrite exec_bind, exec_exists. cbv iota. destruct (M values) as [old|] eqn:EM.
    - destruct (rp_part _ _ _ _ Hs _ _ EM) as (_ & Ho & Hh).
      assert (empty_at (d ++ [ZMETADATA]) s = false) as ->.
      { apply empty_at_false. exists (d ++ [ZMETADATA]), (CCons (metas (sub d s))). split; [apply under_refl|].
        rewrite <-sub_lookup. apply Hh. }
      assert (Hne : empty_at d s = false).
      { apply empty_at_false. exists (d ++ [ZGROUP]), (CMeta MGroup). split; [apply under_app|].
        rewrite <-sub_lookup. apply Hh. }
      cbn [negb]. cbn [pbind]. unfold perform. rewrite exec_bind.
      pose proof (temp_apart values values Hl) as Hap. fold d in Hap.
      assert (Hup : forall new, sound new -> exec (update_fs e sc d new) s = (Ok tt, graft d (group_tree new) (prune d s))).
      { intros new [Hst _]. rewrite exec_update_fs by done. f_equal. f_equal. f_equal. apply prune_nothing. by eapply temp_nothing. }
      destruct merge as [f|].
      + rewrite Hne in Hnew |- *. unfold open_zarr_group. rewrite exec_bind, exec_bind, exec_get_tree. cbv iota.
        destruct (holds_reads _ _ (d_delayed ds) None Ho Hh) as (o' & E' & Ho'). fold d in E'. rewrite E' in Hnew |- *. cbn [rbind] in Hnew |- *.
        cbn [exec]. destruct (f _ _ _ _) as [new|ex]; [|done]. by apply Hup, Hnew.
      + cbn [exec pret]. apply Hup, Hnew.
    - pose proof (part_nothing M I s values Hs Hl EM) as Hno. fold d in Hno.
      assert (empty_at (d ++ [ZMETADATA]) s = true) as ->.
      { apply nothing_empty. intros q Hq. apply Hno. by eapply under_snoc. }
      cbn [negb]. rewrite exec_catch.
      assert (Hnew' : (match merge with Some f => if empty_at d s then Ok piece else
         do o <- read_group (sub d s) (d_delayed ds) None; f (ds_copy_properties o piece) piece (c_axis c) (c_dim c) | None => Ok piece end) = Ok piece).
      { destruct merge; [|done]. by rewrite (proj1 (nothing_empty d s) Hno). }
      rewrite Hnew'. rewrite (prune_nothing _ _ Hno).
      assert (Hw := exec_write_new d piece (Some sc) s (sound_storable _ Hp) Hno).
      assert (exec (let! _ <- init_group d; let! piece <- Ret (Ok piece); write_zarr_group d piece (Some sc)) s =
        (Ok tt, graft d (group_tree piece) s)) as ->; [|done].
      rewrite exec_bind in Hw |- *. destruct (exec (init_group d) s) as [[]]; done.
  Qed.

  (** ** A batch of partitions *)
  Definition put (s : store) (ks : list Z * (nat * nat)) (u : store) : store :=
    match new_of s ks.1 ks.2 with
    | Ok new => graft (part_dir c ks.1) (group_tree new) (prune (part_dir c ks.1) u)
    | Raise _ => u
    end.
  Definition patch (s : store) (kparts : list (list Z * (nat * nat))) : store := foldr (put s) s kparts.
  Definition after (M : list Z -> option dataset) (s : store) (kparts : list (list Z * (nat * nat))) (values : list Z) : option dataset :=
    match dget kparts values with
    | Some sl => match new_of s values sl with Ok new => Some new | Raise _ => M values end
    | None => M values
    end.
  Definition outcome (s : store) (ks : list Z * (nat * nat)) : res unit := rmap (fun _ => tt) (new_of s ks.1 ks.2).
  Definition tasks (inner : path -> schedule) (kparts : list (list Z * (nat * nat))) : list (program unit) :=
    map (insert_partition e inner c ds merge) (map (fun ks => (key_dirs (c_part c) ks.1, ks.2)) kparts).
  Record fit (kparts : list (list Z * (nat * nat))) : Prop := {
    fit_len : forall ks, ks ∈ kparts -> length ks.1 = length keys /\ ks.2.1 <= ks.2.2 <= n;
    fit_nodup : NoDup (dkeys kparts);
    fit_hash : forall ks ks', ks ∈ kparts -> ks' ∈ kparts -> e_hash e (part_dir c ks.1) = e_hash e (part_dir c ks'.1) -> ks.1 = ks'.1;
  }.
  Lemma fit_app l1 l2 : fit (l1 ++ l2) -> fit l1 /\ fit l2 /\ forall a b, a ∈ l1 -> b ∈ l2 -> a.1 <> b.1.
  Proof.
    intros [F1 F2 F3]. unfold dkeys in F2. rewrite map_app in F2. apply NoDup_app in F2 as (N1 & N2 & N3). split_and!.
    - split; [|done|]; intros; [apply F1|apply F3]; try apply elem_of_app; auto.
    - split; [|done|]; intros; [apply F1|apply F3]; try apply elem_of_app; auto.
    - intros a b Ha Hb E. apply (N2 a.1).
      + apply elem_of_list_In, in_map_iff. exists a. split; [done|by apply elem_of_list_In].
      + apply elem_of_list_In, in_map_iff. exists b. split; [done|by apply elem_of_list_In].
  Qed.
  Lemma fit_cons ks l : fit (ks :: l) -> fit l /\ length ks.1 = length keys /\ ks.2.1 <= ks.2.2 <= n /\ forall b, b ∈ l -> ks.1 <> b.1.
  Proof.
    intros H. destruct (fit_app [ks] l H) as (H1 & H2 & H3). split; [done|].
    destruct (fit_len _ H1 ks) as [? ?]; [left|]. split_and!; [done|lia|lia|]. intros b Hb. apply H3; [left|done].
  Qed.

  Lemma patch_in s kparts ks q : fit kparts -> ks ∈ kparts ->
    patch s kparts !! (part_dir c ks.1 ++ q) = match new_of s ks.1 ks.2 with Ok new => group_tree new !! q | Raise _ => s !! (part_dir c ks.1 ++ q) end.
  Proof.
    induction kparts as [|k l IH]; intros Hf Hin; [by apply elem_of_nil in Hin|].
    destruct (fit_cons _ _ Hf) as (Hf' & Hl & _ & Hd). unfold patch in *. cbn [foldr]. unfold put at 1.
    apply elem_of_cons in Hin as [->|Hin].
    - assert (Hu : foldr (put s) s l !! (part_dir c k.1 ++ q) = s !! (part_dir c k.1 ++ q)).
      { clear IH Hf. induction l as [|k' l IH]; [done|]. destruct (fit_cons _ _ Hf') as (Hf'' & Hl' & _ & Hd').
        cbn [foldr]. unfold put at 1. destruct (new_of s k'.1 k'.2) as [new|]; [|apply IH; [done|intros b Hb; apply Hd; by right]].
        rewrite graft_lookup_out, prune_lookup, decide_False; [apply IH; [done|intros b Hb; apply Hd; by right]| |];
          intros U; apply (parts_apart k.1 k'.1 Hl Hl' (Hd k' ltac:(left)) (part_dir c k.1 ++ q)); auto using under_app. }
      destruct (new_of s k.1 k.2) as [new|]; [apply graft_lookup_under|done].
    - destruct (new_of s k.1 k.2) as [new|]; [|by apply IH].
      assert (Hl' : length ks.1 = length keys) by (by apply (fit_len _ Hf')).
      rewrite graft_lookup_out, prune_lookup, decide_False; [by apply IH| |];
        intros U; apply (parts_apart ks.1 k.1 Hl' Hl (not_eq_sym (Hd ks Hin)) (part_dir c ks.1 ++ q)); auto using under_app.
  Qed.
  Lemma patch_out s kparts q : (forall ks, ks ∈ kparts -> ~ under (part_dir c ks.1) q) -> patch s kparts !! q = s !! q.
  Proof.
    induction kparts as [|k l IH]; intros H; [done|]. unfold patch in *. cbn [foldr]. unfold put at 1.
    assert (Hk := H k ltac:(left)). assert (IH' := IH (fun ks Hks => H ks (elem_of_list_further _ _ _ Hks))).
    destruct (new_of s k.1 k.2); [|done]. by rewrite graft_lookup_out, prune_lookup, decide_False.
  Qed.

  (** The change of the state. *)
  Lemma sub_patch_in s kparts ks : fit kparts -> ks ∈ kparts ->
    sub (part_dir c ks.1) (patch s kparts) = match new_of s ks.1 ks.2 with Ok new => group_tree new | Raise _ => sub (part_dir c ks.1) s end.
  Proof.
    intros Hf Hin. apply map_eq. intros q. rewrite sub_lookup, patch_in by done. destruct (new_of _ _ _); [done|]. by rewrite sub_lookup.
  Qed.
  Lemma sub_patch_out s kparts d : (forall ks, ks ∈ kparts -> apart (part_dir c ks.1) d) -> sub d (patch s kparts) = sub d s.
  Proof.
    intros H. apply map_eq. intros q. rewrite !sub_lookup. apply patch_out. intros ks Hks U. eapply (H ks Hks); [done|apply under_app].
  Qed.
  Lemma represents_patch M I s kparts : represents c M I s -> fit kparts -> represents c (after M s kparts) I (patch s kparts).
  Proof.
    intros Hs Hf.
    assert (Hnew : forall ks, ks ∈ kparts -> forall new, new_of s ks.1 ks.2 = Ok new -> after M s kparts ks.1 = Some new /\ sound new).
    { intros [v sl] Hin new E. split.
      - unfold after. cbn [fst]. rewrite (elem_dget kparts v sl) by (done || apply Hf). cbn in E. by rewrite E.
      - destruct (fit_len _ Hf _ Hin) as [Hl Hb]. pose proof (new_of_spec M I s v sl Hs Hl Hb) as H. cbn in E. rewrite E in H. by destruct H. }
    assert (Hmono : forall v, is_Some (M v) -> is_Some (after M s kparts v)).
    { intros v Hv. unfold after. destruct (dget kparts v) as [sl|]; [|done]. by destruct (new_of s v sl). }
    split.
    - intros q x E. destruct (decide (Exists (fun ks => under (part_dir c ks.1) (c_dir c ++ q)) kparts)) as [Hex|Hno].
      + apply Exists_exists in Hex as (ks & Hin & f & Ef). rewrite Ef in E. rewrite patch_in in E by done.
        unfold part_dir in Ef. rewrite <-app_assoc in Ef. apply app_inv_head in Ef as ->.
        right. right. exists ks.1, f. split; [|done]. destruct (new_of s ks.1 ks.2) as [new|] eqn:En.
        * destruct (Hnew ks Hin new En) as [-> _]. by eexists.
        * apply Hmono. destruct (M ks.1) eqn:EM; [done|]. rewrite (part_nothing M I s ks.1) in E; [done|done|by apply (fit_len _ Hf)|done|apply under_app].
      + rewrite patch_out in E by (intros ks Hin U; apply Hno, Exists_exists; eauto).
        destruct (rp_files _ _ _ _ Hs q x E) as [?|[?|(v & f & Hv & ?)]]; [by left|right; by left|right; right]. exists v, f. auto.
    - intros v d E. unfold after in E. destruct (dget kparts v) as [sl|] eqn:Ed.
      + apply dget_elem in Ed as Hin. destruct (fit_len _ Hf _ Hin) as [Hl Hb]. cbn in Hl. split; [done|].
        pose proof (sub_patch_in s kparts (v, sl) Hf Hin) as Esub. cbn [fst snd] in Esub. rewrite Esub.
        destruct (new_of s v sl) as [new|] eqn:En.
        * injection E as <-. destruct (Hnew _ Hin new En) as [_ Hso]. split; [done|]. apply holds_tree, Hso.
        * apply (rp_part _ _ _ _ Hs) in E as (_ & ? & ?). done.
      + apply (rp_part _ _ _ _ Hs) in E as (Hl & ? & Hh). split_and!; [done..|].
        rewrite sub_patch_out; [done|]. intros ks Hin. apply parts_apart; [by apply (fit_len _ Hf)|done|].
        intros <-. apply dget_None in Ed. apply Ed. apply elem_of_list_In, in_map_iff. exists ks. split; [done|by apply elem_of_list_In].
    - intros d E. apply (rp_immutable _ _ _ _ Hs) in E as [? Hh]. split; [done|]. rewrite sub_patch_out; [done|].
      intros ks Hin. destruct (fit_len _ Hf _ Hin) as [Hl _]. destruct (key_head ks.1 Hl) as (a & r & Ea & Ha & _).
      unfold part_dir. rewrite Ea. apply apart_app. by intros ->.
  Qed.

  Definition task_region (kparts : list (list Z * (nat * nat))) (i : nat) (q : path) : Prop :=
    match kparts !! i with Some ks => part_region e (part_dir c ks.1) q | None => False end.
  Global Instance task_region_dec kparts i q : Decision (task_region kparts i q).
  Proof. unfold task_region. destruct (kparts !! i); apply _. Defined.
  Lemma tasks_lookup inner kparts i p : tasks inner kparts !! i = Some p ->
    exists ks, kparts !! i = Some ks /\ p = insert_partition e inner c ds merge (key_dirs (c_part c) ks.1, ks.2).
  Proof.
    unfold tasks. rewrite map_map. change (map ?f kparts) with (f <$> kparts). rewrite list_lookup_fmap.
    destruct (kparts !! i) as [ks|]; [|done]. intros [= <-]. by exists ks.
  Qed.
  Lemma temp_temp_apart v v' : e_hash e (part_dir c v) <> e_hash e (part_dir c v') ->
    apart (temp_dir e (part_dir c v)) (temp_dir e (part_dir c v')).
  Proof. intros N. rewrite !temp_part. by apply (apart_app (c_dir c) _ _ [] []). Qed.
  Lemma tasks_independent inner kparts : fit kparts -> independent (tasks inner kparts) (fun _ _ => False) (task_region kparts).
  Proof.
    intros Hf. split.
    - intros i p E. apply tasks_lookup in E as (ks & Ei & ->). apply within_insert_partition. cbn [fst]. intros q Hq.
      unfold task_region. by rewrite Ei.
    - intros i j p p' Ei Ej N q Wi [?|Wj]; [done|]. unfold task_region in *.
      destruct (kparts !! i) as [ks|] eqn:Hi; [|done]. destruct (kparts !! j) as [ks'|] eqn:Hj; [|done].
      assert (Hin : ks ∈ kparts) by (by eapply elem_of_list_lookup_2). assert (Hin' : ks' ∈ kparts) by (by eapply elem_of_list_lookup_2).
      destruct (fit_len _ Hf _ Hin) as [Hl _]. destruct (fit_len _ Hf _ Hin') as [Hl' _].
      assert (Hne : ks.1 <> ks'.1).
      { intros E. apply N. eapply (NoDup_lookup (dkeys kparts)); [apply Hf| |]; unfold dkeys; change (map fst kparts) with (fst <$> kparts);
          rewrite list_lookup_fmap; [by rewrite Hi|by rewrite Hj, E]. }
      destruct Wi as [U|U], Wj as [U'|U'].
      + by apply (parts_apart ks.1 ks'.1 Hl Hl' Hne q).
      + by apply (temp_apart ks.1 ks'.1 Hl q).
      + by apply (temp_apart ks'.1 ks.1 Hl' q).
      + refine (temp_temp_apart ks.1 ks'.1 _ q U U'). intros E. by apply Hne, (fit_hash _ Hf).
  Qed.

  Lemma exec_tasks M I s inner kparts : represents c M I s -> fit kparts ->
    exec_all (tasks inner kparts) s = (map (outcome s) kparts, patch s kparts).
  Proof.
    intros Hs Hf. destruct (exec_all_spec CTorn (tasks inner kparts) (fun _ _ => False) (task_region kparts) s (tasks_independent inner kparts Hf)) as (E1 & E2 & E3).
    assert (Hex : forall ks, ks ∈ kparts -> exec (insert_partition e inner c ds merge (key_dirs (c_part c) ks.1, ks.2)) s =
      match new_of s ks.1 ks.2 with Ok new => (Ok tt, graft (part_dir c ks.1) (group_tree new) (prune (part_dir c ks.1) s)) | Raise ex => (Raise ex, s) end).
    { intros ks Hin. destruct (fit_len _ Hf _ Hin) as [Hl Hb]. by apply (exec_insert_partition M I). }
    destruct (exec_all _ s) as [rs s'] eqn:Eall. cbn [fst snd] in *. f_equal.
    - rewrite E1. unfold tasks. rewrite !map_map. apply map_ext_in. intros ks Hin. apply elem_of_list_In in Hin.
      rewrite Hex by done. unfold outcome. by destruct (new_of s ks.1 ks.2).
    - apply map_eq. intros q.
      destruct (decide (Exists (fun ks => part_region e (part_dir c ks.1) q) kparts)) as [Hx|Hno].
      + apply Exists_exists in Hx as (ks & Hin & Hq). pose proof Hin as Hin'. apply elem_of_list_lookup in Hin as (i & Hi).
        assert (Et : tasks inner kparts !! i = Some (insert_partition e inner c ds merge (key_dirs (c_part c) ks.1, ks.2))).
        { unfold tasks. rewrite map_map. change (map ?f kparts) with (f <$> kparts). by rewrite list_lookup_fmap, Hi. }
        rewrite (E2 i _ q Et) by (right; unfold task_region; by rewrite Hi). rewrite Hex by done.
        destruct Hq as [(t & ->)|Hq].
        * rewrite patch_in by done. destruct (new_of s ks.1 ks.2) as [new|]; [|done]. cbn [snd]. apply graft_lookup_under.
        * destruct (fit_len _ Hf _ Hin') as [Hl _].
          assert (Hout : forall k, k ∈ kparts -> ~ under (part_dir c k.1) q).
          { intros k Hk U. eapply (temp_apart k.1 ks.1); [by apply (fit_len _ Hf)|exact U|exact Hq]. }
          rewrite patch_out by done. destruct (new_of s ks.1 ks.2) as [new|]; [|done]. cbn [snd].
          rewrite graft_lookup_out, prune_lookup, decide_False; auto.
      + rewrite E3, patch_out; [done| |].
        * intros ks Hin U. apply Hno, Exists_exists. exists ks. split; [done|by left].
        * intros i p Ei Wi. apply tasks_lookup in Ei as (ks & Hi & _). unfold task_region in Wi. rewrite Hi in Wi.
          apply Hno, Exists_exists. exists ks. split; [by eapply elem_of_list_lookup_2|done].
  Qed.
  Lemma exec_batch M I s sched inner kparts : represents c M I s -> fit kparts ->
    exec (execute_transaction CTorn sched (tasks inner kparts)) s = (first_error (map (outcome s) kparts), patch s kparts).
  Proof.
    intros Hs Hf. rewrite (exec_transaction CTorn sched _ (fun _ _ => False) (task_region kparts) s (task_region_dec kparts) (tasks_independent inner kparts Hf)).
    by rewrite (exec_tasks M I).
  Qed.
End state.
