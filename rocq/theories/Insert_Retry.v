(** * Repeating an insertion that was interrupted *)
From Verif Require Import Py Dict NdArray_Model NdArray_Spec NdArray_Proofs Dataset_Model Dataset_Spec Dataset_Proofs Dataset_Props Dataset_Props2 Meta_Model Meta_Spec Meta_Props PartPath_Model PartPath_Proofs
  Split_Model Split_Spec DaskUtils_Model DaskUtils_Proofs DaskUtils_Props FS_Model FS_Proofs Pool_Model Pool_Proofs Storage_Model Storage_Chunks Storage_Spec Storage_Proofs
  Listing_Model Listing_Spec Listing_Proofs Collection_Model Collection_Spec Collection_Split Collection_Proofs Collection_State Collection_Prepare Collection_Insert
  Collection_Crash Crash_Spec Storage_Change.

Lemma existsb_false {A} (p : A -> bool) l : existsb p l = false -> forall x, x ∈ l -> p x = false.
Proof. intros H x Hx. destruct (p x) eqn:E; [|done]. rewrite (proj2 (existsb_exists p l)) in H; [done|]. exists x. split; [by apply elem_of_list_In|done]. Qed.

(** Writing a group over the files of another one. *)
Lemma exec_write_over d ds sc (s : store) : storable ds -> clean (sub d s) ->
  exists s', exec (write_zarr_group d ds (Some sc)) s = (Ok tt, s') /\ is_Some (s' !! (d ++ [ZMETADATA])) /\ (forall q, ~ under d q -> s' !! q = s !! q) /\
    (fresh_at d s -> sub d s' = group_tree ds).
Proof.
  intros Hs Hc. assert (exists s1, exec (write_vars d ds (Some sc)) s = (Ok (map (fun _ => tt) (d_vars ds)), s1) /\ clean (sub d s1)) as (s1 & E & Hc1).
  { exists (exec_all (writers d ds) s).2. cbn [write_vars]. destruct (exec_all_writers d ds s Hs) as [E1 E2]. split.
    - rewrite (exec_transaction CTorn sc _ _ _ s (var_region_dec d ds) (writers_independent d ds Hs)), E1. f_equal. apply first_error_Ok. by rewrite map_map.
    - intros q x Hq Hk. rewrite sub_lookup, E2, strip_app in Hq. destruct q as [|m r]; [by apply (Hc [] x); [rewrite sub_lookup|]|].
      destruct (dget (d_vars ds) m) as [v|] eqn:Ev; [|by apply (Hc (m :: r) x); [rewrite sub_lookup|]].
      apply (body_tree_clean ds) with (q := m :: r); [apply Hs| |done]. unfold body_tree.
      pose proof (plain_vars ds ZGROUP Hs ltac:(set_solver)) as N1. pose proof (plain_vars ds ZATTRS Hs ltac:(set_solver)) as N2.
      rewrite !lookup_insert_ne by (intros [= <- _]; congruence). rewrite vars_tree_lookup by apply Hs. by rewrite Ev. }
  set (s2 := <[d ++ [ZGROUP] := CMeta MGroup]> (<[d ++ [ZATTRS] := CMeta (MAttrs (dict_of (d_attrs ds)) None)]> s1)).
  assert (Ef : exec (write_zarr_group d ds (Some sc)) s = (Ok tt, <[d ++ [ZMETADATA] := CCons (metas (sub d s2))]> s2)).
  { rewrite write_group_eq, exec_bind, E. cbv iota. unfold write_meta. rewrite exec_bind, exec_write. cbv iota. rewrite exec_bind, exec_write. cbv iota. fold s2.
    apply exec_consolidate; unfold s2.
    - rewrite !sub_insert_in. apply clean_insert; [|by intros; eexists]. apply clean_insert; [done|by intros; eexists].
    - by rewrite sub_lookup, lookup_insert. }
  eexists. split; [exact Ef|]. split; [rewrite lookup_insert; by eexists|]. split.
  - intros q U. pose proof (exec_outside (fun _ => True) (under d) _ s q (within_write_group_any _ (under d) d ds (Some sc) (fun _ U' => U')) U) as H. rewrite Ef in H. exact H.
  - intros Hf. pose proof (exec_write_group d ds (Some sc) s Hs Hf) as H. rewrite Ef in H. injection H as H. rewrite H. apply map_eq. intros q. by rewrite sub_lookup, graft_lookup_under.
Qed.

Section retry.
  Context (e : env) (c : collection) (Hr : regular e c) (part : dataset) (n : nat).
  Hypothesis Hp : sound part.
  Hypothesis Hn : dget (d_dims part) (c_dim c) = Some n.
  Local Notation fit := (fit e c n).
  Local Notation keys := (p_keys (c_part c)).
  Local Notation pdir ks := (part_dir c ks.1).
  Local Notation tdir ks := (temp_dir e (part_dir c ks.1)).
  Local Notation region ks := (part_region e (part_dir c ks.1)).

  (** The data of a partition. *)
  Definition piece_of (ks : list Z * (nat * nat)) : dataset := match ds_isel part (slice_of c ks.2) with Ok x => x | Raise _ => part end.
  (** There is no consolidated metadata, and the group cannot be made again. *)
  Definition has (w : store) (q : path) : bool := bool_decide (is_Some (w !! q)).
  Definition broken (w : store) (ks : list Z * (nat * nat)) : bool :=
    empty_at (pdir ks ++ [ZMETADATA]) w && (has w (pdir ks ++ [ZARRAY]) || has w (pdir ks ++ [ZGROUP])).
  Definition good (w : store) (ks : list Z * (nat * nat)) : Prop :=
    empty_at (pdir ks ++ [ZMETADATA]) w = false \/ broken w ks = true \/ clean (sub (pdir ks) w).
  (** What a call leaves of a partition. *)
  Definition outcome (w : store) (ks : list Z * (nat * nat)) (w' : store) : Prop :=
    if empty_at (pdir ks ++ [ZMETADATA]) w
    then sub (tdir ks) w' = sub (tdir ks) w /\
         (if broken w ks then sub (pdir ks) w' = ∅ else is_Some (w' !! (pdir ks ++ [ZMETADATA])) /\ (sub (pdir ks) w = ∅ -> sub (pdir ks) w' = group_tree (piece_of ks)))
    else sub (tdir ks) w' = ∅ /\ sub (pdir ks) w' = group_tree (piece_of ks).
  Definition ended {A} (w : store) (l : list (list Z * (nat * nat))) (r : res A) : Prop :=
    if existsb (broken w) l then exists ex, r = Raise ex else exists a, r = Ok a.

  Lemma piece_ok ks : ks.2.1 <= ks.2.2 <= n -> ds_isel part (slice_of c ks.2) = Ok (piece_of ks) /\ sound (piece_of ks).
  Proof using Hp Hn.
    intros Hb. destruct (slice_ok c part n Hp Hn ks.2 Hb) as (x & E & Hx & _). unfold piece_of. by rewrite E.
  Qed.
  Lemma sub_out (w w' : store) d d' : (forall q, ~ under d q -> w' !! q = w !! q) -> apart d d' -> sub d' w' = sub d' w.
  Proof. intros H Ha. apply map_eq. intros q. rewrite !sub_lookup. apply H. intros U. apply (Ha _ U), under_app. Qed.
  Lemma exec_one w inner ks : good w ks -> length ks.1 = length keys -> ks.2.1 <= ks.2.2 <= n ->
    exists r w', exec (insert_partition e inner c part None (key_dirs (c_part c) ks.1, ks.2)) w = (r, w') /\ outcome w ks w' /\ if broken w ks then exists ex, r = Raise ex else r = Ok tt.
  Proof using Hr Hp Hn.
    intros Hg Hl Hb. destruct (piece_ok ks Hb) as [E Hs]. unfold insert_partition. cbv zeta. cbn [fst snd]. fold (slice_of c ks.2). rewrite E.
    fold (part_dir c ks.1). unfold outcome, good, broken in *. pose proof (temp_apart e c Hr ks.1 ks.1 Hl) as Hap. set (d := part_dir c ks.1) in *. set (x := piece_of ks) in *.
    generalize (inner d) as sc. intros sc. rewrite exec_bind, exec_exists. cbv iota.
    destruct (empty_at (d ++ [ZMETADATA]) w) eqn:Hz; cbn [negb andb] in *.
    - rewrite exec_catch. unfold init_group. rewrite exec_bind, exec_bind, exec_read_file. cbv iota. rewrite exec_bind, exec_read_file. cbv iota.
      fold (has w (d ++ [ZARRAY])) (has w (d ++ [ZGROUP])).
      destruct (has w (d ++ [ZARRAY])) eqn:Ea; [|destruct (has w (d ++ [ZGROUP])) eqn:Eg]; cbn [orb] in *.
      1,2: cbn; eexists _, _; (split; [reflexivity|]); (split; [|by eexists]); split;
        [apply (sub_out _ _ d); [intros q U; by rewrite prune_lookup, decide_False|exact Hap]|apply map_eq; intros q; rewrite sub_lookup, prune_lookup, decide_True, lookup_empty by apply under_app; done].
      destruct Hg as [|[|Hcl]]; [done|done|]. rewrite exec_write. cbv iota.
      destruct (exec_write_over d x sc (<[d ++ [ZGROUP] := CMeta MGroup]> w) (sound_storable _ Hs)) as (w' & Ew & H1 & H2 & H3).
      { rewrite sub_insert_in. apply clean_insert; [done|]. by intros; eexists. }
      assert (exec (let! piece <- Ret (Ok x); write_zarr_group d piece (Some sc)) (<[d ++ [ZGROUP] := CMeta MGroup]> w) = (Ok tt, w')) as ->; [exact Ew|].
      eexists _, _. split; [reflexivity|]. split; [|done]. split.
      + apply (sub_out _ _ d); [|exact Hap]. intros q U. rewrite H2 by done. apply lookup_insert_ne. intros <-. apply U, under_app.
      + split; [done|]. intros H0. apply H3. intros q c0 Hq. destruct (decide (q = [ZGROUP])) as [|N]; [done|]. rewrite lookup_insert_ne in Hq by (intros E'; by apply app_inv_head in E').
        rewrite <-sub_lookup, H0 in Hq. done.
    - cbn [pbind]. unfold perform. cbn [pbind pret]. rewrite exec_update_fs; [|apply Hs|done]. eexists _, _. split; [reflexivity|]. split; [|done]. split.
      + apply map_eq. intros q. rewrite sub_lookup, lookup_empty, graft_lookup_out, prune_lookup.
        * rewrite decide_False; [by rewrite prune_lookup, decide_True by apply under_app|]. intros U. by apply (Hap _ U), under_app.
        * intros U. by apply (Hap _ U), under_app.
      + apply map_eq. intros q. by rewrite sub_lookup, graft_lookup_under.
  Qed.

  (** ** What the state of a partition depends on *)
  Definition same_region (w w' : store) (ks : list Z * (nat * nat)) : Prop := forall q, region ks q -> w' !! q = w !! q.
  Lemma same_sub w w' ks : same_region w w' ks -> sub (pdir ks) w' = sub (pdir ks) w /\ sub (tdir ks) w' = sub (tdir ks) w.
  Proof. intros H. split; apply map_eq; intros q; rewrite !sub_lookup; apply H; [left|right]; apply under_app. Qed.
  Lemma same_empty w w' ks : same_region w w' ks -> empty_at (pdir ks ++ [ZMETADATA]) w' = empty_at (pdir ks ++ [ZMETADATA]) w.
  Proof. intros H. apply empty_at_agree; intros q U; apply H; left; by eapply under_snoc. Qed.
  Lemma same_broken w w' ks : same_region w w' ks -> broken w' ks = broken w ks.
  Proof. intros H. unfold broken, has. rewrite (same_empty w w' ks H). by rewrite !(H (pdir ks ++ _)) by (left; apply under_app). Qed.
  Lemma same_good w w' ks : same_region w w' ks -> good w ks -> good w' ks.
  Proof. intros H. unfold good. rewrite (same_empty w w' ks H), (same_broken w w' ks H). by destruct (same_sub w w' ks H) as [-> _]. Qed.
  Lemma same_outcome w w' ks u : same_region w w' ks -> outcome w' ks u -> outcome w ks u.
  Proof. intros H. unfold outcome. rewrite (same_empty w w' ks H), (same_broken w w' ks H). by destruct (same_sub w w' ks H) as [-> ->]. Qed.
  Lemma outcome_same w ks u u' : same_region u u' ks -> outcome w ks u -> outcome w ks u'.
  Proof. intros H. unfold outcome. destruct (same_sub u u' ks H) as [-> ->]. by rewrite !(H (pdir ks ++ _)) by (left; apply under_app). Qed.
  Lemma present_full (w : store) q : is_Some (w !! q) -> empty_at q w = false.
  Proof. intros [x Hx]. apply empty_at_false. exists q, x. split; [apply under_refl|done]. Qed.
  Lemma sub_present (w : store) d t q : sub d w = t -> w !! (d ++ q) = t !! q.
  Proof. intros <-. by rewrite sub_lookup. Qed.
  Lemma tree_zmeta ds' : is_Some (group_tree ds' !! [ZMETADATA]).
  Proof. unfold group_tree. rewrite lookup_insert. by eexists. Qed.
  Lemma outcome_good w ks w' : outcome w ks w' -> good w' ks /\ broken w' ks = false /\ (broken w ks = false -> is_Some (w' !! (pdir ks ++ [ZMETADATA]))).
  Proof.
    unfold outcome. intros H. assert (Hz : is_Some (w' !! (pdir ks ++ [ZMETADATA])) -> good w' ks /\ broken w' ks = false).
    { intros Hz. apply present_full in Hz. split; [by left|]. unfold broken. by rewrite Hz. }
    destruct (empty_at _ _) eqn:Ez.
    - destruct H as [_ H]. destruct (broken w ks).
      + split; [right; right; rewrite H; by intros q x ?|]. split; [|done]. unfold broken, has. rewrite !(sub_present _ _ _ _ H), !lookup_empty. by rewrite andb_false_r.
      + destruct H as [H _]. destruct (Hz H) as [? ?]. done.
    - destruct H as [_ H]. assert (Hx : is_Some (w' !! (pdir ks ++ [ZMETADATA]))) by (rewrite (sub_present _ _ _ _ H); apply tree_zmeta).
      destruct (Hz Hx) as [? ?]. done.
  Qed.

  (** ** A batch *)
  Lemma exec_batch_any w sched inner l : fit l -> (forall ks, ks ∈ l -> good w ks) ->
    exists r w', exec (execute_transaction CTorn sched (tasks e c part None inner l)) w = (r, w') /\ ended w l r /\
      (forall ks, ks ∈ l -> outcome w ks w') /\ (forall q, (forall ks, ks ∈ l -> ~ region ks q) -> w' !! q = w !! q).
  Proof using Hr Hp Hn.
    intros Hf Hg. pose proof (tasks_independent e c Hr part n None inner l Hf) as Hi.
    rewrite (exec_transaction CTorn sched _ (fun _ _ => False) (task_region e c l) w (task_region_dec e c l) Hi).
    destruct (exec_all_spec CTorn _ _ _ w Hi) as (E1 & E2 & E3). destruct (exec_all _ w) as [rs w']. cbn [fst snd] in *.
    assert (Hex : forall ks, ks ∈ l -> exists r u, exec (insert_partition e inner c part None (key_dirs (c_part c) ks.1, ks.2)) w = (r, u) /\ outcome w ks u /\ if broken w ks then exists ex, r = Raise ex else r = Ok tt).
    { intros ks Hin. destruct (fit_len _ _ _ _ Hf _ Hin) as [Hl Hb]. apply exec_one; auto. }
    exists (first_error rs), w'. split; [done|]. split; [|split].
    - subst rs. unfold ended, tasks. rewrite !map_map. clear E2 E3 Hf Hi Hg. induction l as [|ks l IH]; [by exists []|]. cbn [existsb map first_error].
      destruct (Hex ks ltac:(left)) as (r & u & -> & _ & Hb). cbn [fst]. specialize (IH (fun k Hk => Hex k ltac:(by right))).
      destruct (broken w ks); cbn [orb]; [destruct Hb as [ex ->]; by exists ex|]. subst r.
      destruct (existsb (broken w) l); destruct IH as [a ->]; cbn; by eexists.
    - intros ks Hin. destruct (Hex ks Hin) as (r & u & Eu & Ho & _). apply (outcome_same w ks u); [|done]. intros q Hq. apply elem_of_list_lookup in Hin as (i & Ei).
      assert (Et : tasks e c part None inner l !! i = Some (insert_partition e inner c part None (key_dirs (c_part c) ks.1, ks.2))).
      { unfold tasks. rewrite map_map. change (map ?f l) with (f <$> l). by rewrite list_lookup_fmap, Ei. }
      rewrite (E2 i _ q Et) by (right; unfold task_region; by rewrite Ei). by rewrite Eu.
    - intros q Hq. apply E3. intros i p Ei Wi. apply tasks_lookup in Ei as (ks & Hk & _). unfold task_region in Wi. rewrite Hk in Wi.
      apply (Hq ks); [by eapply elem_of_list_lookup_2|done].
  Qed.
  Lemma regions_disjoint l ks ks' q : fit l -> ks ∈ l -> ks' ∈ l -> ks.1 <> ks'.1 -> region ks q -> ~ region ks' q.
  Proof using Hr.
    intros Hf H1 H2 N [U|U] [U'|U'].
    - by apply (parts_apart c ks.1 ks'.1 (proj1 (fit_len _ _ _ _ Hf _ H1)) (proj1 (fit_len _ _ _ _ Hf _ H2)) N q).
    - by apply (temp_apart e c Hr ks.1 ks'.1 (proj1 (fit_len _ _ _ _ Hf _ H1)) q).
    - by apply (temp_apart e c Hr ks'.1 ks.1 (proj1 (fit_len _ _ _ _ Hf _ H2)) q).
    - refine (temp_temp_apart e c Hr ks.1 ks'.1 _ q U U'). intros E. by apply N, (fit_hash _ _ _ _ Hf).
  Qed.

  (** ** The batches *)
  Definition run_of (scheds : nat -> schedule) (inner : path -> schedule) (g : nat -> nat) (kbs : list (list (list Z * (nat * nat)))) : program unit :=
    pfor (imap (fun i b => (g i, b)) (map (map (fun ks => (key_dirs (c_part c) ks.1, ks.2))) kbs))
      (fun ib => execute_transaction CTorn (scheds ib.1) (map (insert_partition e inner c part None) ib.2)).
  Lemma exec_run w scheds inner kbs : forall g, fit (concat kbs) -> (forall ks, ks ∈ concat kbs -> good w ks) ->
    exists r w' (l : list (list Z * (nat * nat))), exec (run_of scheds inner g kbs) w = (r, w') /\ ended w (concat kbs) r /\ (forall ks, ks ∈ l -> ks ∈ concat kbs) /\
      (forall ks, ks ∈ concat kbs -> (forall ex, r <> Raise ex) -> ks ∈ l) /\
      (forall ex, r = Raise ex -> exists b ks, b ∈ kbs /\ ks ∈ b /\ broken w ks = true /\ forall ks, ks ∈ b -> ks ∈ l) /\
      (forall ks, ks ∈ l -> outcome w ks w') /\
      (forall q, (forall ks, ks ∈ l -> ~ region ks q) -> w' !! q = w !! q).
  Proof using Hr Hp Hn.
    revert w. induction kbs as [|b kbs IH]; intros w g Hf Hg.
    - exists (Ok tt), w, []. cbn [concat]. split; [done|]. split; [by exists tt|]. split; [done|]. split; [done|]. split; [done|]. split; [intros ks H; by apply elem_of_nil in H|done].
    - cbn [concat] in *. destruct (fit_app e c n b (concat kbs) Hf) as (F1 & F2 & F3).
      destruct (exec_batch_any w (scheds (g 0)) inner b F1) as (r1 & w1 & E1 & En1 & Hin1 & Hout1); [intros ks Hk; apply Hg, elem_of_app; by left|].
      unfold run_of, pfor. cbn [map imap pseq fst snd]. rewrite !exec_bind.
      change (map (insert_partition e inner c part None) (map _ b)) with (tasks e c part None inner b). rewrite E1.
      unfold ended in *. rewrite existsb_app. destruct (existsb (broken w) b) eqn:Eb; cbn [orb].
      + destruct En1 as [ex ->]. exists (Raise ex), w1, b. split; [done|]. split; [by exists ex|]. split; [intros ks Hk; apply elem_of_app; by left|].
        split; [intros ks _ H; exfalso; by apply (H ex)|]. split; [|done]. intros _ _. apply existsb_exists in Eb as (ks & Hk & Hb). exists b, ks.
        split; [left|]. split; [by apply elem_of_list_In|]. done.
      + destruct En1 as [a ->].
        assert (Hsame : forall ks, ks ∈ concat kbs -> same_region w w1 ks).
        { intros ks Hk q Hq. apply Hout1. intros ks' Hk'. apply (regions_disjoint (b ++ concat kbs) ks ks'); [done|apply elem_of_app; by right|apply elem_of_app; by left| |done].
          apply not_eq_sym. by apply F3. }
        destruct (IH w1 (g ∘ S) F2) as (r2 & w2 & l2 & E2 & En2 & Hsub2 & Hall2 & Hbr2 & Hin2 & Hout2); [intros ks Hk; apply (same_good w w1 ks (Hsame ks Hk)), Hg, elem_of_app; by right|].
        assert (existsb (broken w1) (concat kbs) = existsb (broken w) (concat kbs)) as Eex.
        { clear -Hsame. induction (concat kbs) as [|x l IH]; [done|]. cbn. rewrite (same_broken w w1 x (Hsame x ltac:(left))). f_equal. apply IH. intros ks Hk. apply Hsame. by right. }
        rewrite Eex in En2. exists r2, w2, (b ++ l2). split.
        { unfold run_of, pfor in E2. rewrite exec_bind in E2. rewrite exec_bind. cbn [imap] in *.
          match type of E2 with context [exec (pseq ?l) _] => match goal with |- context [exec (pseq ?l') _] => change l' with l; destruct (exec (pseq l) w1) as [[?|?] ?] end end; exact E2. }
        split; [done|]. split; [intros ks [Hk|Hk]%elem_of_app; apply elem_of_app; [by left|right; by apply Hsub2]|].
        split; [intros ks [Hk|Hk]%elem_of_app Hno; apply elem_of_app; [by left|right; by apply Hall2]|].
        split.
        { intros ex Ex; destruct (Hbr2 ex Ex) as (b' & ks & Hb' & Hk & Hb & Hl). exists b', ks. split; [by right|]. split; [done|].
          split; [|intros k Hk'; apply elem_of_app; right; by apply Hl]. rewrite <-(same_broken w w1 ks); [done|]. by apply Hsame, Hsub2, Hl. }
        split.
        * intros ks [Hk|Hk]%elem_of_app.
          -- apply (outcome_same w ks w1); [|by apply Hin1]. intros q Hq. apply Hout2. intros ks' Hk'.
             apply (regions_disjoint (b ++ concat kbs) ks ks'); [done|apply elem_of_app; by left|apply elem_of_app; right; by apply Hsub2| |done]. apply F3; [done|by apply Hsub2].
          -- apply (same_outcome w w1); [by apply Hsame, Hsub2|by apply Hin2].
        * intros q Hq. rewrite Hout2 by (intros ks Hk; apply Hq, elem_of_app; by right). apply Hout1. intros ks Hk. apply Hq, elem_of_app. by left.
  Qed.

  (** The partitions that make a call raise are in one batch. *)
  Definition one_batch (kbs : list (list (list Z * (nat * nat)))) (w : store) : Prop :=
    exists b, (b = [] \/ b ∈ kbs) /\ forall ks, ks ∈ concat kbs -> broken w ks = true -> ks ∈ b.
  (** The partition can be written over, and there is no temporary directory. *)
  Definition plain (w : store) (ks : list Z * (nat * nat)) : Prop :=
    empty_at (pdir ks ++ [ZMETADATA]) w = false \/ sub (tdir ks) w = ∅ /\ (broken w ks = true \/ sub (pdir ks) w = ∅).
  Definition done_ (w : store) (ks : list Z * (nat * nat)) : Prop := sub (tdir ks) w = ∅ /\ sub (pdir ks) w = group_tree (piece_of ks).
  Lemma outcome_plain w ks w' : plain w ks -> outcome w ks w' -> plain w' ks /\ (broken w ks = false -> done_ w' ks).
  Proof.
    unfold plain, outcome, done_. destruct (empty_at _ w) eqn:Ez.
    - intros [Hno|[Ht Hd]] [Ht' H]; [done|]. rewrite Ht in Ht'. destruct (broken w ks); [split; [right; auto|done]|]. destruct Hd as [|Hd]; [done|]. destruct H as [H1 H2].
      split; [left; by apply present_full|]. auto.
    - intros _ [Ht Hd]. split; [|done]. left. apply present_full. rewrite (sub_present _ _ _ _ Hd). apply tree_zmeta.
  Qed.
  Lemma same_plain w w' ks : same_region w w' ks -> plain w ks -> plain w' ks.
  Proof. intros H. unfold plain. rewrite (same_empty w w' ks H), (same_broken w w' ks H). by destruct (same_sub w w' ks H) as [-> ->]. Qed.
  Lemma nodup_batches (kbs : list (list (list Z * (nat * nat)))) : forall b b' x, NoDup (map fst (concat kbs)) -> b ∈ kbs -> b' ∈ kbs -> x ∈ b -> x ∈ b' -> b = b'.
  Proof.
    induction kbs as [|k kbs IH]; intros b b' x Hnd Hb Hb' Hx Hx'; [by apply elem_of_nil in Hb|]. cbn [concat] in Hnd. rewrite map_app in Hnd.
    apply NoDup_app in Hnd as (_ & Hd & Hnd).
    assert (Hno : forall k' , k' ∈ kbs -> x ∈ k -> x ∈ k' -> False).
    { intros k' Hk' H1 H2. apply (Hd x.1); apply elem_of_list_In, in_map, elem_of_list_In; [done|]. apply elem_of_list_In, in_concat. exists k'. split; by apply elem_of_list_In. }
    apply elem_of_cons in Hb as [->|Hb]; apply elem_of_cons in Hb' as [->|Hb']; [done|by destruct (Hno b')|by destruct (Hno b)|by eapply IH].
  Qed.
  (** One more call. *)
  Lemma exec_again w scheds inner g kbs : fit (concat kbs) -> (forall ks, ks ∈ concat kbs -> good w ks) ->
    exists r w', exec (run_of scheds inner g kbs) w = (r, w') /\ (forall ks, ks ∈ concat kbs -> good w' ks) /\
      (forall q, (forall ks, ks ∈ concat kbs -> ~ region ks q) -> w' !! q = w !! q) /\
      ((forall ks, ks ∈ concat kbs -> plain w ks) -> (forall ks, ks ∈ concat kbs -> plain w' ks)) /\
      (forall ks, ks ∈ concat kbs -> outcome w ks w' \/ same_region w w' ks) /\
      ((r = Ok tt /\ (forall ks, ks ∈ concat kbs -> broken w ks = false /\ is_Some (w' !! (pdir ks ++ [ZMETADATA]))) /\
         ((forall ks, ks ∈ concat kbs -> plain w ks) -> forall ks, ks ∈ concat kbs -> done_ w' ks)) \/
       ((exists ex, r = Raise ex) /\ (exists ks, ks ∈ concat kbs /\ broken w ks = true) /\
         (one_batch kbs w -> forall ks, ks ∈ concat kbs -> broken w' ks = false))).
  Proof using Hr Hp Hn.
    intros Hf Hg. destruct (exec_run w scheds inner kbs g Hf Hg) as (r & w' & l & E & En & Hsub & Hall & Hbr & Hin & Hout). exists r, w'. split; [done|].
    assert (Hdec : forall ks : list Z * (nat * nat), Decision (ks ∈ l)) by (intros ks; apply _).
    assert (Hleft : forall ks, ks ∈ concat kbs -> ks ∉ l -> same_region w w' ks).
    { intros ks Hk Hno q Hq. apply Hout. intros ks' Hk'. apply (regions_disjoint (concat kbs) ks ks'); [done|done|by apply Hsub| |done]. intros Ek.
      apply Hno. assert (ks = ks') as ->; [|done]. destruct ks as [v sl], ks' as [v' sl']. cbn in Ek. subst v'. f_equal.
      pose proof (fit_nodup _ _ _ _ Hf) as Hnd. apply Hsub, elem_dget in Hk'; [|done]. apply elem_dget in Hk; [|done]. congruence. }
    split; [intros ks Hk; destruct (decide (ks ∈ l)) as [D|D]; [by eapply outcome_good, Hin|apply (same_good w); [by apply Hleft|by apply Hg]]|].
    split; [intros q Hq; apply Hout; intros ks Hk; by apply Hq, Hsub|].
    split; [intros Hpl ks Hk; destruct (decide (ks ∈ l)) as [D|D]; [by eapply outcome_plain, Hin; [apply Hpl|]|apply (same_plain w); [by apply Hleft|by apply Hpl]]|].
    split; [intros ks Hk; destruct (decide (ks ∈ l)) as [D|D]; [left; by apply Hin|right; by apply Hleft]|].
    unfold ended in En. destruct (existsb (broken w) (concat kbs)) eqn:Ex.
    - right. split; [done|]. destruct En as [ex ->]. destruct (Hbr ex eq_refl) as (b & ks & Hb & Hk & Hbk & Hl).
      split; [exists ks; split; [by apply Hsub, Hl|done]|]. intros (b0 & Hb0 & Hone) k Hkk.
      destruct (decide (k ∈ l)) as [D|D]; [by eapply outcome_good, Hin|]. rewrite (same_broken w w' k) by (by apply Hleft).
      destruct (broken w k) eqn:Ebk; [|done]. exfalso. apply D, Hl. pose proof (Hone ks (Hsub _ (Hl _ Hk)) Hbk) as H1. pose proof (Hone k Hkk Ebk) as H2.
      destruct Hb0 as [->|Hb0]; [by apply elem_of_nil in H1|]. by rewrite (nodup_batches kbs b b0 ks (fit_nodup _ _ _ _ Hf) Hb Hb0 Hk H1).
    - left. destruct En as [[] ->]. split; [done|]. pose proof (existsb_false _ _ Ex) as Hnb.
      assert (Hl : forall ks, ks ∈ concat kbs -> ks ∈ l) by (intros ks Hk; by apply Hall).
      split; [intros ks Hk; split; [by apply Hnb|]; eapply outcome_good; [by apply Hin, Hl|by apply Hnb]|].
      intros Hpl ks Hk. eapply outcome_plain; [by apply Hpl|by apply Hin, Hl|by apply Hnb].
  Qed.
End retry.

(** ** An insertion that stops leaves states from which it can be repeated *)
Section stopped.
  Context (e : env) (c : collection) (Hr : regular e c) (part : dataset) (n : nat).
  Hypothesis Hp : sound part.
  Hypothesis Hn : dget (d_dims part) (c_dim c) = Some n.
  Local Notation fit := (fit e c n).
  Local Notation keys := (p_keys (c_part c)).
  Local Notation pdir ks := (part_dir c ks.1).
  Local Notation tdir ks := (temp_dir e (part_dir c ks.1)).
  Local Notation region ks := (part_region e (part_dir c ks.1)).
  Local Notation broken := (broken c).
  Lemma no_merge : merges_sound c None.
  Proof. by intros f a b r [=]. Qed.

  Lemma present_zmeta M I (s : store) v d : represents c M I s -> M v = Some d -> is_Some (s !! (part_dir c v ++ [ZMETADATA])) /\ ~ nothing_at (part_dir c v) s.
  Proof.
    intros Hs Hv. destruct (rp_part _ _ _ _ Hs _ _ Hv) as (_ & _ & Hh).
    assert (H : is_Some (s !! (part_dir c v ++ [ZMETADATA]))) by (rewrite <-sub_lookup, (hg_cons _ _ _ (proj2 Hh)); by eexists).
    split; [done|]. intros Hno. rewrite Hno in H by apply under_app. by destruct H.
  Qed.
  Lemma nothing_sub d (w : store) : nothing_at d w <-> sub d w = ∅.
  Proof.
    split; [intros H; apply map_eq; intros q; rewrite sub_lookup, lookup_empty; apply H, under_app|].
    intros H q (x & ->). by rewrite <-sub_lookup, H, lookup_empty.
  Qed.
  Lemma rep_not_broken M I (s : store) ks : represents c M I s -> length ks.1 = length keys -> broken s ks = false.
  Proof using Hr.
    intros Hs Hl. unfold Insert_Retry.broken, has. destruct (M ks.1) as [d|] eqn:E.
    - destruct (present_zmeta M I s _ _ Hs E) as [H _]. by rewrite (present_full _ _ H).
    - pose proof (part_nothing e c Hr M I s _ Hs Hl E) as H. rewrite !H by apply under_app. by rewrite andb_false_r.
  Qed.

  Definition spared (s : store) (ks : list Z * (nat * nat)) (u : store) : Prop := nothing_at (pdir ks) s -> nothing_at (tdir ks) u.
  Lemma always_spared M I s inner ks : represents c M I s -> length ks.1 = length keys -> ks.2.1 <= ks.2.2 <= n ->
    always CTorn (spared s ks) (insert_partition e inner c part None (key_dirs (c_part c) ks.1, ks.2)) s.
  Proof using Hr Hp Hn.
    intros Hs Hl Hb. destruct (M ks.1) as [d0|] eqn:EM.
    - destruct ks as [v sl]. eapply always_impl; [|by apply (always_insert_partition e c Hr part n None Hp Hn no_merge M I s inner v sl)].
      intros u _ Hno. by destruct (proj2 (present_zmeta M I s _ _ Hs EM)).
    - pose proof (part_nothing e c Hr M I s _ Hs Hl EM) as Hno. pose proof (temp_nothing e c Hr M I s ks.1 Hs) as Ht.
      pose proof (temp_apart e c Hr ks.1 ks.1 Hl) as Hap. destruct (slice_ok c part n Hp Hn ks.2 Hb) as (piece & E & Hpi & _).
      unfold insert_partition. cbv zeta. cbn [fst snd]. fold (slice_of c ks.2). rewrite E. unfold spared. fold (part_dir c ks.1). set (d := part_dir c ks.1) in *.
      generalize (inner d) as sc. intros sc. apply always_bind; [apply always_exists; by intros _|]. intros x s' Ex. rewrite exec_exists in Ex. injection Ex as <- <-.
      assert (empty_at (d ++ [ZMETADATA]) s = true) as -> by (apply nothing_empty; intros q Hq; apply Hno; by eapply under_snoc). cbn [negb].
      pose proof (exec_write_new d piece (Some sc) s (sound_storable _ Hpi) Hno) as Hw. apply always_catch.
      + change (always CTorn (fun u => nothing_at d s -> nothing_at (temp_dir e d) u) (let! _ <- init_group d; write_zarr_group d piece (Some sc)) s).
        eapply (always_within (under d)); [|reflexivity|].
        * apply within_bind; [|intros _; by apply within_write_group_any]. by apply within_init_group.
        * intros u Hu _ q U. rewrite Hu; [by apply Ht|]. intros U'. by apply (Hap q).
      + intros ex s' Ex. exfalso. change (exec (let! _ <- init_group d; write_zarr_group d piece (Some sc)) s = (Raise ex, s')) in Ex. by rewrite Hw in Ex.
  Qed.
  Lemma spared_local s ks : local (fun q => False \/ region ks q) (spared s ks).
  Proof. intros u u' Ha H Hd q U. rewrite <-Ha by (right; by right). by apply H. Qed.
  Lemma always_spared_batch M I s sched inner kparts : represents c M I s -> fit kparts ->
    always CTorn (fun u => (forall ks, ks ∈ kparts -> spared s ks u) /\ (forall q, (forall ks, ks ∈ kparts -> ~ region ks q) -> u !! q = s !! q))
      (execute_transaction CTorn sched (tasks e c part None inner kparts)) s.
  Proof using Hr Hp Hn.
    intros Hs Hf.
    assert (Hlen : length (tasks e c part None inner kparts) = length kparts) by (unfold tasks; by rewrite !map_length).
    eapply always_impl; [|apply (always_transaction CTorn sched _ _ _ (fun i u => match kparts !! i with Some ks => spared s ks u | None => True end) s
       (tasks_independent e c Hr part n None inner kparts Hf))].
    - intros u [H1 H2]. split.
      + intros ks [i Hi]%elem_of_list_lookup. assert (Hlt : i < length (tasks e c part None inner kparts)) by (rewrite Hlen; by eapply lookup_lt_Some).
        specialize (H1 i Hlt). by rewrite Hi in H1.
      + intros q Hq. apply H2. intros i Hi W. unfold task_region in W. destruct (kparts !! i) as [ks|] eqn:E; [|done].
        apply (Hq ks); [by eapply elem_of_list_lookup_2|done].
    - intros i Hi u u' Ha. unfold task_region in Ha. destruct (kparts !! i) as [ks|]; [|done]. by apply spared_local.
    - intros i p Ei. apply tasks_lookup in Ei as (ks & Hi & ->). rewrite Hi. assert (Hin : ks ∈ kparts) by (by eapply elem_of_list_lookup_2).
      destruct (fit_len _ _ _ _ Hf _ Hin) as [Hl Hb]. by eapply always_spared.
  Qed.
  Definition extra (s : store) (kbs : list (list (list Z * (nat * nat)))) (u : store) : Prop :=
    (forall ks, ks ∈ concat kbs -> spared s ks u) /\ one_batch c kbs u /\ (forall q, (forall ks, ks ∈ concat kbs -> ~ region ks q) -> u !! q = s !! q).
  Lemma extra_after M I s b kbs u : represents c M I s -> fit (b ++ concat kbs) -> extra (patch c part None s b) kbs u -> extra s (b :: kbs) u.
  Proof using Hr Hp Hn.
    intros Hs Hf (H1 & (b0 & Hb0 & H2) & H3). destruct (fit_app e c n b (concat kbs) Hf) as (F1 & F2 & F3).
    pose proof (represents_patch e c Hr part n None Hp Hn no_merge M I s b Hs F1) as Hs1.
    assert (Hold : forall ks, ks ∈ b -> same_region e c (patch c part None s b) u ks).
    { intros ks Hk q Hq. apply H3. intros ks' Hk'. apply (regions_disjoint e c Hr n (b ++ concat kbs) ks ks'); [done|apply elem_of_app; by left|apply elem_of_app; by right| |done]. by apply F3. }
    split; [|split]; cbn [concat].
    - intros ks [Hk|Hk]%elem_of_app Hno q U.
      + rewrite (Hold ks Hk q) by (by right). by apply (temp_nothing e c Hr _ _ _ ks.1 Hs1).
      + apply (H1 ks Hk); [|done]. intros q' U'. rewrite patch_out; [by apply Hno|]. intros k Hkb. intros U2.
        apply (regions_disjoint e c Hr n (b ++ concat kbs) k ks q'); [done|apply elem_of_app; by left|apply elem_of_app; by right|by apply F3|by left|by left].
    - exists b0. split; [destruct Hb0; [by left|right; by right]|]. intros ks [Hk|Hk]%elem_of_app Hbr; [|by apply H2]. exfalso.
      rewrite (same_broken e c _ u ks (Hold ks Hk)) in Hbr. rewrite (rep_not_broken _ _ _ ks Hs1) in Hbr; [done|]. by apply (fit_len _ _ _ _ F1).
    - intros q Hq. rewrite H3 by (intros ks Hk; apply Hq, elem_of_app; by right). apply patch_out. intros ks Hk U. apply (Hq ks); [apply elem_of_app; by left|by left].
  Qed.
  Lemma always_extra I scheds inner kbs : forall M s (g : nat -> nat), represents c M I s -> fit (concat kbs) ->
    always CTorn (extra s kbs) (pseq (map (fun ib => execute_transaction CTorn (scheds ib.1) (map (insert_partition e inner c part None) ib.2))
      (imap (fun i b => (g i, b)) (map (map (fun ks => (key_dirs (c_part c) ks.1, ks.2))) kbs)))) s.
  Proof using Hr Hp Hn.
    induction kbs as [|b kbs IH]; intros M s g Hs Hf.
    - cbn. split; [|done]. split; [intros ks H; by apply elem_of_nil in H|]. split; [|done]. exists []. split; [by left|]. intros ks H; by apply elem_of_nil in H.
    - cbn [concat] in Hf. destruct (fit_app e c n b (concat kbs) Hf) as (F1 & F2 & F3).
      cbn [map imap pseq fst snd]. change (map (insert_partition e inner c part None) (map _ b)) with (tasks e c part None inner b).
      apply always_bind.
      + eapply always_impl; [|by eapply (always_spared_batch M I s (scheds (g 0)) inner b)]. intros u [H1 H2].
        assert (Hout : forall ks, ks ∈ concat kbs -> same_region e c s u ks).
        { intros ks Hk q Hq. apply H2. intros ks' Hk'. apply (regions_disjoint e c Hr n (b ++ concat kbs) ks ks'); [done|apply elem_of_app; by right|apply elem_of_app; by left| |done].
          apply not_eq_sym. by apply F3. }
        split; [|split]; cbn [concat].
        * intros ks [Hk|Hk]%elem_of_app; [by apply H1|]. intros _ q U. rewrite (Hout ks Hk q) by (by right). by apply (temp_nothing e c Hr _ _ _ ks.1 Hs).
        * exists b. split; [right; left|]. intros ks [Hk|Hk]%elem_of_app Hbr; [done|]. exfalso. rewrite (same_broken e c _ u ks (Hout ks Hk)) in Hbr.
          rewrite (rep_not_broken _ _ _ ks Hs) in Hbr; [done|]. by apply (fit_len _ _ _ _ F2).
        * intros q Hq. apply H2. intros ks Hk. apply Hq, elem_of_app. by left.
      + intros us s' E. rewrite (exec_batch e c Hr part n None Hp Hn no_merge M I s (scheds (g 0)) inner b Hs F1) in E. injection E as _ <-.
        pose proof (represents_patch e c Hr part n None Hp Hn no_merge M I s b Hs F1) as Hs1.
        pose proof (IH (after c part None M s b) (patch c part None s b) (g ∘ S) Hs1 F2) as H.
        eapply (always_impl CTorn _ (extra s (b :: kbs))) in H; [|intros u; by eapply extra_after].
        apply always_bind; [exact H|]. intros us' s' E. cbn [always pret]. split; [|done].
        match type of E with exec ?p ?s0 = _ => pose proof (exec_steps CTorn p s0) as Hst end. rewrite E in Hst. exact (always_sound CTorn _ _ _ _ _ H Hst).
  Qed.

  Lemma stopped_good M I s ks u : represents c M I s -> length ks.1 = length keys -> ks.2.1 <= ks.2.2 <= n ->
    part_stage e c part None s ks u -> spared s ks u ->
    good c u ks /\ ((is_Some (M ks.1) -> is_Some (u !! (pdir ks ++ [ZMETADATA]))) -> plain e c u ks).
  Proof using Hr Hp Hn.
    intros Hs Hl Hb Hst Hsp.
    assert (Hz : is_Some (u !! (pdir ks ++ [ZMETADATA])) -> good c u ks /\ plain e c u ks) by (intros H; apply present_full in H; split; by left).
    destruct (M ks.1) as [d0|] eqn:EM.
    - split; [|intros H; by apply Hz, H]. destruct (present_zmeta M I s _ _ Hs EM) as [H0 Hnn]. destruct (rp_part _ _ _ _ Hs _ _ EM) as (_ & _ & Hh).
      assert (Hcl : partly_removed [] (sub (pdir ks) s) (sub (pdir ks) u) -> good c u ks).
      { intros Hrm. right. right. intros q x Hq Hk. destruct (Hrm q) as [E|[_ E]]; [|congruence]. rewrite E in Hq. by apply (hg_clean _ _ _ (proj2 Hh) q). }
      destruct Hst as [E|(x & Ex & [[? _]|[[? _]|[(_ & H & _)|H]]])]; [|done|done|by apply Hcl|].
      + apply Hcl. intros q. left. by rewrite E.
      + apply Hz. rewrite <-sub_lookup, H. apply tree_zmeta.
    - pose proof (part_nothing e c Hr M I s _ Hs Hl EM) as Hno. specialize (Hsp Hno). apply nothing_sub in Hsp.
      destruct Hst as [E|(x & Ex & [(_ & H1 & H2)|[(_ & H)|[(H & _)|H]]])].
      + apply nothing_sub in Hno. rewrite Hno in E. split; [right; right; rewrite E; by intros q x Hq|]. intros _. right. auto.
      + assert (Hbr : broken u ks = true).
        { unfold Insert_Retry.broken, has. apply nothing_empty in H1. rewrite H1, (bool_decide_eq_true_2 _ H2). by rewrite orb_true_r. }
        split; [right; by left|]. intros _. right. auto.
      + assert (H' : is_Some (u !! (pdir ks ++ [ZMETADATA]))) by (rewrite <-sub_lookup, H, lookup_insert; by eexists). destruct (Hz H') as [? ?]. done.
      + by destruct H.
      + assert (H' : is_Some (u !! (pdir ks ++ [ZMETADATA]))) by (rewrite <-sub_lookup, H; apply tree_zmeta). destruct (Hz H') as [? ?]. done.
  Qed.
End stopped.

(** ** The calls *)
Section calls.
  Context (e : env) (c : collection) (Hr : regular e c) (Hc : declared c).
  Context (ds : dataset) (rows : list (list Z)) (Hi : insertable e c ds rows None).
  Local Notation pdir ks := (part_dir c ks.1).
  Local Notation region ks := (part_region e (part_dir c ks.1)).
  Local Notation idir := (c_dir c ++ [IMMUTABLE]).

  (** A state in which the call finds the immutable group if it needs it. *)
  Definition ready (w : store) : Prop := c_immutable c = true -> empty_at idir w = false.
  Definition finished {A B : Type} (b : B) (r : res A * store) : res B * store := (match r.1 with Ok _ => Ok b | Raise ex => Raise ex end, r.2).
  Lemma insert_parts M I s scheds0 inner0 np validate dirs s' : represents c M I s -> is_Some I \/ c_immutable c = false ->
    exec (insert e scheds0 inner0 c ds None np validate) s = (Ok dirs, s') ->
    exists part kbs, sound part /\ dget (d_dims part) (c_dim c) = Some (length rows) /\ fit e c (length rows) (concat kbs) /\ ready s /\
      (forall v, v ∈ rows <-> exists sl, (v, sl) ∈ concat kbs) /\
      (forall scheds inner w, ready w -> exec (insert e scheds inner c ds None np validate) w = finished dirs (exec (run_of e c part scheds inner (fun i => i) kbs) w)) /\
      (forall scheds inner, always CTorn (fun u => batch_stage e c part None s (concat kbs) u /\ extra e c s kbs u) (insert e scheds inner c ds None np validate) s) /\
      length (concat kbs) = length dirs /\
      (forall scheds inner w, ready w -> always CTorn (fun u => forall q, (forall ks, ks ∈ concat kbs -> ~ region ks q) -> u !! q = w !! q) (insert e scheds inner c ds None np validate) w).
  Proof using Hr Hc Hi.
    intros Hs HI Hx. unfold insert in Hx |- *. destruct (c_readonly c); [done|]. rewrite exec_bind in Hx.
    destruct (prepare c ds validate) as [out|ex] eqn:Ep; cbn [exec] in Hx; [|done]. cbn [pbind]. rewrite exec_bind in Hx.
    destruct (exec_insert_immutable e c Hr Hc ds (in_sound _ _ _ _ _ Hi) (in_conforms _ _ _ _ _ Hi) M I s validate out Ep Hs)
      as (part & I' & s1 & E & Hp & Hf & Hs1 & Hout & HI').
    assert (s1 = s) as ->.
    { destruct I; [by destruct HI'|]. destruct HI as [[? ?]|Ei]; [done|]. rewrite Ei in HI'. by destruct HI'. }
    rewrite E in Hx. rewrite exec_bind in Hx.
    destruct (split_dataset (c_part c) part) as [parts|ex] eqn:Es; cbn [exec] in Hx; [|done].
    rewrite exec_bind in Hx. destruct (batches_of parts np) as [bs|ex] eqn:Eb; cbn [exec] in Hx; [|done].
    destruct (part_rows e c Hr Hc ds rows None Hi part Hp Hf) as [Hrk Hn].
    destruct (split_sound _ _ _ _ (rg_keys _ _ Hr) Hrk (in_size _ _ _ _ _ Hi) Es) as (kparts & -> & Hk & Hlz).
    pose proof Eb as Eb'. apply batches_concat in Eb as [Ec Hne]. apply concat_map_inv in Ec as (kbs & -> & Ec).
    assert (Hsorted : never_decreases row_lt rows).
    { destruct (in_sorted _ _ _ _ _ Hi) as [Hd|]; [|done]. apply Hlz. by rewrite (ft_delayed _ _ _ _ Hf). }
    assert (Hfit : fit e c (length rows) (concat kbs)) by (rewrite Ec; by eapply kparts_fit).
    assert (Hready : ready s).
    { intros Ei. destruct HI as [[i HI]|]; [|congruence]. apply empty_at_false. exists (idir ++ [ZGROUP]), (CMeta MGroup). split; [apply under_app|].
      rewrite <-sub_lookup. apply (rp_immutable _ _ _ _ Hs i HI). }
    assert (Himm : forall w, ready w -> exec (insert_immutable c out) w = (Ok part, w)).
    { intros w Hw. revert E. unfold insert_immutable, ready in *. destruct (c_immutable c); [|cbn; by intros [= ->]].
      rewrite !exec_bind, !exec_exists. rewrite Hw, Hready by done. cbn [negb]. rewrite !exec_bind. cbn. by intros [= ->]. }
    exists part, kbs. split; [done|]. split; [done|]. split; [done|]. split; [done|]. split.
    { intros v. rewrite <-(keyed_keys _ _ Hk (proj2 (ks_files _ _ Hk) Hsorted)), Ec. unfold dkeys. rewrite elem_of_list_In, in_map_iff. split.
      - intros ([v' sl] & <- & Hin). exists sl. by apply elem_of_list_In.
      - intros (sl & Hin). exists (v, sl). split; [done|by apply elem_of_list_In]. }
    assert (Hdirs : dirs = map (fun p : path * (nat * nat) => c_dir c ++ p.1) (map (fun ks : list Z * (nat * nat) => (key_dirs (c_part c) ks.1, ks.2)) kparts)).
    { rewrite exec_bind in Hx. destruct (exec _ s) as [[u|ex] s2]; cbn [exec pret] in Hx; [by injection Hx as <- _|done]. }
    split; [|split; [|split]].
    - intros scheds inner w Hw. rewrite exec_bind, (Himm w Hw). cbv iota. rewrite Es. cbn [pbind]. rewrite Eb'. cbn [pbind]. rewrite exec_bind. unfold finished, run_of.
      destruct (exec _ w) as [[u|ex] w2]; cbn [exec pret fst snd]; [by rewrite Hdirs|done].
    - intros scheds inner.
      assert (H0 : batch_stage e c part None s (concat kbs) s /\ extra e c s kbs s).
      { split; [split; [intros ks Hin; by left|done]|]. split; [intros ks _ _; by apply (temp_nothing e c Hr M I s ks.1)|]. split; [|done]. exists []. split; [by left|].
        intros ks Hin Hb. rewrite (rep_not_broken e c Hr M I s ks Hs) in Hb; [done|]. by apply (fit_len _ _ _ _ Hfit). }
      apply always_bind.
      + eapply always_impl; [|by eapply (immutable_idle c I M s out)]. by intros u ->.
      + intros part' s1' E'. rewrite E in E'. injection E' as <- <-. rewrite Es. cbn [pbind]. rewrite Eb'. cbn [pbind].
        unfold pfor. apply (always_pbind_end _ _ (fun _ => Ok _)). apply (always_pbind_end _ _ (fun _ => Ok tt)).
        apply always_and; [exact (always_batches e c Hr part (length rows) None Hp Hn (in_merge _ _ _ _ _ Hi) I' scheds inner kbs M s (fun i => i) Hs1 Hfit)|].
        exact (always_extra e c Hr part (length rows) Hp Hn I' scheds inner kbs M s (fun i => i) Hs1 Hfit).
    - rewrite Ec, Hdirs. by rewrite !map_length.
    - intros scheds inner w Hw. apply always_bind.
      + unfold insert_immutable. destruct (c_immutable c) eqn:Ei; [|by cbn]. apply always_bind; [by apply always_exists|]. intros x w' Ex. rewrite exec_exists in Ex. injection Ex as <- <-.
        rewrite (Hw Ei). by cbn.
      + intros part' w' E'. rewrite (Himm w Hw) in E'. injection E' as <- <-. rewrite Es. cbn [pbind]. rewrite Eb'. cbn [pbind].
        unfold pfor. apply (always_pbind_end _ _ (fun _ => Ok _)). apply (always_pbind_end _ _ (fun _ => Ok tt)).
        apply (always_within (fun q => exists ks, ks ∈ concat kbs /\ region ks q) _ _ w w); [|done|].
        * apply within_pseq. intros p Hin. apply elem_of_list_In, in_map_iff in Hin as ([i b] & <- & Hib). apply within_transaction. cbn [fst snd].
          intros p Hin. apply elem_of_list_In, in_map_iff in Hin as (pt & <- & Hpt). apply within_insert_partition. intros q Hq.
          apply elem_of_list_In, elem_of_lookup_imap in Hib as (j & b' & [= -> ->] & Hb). change (map ?f kbs) with (f <$> kbs) in Hb. rewrite list_lookup_fmap in Hb.
          destruct (kbs !! j) as [kb|] eqn:Ekb; cbn in Hb; [|done]. injection Hb as <-. apply in_map_iff in Hpt as (ks & <- & Hks). exists ks. split; [|exact Hq].
          apply elem_of_list_In, in_concat. exists kb. split; [|done]. apply elem_of_list_In. by eapply elem_of_list_lookup_2.
        * intros u Hu q Hq. apply Hu. intros (ks & Hks & H). by apply (Hq ks).
  Qed.

  Lemma immutable_apart v f : length v = length (p_keys (c_part c)) -> ~ part_region e (part_dir c v) (idir ++ f).
  Proof using Hr.
    intros Hl [U|U].
    - destruct U as (g & Ef). unfold part_dir in Ef. rewrite <-!app_assoc in Ef. apply app_inv_head in Ef.
      destruct (key_head e c Hr v Hl) as (a & r & Ea' & Ha & Hd). rewrite Ea' in Ef. injection Ef as <- _. by exfalso.
    - destruct U as (g & Ef). rewrite (temp_part e c Hr v), <-!app_assoc in Ef. apply app_inv_head in Ef. cbn [app] in Ef. injection Ef as Ef' _.
      pose proof (rg_digest _ _ Hr (part_dir c v)) as Hd. by apply (digest_not_dot _ Hd).
  Qed.
  (** Outside of the partitions that are written, nothing has changed. *)
  Definition outside (s : store) (kbs : list (list (list Z * (nat * nat)))) (w : store) : Prop :=
    forall q, (forall ks, ks ∈ concat kbs -> ~ region ks q) -> w !! q = s !! q.
  Definition inv (s : store) (kbs : list (list (list Z * (nat * nat)))) (w : store) : Prop := (forall ks, ks ∈ concat kbs -> good c w ks) /\ outside s kbs w.
  Lemma retry_setup M I s scheds0 inner0 np validate dirs s' : represents c M I s -> is_Some I \/ c_immutable c = false ->
    exec (insert e scheds0 inner0 c ds None np validate) s = (Ok dirs, s') ->
    exists part kbs, (forall ks, ks ∈ concat kbs -> length ks.1 = length (p_keys (c_part c))) /\ (forall v, v ∈ rows <-> exists sl, (v, sl) ∈ concat kbs) /\
      inv s kbs s /\ (forall ks, ks ∈ concat kbs -> plain e c s ks) /\
      (forall scheds inner u, stopped_at (insert e scheds inner c ds None np validate) s u -> inv s kbs u /\ one_batch c kbs u /\
        ((forall v, v ∈ rows -> is_Some (M v) -> is_Some (u !! (part_dir c v ++ [ZMETADATA]))) -> forall ks, ks ∈ concat kbs -> plain e c u ks)) /\
      ready s /\
      (forall base sc inn w, ready base -> inv base kbs w -> exists r w', exec (insert e sc inn c ds None np validate) w = (r, w') /\ inv base kbs w' /\
        ((forall ks, ks ∈ concat kbs -> plain e c w ks) -> (forall ks, ks ∈ concat kbs -> plain e c w' ks)) /\
        (forall ks, ks ∈ concat kbs -> outcome e c part w ks w' \/ same_region e c w w' ks) /\
        ((r = Ok dirs /\ (forall ks, ks ∈ concat kbs -> broken c w ks = false /\ is_Some (w' !! (part_dir c ks.1 ++ [ZMETADATA]))) /\
           ((forall ks, ks ∈ concat kbs -> plain e c w ks) -> forall ks, ks ∈ concat kbs -> done_ e c part w' ks)) \/
         ((exists ex, r = Raise ex) /\ (exists ks, ks ∈ concat kbs /\ broken c w ks = true) /\
           (one_batch c kbs w -> forall ks, ks ∈ concat kbs -> broken c w' ks = false)))).
  Proof using Hr Hc Hi.
    intros Hs HI Hx. destruct (insert_parts M I s scheds0 inner0 np validate dirs s' Hs HI Hx) as (part & kbs & Hp & Hn & Hf & Hrd & Hrows & Hcall & Hal & _).
    assert (Hlen : forall ks, ks ∈ concat kbs -> length ks.1 = length (p_keys (c_part c)) /\ ks.2.1 <= ks.2.2 <= length rows) by (intros ks Hk; apply (fit_len _ _ _ _ Hf _ Hk)).
    assert (Hready : forall base w, ready base -> outside base kbs w -> ready w).
    { intros base w Hb Hw Ei. rewrite <-(Hb Ei). apply empty_at_agree. intros q (f & ->). apply Hw. intros ks Hk. apply immutable_apart. by apply Hlen. }
    assert (Hsplain : forall ks, ks ∈ concat kbs -> good c s ks /\ plain e c s ks).
    { intros ks Hk. destruct (Hlen ks Hk) as [Hl Hb]. destruct (stopped_good e c Hr part (length rows) Hp Hn M I s ks s Hs Hl Hb) as [H1 H2]; [by left|intros _; by apply (temp_nothing e c Hr M I)|].
      split; [done|]. apply H2. intros [d Hd]. by apply (present_zmeta c M I s ks.1 d). }
    exists part, kbs. split; [intros ks Hk; by apply Hlen|]. split; [done|]. split; [split; [intros ks Hk; by apply Hsplain|by intros q _]|]. split; [intros ks Hk; by apply Hsplain|]. split.
    - intros scheds inner u [p' Hst]. pose proof (always_sound CTorn _ _ _ _ _ (Hal scheds inner) Hst) as [[Hb1 Hb2] (He1 & He2 & He3)].
      split; [split; [|done]|split; [done|]].
      + intros ks Hk. destruct (Hlen ks Hk) as [Hl Hb]. apply (stopped_good e c Hr part (length rows) Hp Hn M I s ks u Hs Hl Hb); [by apply Hb1|by apply He1].
      + intros Hw ks Hk. destruct (Hlen ks Hk) as [Hl Hb]. apply (stopped_good e c Hr part (length rows) Hp Hn M I s ks u Hs Hl Hb); [by apply Hb1|by apply He1|].
        apply Hw, Hrows. exists ks.2. by destruct ks.
    - split; [done|]. intros base sc inn w Hbase [Hg Ho]. rewrite (Hcall sc inn w (Hready base w Hbase Ho)).
      destruct (exec_again e c Hr part (length rows) Hp Hn w sc inn (fun i => i) kbs Hf Hg) as (r & w' & E & Hg' & Ho' & Hpl' & Hout & Hcases). rewrite E. unfold finished. cbn [fst snd].
      eexists _, _. split; [reflexivity|]. split; [split; [done|]; intros q Hq; by rewrite Ho', Ho|]. split; [done|]. split; [done|].
      destruct Hcases as [(-> & H)|((ex & ->) & H)]; [by left|right; split; [by eexists|done]].
  Qed.
End calls.
