(** * Repeating an insertion, whatever the files of its partitions *)
From Verif Require Import Py Dict NdArray_Model NdArray_Spec NdArray_Proofs Dataset_Model Dataset_Spec Dataset_Proofs Meta_Model Meta_Spec PartPath_Model PartPath_Proofs
  Split_Model Split_Spec DaskUtils_Model DaskUtils_Proofs FS_Model FS_Proofs Pool_Model Pool_Proofs Storage_Model Storage_Chunks Storage_Spec Storage_Proofs
  Listing_Model Listing_Spec Listing_Proofs Collection_Model Collection_Spec Collection_Split Collection_Proofs Collection_State Collection_Prepare Collection_Insert
  Collection_Crash Crash_Spec Retry_Spec Storage_Change Insert_Retry.

(** A call that returns has written the consolidated metadata. *)
Lemma exec_group_stamp d ds sc (s s' : store) : exec (write_zarr_group d ds sc) s = (Ok tt, s') -> is_Some (s' !! (d ++ [ZMETADATA])).
Proof.
  rewrite write_group_eq, exec_bind. destruct (exec (write_vars d ds sc) s) as [[?|?] s1]; [|done]. unfold write_meta.
  rewrite exec_bind, exec_write. cbv iota. rewrite exec_bind, exec_write. cbv iota. unfold consolidate. rewrite exec_bind, exec_get_tree, exec_bind.
  destruct (collect_meta _) as [m|?]; cbn [exec]; [|done]. rewrite exec_bind, exec_write. cbv iota. destruct (bool_decide _); [|done]. cbn. intros [= <-].
  rewrite lookup_insert. by eexists.
Qed.

Section again.
  Context (e : env) (c : collection) (Hr : regular e c) (part : dataset) (n : nat).
  Hypothesis Hp : sound part.
  Hypothesis Hn : dget (d_dims part) (c_dim c) = Some n.
  Local Notation fit := (fit e c n).
  Local Notation keys := (p_keys (c_part c)).
  Local Notation pdir ks := (part_dir c ks.1).
  Local Notation tdir ks := (temp_dir e (part_dir c ks.1)).
  Local Notation region ks := (part_region e (part_dir c ks.1)).
  Local Notation done_ := (done_ e c part).
  Local Notation same_region := (same_region e c).

  Definition stamped (w : store) (ks : list Z * (nat * nat)) : Prop := empty_at (pdir ks ++ [ZMETADATA]) w = false.
  (** A partition that does not make a call raise. *)
  Definition fine (w : store) (ks : list Z * (nat * nat)) : Prop := stamped w ks \/ sub (pdir ks) w = ∅.
  Definition tidy (w : store) (ks : list Z * (nat * nat)) : Prop := stamped w ks \/ (sub (pdir ks) w = ∅ /\ sub (tdir ks) w = ∅).
  (** What writing a partition does. *)
  Definition written (w : store) (ks : list Z * (nat * nat)) (r : bool) (w' : store) : Prop :=
    if r then stamped w' ks /\ (tidy w ks -> done_ w' ks) else ~ fine w ks /\ sub (pdir ks) w' = ∅.

  Lemma exec_one_any w inner ks : length ks.1 = length keys -> ks.2.1 <= ks.2.2 <= n ->
    exists r w', exec (insert_partition e inner c part None (key_dirs (c_part c) ks.1, ks.2)) w = (r, w') /\
      match r with Ok _ => written w ks true w' | Raise _ => written w ks false w' end.
  Proof using Hr Hp Hn.
    intros Hl Hb. destruct (exec _ w) as [r w'] eqn:E. exists r, w'. split; [done|]. revert E.
    destruct (piece_ok c part n Hp Hn ks Hb) as [Ep Hs].
    unfold written, fine, tidy, stamped. destruct (empty_at (pdir ks ++ [ZMETADATA]) w) eqn:Hz.
    - destruct (decide (sub (pdir ks) w = ∅)) as [D|D].
      + destruct (exec_one e c Hr part n Hp Hn w inner ks) as (r1 & w1 & E1 & Ho & Hbr); [right; right; rewrite D; by intros q x ?|done|done|].
        rewrite E1. intros [= -> ->]. assert (broken c w ks = false) as Hnb.
        { unfold broken, has. rewrite !(sub_present _ _ _ _ D), !lookup_empty. by rewrite andb_false_r. }
        rewrite Hnb in Hbr. subst r. split; [apply present_full; by eapply (outcome_good e c part w ks w')|]. intros [|[_ Ht]]; [done|].
        unfold outcome in Ho. rewrite Hz, Hnb, Ht in Ho. destruct Ho as (Ho1 & _ & Ho2). by split; [|apply Ho2].
      + unfold insert_partition. cbv zeta. cbn [fst snd]. fold (slice_of c ks.2). rewrite Ep. fold (part_dir c ks.1). set (d := part_dir c ks.1) in *.
        generalize (inner d) as sc. intros sc. rewrite exec_bind, exec_exists. cbv iota. rewrite Hz. cbn [negb]. rewrite exec_catch.
        destruct (exec (let! _ <- init_group d; let! piece <- Ret (Ok (piece_of c part ks)); write_zarr_group d piece (Some sc)) w) as [[[]|ex] w1] eqn:E1.
        * intros [= <- <-]. split; [|intros [|[? _]]; done]. rewrite exec_bind in E1. destruct (exec (init_group d) w) as [[?|?] w0]; [|done]. apply present_full.
          by apply (exec_group_stamp d (piece_of c part ks) (Some sc) w0).
        * cbn. intros [= <- <-]. split; [by intros [|]|]. apply map_eq. intros q. rewrite sub_lookup, prune_lookup, decide_True, lookup_empty by apply under_app. done.
    - destruct (exec_one e c Hr part n Hp Hn w inner ks) as (r1 & w1 & E1 & Ho & Hbr); [by left|done|done|].
      rewrite E1. intros [= -> ->]. unfold broken in Hbr. rewrite Hz in Hbr. cbn [andb] in Hbr. subst r.
      unfold outcome in Ho. rewrite Hz in Ho. split; [|done]. apply present_full. rewrite (sub_present _ _ _ _ (proj2 Ho)). apply tree_zmeta.
  Qed.

  Lemma same_stamped w w' ks : same_region w w' ks -> stamped w ks -> stamped w' ks.
  Proof. intros H. unfold stamped. by rewrite (same_empty e c w w' ks H). Qed.
  Lemma same_fine w w' ks : same_region w w' ks -> fine w ks -> fine w' ks.
  Proof. intros H [Hs|Hs]; [left; by apply (same_stamped w)|right]. destruct (same_sub e c w w' ks H) as [-> _]. done. Qed.
  Lemma same_tidy w w' ks : same_region w w' ks -> tidy w ks -> tidy w' ks.
  Proof. intros H [Hs|Hs]; [left; by apply (same_stamped w)|right]. by destruct (same_sub e c w w' ks H) as [-> ->]. Qed.
  Lemma same_done w w' ks : same_region w w' ks -> done_ w ks -> done_ w' ks.
  Proof. intros H. unfold Insert_Retry.done_. by destruct (same_sub e c w w' ks H) as [-> ->]. Qed.
  Lemma same_sym w w' ks : same_region w w' ks -> same_region w' w ks.
  Proof. intros H q Hq. by rewrite H. Qed.
  Lemma written_same w ks b u u' : same_region u u' ks -> written w ks b u -> written w ks b u'.
  Proof.
    intros H. unfold written. destruct b; intros [H1 H2].
    - split; [by apply (same_stamped u)|]. intros H3. by apply (same_done u); [|apply H2].
    - split; [done|]. by destruct (same_sub e c u u' ks H) as [-> _].
  Qed.

  (** ** A batch *)
  Lemma exec_batch_ever w sched inner l : fit l ->
    exists r w', exec (execute_transaction CTorn sched (tasks e c part None inner l)) w = (r, w') /\
      (forall ks, ks ∈ l -> fine w' ks) /\ (forall q, (forall ks, ks ∈ l -> ~ region ks q) -> w' !! q = w !! q) /\
      match r with
      | Ok _ => forall ks, ks ∈ l -> stamped w' ks /\ (tidy w ks -> done_ w' ks)
      | Raise _ => exists ks, ks ∈ l /\ ~ fine w ks
      end.
  Proof using Hr Hp Hn.
    intros Hf. pose proof (tasks_independent e c Hr part n None inner l Hf) as Hi.
    rewrite (exec_transaction CTorn sched _ (fun _ _ => False) (task_region e c l) w (task_region_dec e c l) Hi).
    destruct (exec_all_spec CTorn _ _ _ w Hi) as (E1 & E2 & E3). destruct (exec_all _ w) as [rs w']. cbn [fst snd] in *.
    assert (Hex : forall ks, ks ∈ l -> match (exec (insert_partition e inner c part None (key_dirs (c_part c) ks.1, ks.2)) w).1 with Ok _ => written w ks true w' | Raise _ => written w ks false w' end).
    { intros ks Hin. destruct (fit_len _ _ _ _ Hf _ Hin) as [Hl Hb]. destruct (exec_one_any w inner ks Hl Hb) as (r & u & Eu & H). rewrite Eu. cbn [fst].
      assert (same_region u w' ks) as Hsame.
      { intros q Hq. apply elem_of_list_lookup in Hin as (i & Ei).
        assert (Et : tasks e c part None inner l !! i = Some (insert_partition e inner c part None (key_dirs (c_part c) ks.1, ks.2))).
        { unfold tasks. rewrite map_map. change (map ?f l) with (f <$> l). by rewrite list_lookup_fmap, Ei. }
        rewrite (E2 i _ q Et) by (right; unfold task_region; by rewrite Ei). by rewrite Eu. }
      destruct r; by apply (written_same w ks _ u). }
    exists (first_error rs), w'. split; [done|]. split; [|split].
    - intros ks Hk. specialize (Hex ks Hk). destruct (exec _ w).1; destruct Hex as [H1 H2]; [by left|by right].
    - intros q Hq. apply E3. intros i p Ei Wi. apply tasks_lookup in Ei as (ks & Hk & _). unfold task_region in Wi. rewrite Hk in Wi.
      apply (Hq ks); [by eapply elem_of_list_lookup_2|done].
    - subst rs. unfold tasks. rewrite !map_map. clear E2 E3 Hf Hi. induction l as [|ks l IH]; [intros k Hk; by apply elem_of_nil in Hk|]. cbn [map first_error].
      specialize (IH (fun k Hk => Hex k ltac:(by right))). specialize (Hex ks ltac:(left)). cbn [fst snd].
      destruct (exec (insert_partition e inner c part None (key_dirs (c_part c) ks.1, ks.2)) w).1 as [a|ex].
      + destruct (first_error _) as [rs|ex]; cbn.
        * intros k [->|Hk]%elem_of_cons; [exact Hex|by apply IH].
        * destruct IH as (k & Hk & N). exists k. split; [by right|done].
      + exists ks. split; [left|]. apply Hex.
  Qed.

  (** ** The batches *)
  Lemma exec_run_ever scheds inner kbs : forall w g, fit (concat kbs) ->
    exists r w', exec (run_of e c part scheds inner g kbs) w = (r, w') /\ (forall q, (forall ks, ks ∈ concat kbs -> ~ region ks q) -> w' !! q = w !! q) /\
      match r with
      | Ok _ => forall ks, ks ∈ concat kbs -> stamped w' ks /\ (tidy w ks -> done_ w' ks)
      | Raise _ => exists pre b post, kbs = pre ++ b :: post /\ (exists ks, ks ∈ b /\ ~ fine w ks) /\ forall ks, ks ∈ concat pre ++ b -> fine w' ks
      end.
  Proof using Hr Hp Hn.
    induction kbs as [|b kbs IH]; intros w g Hf.
    - exists (Ok tt), w. split; [done|]. split; [done|]. intros ks H. by apply elem_of_nil in H.
    - cbn [concat] in *. destruct (fit_app e c n b (concat kbs) Hf) as (F1 & F2 & F3).
      destruct (exec_batch_ever w (scheds (g 0)) inner b F1) as (r1 & w1 & E1 & Hfi & Hout1 & Hr1).
      unfold run_of, pfor. cbn [map imap pseq fst snd]. rewrite !exec_bind.
      change (map (insert_partition e inner c part None) (map _ b)) with (tasks e c part None inner b). rewrite E1.
      destruct r1 as [a|ex].
      + assert (Hsame : forall ks, ks ∈ concat kbs -> same_region w w1 ks).
        { intros ks Hk q Hq. apply Hout1. intros ks' Hk'. apply (regions_disjoint e c Hr n (b ++ concat kbs) ks ks'); [done|apply elem_of_app; by right|apply elem_of_app; by left| |done].
          apply not_eq_sym. by apply F3. }
        destruct (IH w1 (g ∘ S) F2) as (r2 & w2 & E2 & Hout2 & Hr2).
        assert (Hsame2 : forall ks, ks ∈ b -> same_region w1 w2 ks).
        { intros ks Hk q Hq. apply Hout2. intros ks' Hk'. apply (regions_disjoint e c Hr n (b ++ concat kbs) ks ks'); [done|apply elem_of_app; by left|apply elem_of_app; by right| |done].
          by apply F3. }
        exists r2, w2. split.
        { unfold run_of, pfor in E2. rewrite exec_bind in E2. rewrite exec_bind. cbn [imap] in *.
          match type of E2 with context [exec (pseq ?l) _] => match goal with |- context [exec (pseq ?l') _] => change l' with l; destruct (exec (pseq l) w1) as [[?|?] ?] end end; exact E2. }
        split.
        { intros q Hq. rewrite Hout2 by (intros ks Hk; apply Hq, elem_of_app; by right). apply Hout1. intros ks Hk. apply Hq, elem_of_app. by left. }
        destruct r2 as [u|ex].
        * intros ks [Hk|Hk]%elem_of_app.
          -- destruct (Hr1 ks Hk) as [H1 H2]. split; [by apply (same_stamped w1); [apply Hsame2|]|]. intros H. apply (same_done w1); [by apply Hsame2|by apply H2].
          -- destruct (Hr2 ks Hk) as [H1 H2]. split; [done|]. intros H. apply H2. by apply (same_tidy w); [apply Hsame|].
        * destruct Hr2 as (pre & b' & post & -> & (ks & Hk & N) & Hfine). exists (b :: pre), b', post. split; [done|]. split.
          -- exists ks. split; [done|]. intros H. apply N. apply (same_fine w); [|done]. apply Hsame. rewrite concat_app. apply elem_of_app. right. cbn. apply elem_of_app. by left.
          -- cbn [concat]. rewrite <-app_assoc. intros k [Hkk|Hkk]%elem_of_app; [|by apply Hfine]. apply (same_fine w1); [by apply Hsame2|by apply Hfi].
      + exists (Raise ex), w1. split; [done|]. split; [intros q Hq; apply Hout1; intros ks Hk; apply Hq, elem_of_app; by left|].
        exists [], b, kbs. split; [done|]. split; [exact Hr1|]. exact Hfi.
  Qed.
End again.

Lemma split_suffix {A} (x : A) : forall pre post pre' post', pre ++ post = pre' ++ x :: post' -> x ∉ pre -> exists mid, post = mid ++ x :: post'.
Proof.
  induction pre as [|y pre IH]; intros post pre' post' E N; [by exists pre'|]. destruct pre' as [|z pre']; cbn in E; injection E as Ey E.
  - exfalso. apply N. subst. left.
  - apply (IH post pre' post' E). intros H. apply N. by right.
Qed.

(** ** The calls *)
Section calls.
  Context (e : env) (c : collection) (Hr : regular e c) (Hc : declared c).
  Context (ds : dataset) (rows : list (list Z)) (Hi : insertable e c ds rows None).
  Local Notation outside := (outside e c).

  Lemma again M I s scheds0 inner0 np validate dirs s' : represents c M I s -> is_Some I \/ c_immutable c = false ->
    exec (insert e scheds0 inner0 c ds None np validate) s = (Ok dirs, s') ->
    exists kbs, (forall v, v ∈ rows <-> exists sl, (v, sl) ∈ concat kbs) /\ length (concat kbs) = length dirs /\
      (forall ks, ks ∈ concat kbs -> length ks.1 = length (p_keys (c_part c))) /\
      (forall scheds inner w u, outside s kbs w -> stopped_at (insert e scheds inner c ds None np validate) w u -> outside s kbs u) /\
      (forall w (sc : nat -> nat -> schedule) (inn : nat -> path -> schedule), outside s kbs w -> let call k := insert e (sc k) (inn k) c ds None np validate in
         exists k, k <= length dirs /\ (forall j, j < k -> exists ex, exec (call j) (Retry_Spec.state_before call w j) = (Raise ex, Retry_Spec.state_before call w (S j))) /\
           (exec (call k) (Retry_Spec.state_before call w k)).1 = Ok dirs /\
           forall j, k < j -> exec (call j) (Retry_Spec.state_before call w j) = (Ok dirs, s')).
  Proof using Hr Hc Hi.
    intros Hs HI Hx. destruct (insert_parts e c Hr Hc ds rows Hi M I s scheds0 inner0 np validate dirs s' Hs HI Hx) as (part & kbs & Hp & Hn & Hf & Hrd & Hrows & Hcall & _ & Hlen & Hal).
    assert (Hkl : forall ks, ks ∈ concat kbs -> length ks.1 = length (p_keys (c_part c))) by (intros ks Hk; apply (fit_len _ _ _ _ Hf _ Hk)).
    assert (Hready : forall w, outside s kbs w -> ready c w).
    { intros w Hw Ei. rewrite <-(Hrd Ei). apply empty_at_agree. intros q (f & ->). apply Hw. intros ks Hk. apply (immutable_apart e c Hr). by apply Hkl. }
    exists kbs. split; [done|]. split; [done|]. split; [done|]. split.
    { intros scheds inner w u Hw [p' Hst]. pose proof (always_sound CTorn _ _ _ _ _ (Hal scheds inner w (Hready w Hw)) Hst) as H. intros q Hq. rewrite H by done. by apply Hw. }
    (* one call *)
    assert (Hone : forall sc inn w, outside s kbs w -> exists r w', exec (insert e sc inn c ds None np validate) w = (r, w') /\ outside s kbs w' /\
       ((r = Ok dirs /\ (forall ks, ks ∈ concat kbs -> stamped c w' ks /\ (tidy e c w ks -> done_ e c part w' ks))) \/
        ((exists ex, r = Raise ex) /\ exists pre b post, kbs = pre ++ b :: post /\ (exists ks, ks ∈ b /\ ~ fine c w ks) /\ forall ks, ks ∈ concat pre ++ b -> fine c w' ks))).
    { intros sc inn w Hw. rewrite (Hcall sc inn w (Hready w Hw)). destruct (exec_run_ever e c Hr part (length rows) Hp Hn sc inn kbs w (fun i => i) Hf) as (r & w' & E & Hout & Hcase).
      rewrite E. unfold finished. cbn [fst snd]. eexists _, _. split; [reflexivity|]. split; [intros q Hq; rewrite Hout by done; by apply Hw|].
      destruct r as [u|ex]; [by left|right]. split; [by eexists|exact Hcase]. }
    assert (Hdone : forall w, outside s kbs w -> (forall ks, ks ∈ concat kbs -> done_ e c part w ks) -> forall w', outside s kbs w' -> (forall ks, ks ∈ concat kbs -> done_ e c part w' ks) -> w = w').
    { intros w Ho Hd w' Ho' Hd'. apply map_eq. intros q. destruct (decide (Exists (fun ks => under (part_dir c ks.1) q \/ under (temp_dir e (part_dir c ks.1)) q) (concat kbs))) as [X|X].
      - apply Exists_exists in X as (ks & Hk & [(f & ->)|(f & ->)]); destruct (Hd ks Hk) as [D1 D2], (Hd' ks Hk) as [D3 D4].
        + by rewrite <-!(sub_lookup (part_dir c ks.1)), D2, D4.
        + by rewrite <-!(sub_lookup (temp_dir e (part_dir c ks.1))), D1, D3.
      - assert (forall ks, ks ∈ concat kbs -> ~ part_region e (part_dir c ks.1) q) as N; [|by rewrite Ho, Ho'].
        intros ks Hk Hreg. apply X, Exists_exists. exists ks. split; [done|exact Hreg]. }
    (* what the first call leaves *)
    assert (Hs' : outside s kbs s' /\ forall ks, ks ∈ concat kbs -> done_ e c part s' ks).
    { destruct (Hone scheds0 inner0 s) as (r & w' & E & Ho & Hcase); [by intros q _|]. rewrite Hx in E. injection E as <- <-. split; [done|].
      destruct Hcase as [(_ & H)|((ex & [=]) & _)]. intros ks Hk. apply H; [done|]. destruct (M ks.1) as [d|] eqn:EM.
      - left. apply present_full. by apply (present_zmeta c M I s ks.1 d).
      - right. split; apply nothing_sub; [apply (part_nothing e c Hr M I s _ Hs (Hkl ks Hk) EM)|apply (temp_nothing e c Hr M I s ks.1 Hs)]. }
    destruct Hs' as [Ho' Hd'].
    assert (Hlast : forall sc inn w, outside s kbs w -> (forall ks, ks ∈ concat kbs -> stamped c w ks) -> exec (insert e sc inn c ds None np validate) w = (Ok dirs, s')).
    { intros sc inn w Hw Hz. destruct (Hone sc inn w Hw) as (r & w' & E & Hw' & [(-> & H)|(_ & pre & b & post & -> & (ks & Hk & N) & _)]).
      - rewrite E. f_equal. apply Hdone; [done| |done|done]. intros ks Hk. apply H; [done|]. left. by apply Hz.
      - exfalso. apply N. left. apply Hz. rewrite concat_app. apply elem_of_app. right. cbn. apply elem_of_app. by left. }
    assert (Hs'z : forall ks, ks ∈ concat kbs -> stamped c s' ks).
    { intros ks Hk. apply present_full. rewrite (sub_present _ _ _ _ (proj2 (Hd' ks Hk))). apply tree_zmeta. }
    intros w sc inn Hw call. rewrite <-Hlen.
    (* the batches before the one that made the last call raise are fine *)
    cut (forall m i v, Retry_Spec.state_before call w i = v -> outside s kbs v ->
       (exists pre post, kbs = pre ++ post /\ (forall ks, ks ∈ concat pre -> fine c v ks) /\ length (concat post) <= m) ->
       exists k, i <= k <= i + m /\ (forall j, i <= j < k -> exists ex, exec (call j) (Retry_Spec.state_before call w j) = (Raise ex, Retry_Spec.state_before call w (S j))) /\
         (exec (call k) (Retry_Spec.state_before call w k)).1 = Ok dirs /\
         forall j, k < j -> exec (call j) (Retry_Spec.state_before call w j) = (Ok dirs, s')).
    { intros H. destruct (H (length (concat kbs)) 0 w eq_refl Hw) as (k & Hk & H1 & H2 & H3).
      - exists [], kbs. split; [done|]. split; [|done]. intros ks Hk. by apply elem_of_nil in Hk.
      - exists k. split; [lia|]. split; [intros j Hj; apply H1; lia|]. done. }
    induction m as [m IH] using lt_wf_ind. intros i v Ev Hv (pre & post & Ekb & Hfine & Hm).
    destruct (Hone (sc i) (inn i) v Hv) as (r & v' & E & Hv' & Hcase). fold (call i) in E.
    assert (Es : Retry_Spec.state_before call w (S i) = v') by (cbn [Retry_Spec.state_before]; by rewrite Ev, E).
    destruct Hcase as [(-> & H)|((ex & ->) & pre' & b & post' & Ekb' & (ks & Hk & N) & Hf')].
    - exists i. split; [lia|]. split; [lia|]. split; [by rewrite Ev, E|]. intros j Hj. induction Hj as [|j Hj IHj].
      + rewrite Es. apply Hlast; [done|]. intros ks Hk. by apply H.
      + cbn [Retry_Spec.state_before]. rewrite IHj. cbn [snd]. apply Hlast; done.
    - rewrite Ekb in Ekb'. apply split_suffix in Ekb' as Hmid.
      2:{ intros Hin. apply N, Hfine. apply elem_of_list_In, in_concat. exists b. split; by apply elem_of_list_In. }
      destruct Hmid as (mid & ->). assert (Hlt : length (concat post') < m).
      { rewrite concat_app in Hm. cbn [concat] in Hm. rewrite !app_length in Hm. destruct b; [by apply elem_of_nil in Hk|cbn in Hm; lia]. }
      destruct (IH (length (concat post')) Hlt (S i) v' Es Hv') as (k & Hk1 & H1 & H2 & H3).
      { exists (pre' ++ [b]), post'. rewrite Ekb, Ekb', <-app_assoc. split; [done|]. split; [|done]. rewrite concat_app. cbn [concat]. by rewrite app_nil_r. }
      exists k. split; [lia|]. split; [|done]. intros j Hj. destruct (decide (j = i)) as [->|]; [|apply H1; lia]. exists ex. by rewrite Es, Ev, E.
  Qed.
End calls.
