(** * What an interrupted insertion leaves *)
From Verif Require Import Py Dict NdArray_Model NdArray_Spec NdArray_Proofs Dataset_Model Dataset_Spec Dataset_Proofs Dataset_Props Dataset_Props2 Meta_Model Meta_Spec Meta_Props PartPath_Model PartPath_Proofs
  Split_Model Split_Spec DaskUtils_Model DaskUtils_Proofs DaskUtils_Props FS_Model FS_Proofs Pool_Model Pool_Proofs Storage_Model Storage_Chunks Storage_Spec Storage_Proofs
  Listing_Model Listing_Spec Listing_Proofs Collection_Model Collection_Spec Collection_Split Collection_Proofs Collection_State Collection_Prepare Collection_Insert.

(** ** Programs that only read *)
Lemma always_read {A : Type} (Phi : store -> Prop) (p : program A) (s : store) : within (fun _ => True) (fun _ => False) p -> Phi s -> always CTorn Phi p s.
Proof.
  intros Hw H. eapply always_impl; [|by apply (always_region CTorn (fun _ => True) (fun _ => False))].
  intros u Hu. assert (u = s) as -> by (apply map_eq; intros q; apply Hu; tauto). done.
Qed.
Lemma always_exists (Phi : store -> Prop) q (s : store) : Phi s -> always CTorn Phi (exists_path q) s.
Proof. intros H. apply always_read; [|done]. apply within_exists. auto. Qed.
Lemma always_within {A : Type} (W : path -> Prop) (Phi : store -> Prop) (p : program A) (s s0 : store) :
  within (fun _ => True) W p -> (forall q, ~ W q -> s !! q = s0 !! q) -> (forall u : store, (forall q, ~ W q -> u !! q = s0 !! q) -> Phi u) -> always CTorn Phi p s.
Proof.
  intros Hw Hs H. eapply always_impl; [|by apply (always_region CTorn (fun _ => True) W)]. intros u Hu. apply H. intros q Hq. rewrite Hu by done. by apply Hs.
Qed.

(** ** A group written at a place where there is nothing *)
Lemma always_init_group (Phi : store -> Prop) d (s : store) : nothing_at d s -> Phi s -> (forall x, Phi (<[d ++ [ZGROUP] := x]> s)) -> always CTorn Phi (init_group d) s.
Proof.
  intros Hn H1 H2. unfold init_group. apply always_bind; [apply always_read; [apply within_read_file; auto|done]|].
  intros a s' E. rewrite exec_read_file in E. injection E as <- <-. apply always_bind; [apply always_read; [apply within_read_file; auto|done]|].
  intros g s' E. rewrite exec_read_file in E. injection E as <- <-.
  rewrite !Hn by apply under_app. rewrite !bool_decide_eq_false_2 by (by intros [? ?]).
  unfold write_file. cbn [always mid exec_op fst snd pret]. auto.
Qed.
Lemma always_group_mark d ds sched (s : store) : storable ds -> fresh_at d s -> is_Some (s !! (d ++ [ZGROUP])) ->
  always CTorn (fun u : store => is_Some (u !! (d ++ [ZGROUP]))) (write_zarr_group d ds (Some sched)) s.
Proof.
  intros Hs Hf Hg. rewrite write_group_eq.
  assert (Hw : within (fun _ => True) (fun q => q <> d ++ [ZGROUP]) (write_vars d ds (Some sched))).
  { cbn [write_vars]. apply within_transaction. intros p Hp. apply elem_of_list_In, in_map_iff in Hp as ([n v] & <- & Hin). apply elem_of_list_In in Hin.
    destruct (storable_elem ds n v Hs Hin) as (Hn & _ & _ & Hpl). apply within_write_variable; [done|]. intros q (t & ->).
    rewrite <-app_assoc. intros E. apply app_inv_head in E. injection E as -> _. apply Hpl. set_solver. }
  apply always_bind.
  - eapply always_within; [exact Hw|reflexivity|]. intros u Hu. rewrite Hu by (intros N; by apply N). done.
  - intros l s' E. assert (Hg' : is_Some (s' !! (d ++ [ZGROUP]))).
    { pose proof (exec_outside _ _ _ s (d ++ [ZGROUP]) Hw) as Ho. rewrite E in Ho. cbn [snd] in Ho. rewrite Ho by (intros N; by apply N). done. }
    assert (Hi : forall q (x : content) (u : store), is_Some (u !! (d ++ [ZGROUP])) -> is_Some (<[q := x]> u !! (d ++ [ZGROUP]))).
    { intros q x u Hu. destruct (decide (q = d ++ [ZGROUP])) as [->|N]; [rewrite lookup_insert; by eexists|by rewrite lookup_insert_ne]. }
    clear E Hw. unfold write_meta, consolidate, write_file, get_tree. cbn [pbind pret always mid exec_op fst snd].
    split_and!; try done; try by apply Hi. all: try (by repeat apply Hi).
    destruct (collect_meta _) as [m|e]; cbn [pbind pret always mid exec_op fst snd]; [|split; [by repeat apply Hi|done]].
    split_and!; try (by repeat apply Hi). destruct (bool_decide _); cbn [pret praise always]; (split; [by repeat apply Hi|done]).
Qed.

(** No file is written below the consolidated metadata. *)
Lemma within_not_below d ds sched : storable ds ->
  within (fun _ => True) (fun q => ~ exists x t, q = d ++ ZMETADATA :: x :: t) (write_zarr_group d ds (Some sched)).
Proof.
  intros Hs. rewrite write_group_eq. apply within_bind.
  - cbn [write_vars]. apply within_transaction. intros p Hp. apply elem_of_list_In, in_map_iff in Hp as ([n v] & <- & Hin). apply elem_of_list_In in Hin.
    destruct (storable_elem ds n v Hs Hin) as (Hn & _ & _ & Hpl). apply within_write_variable; [done|]. intros q (t & ->) (x & t' & E).
    rewrite <-app_assoc in E. apply app_inv_head in E. injection E as -> _. apply Hpl. set_solver.
  - intros _. assert (Hx : forall n, ~ exists x t, d ++ [n] = d ++ ZMETADATA :: x :: t) by (intros n (x & t & E); by apply app_inv_head in E).
    unfold write_meta. apply within_bind; [by apply within_write|]. intros _. apply within_bind; [by apply within_write|]. intros _.
    unfold consolidate. apply within_bind; [apply within_get_tree; auto|]. intros t. apply within_bind; [done|]. intros m.
    apply within_bind; [by apply within_write|]. intros _. by destruct (bool_decide _).
Qed.

(** The states of the directory [d] while it receives the dataset [new], from
    the state [s]; [t] is the temporary directory. *)
Definition stage (d t : path) (s : store) (new : res dataset) (u : store) : Prop :=
  sub d u = sub d s \/
  exists ds, new = Ok ds /\
    ((nothing_at d s /\ nothing_at (d ++ [ZMETADATA]) u /\ is_Some (u !! (d ++ [ZGROUP]))) \/
     (nothing_at d s /\ sub d u = <[[ZMETADATA] := CTorn]> (body_tree ds)) \/
     (~ nothing_at d s /\ partly_removed [] (sub d s) (sub d u) /\ sub t u = group_tree ds) \/
     sub d u = group_tree ds).
Lemma stage_local d t s new : local (fun q => False \/ (under d q \/ under t q)) (stage d t s new).
Proof.
  intros u u' Ha. assert (Hs : sub d u' = sub d u /\ sub t u' = sub t u).
  { split; apply map_eq; intros q; rewrite !sub_lookup; symmetry; apply Ha; right; [left|right]; apply under_app. }
  destruct Hs as [Hd Ht]. unfold stage. rewrite Hd, Ht. rewrite <-!(sub_lookup d u'), <-!(sub_lookup d u), Hd.
  assert (Hn : nothing_at (d ++ [ZMETADATA]) u <-> nothing_at (d ++ [ZMETADATA]) u'); [|by setoid_rewrite Hn].
  unfold nothing_at. split; intros H q Hq; rewrite <-(H q Hq); [symmetry|]; apply Ha; right; left; by eapply under_snoc.
Qed.
Lemma stage_same d t s s' new u : sub d s' = sub d s -> stage d t s' new u <-> stage d t s new u.
Proof.
  intros E. unfold stage. rewrite E. assert (Hn : nothing_at d s' <-> nothing_at d s); [|by setoid_rewrite Hn].
  unfold nothing_at. split; intros H q (x & ->); rewrite <-sub_lookup; [rewrite <-E|rewrite E]; rewrite sub_lookup; apply H, under_app.
Qed.

Lemma always_new d t ds sc (s : store) : storable ds -> nothing_at d s ->
  always CTorn (stage d t s (Ok ds)) (let! _ <- init_group d; write_zarr_group d ds (Some sc)) s.
Proof.
  intros Hs Hn. assert (Hz : s !! (d ++ [ZMETADATA]) = None) by apply Hn, under_app.
  assert (N : d ++ [ZGROUP] <> d ++ [ZMETADATA]) by (intros E; by apply app_inv_head in E).
  apply always_bind.
  - apply always_init_group; [done|by left|]. intros x. right. exists ds. split; [done|]. left. split_and!; [done| |].
    + intros q Hq. rewrite lookup_insert_ne; [apply Hn; by eapply under_snoc|]. intros <-. destruct Hq as (y & Ey). rewrite <-app_assoc in Ey. by apply app_inv_head in Ey.
    + rewrite lookup_insert. by eexists.
  - intros [] s' E. rewrite exec_init_group in E by done. injection E as <-.
    assert (Hf : fresh_at d (<[d ++ [ZGROUP] := CMeta MGroup]> s)).
    { intros q x. destruct (decide (q = [ZGROUP])) as [->|Nq]; [done|]. rewrite lookup_insert_ne by (intros E'; by apply app_inv_head in E').
      rewrite Hn by apply under_app. done. }
    eapply always_impl; [|apply always_and; [by apply (always_write_group d ds (Some sc) _ Hs Hf)|apply always_and;
      [apply (always_group_mark d ds sc _ Hs Hf); rewrite lookup_insert; by eexists|eapply (always_region CTorn (fun _ => True)), (within_not_below d ds sc Hs)]]].
    intros u [[H|[H|H]] [Hg Hb]]; right; exists ds; (split; [done|]); [left|by right; left|by right; right; right].
    split_and!; [done| |done]. intros q (y & ->). destruct y as [|y t']; [by rewrite app_nil_r|]. rewrite <-app_assoc. cbn [app]. rewrite Hb.
    + rewrite lookup_insert_ne; [apply Hn, under_app|]. intros E'. by apply app_inv_head in E'.
    + intros Hneg. apply Hneg. by exists y, t'.
Qed.

Lemma always_replace e d ds sc (s : store) : storable ds -> ~ nothing_at d s -> nothing_at (temp_dir e d) s -> apart d (temp_dir e d) ->
  always CTorn (stage d (temp_dir e d) s (Ok ds)) (update_fs e sc d ds) s.
Proof.
  intros Hs Hd Ht Ha. unfold update_fs. cbv zeta. set (t := temp_dir e d) in *. clearbody t.
  assert (Hleft : forall u : store, (forall q, ~ under t q -> u !! q = s !! q) -> stage d t s (Ok ds) u).
  { intros u Hu. left. apply map_eq. intros q. rewrite !sub_lookup. apply Hu. intros U. apply (Ha (d ++ q)); [apply under_app|done]. }
  assert (H0 : stage d t s (Ok ds) s) by by left.
  apply always_bind; [by apply always_exists|]. intros x s' E. rewrite exec_exists in E. rewrite (proj1 (nothing_empty _ _) Ht) in E. injection E as <- <-. cbn [negb].
  apply always_bind; [by cbn|]. intros x s' E. cbn in E. injection E as _ <-.
  assert (Hf : fresh_at t (<[t ++ [ZGROUP] := CMeta MGroup]> s)).
  { intros q x0. destruct (decide (q = [ZGROUP])) as [->|Nq]; [done|]. rewrite lookup_insert_ne by (intros E'; by apply app_inv_head in E').
    rewrite Ht by apply under_app. done. }
  assert (Hi : forall x q, ~ under t q -> (<[t ++ [ZGROUP] := x]> s : store) !! q = s !! q).
  { intros x0 q Hq. rewrite lookup_insert_ne; [done|]. intros <-. apply Hq, under_app. }
  apply always_bind; [apply always_init_group; [done|done|]; intros; by apply Hleft, Hi|]. intros [] s' E. rewrite exec_init_group in E by done. injection E as <-.
  apply always_bind.
  - apply always_catch; [|intros ex s' E; rewrite exec_write_group in E by done; done].
    eapply always_within; [apply (within_write_group_any (fun _ => True) (under t)); auto| |exact Hleft]. by apply Hi.
  - intros [] s' E. rewrite exec_catch, exec_write_group in E by done. injection E as <-. rewrite prune_insert.
    assert (Et : sub t (graft t (group_tree ds) (prune t s)) = group_tree ds) by (apply map_eq; intros q; by rewrite sub_lookup, graft_lookup_under).
    assert (Ed : sub d (graft t (group_tree ds) (prune t s)) = sub d s).
    { apply map_eq; intros q. assert (~ under t (d ++ q)) by (intros U; apply (Ha (d ++ q)); [apply under_app|done]).
      by rewrite !sub_lookup, graft_lookup_out, prune_lookup, decide_False. }
    set (s2 := graft t (group_tree ds) (prune t s)) in *.
    assert (Hp : forall u : store, partly_removed d s2 u -> stage d t s (Ok ds) u).
    { intros u Hu. right. exists ds. split; [done|]. right. right. left. split_and!; [done| |].
      - intros q. rewrite <-Ed, !sub_lookup. destruct (Hu (d ++ q)) as [|[_ ?]]; [by left|right]. split; [by exists q|done].
      - rewrite <-Et. apply map_eq. intros q. rewrite !sub_lookup. destruct (Hu (t ++ q)) as [|[U _]]; [done|].
        exfalso. apply (Ha (t ++ q)); [done|apply under_app]. }
    assert (H2 : stage d t s (Ok ds) s2) by (by left).
    assert (Hpr : partly_removed d s2 (prune d s2)).
    { intros q. rewrite prune_lookup. destruct (decide _); [right|left]; done. }
    unfold rename, rmtree, move. cbn [pbind pret always mid exec_op fst snd]. split; [exact H2|]. split; [exact Hp|]. split; [by apply Hp|]. split; [done|].
    { assert (Et' : sub t (prune d s2) = group_tree ds).
      { rewrite <-Et. apply map_eq. intros q. rewrite !sub_lookup, prune_lookup, decide_False; [done|]. intros U. apply (Ha (t ++ q)); [done|apply under_app]. }
      assert (empty_at t (prune d s2) = false) as ->.
      { apply empty_at_false. exists (t ++ [ZMETADATA]), (CCons (metas (body_tree ds))). split; [apply under_app|].
        rewrite <-sub_lookup, Et'. unfold group_tree. by rewrite lookup_insert. }
      assert (empty_at d (prune t (prune d s2)) = true) as ->.
      { apply empty_at_true. intros q Hq. rewrite prune_lookup. destruct (decide _); [done|]. by rewrite prune_lookup, decide_True. }
      cbn [fst snd]. rewrite Et'. cbn. split; [|done]. right. exists ds. split; [done|]. do 3 right.
      apply map_eq. intros q. by rewrite prune_prune_comm, sub_lookup, graft_lookup_under. }
Qed.

Section crash.
  Context (e : env) (c : collection) (Hr : regular e c) (ds : dataset) (n : nat) (merge : option merge_callable).
  Hypothesis Hds : sound ds.
  Hypothesis Hn : dget (d_dims ds) (c_dim c) = Some n.
  Hypothesis Hm : merges_sound c merge.
  Local Notation fit := (fit e c n).
  Local Notation patch := (patch c ds merge).
  Local Notation new_of := (new_of c ds merge).
  Local Notation keys := (p_keys (c_part c)).
  Local Notation pdir ks := (part_dir c ks.1).
  Local Notation tdir ks := (temp_dir e (part_dir c ks.1)).

  Definition part_stage (s : store) (ks : list Z * (nat * nat)) (u : store) : Prop := stage (pdir ks) (tdir ks) s (new_of s ks.1 ks.2) u.

  Lemma always_insert_partition M I s inner values sl : represents c M I s -> length values = length keys -> sl.1 <= sl.2 <= n ->
    always CTorn (part_stage s (values, sl)) (insert_partition e inner c ds merge (key_dirs (c_part c) values, sl)) s.
  Proof.
    intros Hs Hl Hsl. pose proof (new_of_spec e c Hr ds n merge Hds Hn Hm M I s values sl Hs Hl Hsl) as Hnew.
    unfold part_stage. cbn [fst snd]. unfold Collection_State.new_of in *.
    destruct (slice_ok c ds n Hds Hn sl Hsl) as (piece & E & Hp & Hrel & _). rewrite E in *. cbn [rbind] in *.
    unfold insert_partition. cbv zeta. cbn [fst snd]. fold (slice_of c sl). rewrite E. fold (part_dir c values). set (d := part_dir c values) in *.
    generalize (inner d) as sc. intros sc.
    apply always_bind; [apply always_exists; by left|]. intros x s' Ex. rewrite exec_exists in Ex. injection Ex as <- <-.
    destruct (M values) as [old|] eqn:EM.
    - destruct (rp_part _ _ _ _ Hs _ _ EM) as (_ & Ho & Hh). fold d in Hh.
      assert (empty_at (d ++ [ZMETADATA]) s = false) as ->.
      { apply empty_at_false. exists (d ++ [ZMETADATA]), (CCons (metas (sub d s))). split; [apply under_refl|].
        rewrite <-sub_lookup. apply Hh. }
      assert (Hne : empty_at d s = false).
      { apply empty_at_false. exists (d ++ [ZGROUP]), (CMeta MGroup). split; [apply under_app|].
        rewrite <-sub_lookup. apply Hh. }
      assert (Hnn : ~ nothing_at d s) by (rewrite nothing_empty; congruence).
      cbn [negb]. cbn [pbind]. unfold perform.
      pose proof (temp_apart e c Hr values values Hl) as Hap. fold d in Hap.
      pose proof (temp_nothing e c Hr M I s values Hs) as Htn. fold d in Htn.
      assert (Hup : forall new, sound new -> always CTorn (stage d (temp_dir e d) s (Ok new)) (update_fs e sc d new) s).
      { intros new [Hst _]. by apply always_replace. }
      destruct merge as [f|].
      + rewrite Hne in Hnew |- *. unfold open_zarr_group.
        destruct (holds_reads _ _ (d_delayed ds) None Ho Hh) as (o' & E' & Ho'). rewrite E' in Hnew |- *. cbn [rbind] in Hnew |- *.
        unfold get_tree. cbn [pbind pret always mid exec_op fst snd]. rewrite E'. cbn [pbind]. split; [by left|]. split; [done|].
        destruct (f _ _ _ _) as [new|ex]; cbn [pbind]; [by apply Hup, Hnew|]. cbn. split; [by left|done].
      + cbn [pbind pret]. apply Hup, Hnew.
    - pose proof (part_nothing e c Hr M I s values Hs Hl EM) as Hno. fold d in Hno.
      assert (empty_at (d ++ [ZMETADATA]) s = true) as ->.
      { apply nothing_empty. intros q Hq. apply Hno. by eapply under_snoc. }
      cbn [negb].
      assert (Hnew' : (match merge with Some f => if empty_at d s then Ok piece else
         do o <- read_group (sub d s) (d_delayed ds) None; f (ds_copy_properties o piece) piece (c_axis c) (c_dim c) | None => Ok piece end) = Ok piece).
      { destruct merge; [|done]. by rewrite (proj1 (nothing_empty d s) Hno). }
      rewrite Hnew'.
      assert (Hw := exec_write_new d piece (Some sc) s (sound_storable _ Hp) Hno).
      pose proof (always_new d (temp_dir e d) piece sc s (sound_storable _ Hp) Hno) as Ha.
      apply always_catch; [exact Ha|]. intros ex s' Ex. exfalso.
      change (exec (let! _ <- init_group d; write_zarr_group d piece (Some sc)) s = (Raise ex, s')) in Ex. by rewrite Hw in Ex.
  Qed.

  (** ** A batch *)
  Lemma regions_apart (ks ks' : list Z * (nat * nat)) q : length ks.1 = length keys -> length ks'.1 = length keys -> ks.1 <> ks'.1 ->
    under (pdir ks) q -> ~ part_region e (pdir ks') q.
  Proof.
    intros Hl Hl' N U [U'|U'].
    - by apply (parts_apart c ks.1 ks'.1 Hl Hl' N q).
    - by apply (temp_apart e c Hr ks.1 ks'.1 Hl q).
  Qed.
  Definition batch_stage (s : store) (kparts : list (list Z * (nat * nat))) (u : store) : Prop :=
    (forall ks, ks ∈ kparts -> part_stage s ks u) /\ (forall q, (forall ks, ks ∈ kparts -> ~ part_region e (pdir ks) q) -> u !! q = s !! q).
  Lemma always_batch M I s sched inner kparts : represents c M I s -> fit kparts ->
    always CTorn (batch_stage s kparts) (execute_transaction CTorn sched (tasks e c ds merge inner kparts)) s.
  Proof.
    intros Hs Hf.
    assert (Hlen : length (tasks e c ds merge inner kparts) = length kparts) by (unfold tasks; by rewrite !map_length).
    eapply always_impl; [|apply (always_transaction CTorn sched _ _ _ (fun i u => match kparts !! i with Some ks => part_stage s ks u | None => True end) s
       (tasks_independent e c Hr ds n merge inner kparts Hf))].
    - intros u [H1 H2]. split.
      + intros ks [i Hi]%elem_of_list_lookup. assert (Hlt : i < length (tasks e c ds merge inner kparts)) by (rewrite Hlen; by eapply lookup_lt_Some).
        specialize (H1 i Hlt). by rewrite Hi in H1.
      + intros q Hq. apply H2. intros i Hi W. unfold task_region in W. destruct (kparts !! i) as [ks|] eqn:E; [|done].
        apply (Hq ks); [by eapply elem_of_list_lookup_2|done].
    - intros i Hi u u' Ha. unfold task_region in Ha. destruct (kparts !! i) as [ks|]; [|done]. by apply stage_local.
    - intros i p Ei. apply tasks_lookup in Ei as (ks & Hi & ->). rewrite Hi. assert (Hin : ks ∈ kparts) by (by eapply elem_of_list_lookup_2).
      destruct (fit_len _ _ _ _ Hf _ Hin) as [Hl Hb]. destruct ks as [v sl]. by eapply always_insert_partition.
  Qed.

  (** ** The batches *)
  Lemma batch_stage_before s a b u : fit (a ++ b) -> batch_stage s a u -> batch_stage s (a ++ b) u.
  Proof.
    intros Hf [H1 H2]. destruct (fit_app e c n a b Hf) as (F1 & F2 & F3). split.
    - intros ks [Hin|Hin]%elem_of_app; [by apply H1|]. left. apply map_eq. intros q. rewrite !sub_lookup. apply H2. intros k Hk.
      apply (regions_apart ks k); [by apply (fit_len _ _ _ _ F2)|by apply (fit_len _ _ _ _ F1)| |apply under_app]. apply not_eq_sym. by apply F3.
    - intros q Hq. apply H2. intros ks Hin. apply Hq, elem_of_app. by left.
  Qed.
  Lemma batch_stage_after s a b u : fit (a ++ b) -> batch_stage (patch s a) b u -> batch_stage s (a ++ b) u.
  Proof.
    intros Hf [H1 H2]. destruct (fit_app e c n a b Hf) as (F1 & F2 & F3). split.
    - intros ks [Hin|Hin]%elem_of_app.
      + assert (Hu : sub (pdir ks) u = sub (pdir ks) (patch s a)).
        { apply map_eq. intros q. rewrite !sub_lookup. apply H2. intros k Hk.
          apply (regions_apart ks k); [by apply (fit_len _ _ _ _ F1)|by apply (fit_len _ _ _ _ F2)| |apply under_app]. by apply F3. }
        unfold part_stage, stage. rewrite Hu, (sub_patch_in e c ds n merge s a ks F1 Hin).
        destruct (new_of s ks.1 ks.2) as [new|]; [right; exists new; split; [done|]; by do 3 right|by left].
      + specialize (H1 ks Hin). unfold part_stage in *. rewrite (new_of_patch e c ds n merge s a b ks Hf Hin) in H1.
        rewrite stage_same in H1; [done|]. apply sub_patch_out. intros k Hk. by eapply fits_apart.
    - intros q Hq. rewrite H2 by (intros ks Hin; apply Hq, elem_of_app; by right). apply patch_out. intros ks Hin U. apply (Hq ks); [apply elem_of_app; by left|by left].
  Qed.
  Lemma always_batches I scheds inner kbs : forall M s (g : nat -> nat), represents c M I s -> fit (concat kbs) ->
    always CTorn (batch_stage s (concat kbs)) (pseq (map (fun ib => execute_transaction CTorn (scheds ib.1) (map (insert_partition e inner c ds merge) ib.2))
      (imap (fun i b => (g i, b)) (map (map (fun ks => (key_dirs (c_part c) ks.1, ks.2))) kbs)))) s.
  Proof.
    induction kbs as [|b kbs IH]; intros M s g Hs Hf.
    - cbn. split; [|done]. split; [intros ks H; by apply elem_of_nil in H|done].
    - cbn [concat] in Hf |- *. destruct (fit_app e c n b (concat kbs) Hf) as (F1 & F2 & F3).
      cbn [map imap pseq fst snd]. change (map (insert_partition e inner c ds merge) (map _ b)) with (tasks e c ds merge inner b).
      apply always_bind.
      + eapply always_impl; [intros u; by apply batch_stage_before|]. by eapply always_batch.
      + intros us s' E. rewrite (exec_batch e c Hr ds n merge Hds Hn Hm M I s (scheds (g 0)) inner b Hs F1) in E. injection E as _ <-.
        assert (Hend : forall {X : Type} (r : res X), always CTorn (batch_stage s (b ++ concat kbs)) (Ret r) (patch s b)).
        { intros X r. cbn. split; [|done]. apply batch_stage_after; [done|]. split; [|done]. intros ks Hin. by left. }
        pose proof (IH (after c ds merge M s b) (patch s b) (g ∘ S) (represents_patch e c Hr ds n merge Hds Hn Hm M I s b Hs F1) F2) as H.
        eapply (always_impl CTorn _ (batch_stage s (b ++ concat kbs))) in H; [|intros u; by apply batch_stage_after].
        apply always_bind; [exact H|]. intros us' s' E. cbn. split; [|done].
        match type of E with exec ?p ?s0 = _ => pose proof (exec_steps CTorn p s0) as Hst end. rewrite E in Hst. exact (always_sound CTorn _ _ _ _ _ H Hst).
  Qed.
End crash.

(** ** The whole insertion *)
Lemma always_pbind_end {A B : Type} (Phi : store -> Prop) (p : program A) (r : A -> res B) (s : store) :
  always CTorn Phi p s -> always CTorn Phi (let! a <- p; Ret (r a)) s.
Proof.
  intros H. apply always_bind; [exact H|]. intros a s' E. cbn. split; [|done]. pose proof (exec_steps CTorn p s) as Hst. rewrite E in Hst. exact (always_sound CTorn _ _ _ _ _ H Hst).
Qed.
Section insert_crash.
  Context (e : env) (c : collection) (Hr : regular e c) (Hc : declared c).
  Context (ds : dataset) (rows : list (list Z)) (merge : option merge_callable) (Hi : insertable e c ds rows merge).

  (** The insertion is preparing the immutable group, or writing partitions. *)
  Definition under_way (M : list Z -> option dataset) (I : option dataset) (s u : store) : Prop :=
    ((forall q, ~ under (c_dir c ++ [IMMUTABLE]) q -> u !! q = s !! q) /\ (is_Some I \/ c_immutable c = false -> u = s)) \/
    exists part I' s1 kparts, sound part /\ fitted c (moving c) ds part /\ represents c M I' s1 /\
      (forall q, ~ under (c_dir c ++ [IMMUTABLE]) q -> s1 !! q = s !! q) /\ kept c ds I I' /\ (is_Some I \/ c_immutable c = false -> s1 = s) /\
      keyed_slices rows kparts /\ files_every_record_once rows kparts /\ batch_stage e c part merge s1 kparts u.

  Lemma within_insert_immutable out : within (fun _ => True) (under (c_dir c ++ [IMMUTABLE])) (insert_immutable c out).
  Proof.
    unfold insert_immutable. destruct (c_immutable c); [|done]. apply within_bind; [apply within_exists; auto|]. intros x. apply within_bind; [|done].
    destruct x; [done|]. unfold write_immutable. apply within_bind; [done|]. intros ids. destruct (length _ =? 0); [done|]. by apply within_write_group_any.
  Qed.
  Lemma immutable_idle I M (s : store) out : represents c M I s -> is_Some I \/ c_immutable c = false -> 
    always CTorn (fun u => u = s) (insert_immutable c out) s.
  Proof.
    intros Hs HI. unfold insert_immutable. destruct (c_immutable c) eqn:Ei; [|by cbn].
    destruct HI as [[i HI]|]; [|done]. apply always_bind; [by apply always_exists|]. intros x s' E. rewrite exec_exists in E. injection E as <- <-.
    assert (empty_at (c_dir c ++ [IMMUTABLE]) s = false) as ->.
    { apply empty_at_false. exists ((c_dir c ++ [IMMUTABLE]) ++ [ZGROUP]), (CMeta MGroup). split; [apply under_app|].
      rewrite <-sub_lookup. apply (rp_immutable _ _ _ _ Hs i HI). }
    by cbn.
  Qed.
  Lemma always_insert M I s scheds inner np validate : represents c M I s ->
    always CTorn (under_way M I s) (insert e scheds inner c ds merge np validate) s.
  Proof.
    intros Hs. assert (H0 : under_way M I s s) by by left. unfold insert. destruct (c_readonly c); [by cbn|].
    destruct (prepare c ds validate) as [out|ex] eqn:Ep; [|by cbn]. cbn [pbind].
    destruct (exec_insert_immutable e c Hr Hc ds (in_sound _ _ _ _ _ Hi) (in_conforms _ _ _ _ _ Hi) M I s validate out Ep Hs)
      as (part & I' & s1 & E & Hp & Hf & Hs1 & Hout & HI).
    assert (Hidle : is_Some I \/ c_immutable c = false -> s1 = s).
    { destruct I; [by destruct HI|]. intros [[? ?]|Ei]; [done|]. rewrite Ei in HI. by destruct HI. }
    apply always_bind.
    - destruct (decide (is_Some I \/ c_immutable c = false)) as [D|D].
      + eapply always_impl; [|by eapply (immutable_idle I M s out)]. by intros u ->.
      + eapply always_within; [apply within_insert_immutable|reflexivity|]. intros u Hu. left. by split.
    - intros part' s1' E'. rewrite E in E'. injection E' as <- <-.
      assert (H1 : under_way M I s s1) by (left; by split).
      destruct (split_dataset (c_part c) part) as [parts|ex] eqn:Es; cbn [pbind]; [|by cbn].
      destruct (batches_of parts np) as [bs|ex] eqn:Eb; cbn [pbind]; [|by cbn].
      destruct (part_rows e c Hr Hc ds rows merge Hi part Hp Hf) as [Hrk Hn].
      destruct (split_sound _ _ _ _ (rg_keys _ _ Hr) Hrk (in_size _ _ _ _ _ Hi) Es) as (kparts & -> & Hk & Hlz).
      apply batches_concat in Eb as [Ec Hne]. apply concat_map_inv in Ec as (kbs & -> & Ec).
      assert (Hsorted : never_decreases row_lt rows).
      { destruct (in_sorted _ _ _ _ _ Hi) as [Hd|]; [|done]. apply Hlz. by rewrite (ft_delayed _ _ _ _ Hf). }
      assert (Hfit : fit e c (length rows) (concat kbs)) by (rewrite Ec; by eapply kparts_fit).
      pose proof (always_batches e c Hr part (length rows) merge Hp Hn (in_merge _ _ _ _ _ Hi) I' scheds inner kbs M s1 (fun i => i) Hs1 Hfit) as Ha.
      unfold pfor. apply (always_pbind_end _ _ (fun _ => Ok _)). apply (always_pbind_end _ _ (fun _ => Ok tt)).
      eapply always_impl; [|exact Ha]. intros u Hu. right. exists part, I', s1, kparts. split_and!; try done.
      + unfold kept. destruct I; [by destruct HI|]. destruct (c_immutable c); [done|by destruct HI].
      + by apply (ks_files _ _ Hk).
      + by rewrite Ec in Hu.
  Qed.

  (** Reading what an insertion has written, or not. *)
  Lemma sub_nothing (u : store) d : nothing_at d u -> sub d u = ∅.
  Proof. intros H. apply map_eq. intros q. rewrite sub_lookup, lookup_empty. apply H, under_app. Qed.

  Lemma under_way_spec M I s u : represents c M I s -> under_way M I s u ->
    (forall q, ~ under (c_dir c) q \/ q = c_dir c ++ [CONFIG] -> u !! q = s !! q) /\
    (is_Some I -> sub (c_dir c ++ [IMMUTABLE]) u = sub (c_dir c ++ [IMMUTABLE]) s) /\
    forall v, length v = length (p_keys (c_part c)) ->
      sub (part_dir c v) u = sub (part_dir c v) s \/
      (v ∈ rows /\ exists part new, fitted c (moving c) ds part /\ sound new /\ replaced c merge (d_delayed ds) rows part v (M v) new /\
        (sub (part_dir c v) u = group_tree new \/
         (M v = None /\ nothing_at (part_dir c v ++ [ZMETADATA]) u /\ is_Some (u !! (part_dir c v ++ [ZGROUP]))) \/
         (M v = None /\ u !! (part_dir c v ++ [ZMETADATA]) = Some CTorn) \/
         (is_Some (M v) /\ partly_removed [] (sub (part_dir c v) s) (sub (part_dir c v) u) /\ sub (temp_dir e (part_dir c v)) u = group_tree new))).
  Proof.
    intros Hs Hu.
    assert (Hkd : forall v f, length v = length (p_keys (c_part c)) -> ~ under (c_dir c ++ [IMMUTABLE]) (part_dir c v ++ f)).
    { intros v f Hl (g & Ef). unfold part_dir in Ef. rewrite <-!app_assoc in Ef. apply app_inv_head in Ef.
      destruct (key_head e c Hr v Hl) as (a & r & Ea' & Ha & Hd). rewrite Ea' in Ef. injection Ef as -> _. by exfalso. }
    assert (Hco : forall q, ~ under (c_dir c) q \/ q = c_dir c ++ [CONFIG] -> ~ under (c_dir c ++ [IMMUTABLE]) q).
    { intros q Hq (f & ->). destruct Hq as [Hq|Hq].
      - apply Hq. rewrite <-app_assoc. apply under_app.
      - rewrite <-app_assoc in Hq. apply app_inv_head in Hq. done. }
    destruct Hu as [[Hu HI]|(part & I' & s1 & kparts & Hp & Hf & Hs1 & Hout & Hk & HI & Hks & Hfi & Hst & Hu)].
    { split_and!.
      - intros q Hq. by apply Hu, Hco.
      - intros H. rewrite HI; auto.
      - intros v Hl. left. apply map_eq. intros q. rewrite !sub_lookup. by apply Hu, Hkd. }
    pose proof (kparts_fit e c ds rows merge Hi part kparts Hp Hf Hks) as Hfit.
    assert (Hreg : forall q, ~ under (c_dir c) q \/ q = c_dir c ++ [CONFIG] \/ under (c_dir c ++ [IMMUTABLE]) q -> forall ks, ks ∈ kparts -> ~ part_region e (part_dir c ks.1) q).
    { intros q Hq ks Hin. destruct (fit_len _ _ _ _ Hfit _ Hin) as [Hl _]. pose proof (rg_digest _ _ Hr (part_dir c ks.1)) as Hd.
      destruct (digest_not_dot _ Hd) as [N1 N2]. intros [(f & ->)|(f & ->)].
      - destruct Hq as [Hq|[Hq|Hq]].
        + apply Hq. unfold part_dir. rewrite <-app_assoc. apply under_app.
        + unfold part_dir in Hq. rewrite <-app_assoc in Hq. apply app_inv_head in Hq. destruct (key_head e c Hr _ Hl) as (a & r0 & Ea & Ha & Hd').
          rewrite Ea in Hq. injection Hq as -> _. done.
        + by apply (Hkd ks.1 f) in Hq.
      - rewrite (temp_part e c Hr) in Hq. rewrite <-app_assoc in Hq. destruct Hq as [Hq|[Hq|Hq]].
        + apply Hq, under_app.
        + apply app_inv_head in Hq. by injection Hq.
        + destruct Hq as (g & Eg). rewrite <-app_assoc in Eg. apply app_inv_head in Eg. by injection Eg. }
    split_and!.
    - intros q Hq. rewrite Hu by (apply Hreg; tauto). by apply Hout, Hco.
    - intros H. apply map_eq. intros q. rewrite !sub_lookup, Hu by (apply Hreg; right; right; apply under_app). rewrite HI; auto.
    - intros v Hl. assert (Es : sub (part_dir c v) s1 = sub (part_dir c v) s) by (apply map_eq; intros q; rewrite !sub_lookup; by apply Hout, Hkd).
      destruct (decide (v ∈ dkeys kparts)) as [Hv|Hv].
      + apply elem_of_list_In, in_map_iff in Hv as ([v' sl] & <- & Hin). apply elem_of_list_In in Hin. cbn [fst] in *.
        specialize (Hst _ Hin). unfold part_stage in Hst. cbn [fst snd] in Hst.
        rewrite (stage_same _ _ s s1) in Hst by done. destruct Hst as [Hst|(new & En & Hst)]; [by left|]. right.
        destruct (part_rows e c Hr Hc ds rows merge Hi part Hp Hf) as [Hrk Hn]. destruct (fit_len _ _ _ _ Hfit _ Hin) as [_ Hb].
        pose proof (new_of_spec e c Hr part (length rows) merge Hp Hn (in_merge _ _ _ _ _ Hi) M I' s1 v' sl Hs1 Hl Hb) as Hsp. rewrite En in Hsp.
        destruct Hsp as (Hso & piece & _ & Hsp & Hrd & Hmg). split.
        { apply (keyed_keys _ _ Hks Hfi). apply elem_of_list_In, in_map_iff. exists (v', sl). split; [done|by apply elem_of_list_In]. }
        exists part, new. split_and!; [done|done| |].
        { exists (seq sl.1 (sl.2 - sl.1)), piece. split_and!; [apply (keyed_positions _ _ Hks Hfi _ Hin)|done|done|]. by rewrite <-(ft_delayed _ _ _ _ Hf). }
        assert (HM : M v' = None <-> nothing_at (part_dir c v') s).
        { split; [intros; by eapply part_nothing|]. intros Hno. destruct (M v') as [old|] eqn:EM; [|done]. destruct (rp_part _ _ _ _ Hs _ _ EM) as (_ & _ & Hh).
          destruct Hh as [_ Hh]. apply hg_group in Hh. rewrite sub_lookup, Hno in Hh by apply under_app. done. }
        destruct Hst as [(H1 & H2 & H3)|[(H1 & H2)|[(H1 & H2 & H3)|H1]]].
        * right. left. rewrite HM. done.
        * right. right. left. rewrite HM. split; [done|]. rewrite <-sub_lookup, H2. by rewrite lookup_insert.
        * right. right. right. split_and!; [|done|done]. destruct (M v') eqn:EM; [by eexists|]. exfalso. by apply H1, HM.
        * by left.
      + left. rewrite <-Es. apply map_eq. intros q. rewrite !sub_lookup. apply Hu. intros ks Hin.
        destruct (fit_len _ _ _ _ Hfit _ Hin) as [Hl' _]. apply (regions_apart e c Hr (v, (0, 0)) ks); [done|done| |apply under_app].
        intros E. cbn in E. apply Hv. rewrite E. apply elem_of_list_In, in_map_iff. exists ks. split; [done|by apply elem_of_list_In].
  Qed.
End insert_crash.
