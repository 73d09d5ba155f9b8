(** * Creating a collection (C46) and opening it again (C64) *)
From Verif Require Import Py Dict NdArray_Model NdArray_Proofs Dataset_Model Dataset_Spec Dataset_Proofs Meta_Model Meta_Spec Meta_Props PartPath_Model PartPath_Proofs PartPath_Props
  Split_Spec FS_Model FS_Proofs Pool_Model Storage_Model Storage_Spec Storage_Proofs
  Listing_Model Listing_Spec Listing_Proofs Collection_Model Collection_Spec Collection_Proofs Collection_State Collection_Select Collection_Create Collection_Example Collection_Props
  Validate_Props Reopen_Spec.

(** ** C46 *)

(** The metadata of the dataset declare its variables. *)
Lemma metadata_get ds n : sound ds -> dget (md_vars (ds_metadata ds)) n = option_map v_metadata (dget (d_vars ds) n).
Proof.
  intros [Hst Hnr]. pose proof (storable_proper _ Hst) as Hp. destruct (C17_of_dataset ds) as (G1 & G2 & G3 & G4 & G5); [|apply Hp..|].
  { intros k v Hv. by apply (proper_consistent _ Hp) in Hv as [? _]. }
  rewrite G5. destruct (dget (d_vars ds) n) as [v|] eqn:Ev; [|done]. cbn. unfold v_metadata. apply (proper_consistent _ Hp) in Ev as [-> _]. done.
Qed.
(** A collection is created exactly when its directory does not exist, its axis
    is a variable with a dimension, and the keys of the partitioning are
    variables; it is then what was asked for. Otherwise nothing is written. *)
Theorem C46_create axis ds p d s : sound ds ->
  let accepted := nothing_at d s /\ (exists v dim dims, dget (d_vars ds) axis = Some v /\ v_dims v = dim :: dims) /\ (forall n, n ∈ p_variables p -> n ∈ dkeys (d_vars ds)) in
  (accepted -> exists c, exec (create_collection axis ds p d) s = (Ok c, <[d ++ [CONFIG] := CConf (config_of c)]> s) /\
     c_axis c = axis /\ c_part c = p /\ c_dir c = d /\ c_readonly c = false /\ c_meta c = ds_metadata ds) /\
  (~ accepted -> exists ex, exec (create_collection axis ds p d) s = (Raise ex, s) /\
     (ex = ValueError \/ (ex = IndexError /\ exists v, dget (d_vars ds) axis = Some v /\ v_dims v = []))).
Proof.
  intros Hso accepted. unfold create_collection. rewrite !exec_bind, !exec_exists. destruct (empty_at d s) eqn:Ee.
  2: { split; [|intros _; exists ValueError; by split; [|left]]. intros [Hn _]. apply nothing_empty in Hn. congruence. }
  cbn [negb]. unfold make_collection. rewrite !exec_bind. cbn [exec]. unfold new_collection. rewrite metadata_get by done.
  destruct (dget (d_vars ds) axis) as [v|] eqn:Ea; cbn [option_map].
  2: { split; [|intros _; exists ValueError; by split; [|left]]. intros (_ & (v & dim & dims & E & _) & _). congruence. }
  assert (Hin : forall n, dmem (md_vars (ds_metadata ds)) n = true <-> n ∈ dkeys (d_vars ds)).
  { intros n. rewrite dmem_true, <-!dget_is_Some, metadata_get by done. destruct (dget (d_vars ds) n); split; intros [? ?]; try discriminate; by eexists. }
  destruct (forallb (fun n => dmem (md_vars (ds_metadata ds)) n) (p_variables p)) eqn:Ef.
  2: { split; [|intros _; exists ValueError; by split; [|left]]. intros (_ & _ & Hk). assert (forallb (fun n => dmem (md_vars (ds_metadata ds)) n) (p_variables p) = true); [|congruence].
       apply forallb_forall. intros n Hn. apply Hin, Hk. by apply elem_of_list_In. }
  assert (negb (memb (default (lit "w") (Some (lit "w"))) [lit "r"; lit "w"]) = false) as -> by (vm_compute; reflexivity).
  change (mv_dims (v_metadata v)) with (v_dims v). destruct (v_dims v) as [|dim dims] eqn:Ed.
  - split; [|intros _; exists IndexError; split; [done|right; split; [done|by exists v]]]. intros (_ & (v' & dim & dims & E & E') & _). congruence.
  - assert (Hn : nothing_at d s) by (by apply nothing_empty).
    split; [|intros []; split; [done|]; split; [by exists v, dim, dims|]; intros n Hn'; apply Hin; rewrite forallb_forall in Ef; apply Ef; by apply elem_of_list_In].
    intros _. exists (Coll axis (ds_metadata ds) p d dim (has_immutable (ds_metadata ds) dim) false). split; [|split; [|split; [|split; [|split]]]].
    1: { assert (bool_decide (default (lit "w") (Some (lit "w")) = lit "r") = false) as -> by (vm_compute; reflexivity). cbn [negb exec c_readonly]. rewrite exec_bind. unfold write_config.
         rewrite exec_bind, exec_exists. cbn [c_dir]. rewrite (proj1 (nothing_empty (d ++ [CONFIG]) s)); [|intros q (t & ->); apply Hn; rewrite <-app_assoc; apply under_app].
         cbn [negb andb]. rewrite exec_write. reflexivity. }
    all: reflexivity.
Qed.
Print Assumptions C46_create.
Example C46_case : sound X_ds /\ exec (create_collection (lit "time") X_ds X_part X_dir) ∅ = (Ok X_coll, X_store) /\
  exec (create_collection (lit "cycle") X_ds X_part X_dir) ∅ = (Raise ValueError, ∅) /\ exec (create_collection (lit "time") X_ds X_part X_dir) X_store = (Raise ValueError, X_store).
Proof. split; [exact X_sound|]. split; [exact X_create|]. split; vm_compute; reflexivity. Qed.

(** ** C64 *)
Lemma codecs_again reg p : default_registry = Ok reg -> constructed p -> exists p', get_codecs reg (p_get_config p) = Ok p' /\
  p_keys p' = p_keys p /\ p_variables p' = p_variables p /\ (forall kv, p_dir p' kv = p_dir p kv) /\ (forall s, p_parse p' s = p_parse p s) /\ (p_len p = length (p_keys p) -> p_len p' = length (p_keys p')).
Proof.
  intros Hreg [(v & r & E)|(v & t & E)].
  - exists p. split; [by eapply C18_date|]. done.
  - destruct (C18_sequence reg v t p Hreg E) as (p' & Ep & H1 & H2 & H3 & _). assert (Hp : exists d d', p = Sequence v d /\ p' = Sequence v d' /\ length d' = length v).
    { unfold mk_sequence in E. destruct (base_init v t) as [d|]; [|done]. injection E as <-. revert Ep. rewrite default_registry_ok in Hreg. injection Hreg as <-. unfold get_codecs. cbn [p_get_config c_id].
      replace (dget the_registry (lit "Sequence")) with (Some CSequence) by (vm_compute; reflexivity). cbn [p_from_config c_variables c_resolution c_dtype]. unfold mk_sequence, base_init.
      destruct (length v =? 0); [done|]. destruct (forallb _ _); [|done]. intros [= <-]. exists d. eexists. split; [done|]. split; [done|]. apply repeat_length. }
    destruct Hp as (d & d' & -> & -> & Hl). exists (Sequence v d'). split_and!; try done.
Qed.
Lemma same_get m m' n mv : same_metadata m m' -> dget (md_vars m) n = Some mv -> exists mv', dget (md_vars m') n = Some mv' /\ same_variable mv mv'.
Proof.
  intros H E. assert (is_Some (dget (md_vars m') n)) as [mv' E'] by (apply dget_is_Some, (sm_names _ _ H), dget_is_Some; by eexists). exists mv'. split; [done|]. by eapply (sm_vars _ _ H).
Qed.
Lemma same_get' m m' n mv' : same_metadata m m' -> dget (md_vars m') n = Some mv' -> exists mv, dget (md_vars m) n = Some mv /\ same_variable mv mv'.
Proof.
  intros H E. assert (is_Some (dget (md_vars m) n)) as [mv E'] by (apply dget_is_Some, (sm_names _ _ H), dget_is_Some; by eexists). exists mv. split; [done|]. by eapply (sm_vars _ _ H).
Qed.

(** What opening needs: the collection has been created, and its configuration
    is there. *)
Definition openable (c : collection) (s : store) : Prop :=
  declared c /\ constructed (c_part c) /\ (exists mv, dget (md_vars (c_meta c)) (c_axis c) = Some mv /\ head (mv_dims mv) = Some (c_dim c)) /\
  s !! (c_dir c ++ [CONFIG]) = Some (CConf (config_of c)).
(** Opening a collection gives it back, and writes nothing. *)
Theorem C64_open reg c s mode : default_registry = Ok reg -> openable c s -> mode ∈ [lit "r"; lit "w"] ->
  exists c', exec (open_collection reg (c_dir c) (Some mode)) s = (Ok c', s) /\ reopened mode c c' /\ declared c' /\
    (forall e, regular e c -> regular e c') /\ (forall M I, represents c M I s <-> represents c' M I s).
Proof.
  intros Hreg (Hc & Hp & (mv & Emv & Hhd) & Es) Hmode.
  destruct (C17_round_trip (c_meta c)) as (m' & Em & Hsm & _). { split; [apply Hc| |apply Hc]. intros k x Hx. by apply (dc_name _ Hc). }
  destruct (codecs_again reg (c_part c) Hreg Hp) as (p' & Ep & Hk & Hva & Hd & Hpa & Hle).
  destruct (same_get _ _ _ _ Hsm Emv) as (mv' & Emv' & Hsv). destruct (mv_dims mv) as [|dim dims] eqn:Edims; [done|]. injection Hhd as ->.
  assert (Edims' : mv_dims mv' = c_dim c :: dims) by (by rewrite <-(sv_dims _ _ Hsv)).
  assert (Hfix : has_immutable m' (c_dim c) = c_immutable c).
  { apply eq_bool_prop_intro. rewrite !Is_true_true. rewrite has_immutable_ok.
    2: { unfold md_from_config in Em. destruct (traverse _ _) as [vs|]; [|done]. injection Em as <-. cbn. apply dict_of_NoDup. }
    rewrite (dc_fixed _ Hc). split.
    - intros (n & x & E & N). destruct (same_get' _ _ _ _ Hsm E) as (x0 & E0 & Hs0). exists n, x0. split; [done|]. by rewrite (sv_dims _ _ Hs0).
    - intros (n & x & E & N). destruct (same_get _ _ _ _ Hsm E) as (x0 & E0 & Hs0). exists n, x0. split; [done|]. by rewrite <-(sv_dims _ _ Hs0). }
  set (c' := Coll (c_axis c) m' p' (c_dir c) (c_dim c) (c_immutable c) (bool_decide (mode = lit "r"))). exists c'.
  assert (Hpd : forall values, part_dir c' values = part_dir c values).
  { intros values. unfold part_dir, key_dirs. cbn [c_dir c_part c']. rewrite Hk. f_equal. apply map_ext. intros kv. apply Hd. }
  assert (Hkd : forall values, key_dirs p' values = key_dirs (c_part c) values) by (intros values; apply (app_inv_head (c_dir c)), Hpd).
  split; [|split; [|split; [|split]]].
  - unfold open_collection, from_config. rewrite exec_bind, exec_exists.
    assert (empty_at (c_dir c ++ [CONFIG]) s = false) as Ene.
    { destruct (empty_at (c_dir c ++ [CONFIG]) s) eqn:E; [|done]. apply empty_at_true with (q := c_dir c ++ [CONFIG]) in E; [congruence|apply under_refl]. }
    rewrite Ene. cbn [negb]. rewrite exec_bind, exec_read_file, Es. cbv iota beta. rewrite exec_bind. cbn [config_of cc_dataset cc_part cc_axis exec]. rewrite Em. cbn [exec]. rewrite exec_bind, Ep. cbn [exec].
    unfold make_collection. rewrite exec_bind.
    assert (new_collection (c_axis c) m' p' (c_dir c) (Some (default (lit "r") (Some mode))) = Ok c') as ->.
    { unfold new_collection. rewrite Emv'. assert (forallb (fun n => dmem (md_vars m') n) (p_variables p') = true) as ->.
      { apply forallb_forall. intros n Hn. rewrite Hva in Hn. apply elem_of_list_In in Hn. destruct (dc_keys _ Hc n Hn) as (x & Ex & _). destruct (same_get _ _ _ _ Hsm Ex) as (x' & Ex' & _). apply dmem_true, dget_is_Some. by eexists. }
      cbn [negb]. assert (memb (default (lit "w") (Some (default (lit "r") (Some mode)))) [lit "r"; lit "w"] = true) as -> by (unfold memb; by apply bool_decide_eq_true). cbn [negb]. rewrite Edims'. by rewrite Hfix. }
    cbn [exec]. destruct (c_readonly c'); [done|]. rewrite exec_bind. unfold write_config. rewrite exec_bind, exec_exists. change (c_dir c') with (c_dir c). by rewrite Ene.
  - split; try done. cbn. apply bool_decide_eq_true.
  - destruct Hc as [C1 C2 C3 C4 C5 C6 C7 C8]. split; cbn [c_meta c_axis c_dim c_part c_immutable c'].
    + unfold md_from_config in Em. destruct (traverse _ _) as [vs|]; [|done]. injection Em as <-. cbn. apply dict_of_NoDup.
    + intros n x E. destruct (same_get' _ _ _ _ Hsm E) as (x0 & E0 & Hs0). destruct (C2 _ _ E0) as (A & B & D). rewrite <-(sv_name _ _ Hs0), <-(sv_dims _ _ Hs0). done.
    + by rewrite <-(sm_chunks _ _ Hsm).
    + by rewrite <-(sm_block _ _ Hsm).
    + exists mv'. split; [done|]. rewrite Edims'. left.
    + intros n Hn. rewrite Hva in Hn. destruct (C6 n Hn) as (x & E & D). destruct (same_get _ _ _ _ Hsm E) as (x' & E' & Hs'). exists x'. by rewrite <-(sv_dims _ _ Hs').
    + rewrite <-Hfix. apply has_immutable_ok. unfold md_from_config in Em. destruct (traverse _ _) as [vs|]; [|done]. injection Em as <-. cbn. apply dict_of_NoDup.
    + done.
  - intros e [[R1 R2 R3 R4] R5 R6 R7]. split; try done. cbn [c_part c']. split; rewrite ?Hk; try done. rewrite <-Hk. by apply Hle.
  - intros M I. split; intros [H1 H2 H3]; (split; [|intros values ds Hv; destruct (H2 _ _ Hv) as (L & A & B)|exact H3]).
    + intros q x E. destruct (H1 q x E) as [?|[?|(values & f & Hv & ->)]]; [by left|by right; left|]. right; right. exists values, f. cbn [c_part c']. by rewrite Hkd.
    + cbn [c_part c']. rewrite Hk, Hpd. done.
    + intros q x E. destruct (H1 q x E) as [?|[?|(values & f & Hv & ->)]]; [by left|by right; left|]. right; right. exists values, f. cbn [c_part c']. by rewrite Hkd.
    + cbn [c_part c'] in L. rewrite Hk in L. rewrite Hpd in B. done.
Qed.
Print Assumptions C64_open.

(** Nothing to open: no configuration, or one that was not written whole. *)
Theorem C64_absent reg d mode s : nothing_at (d ++ [CONFIG]) s \/ s !! (d ++ [CONFIG]) = Some CTorn -> exec (open_collection reg d mode) s = (Raise ValueError, s).
Proof.
  intros H. unfold open_collection, from_config. rewrite exec_bind, exec_exists. destruct (empty_at (d ++ [CONFIG]) s) eqn:E; [done|]. cbn [negb]. rewrite exec_bind, exec_read_file.
  destruct H as [H| ->]; [|done]. apply nothing_empty in H. congruence.
Qed.
Print Assumptions C64_absent.

(** A history may be cut: after any calls on a new collection, opening it gives a
    collection that shows the same partitions, and any further calls on it
    continue from there. *)
Theorem C64_history reg axis ds p d s c s0 e h rs s1 mode : default_registry = Ok reg -> constructed p ->
  creatable axis ds p -> exec (create_collection axis ds p d) s = (Ok c, s0) -> regular e c ->
  Forall (allowed e c) h -> run_calls e c h s0 = (rs, s1) -> mode ∈ [lit "r"; lit "w"] ->
  exists M c', explains c h rs (fun _ => None) M /\ exec (open_collection reg d (Some mode)) s1 = (Ok c', s1) /\ reopened mode c c' /\ shows e c' M s1 /\
    forall h' rs' s2, Forall (allowed e c') h' -> run_calls e c' h' s1 = (rs', s2) -> exists M', explains c' h' rs' M M' /\ shows e c' M' s2.
Proof.
  intros Hreg Hcon Hcr E Hr Hal Er Hmode. destruct (create_ok axis ds p d s c s0 Hcr E) as (Eax & Eme & Epa & Ed & _ & Hc & Hs & Hcf & Hout).
  destruct (calls_spec e c Hr Hc h _ _ s0 rs s1 Hal Hs Er) as (M & I & Hs1 & Hex & Hq & _).
  assert (Hop : openable c s1).
  { split; [done|]. split; [by rewrite Epa|]. split.
    - revert E. unfold create_collection. rewrite exec_bind, exec_exists. destruct (negb _); [done|]. unfold make_collection. rewrite exec_bind. cbn [exec]. destruct (new_collection _ _ _ _ _) as [c0|] eqn:En; [|done].
      cbn [exec]. apply new_collection_ok in En as (E1 & E2 & _ & _ & _ & H & _). intros E. assert (c = c0) as ->; [|by rewrite E1, E2].
      destruct (c_readonly c0); [by injection E|]. rewrite exec_bind in E. destruct (exec (write_config c0 true) s) as [[?|?] ?]; [|done]. by injection E.
    - rewrite Hq by (by right). by rewrite Ed. }
  destruct (C64_open reg c s1 mode Hreg Hop Hmode) as (c' & Eo & Hro & Hc' & Hr' & Hrep). rewrite Ed in Eo.
  exists M, c'. split; [done|]. split; [done|]. split; [done|]. split; [eapply represents_shows; [by apply Hr'|by apply Hrep]|].
  intros h' rs' s2 Hal' Er'. destruct (calls_spec e c' (Hr' _ Hr) Hc' h' _ _ s1 rs' s2 Hal' (proj1 (Hrep _ _) Hs1) Er') as (M' & I' & Hs2 & Hex' & _).
  exists M'. split; [done|]. eapply represents_shows; [by apply Hr'|done].
Qed.
Print Assumptions C64_history.
Example C64_case : constructed X_part /\ creatable (lit "time") X_ds X_part /\ exec (create_collection (lit "time") X_ds X_part X_dir) ∅ = (Ok X_coll, X_store) /\ regular X_env X_coll /\ openable X_coll X_store.
Proof.
  assert (Hp : constructed X_part) by (right; exists [lit "pass"], (DSeq [lit "int64"]); vm_compute; reflexivity).
  split; [exact Hp|]. split; [exact X_creatable|]. split; [exact X_create|]. split; [exact X_regular|]. split; [exact X_declared|]. split; [exact Hp|]. split; [|vm_compute; reflexivity].
  eexists. split; vm_compute; reflexivity.
Qed.
