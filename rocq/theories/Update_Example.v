(** * A collection with two partitions, and callbacks, to show that the hypotheses of the theorems are met *)
From Verif Require Import Py Dict NdArray_Model NdArray_Spec NdArray_Proofs Dataset_Model Dataset_Spec Dataset_Proofs Dataset_Main Dataset_Props Dataset_Props2 Meta_Model PartPath_Model PartPath_Proofs
  Split_Spec DaskUtils_Model FS_Model FS_Proofs Pool_Model Pool_Proofs Storage_Model Storage_Chunks Storage_Spec Storage_Proofs
  Listing_Model Listing_Spec Listing_Proofs Collection_Model Collection_Spec Collection_Split Collection_Proofs Collection_State Collection_Prepare Collection_Insert Collection_Select Collection_Load
  Assemble_Proofs Collection_Round Collection_Total Collection_Create Collection_Example Collection_Props
  Update_Model Update_Spec Storage_Change Update_State Update_Proofs.

Definition X_stored (n dtype : str) (dims : list str) (shape : list nat) (zs : list Z) : variable := with_attrs (X_var n dtype dims shape zs) [].
Lemma X_piece part d values ps n v v' : fitted X_coll (moving X_coll) X_ds part -> positions_of X_rows values ps -> reduced (lit "time") part ps d -> sound d ->
  v ∈ X_vars -> v_name v = n -> lit "time" ∈ v_dims v ->
  same_but_records (lit "time") (with_attrs v []) v' -> records v' (lit "time") = option_map (pick ps) (records (with_attrs v []) (lit "time")) -> arr_wf (v_array v') ->
  (exists dims, sized dims v') -> dget (d_vars d) n = Some v'.
Proof.
  intros Hf Hps Hred Hso Hv Hn Hd Hsb Hrec Hwf [dims Hsz].
  assert (Hv0 : dget (d_vars X_ds) n = Some v) by (subst n; cases_var Hv; vm_compute; reflexivity).
  destruct (X_conforms _ _ Hv0) as (mv & Hmv & Hdims).
  assert (Hin : n ∈ dkeys (d_vars part)).
  { apply (ft_names _ _ _ _ Hf). exists mv. split; [exact Hmv|]. unfold moving. by rewrite <-Hdims. }
  apply dget_is_Some in Hin as [w Hw]. pose proof (ft_given _ _ _ _ Hf _ _ _ Hv0 Hw) as ->.
  destruct (related_get _ _ _ n Hred) as [R _]. destruct (R _ Hw) as (v2 & Hv2 & Hsb2 & Hr2). rewrite Hv2. f_equal.
  assert (Hin2 : v2 ∈ dvals (d_vars d)) by (eapply vals_elem; by apply dget_elem).
  apply (var_determined dims (lit "time")); [done| |done| | |].
  - destruct Hsb as (-> & _). cbn. assert (v ∈ dvals (d_vars X_ds)) by (eapply vals_elem; by apply dget_elem). apply (sound_dims _ X_sound v). done.
  - apply (proper_arrays _ (storable_proper _ (sound_storable _ Hso)) v2 Hin2).
  - destruct Hsb as (E1 & L1 & K1 & N1), Hsb2 as (E2 & L2 & K2 & N2). split_and!.
    + rewrite E2. rewrite E1. done.
    + by rewrite L1, L2.
    + intros k Hk. rewrite E1 in Hk. cbn in Hk. rewrite K1, K2 by done. done.
    + intros Hno. exfalso. apply Hno. rewrite E1. done.
  - by rewrite Hrec, Hr2.
Qed.
Definition X_time (zs : list Z) : variable := X_stored (lit "time") (lit "int64") [lit "time"] [length zs] zs.
Definition X_pass (zs : list Z) : variable := X_stored (lit "pass") (lit "int64") [lit "time"] [length zs] zs.
Definition X_height (zs : list Z) : variable := X_stored (lit "height") (lit "float64") [lit "time"; lit "x"] [length zs / 2; 2] zs.

(** The partitions after the insertion of the dataset. *)
Definition X_contents (M : list Z -> option dataset) : Prop := exists p1 p2, M [1%Z] = Some p1 /\ M [2%Z] = Some p2 /\ (forall v, v <> [1%Z] -> v <> [2%Z] -> M v = None) /\
  (forall n, n ∈ dkeys (d_vars p1) <-> n ∈ [lit "time"; lit "pass"; lit "height"]) /\
  dget (d_vars p1) (lit "time") = Some (X_time [10; 20]%Z) /\ dget (d_vars p1) (lit "pass") = Some (X_pass [1; 1]%Z) /\
  dget (d_vars p1) (lit "height") = Some (X_height [5; 6; 7; 8]%Z) /\
  (forall n, n ∈ dkeys (d_vars p2) <-> n ∈ [lit "time"; lit "pass"; lit "height"]) /\
  dget (d_vars p2) (lit "time") = Some (X_time [30]%Z) /\ dget (d_vars p2) (lit "pass") = Some (X_pass [2]%Z) /\
  dget (d_vars p2) (lit "height") = Some (X_height [9; 4]%Z).
Ltac X_sized := eexists [(lit "time", _); (lit "x", 2)]; intros k d Hk; destruct k as [|[|k]]; cbn in Hk; try done; injection Hk as <-; eexists; split; vm_compute; reflexivity.
Lemma X_filled_fixed : exists M i s, represents X_coll M (Some i) s /\ uniform X_coll M (Some i) /\ lit "bias" ∈ dkeys (d_vars i) /\ X_contents M.
Proof.
  destruct (insert_total _ _ X_regular X_declared _ _ _ X_insertable None true ltac:(apply X_accepted; by intros k [=]) _ _ X_store (fun _ => []) X_inner X_empty ltac:(by left)) as (dirs & s1 & E).
  destruct (insert_spec _ _ X_regular X_declared _ _ _ X_insertable _ _ X_store _ _ _ _ _ s1 X_empty E) as (M & I & Hs1 & _ & Hins & Hk & _). clear E.
  pose proof (inserted_uniform X_coll X_ds X_sound X_conforms X_rows None M I Hins Hk) as Hu.
  destruct Hk as (i & -> & Hfi). exists M, i, s1. split; [exact Hs1|]. split; [exact Hu|].
  split; [apply (ft_names _ _ _ _ Hfi); eexists; split; [vm_compute; reflexivity|apply (bool_decide_unpack _); vm_compute; done]|]. clear Hfi.
  destruct (inserted_pieces _ _ _ _ _ Hins) as (part & Hf & Hsome & Hp).
  assert (exists p1, M [1%Z] = Some p1) as [p1 H1] by (apply Hsome; unfold X_rows; left).
  assert (exists p2, M [2%Z] = Some p2) as [p2 H2] by (apply Hsome; unfold X_rows; right; right; left).
  destruct (rp_part _ _ _ _ Hs1 _ _ H1) as (_ & Hso1 & _). destruct (rp_part _ _ _ _ Hs1 _ _ H2) as (_ & Hso2 & _). clear Hs1.
  destruct (Hp _ _ H1) as (ps1 & Hps1 & Hr1). destruct (Hp _ _ H2) as (ps2 & Hps2 & Hr2).
  assert (ps1 = [0; 1]) as ->.
  { destruct Hps1 as [Ha Hb]. apply sorted_same; [done|repeat constructor|]. intros k. rewrite Hb. split.
    - destruct k as [|[|[|k]]]; cbn; try done; intros _; [left|right; left].
    - intros Hk. repeat (apply elem_of_cons in Hk as [->|Hk]); [done..|by apply elem_of_nil in Hk]. }
  assert (ps2 = [2]) as ->.
  { destruct Hps2 as [Ha Hb]. apply sorted_same; [done|repeat constructor|]. intros k. rewrite Hb. split.
    - destruct k as [|[|[|k]]]; cbn; try done; intros _; left.
    - intros Hk. repeat (apply elem_of_cons in Hk as [->|Hk]); [done..|by apply elem_of_nil in Hk]. }
  assert (Hnames : forall d ps, reduced (lit "time") part ps d -> forall n, n ∈ dkeys (d_vars d) <-> n ∈ [lit "time"; lit "pass"; lit "height"]).
  { intros d ps Hred n. transitivity (n ∈ dkeys (d_vars part)).
    - destruct (related_get _ _ _ n Hred) as [R1 R2]. rewrite <-!dget_is_Some. split; intros [x Hx].
      + destruct (R2 _ Hx) as (y & Hy & _). by eexists.
      + destruct (R1 _ Hx) as (y & Hy & _). by eexists.
    - rewrite (ft_names _ _ _ _ Hf). unfold moving. cbn [c_dim X_coll]. split.
      + intros (mv & Hmv & Hd). apply dget_elem in Hmv. vm_compute in Hmv. repeat (apply elem_of_cons in Hmv as [[= -> ->]|Hmv]);
          [left|right; left|right; right; left| |by apply elem_of_nil in Hmv]. exfalso. cbn in Hd. by apply elem_of_list_singleton in Hd.
      + intros Hn. repeat (apply elem_of_cons in Hn as [->|Hn]); [..|by apply elem_of_nil in Hn]; (eexists; split; [vm_compute; reflexivity|cbn; left]). }
  clear Hu Hins.
  exists p1, p2. split; [exact H1|]. split; [exact H2|]. split.
  { intros v N1 N2. destruct (M v) as [d|] eqn:Ed; [|reflexivity]. exfalso. assert (Hin : v ∈ X_rows) by (apply Hsome; by eexists). unfold X_rows in Hin.
    repeat (apply elem_of_cons in Hin as [->|Hin]); [by apply N1|by apply N1|by apply N2|by apply elem_of_nil in Hin]. }
  clear Hsome Hp H1 H2.
  split; [by eapply Hnames|].
  split. { eapply (X_piece part p1 [1%Z] [0; 1] (lit "time") (nth 0 X_vars (X_time []))); [exact Hf|exact Hps1|exact Hr1|exact Hso1|left|reflexivity|left| | | |X_sized].
    - split; [vm_compute; reflexivity|]. split; [vm_compute; reflexivity|]. split; [|intros []; left]. intros [|k] Hk; cbn in *; done.
    - vm_compute. reflexivity.
    - vm_compute. reflexivity. }
  split. { eapply (X_piece part p1 [1%Z] [0; 1] (lit "pass") (nth 1 X_vars (X_time []))); [exact Hf|exact Hps1|exact Hr1|exact Hso1|right; left|reflexivity|left| | | |X_sized].
    - split; [vm_compute; reflexivity|]. split; [vm_compute; reflexivity|]. split; [|intros []; left]. intros [|k] Hk; cbn in *; done.
    - vm_compute. reflexivity.
    - vm_compute. reflexivity. }
  split. { eapply (X_piece part p1 [1%Z] [0; 1] (lit "height") (nth 2 X_vars (X_time []))); [exact Hf|exact Hps1|exact Hr1|exact Hso1|right; right; left|reflexivity|left| | | |X_sized].
    - split; [vm_compute; reflexivity|]. split; [vm_compute; reflexivity|]. split; [|intros []; left]. intros [|[|k]] Hk; cbn in *; done.
    - vm_compute. reflexivity.
    - vm_compute. reflexivity. }
  split; [by eapply Hnames|].
  split. { eapply (X_piece part p2 [2%Z] [2] (lit "time") (nth 0 X_vars (X_time []))); [exact Hf|exact Hps2|exact Hr2|exact Hso2|left|reflexivity|left| | | |X_sized].
    - split; [vm_compute; reflexivity|]. split; [vm_compute; reflexivity|]. split; [|intros []; left]. intros [|k] Hk; cbn in *; done.
    - vm_compute. reflexivity.
    - vm_compute. reflexivity. }
  split. { eapply (X_piece part p2 [2%Z] [2] (lit "pass") (nth 1 X_vars (X_time []))); [exact Hf|exact Hps2|exact Hr2|exact Hso2|right; left|reflexivity|left| | | |X_sized].
    - split; [vm_compute; reflexivity|]. split; [vm_compute; reflexivity|]. split; [|intros []; left]. intros [|k] Hk; cbn in *; done.
    - vm_compute. reflexivity.
    - vm_compute. reflexivity. }
  eapply (X_piece part p2 [2%Z] [2] (lit "height") (nth 2 X_vars (X_time []))); [exact Hf|exact Hps2|exact Hr2|exact Hso2|right; right; left|reflexivity|left| | | |X_sized].
    - split; [vm_compute; reflexivity|]. split; [vm_compute; reflexivity|]. split; [|intros []; left]. intros [|[|k]] Hk; cbn in *; done.
    - vm_compute. reflexivity.
    - vm_compute. reflexivity.
Qed.
Lemma X_filled : exists M i s, represents X_coll M (Some i) s /\ uniform X_coll M (Some i) /\ X_contents M.
Proof. destruct X_filled_fixed as (M & i & s & Hs & Hu & _ & HM). by exists M, i, s. Qed.

(** The same collection without the variable that does not have the dimension
    of the partitioning. *)
Definition Y_coll : collection :=
  Coll (lit "time") (MDataset (md_dims (c_meta X_coll)) (ddel (md_vars (c_meta X_coll)) (lit "bias")) (md_attrs (c_meta X_coll)) (md_chunks (c_meta X_coll)) (md_block (c_meta X_coll))) X_part X_dir (lit "time") false false.
Lemma Y_regular : regular X_env Y_coll.
Proof. destruct X_regular as [H1 H2 H3 H4]. by split. Qed.
Lemma Y_filterable : filterable Y_coll.
Proof. exact X_filterable. Qed.
Lemma Y_filled : exists M s, represents Y_coll M None s /\ uniform Y_coll M None /\ X_contents M.
Proof.
  destruct X_filled as (M & i & s & Hs & Hu & HM). exists M, (prune (X_dir ++ [IMMUTABLE]) s).
  assert (Hsub : forall values, length values = length (p_keys X_part) -> sub (part_dir X_coll values) (prune (X_dir ++ [IMMUTABLE]) s) = sub (part_dir X_coll values) s).
  { intros values Hl. apply map_eq. intros q. rewrite !sub_lookup, prune_lookup, decide_False; [done|].
    destruct (key_head X_env X_coll X_regular values Hl) as (a & r & Ea & Hne & _). unfold part_dir. rewrite Ea. intros [k Hk].
    change (c_dir X_coll) with X_dir in Hk. rewrite <-!app_assoc in Hk. apply app_inv_head in Hk. cbn in Hk. by injection Hk as -> _. }
  split; [|split].
  - split.
    + intros q x Hx. rewrite prune_lookup in Hx. destruct (decide _) as [|Hn]; [done|]. destruct (rp_files _ _ _ _ Hs q x Hx) as [H|[(_ & f & ->)|H]]; [by left| |by right; right].
      exfalso. apply Hn. exists f. by rewrite <-app_assoc.
    + intros values ds Hv. destruct (rp_part _ _ _ _ Hs _ _ Hv) as (Hl & Hso & Hh). split; [exact Hl|]. split; [exact Hso|].
      change (part_dir Y_coll values) with (part_dir X_coll values). by rewrite Hsub.
    + by intros ds [=].
  - split; [exact (un_layout _ _ _ Hu)| |done|by intros ? ? ? ? [=]|by intros ? ? ? [=]|by intros ? ? [=]].
    destruct HM as (p1 & p2 & H1 & H2 & H3 & K1 & _ & _ & _ & K2 & _). intros v a n Hv Hn.
    assert (Hn' : n ∈ [lit "time"; lit "pass"; lit "height"]).
    { destruct (decide (v = [1%Z])) as [->|N1]; [apply K1; congruence|]. destruct (decide (v = [2%Z])) as [->|N2]; [apply K2; congruence|]. by rewrite H3 in Hv. }
    assert (E : bool_decide (Forall (fun n => n ∈ dkeys (md_vars (c_meta Y_coll))) [lit "time"; lit "pass"; lit "height"]) = true) by (vm_compute; done).
    apply bool_decide_eq_true in E. rewrite Forall_forall in E. by apply E.
  - exact HM.
Qed.
