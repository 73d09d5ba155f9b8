(** * A view with one partition, to show that the hypotheses of the theorems are met *)
From Verif Require Import Py Dict NdArray_Model NdArray_Spec NdArray_Proofs Dataset_Model Dataset_Spec Dataset_Proofs Meta_Model PartPath_Model PartPath_Proofs
  Split_Spec FS_Model FS_Proofs Pool_Model Pool_Proofs Storage_Model Storage_Spec Storage_Chunks Storage_Proofs Storage_Change
  Listing_Model Listing_Spec Listing_Proofs Collection_Model Collection_Spec Collection_Proofs Collection_State Collection_Select Update_Model
  Collection_Split Collection_Create Collection_Example Update_Example
  Index_Model View_Model View_Spec View_State View_Proofs View_Sync View_Init.

(** The values of an array, written in a new array. *)
Definition written_tree (x : variable) (cs : list nat) : store :=
  chunk_tree (zarr_for (with_array x (full (v_shape x) (blank x))) cs) false (v_array x) ∪ new_tree (with_array x (full (v_shape x) (blank x))) cs.
Lemma keeps_written x cs : arr_wf (v_array x) -> length (v_dims x) = length (v_shape x) -> chunked (v_shape x) cs -> keeps (written_tree x cs) x.
Proof.
  intros Hw Hk Hc. set (x0 := with_array x (full (v_shape x) (blank x))).
  assert (K : keeps (new_tree x0 cs) x0).
  { apply keeps_new; [apply tabulate_wf|done|done|]. intros y Hy. cbn in Hy. apply elem_of_list_In, in_map_iff in Hy as (i & <- & _). done. }
  replace x with (with_array x0 (v_array x)) at 2 by (by destruct x).
  destruct K as [(cs' & Hc' & Hz & Hr) Hat _ _]. assert (cs' = cs) as ->.
  { unfold new_tree in Hz. rewrite lookup_insert_ne, lookup_insert in Hz by done. injection Hz as <-. done. }
  apply keeps_set; [exact Hc|exact Hz| |exact Hat|exact Hk|exact Hw|reflexivity]. intros idx Hi Hn. by rewrite Hr, decide_False.
Qed.

(** The digest of an array: its values. *)
Definition W_env : venv :=
  VEnv X_env (fun a => map (fun x => match x with Num z => Ascii.ascii_of_nat (Z.to_nat z) | NaN => "n"%char end) (a_flat a)) (map (fun _ => 2)) None
    (fun f => match f with NoFilter => lit "all" | _ => lit "pass == 2" end) (fun s => if decide (s = lit "all") then NoFilter else X_filter).
Definition W_dir : path := [lit "data"; lit "w"].
Definition W_speed : mvar := MVar (lit "speed") (lit "float64") [lit "time"; lit "x"] [(lit "unit", lit "m/s")] None (Some (Num 7)) [].
Definition W_meta : mdataset := mk_mdataset [lit "time"; lit "x"] [W_speed] [] [] None.
Definition W_view : view := View W_dir Y_coll W_meta NoFilter.
Lemma W_viewable : viewable W_env W_view.
Proof.
  split.
  - exact Y_regular.
  - repeat constructor; apply (bool_decide_unpack _); vm_compute; done.
  - intros q (r & ->) (r' & E). cbn in E. injection E as E. done.
  - intros shape. split; [apply map_length|]. apply Forall_forall. intros k Hk. cbn in Hk. apply elem_of_list_In, in_map_iff in Hk as (? & <- & _). lia.
  - apply (bool_decide_unpack _). vm_compute. done.
  - intros n mv H. apply dget_elem in H. apply elem_of_list_singleton in H as [= -> ->]. split_and!.
    + done.
    + done.
    + unfold plain_name. apply (bool_decide_unpack _). vm_compute. done.
    + apply (bool_decide_unpack _). vm_compute. done.
    + left.
    + apply (bool_decide_unpack _). vm_compute. done.
    + exists (lit "height"). eexists. split; vm_compute; reflexivity.
  - split; [apply (bool_decide_unpack _); vm_compute; done|]. intros n mv H. apply dget_elem in H. cbn in H.
    repeat (apply elem_of_cons in H as [[= -> ->]|H]; [done|]). by apply elem_of_nil in H.
Qed.
Lemma W_made M x ds : X_contents M -> M x = Some ds -> made_of Y_coll ds.
Proof.
  intros (p1 & p2 & H1 & H2 & H3 & K1 & A1 & B1 & C1 & K2 & A2 & B2 & C2) Hx.
  assert (G : forall p t q h, (forall n, n ∈ dkeys (d_vars p) <-> n ∈ [lit "time"; lit "pass"; lit "height"]) -> dget (d_vars p) (lit "time") = Some (X_time t) ->
    dget (d_vars p) (lit "pass") = Some (X_pass q) -> dget (d_vars p) (lit "height") = Some (X_height h) -> made_of Y_coll p).
  { intros p t q h K A B C. split.
    - by exists (X_time t).
    - intros n mv H _. apply dget_elem in H. cbn in H. repeat (apply elem_of_cons in H as [[= -> ->]|H]; [by eexists|]). by apply elem_of_nil in H.
    - intros n v Hn. assert (Hin : n ∈ dkeys (d_vars p)) by (apply dget_is_Some; by eexists). apply K in Hin.
      apply elem_of_cons in Hin as [->|Hin]; [rewrite A in Hn; injection Hn as <-; split; [left|by eexists]|].
      apply elem_of_cons in Hin as [->|Hin]; [rewrite B in Hn; injection Hn as <-; split; [left|by eexists]|].
      apply elem_of_list_singleton in Hin as ->. rewrite C in Hn; injection Hn as <-; split; [left|by eexists]. }
  destruct (decide (x = [1%Z])) as [->|N1]; [rewrite H1 in Hx; injection Hx as <-; by eapply G|].
  destruct (decide (x = [2%Z])) as [->|N2]; [rewrite H2 in Hx; injection Hx as <-; by eapply G|]. by rewrite H3 in Hx.
Qed.

(** The view knew the first record of the partition "pass=1". *)
Definition W_var : variable := Var (lit "speed") false (Arr [1; 2] [Num 3; Num 4]) (lit "float64") [lit "time"; lit "x"] [] None (Some (Num 7)) [].
Definition W_axis : arr := Arr [1] [Num 10].
Definition W_tree : store :=
  graft [CHECKSUM] (written_tree (sum_var W_env W_view (lit "int64") W_axis) [2]) (graft [lit "speed"] (written_tree W_var [2; 2]) ∅).
Definition W_parts (x : list Z) : option vpart := if decide (x = [1%Z]) then Some (VPart W_axis [(lit "speed", W_var)]) else None.
Lemma W_keeps : keeps_part W_env W_view W_tree (VPart W_axis [(lit "speed", W_var)]).
Proof.
  assert (Hsub : sub [CHECKSUM] W_tree = written_tree (sum_var W_env W_view (lit "int64") W_axis) [2]).
  { unfold W_tree. apply map_eq. intros q. rewrite sub_lookup, graft_lookup, strip_app, graft_lookup. change (strip [lit "speed"] ([CHECKSUM] ++ q)) with (None : option path). rewrite lookup_empty. by destruct (written_tree (sum_var W_env W_view (lit "int64") W_axis) [2] !! q). }
  assert (Hsub2 : sub [lit "speed"] W_tree = written_tree W_var [2; 2]).
  { unfold W_tree. apply map_eq. intros q. rewrite sub_lookup, graft_lookup. cbn [strip app]. rewrite decide_False by done. rewrite graft_lookup.
    change ([lit "speed"] ++ q) with (lit "speed" :: q). cbn [strip]. rewrite decide_True by done. rewrite lookup_empty. by destruct (written_tree W_var [2; 2] !! q). }
  split; cbn [vp_axis vp_vars].
  - intros q x H. unfold W_tree in H. rewrite graft_lookup in H. destruct (strip [CHECKSUM] q) as [r|] eqn:E.
    + apply strip_Some in E as ->. exists CHECKSUM, r. split; [done|by left].
    + rewrite graft_lookup in H. destruct (strip [lit "speed"] q) as [r|] eqn:E'; [|by rewrite lookup_empty in H].
      apply strip_Some in E' as ->. exists (lit "speed"), r. split; [done|right]. left.
  - split; [done|]. exists (lit "int64"). rewrite Hsub. apply keeps_written; [reflexivity|reflexivity|]. split; [reflexivity|repeat constructor].
  - apply (bool_decide_unpack _). vm_compute. done.
  - done.
  - intros n a H. apply dget_elem, elem_of_list_singleton in H as [= -> ->]. exists W_speed. split; [reflexivity|]. split; [unfold fits; split_and!; reflexivity|]. assert (K : keeps (sub [lit "speed"] W_tree) W_var); [|exact K]. rewrite Hsub2. apply keeps_written; [reflexivity|reflexivity|]. split; [reflexivity|repeat constructor].
  - intros n a k H Hk. apply dget_elem, elem_of_list_singleton in H as [= -> ->]. destruct k as [|[|k]]; try done.
Qed.
Lemma W_filled : exists M s, represents Y_coll M None s /\ X_contents M /\ holds_view W_env W_view W_parts s /\ no_collision W_env W_view M W_parts.
Proof.
  destruct Y_filled as (M & s & Hs & _ & HM). exists M, (graft (vdir W_view [1%Z]) W_tree (prune W_dir s)).
  assert (Hout : forall q, ~ under W_dir q -> graft (vdir W_view [1%Z]) W_tree (prune W_dir s) !! q = s !! q).
  { intros q Hq. rewrite graft_lookup. destruct (strip _ q) as [r|] eqn:E.
    - apply strip_Some in E as ->. destruct Hq. unfold vdir. rewrite <-app_assoc. apply under_app.
    - by rewrite prune_lookup, decide_False. }
  split; [|split; [exact HM|split]].
  - eapply (represents_frame W_view); [exact Hs|]. intros q Hq. apply Hout. intros U. by apply (vw_apart _ _ W_viewable q).
  - split.
    + intros q x H. rewrite graft_lookup in H. destruct (strip _ _) as [r|] eqn:E.
      * apply strip_Some in E. unfold vdir in E. rewrite <-app_assoc in E. apply app_inv_head in E as ->. right. exists [1%Z], r. split; [by eexists|done].
      * rewrite prune_lookup, decide_True in H; [done|apply under_app].
    + intros x p H. unfold W_parts in H. destruct (decide _) as [->|]; [|done]. injection H as <-. split; [done|].
      replace (sub _ _) with W_tree; [apply W_keeps|]. apply map_eq. intros q. rewrite sub_lookup, graft_lookup, strip_app, prune_lookup, decide_True; [by destruct (W_tree !! q)|].
      unfold vdir. rewrite <-app_assoc. apply under_app.
  - intros x ds p a Hx Hp (va & Ha & <-) Hd. unfold W_parts in Hp. destruct (decide _) as [->|]; [|done]. injection Hp as <-. exfalso.
    destruct HM as (p1 & p2 & H1 & _ & _ & _ & A1 & _). rewrite H1 in Hx. injection Hx as <-. change (c_axis (w_ref W_view)) with (lit "time") in Ha. rewrite A1 in Ha. injection Ha as <-.
    vm_compute in Hd. done.
Qed.
