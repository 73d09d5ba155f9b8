(** * Properties of the updates of a view that are interrupted *)
From Verif Require Import Py Dict NdArray_Model NdArray_Spec NdArray_Proofs Dataset_Model Dataset_Spec Dataset_Proofs Dataset_Props2 Assemble_Proofs DaskUtils_Model
  Meta_Model PartPath_Model PartPath_Proofs Split_Spec FS_Model FS_Proofs Pool_Model Pool_Proofs
  Storage_Model Storage_Spec Storage_Chunks Storage_Proofs Storage_Change
  Listing_Model Listing_Spec Listing_Proofs Collection_Model Collection_Spec Collection_Proofs Collection_State Collection_Select Collection_Load
  Collection_Example Crash_Spec Collection_Crash Crash_Props Update_Model Update_Spec Update_State Update_Proofs Update_Crash Update_Example Update_Props Overlap_Proofs Validate_Proofs Validate_Props Map_Props
  View_Model View_Spec View_State View_Proofs View_Sync View_Example View_Vars View_Props2 View_Load View_Example2 View_Props3 View_Map View_Props4 View_Update View_Props5 ViewStop_Props ViewVarStop_Props.

Lemma pseq_each {A B : Type} (f : A -> program B) l : forall s rs s', exec (pseq (map f l)) s = (Ok rs, s') -> Forall2 (fun a b => exists s1 s2, exec (f a) s1 = (Ok b, s2)) l rs.
Proof.
  induction l as [|a l IH]; intros s rs s' E; cbn in E; [injection E as <- _; constructor|].
  rewrite exec_bind in E. destruct (exec (f a) s) as [[b|ex] s1] eqn:Ea; [|discriminate]. cbv iota beta in E. rewrite exec_bind in E.
  destruct (exec (pseq (map f l)) s1) as [[bs|ex] s2] eqn:El; [|discriminate]. cbn in E. injection E as <- _. constructor; [by exists s, s1|]. by eapply IH.
Qed.
Lemma load_part_path w delayed sel k s r s' : exec (load_part w delayed sel (k, [])) s = (Ok r, s') -> r.2 = map (p_dir (c_part (w_ref w))) k.
Proof.
  unfold load_part, load_one. cbv zeta. cbn [fst snd]. rewrite exec_bind. destruct (exec (open_zarr_group _ _ _) s) as [[ds|ex] s1]; [|discriminate]. cbv iota beta. rewrite exec_bind.
  destruct (exec (pseq _) s1) as [[vs|ex] s2]; [|discriminate]. cbv iota beta. destruct (d_dims ds); rewrite exec_bind; cbn [exec].
  - destruct (new_dataset _ _ _ _ _) as [d|ex]; [|discriminate]. cbn. by intros [= <- _].
  - destruct (foldM _ _ _) as [d|ex]; [|discriminate]. cbn. by intros [= <- _].
Qed.
Lemma load_list_paths v w delayed filt sel s ks l s' : exec (view_keys v w filt) s = (Ok ks, s) -> exec (load_list v w delayed filt sel) s = (Ok l, s') ->
  forall y, y ∈ l -> exists k, k ∈ ks /\ y.2.2 = map (p_dir (c_part (w_ref w))) k.
Proof.
  intros Ek E. unfold load_list in E. rewrite exec_bind, Ek in E. cbv iota beta in E. rewrite exec_bind in E. destruct (exec (pseq _) s) as [[rs|ex] s1] eqn:Er; [|discriminate].
  cbn in E. injection E as <- _. apply pseq_each in Er. intros y Hy. apply elem_of_list_lookup in Hy as (i & Hi). apply lookup_zip_with_Some in Hi as (k & r & -> & H1 & H2).
  destruct (Forall2_lookup_lr _ _ _ _ _ _ Er H1 H2) as (s2 & s3 & E2). exists k. split; [by eapply elem_of_list_lookup_2|]. by eapply load_part_path.
Qed.
(** An update only writes chunks. *)
Lemma within_update_chunks (W : path -> Prop) d array : (forall ci, W (d ++ [chunk_key ci])) -> within (fun _ => True) W array -> within (fun _ => True) W (update_zarr_array d array).
Proof.
  intros H Ha. unfold update_zarr_array. apply within_bind; [apply within_read_file; auto|]. intros [x|]; [|done]. destruct x as [m| | | | | |]; try done. destruct m as [z| |]; try done.
  apply within_bind; [done|]. intros x. cbv zeta. destruct (z_shape z); [done|]. case_bool_decide; [|done]. by apply within_chunks.
Qed.

Section C117.
Context (v : venv) (w : view) (M : list Z -> option dataset) (I : option dataset) (V : list Z -> option vpart) (s : store).
Context (Hw : viewable v w) (Hs : represents (w_ref w) M I s) (Hv : holds_view v w V s).
Context (filt : filter) (P : list Z -> Prop) (Hf : filt = NoFilter \/ filterable (w_ref w)) (HP : forall x, is_Some (M x) -> says (c_part (w_ref w)) filt x (P x)).
Context (sched : schedule) (workers : Z) (f : update_callback) (delayed : bool) (depth : Z) (np : option Z) (sel : option (list str)) (trim : bool) (u : store).
Context (Hu : stopped_at (view_update v sched workers w f delayed depth filt np sel trim) s u).
Local Notation R := (fun _ : path => True).

(** ** C117: an update of a view that is interrupted only changes the chunks of what is updated *)

(** Wherever the update is stopped, a file is what it was, unless it is a chunk of
    a variable that the callback returns, in a partition of the view that the
    filter selects. *)
Theorem C117_chunks q : (forall x n ci, is_Some (M x) -> is_Some (V x) -> P x -> returned f n -> q <> vdir w x ++ [n; chunk_key ci]) -> u !! q = s !! q.
Proof using All.
  set (W := fun q => exists x n ci, is_Some (M x) /\ is_Some (V x) /\ P x /\ returned f n /\ q = vdir w x ++ [n; chunk_key ci]).
  destruct (exec_view_keys v w M I V s Hw Hs Hv filt P Hf HP) as (vs & _ & Hvs & _ & _ & Ek).
  set (Psi := fun u : store => forall q, ~ W q -> u !! q = s !! q). assert (Hs0 : Psi s) by done.
  assert (Ha : always CTorn Psi (view_update v sched workers w f delayed depth filt np sel trim) s).
  { unfold view_update. apply always_bind; [by cbn|]. intros [] s1 E. cbn [exec] in E. injection E as _ <-.
    apply always_bind; [apply always_read; [apply within_load_list|done]|]. intros l s1 E.
    assert (s1 = s) as ->.
    { pose proof (always_sound CTorn _ _ _ _ _ (always_read (fun t => t = s) (load_list v w delayed filt sel) s (within_load_list v w _ _ _ _) eq_refl) (exec_steps CTorn (load_list v w delayed filt sel) s)) as Hst. by rewrite E in Hst. }
    pose proof (load_list_paths _ _ _ _ _ _ _ _ _ Ek E) as Hl.
    assert (HW : forall y n ci, y ∈ l -> returned f n -> W ((w_dir w ++ y.2.2 ++ [n]) ++ [chunk_key ci])).
    { intros y n ci Hy Hn. destruct (Hl y Hy) as (k & Hk & ->). apply elem_of_list_In, in_map_iff in Hk as (x & <- & Hx%elem_of_list_In). apply Hvs in Hx as (H1 & H2 & H3).
      exists x, n, ci. split_and!; [done..|]. unfold vdir, key_dirs. by rewrite <-!app_assoc. }
    apply (always_within W Psi _ s s); [|done|by intros].
    destruct l as [|x l]; [done|]. apply within_bind; [done|]. intros names. apply within_bind; [done|]. intros _. cbv zeta.
    assert (Hone : forall (one : list (str * Z) * (dataset * path) -> program unit),
      one = view_update_one w delayed sel f \/ one = view_update_overlap w delayed depth sel trim f (x :: l) -> forall y, y ∈ x :: l -> within R W (one y)).
    { intros one [->| ->] y Hy.
      - unfold view_update_one. cbv zeta. apply within_bind.
        + unfold current. destruct delayed; [|done]. apply within_bind; [apply within_load_part|by intros].
        + intros ds. destruct (call_dict (cb_call f ds None)) as [r|ex] eqn:Er; [|done]. destruct (call_dict_keys f _ _ _ Er) as [_ Hr]. cbn [pbind]. apply within_pfor. intros nr Hn. apply within_update_chunks.
          * intros ci. apply HW; [done|]. apply Hr. apply elem_of_list_fmap. by exists nr.
          * apply within_evaluate. apply within_bind; [apply within_load_part|by intros].
      - unfold view_update_overlap. cbv zeta.
        assert (Hre : within R W (let! l0 <- pseq (map (fun y0 => load_part w delayed sel (y0.1, [])) (x :: l)); Ret (select_overlap w depth l0 y.2.2))).
        { apply within_bind; [|by intros]. apply within_pseq. intros p Hp. apply elem_of_list_In, in_map_iff in Hp as (k & <- & _). apply within_load_part. }
        apply within_bind; [destruct delayed; [exact Hre|done]|]. intros [ds ix]. unfold call_with.
        destruct (call_dict _) as [r|ex] eqn:Er; [|done]. destruct (call_dict_keys f _ _ _ Er) as [_ Hr]. cbn [pbind]. apply within_pfor. intros nr Hn.
        assert (He : within R W (evaluate (let! di <- (let! l0 <- pseq (map (fun y0 => load_part w delayed sel (y0.1, [])) (x :: l)); Ret (select_overlap w depth l0 y.2.2)); pret di.1) delayed ds nr.2)).
        { apply within_evaluate. apply within_bind; [exact Hre|by intros]. }
        assert (Hc : forall ci, W ((w_dir w ++ y.2.2 ++ [nr.1]) ++ [chunk_key ci])) by (intros ci; apply HW; [done|]; apply Hr, elem_of_list_fmap; by exists nr).
        destruct trim.
        + destruct (get_var ds nr.1) as [a|ex]; [|done]. destruct (get_slices a _ ix) as [key|ex]; [|done]. apply within_update_chunks; [exact Hc|]. apply within_bind; [exact He|by intros].
        + by apply within_update_chunks. }
    set (choice := if (depth =? 0)%Z then _ else _).
    assert (Hch : forall one, choice = Ok one -> one = view_update_one w delayed sel f \/ one = view_update_overlap w delayed depth sel trim f (x :: l)).
    { intros one. unfold choice. destruct (depth =? 0)%Z; [intros [= <-]; by left|]. destruct (match sel with None => _ | _ => _ end); [done|].
      destruct (depth <? 0)%Z; [done|]. intros [= <-]. by right. }
    clearbody choice. destruct choice as [one|ex]; [|done]. specialize (Hch one eq_refl).
    lazymatch goal with |- within _ _ (pbind (Ret (Ok ?o)) ?k) => change (within R W (k o)) end. cbv beta.
    destruct (split_sequence (x :: l) _) as [batches|ex] eqn:Eb; [|done]. cbn [pbind]. rewrite <-(map_id (x :: l)) in Eb. apply split_map in Eb as (bs & _ & Eb & Ec).
    apply within_bind; [|by intros]. apply within_transaction. intros p Hp.
    apply elem_of_list_In, in_map_iff in Hp as (b & <- & Hb). apply within_pfor. intros y Hy. apply Hone; [done|]. rewrite <-Ec. subst batches.
    apply in_map_iff in Hb as (b' & <- & Hb). rewrite map_id in Hy. apply elem_of_list_In, in_concat. exists b'. split; [done|]. by apply elem_of_list_In. }
  destruct Hu as [p' Hp']. pose proof (always_sound CTorn _ _ _ _ _ Ha Hp') as Hend. intros Hq. apply Hend. intros (x & n & ci & H1 & H2 & H3 & H4 & E). by eapply Hq.
Qed.

(** So the reference, the configuration, the axis of each partition, the other
    variables and the metadata of all the variables are what they were. *)
Theorem C117_rest : represents (w_ref w) M I u /\ (forall q, ~ under (w_dir w) q -> u !! q = s !! q) /\ u !! (w_dir w ++ [VIEW_CONFIG]) = s !! (w_dir w ++ [VIEW_CONFIG]) /\
  (forall x n r, length x = length (p_keys (c_part (w_ref w))) -> ~ returned f n -> u !! (vdir w x ++ n :: r) = s !! (vdir w x ++ n :: r)) /\
  (forall d n, n ∈ [ZARRAY; ZATTRS] -> u !! (d ++ [n]) = s !! (d ++ [n])).
Proof using All.
  assert (Hlen : forall x, is_Some (M x) -> length x = length (p_keys (c_part (w_ref w)))) by (intros x [ds Hx]; by destruct (rp_part _ _ _ _ Hs _ _ Hx)).
  assert (Hout : forall q, ~ under (w_dir w) q -> u !! q = s !! q).
  { intros q Hq. apply C117_chunks. intros x n ci _ _ _ _ ->. apply Hq. unfold vdir. rewrite <-app_assoc. apply under_app. }
  split_and!.
  - eapply (represents_frame w); [exact Hs|]. intros q Hq. apply Hout. intros U. by eapply (vw_apart _ _ Hw).
  - exact Hout.
  - apply C117_chunks. intros x n ci H1 _ _ _ E. symmetry in E. revert E. apply (config_part v w Hw). by apply Hlen.
  - intros x n r Hl Hn. apply C117_chunks. intros y m ci H1 _ _ H4 E. destruct (decide (y = x)) as [->|N].
    + apply app_inv_head in E. injection E as -> _. done.
    + refine (vdirs_apart w y x _ _ _ (vdir w x ++ n :: r) _ _); [by apply Hlen|done|done|rewrite E; apply under_app|apply under_app].
  - intros d n Hn. apply C117_chunks. intros x m ci _ _ _ _ E. change [m; chunk_key ci] with ([m] ++ [chunk_key ci]) in E. rewrite app_assoc in E. apply app_inj_tail in E as [_ E].
    symmetry in E. revert E. apply chunk_key_meta. apply elem_of_cons in Hn as [->|Hn]; [left|]. apply elem_of_list_singleton in Hn as ->. right. right. left.
Qed.
End C117.
Print Assumptions C117_chunks.
Print Assumptions C117_rest.

(** A case: the update of C73, stopped at its end, which has changed a chunk. *)
Example C117_case : exists M s u, viewable W_env W_view /\ represents Y_coll M None s /\ holds_view W_env W_view U_parts s /\
  stopped_at (view_update W_env [(0, true); (1, false)] 4 W_view U_callback true 0 NoFilter None None false) s u /\ u <> s.
Proof.
  destruct C73_case as (s & s' & M & V' & p1 & p2 & Hs & Hv & E & Hs' & Hv' & H1 & H2 & E1 & E2). exists M, s, s'. split; [exact W_viewable|]. split; [exact Hs|]. split; [exact Hv|].
  split; [by eapply stopped_end|]. intros ->.
  destruct (dget (vp_vars p1) (lit "speed")) as [b|] eqn:Eb; [|discriminate].
  destruct (hw_part _ _ _ _ Hv [1%Z] (U_part [10; 20]%Z [1; 2; 3; 4]%Z) eq_refl) as (_ & K). destruct (hw_part _ _ _ _ Hv' _ _ H1) as (_ & K').
  destruct (kt_vars _ _ _ _ K (lit "speed") (U_var [1; 2; 3; 4]%Z)) as (_ & _ & _ & Ka); [vm_compute; reflexivity|]. destruct (kt_vars _ _ _ _ K' _ _ Eb) as (_ & _ & _ & Kb).
  destruct (keeps_read _ _ Ka) as (cs & _ & Ez & Er). destruct (keeps_read _ _ Kb) as (cs' & _ & Ez' & Er'). rewrite Ez in Ez'.
  assert (Ezz : zarr_for b cs' = zarr_for (U_var [1; 2; 3; 4]%Z) cs) by (set (za := zarr_for b cs') in *; set (zb := zarr_for (U_var _) cs) in *; clearbody za zb; by injection Ez').
  rewrite Ezz, Er in Er'. injection Er' as Eab. cbn [option_map] in E1. rewrite <-Eab in E1. vm_compute in E1. discriminate.
Qed.
