(** * Opening a view after a synchronisation that was interrupted *)
From Verif Require Import Py Dict NdArray_Model NdArray_Spec NdArray_Proofs Dataset_Model Dataset_Spec Dataset_Proofs Meta_Model Meta_Spec Meta_Props PartPath_Model PartPath_Proofs PartPath_Props
  Split_Spec FS_Model FS_Proofs Pool_Model Pool_Proofs Storage_Model Storage_Spec Storage_Chunks Storage_Proofs Storage_Change
  Listing_Model Listing_Spec Listing_Proofs Collection_Model Collection_Spec Collection_Proofs Collection_State Collection_Select Collection_Load Collection_Example Crash_Spec Collection_Crash Crash_Props Update_Model Update_Example Validate_Props
  Index_Model View_Model View_Spec View_State View_Proofs View_Sync View_Init View_Vars View_Example View_Props View_Props2 ViewStop_Props ViewVarStop_Props.

(** ** C120: a view can be opened after a synchronisation that was interrupted *)

(** Without filters: wherever [sync()] is stopped, only files of the partitions
    that the reference has are changed, and the view is opened as before. *)
Theorem C120_opened_partial v reg w M I s sched sched' u : viewable v w -> represents (w_ref w) M I s -> stopped_at (sync v sched sched' w NoFilter) s u ->
  (forall q, (forall x, is_Some (M x) -> ~ under (vdir w x) q) -> u !! q = s !! q) /\
  (exec (open_collection reg (c_dir (w_ref w)) (Some (lit "r"))) s = (Ok (w_ref w), s) -> s !! (w_dir w ++ [VIEW_CONFIG]) = Some (CView (vconfig_of v w)) ->
   well_formed (w_meta w) -> ve_unpickle v (ve_pickle v (w_filters w)) = w_filters w ->
   forall sched'', exists m, exec (open_view v reg sched'' (w_dir w)) u = (Ok (View (w_dir w) (w_ref w) m (w_filters w)), u) /\ same_metadata (w_meta w) m).
Proof.
  intros Hw Hs [p' H].
  assert (Hout : forall q, (forall x, is_Some (M x) -> ~ under (vdir w x) q) -> u !! q = s !! q).
  { destruct (select_all (ve_env v) (w_ref w) (vw_regular _ _ Hw) M I s Hs) as (vs & _ & Hvs & Esel). pose proof (exec_ref_parts v w NoFilter s vs Esel) as Eref. set (kd := key_dirs (c_part (w_ref w))) in *.
    set (W := fun q => exists x, is_Some (M x) /\ under (vdir w x) q).
    assert (Ha : always CTorn (fun t => forall q, ~ W q -> t !! q = s !! q) (sync v sched sched' w NoFilter) s).
    { unfold sync. apply always_bind; [by cbn|]. intros w0 s' E. cbn in E. injection E as <- <-. apply always_bind; [apply always_read; [apply within_ref_parts|done]|].
      intros l s' E. rewrite Eref in E. injection E as <- <-. apply (always_within W _ _ s s); [|intros q _; reflexivity|intros t Ht; exact Ht].
      assert (Ht : within (fun _ => True) W (execute_transaction CTorn sched' (map (sync_one v w false) (map kd vs)))).
      { apply within_transaction. intros p Hp. rewrite map_map in Hp. apply elem_of_list_In, in_map_iff in Hp as (x & <- & Hx%elem_of_list_In). apply within_sync_one; [auto|]. intros q Hq. exists x. split; [by apply Hvs|exact Hq]. }
      destruct (map kd vs) as [|q0 l0]; [done|]. apply within_bind; [exact Ht|]. intros r. apply within_bind; [done|]. by intros. }
    intros q Hq. apply (always_sound CTorn _ _ p' s u Ha H). intros (x & Hx & U). by eapply Hq. }
  split; [exact Hout|]. intros Eo Ec Hm Hf sched''. apply C62_open; [|rewrite Hout; [exact Ec|]|done|done].
  - eapply open_same; [exact Eo|]. apply Hout. intros x _ U. apply (vw_apart _ _ Hw (c_dir (w_ref w) ++ [CONFIG])); [|apply under_app]. unfold vdir in U. by eapply under_more.
  - intros x [ds Hx] (r & E). symmetry in E. revert E. apply (config_part v w Hw). by destruct (rp_part _ _ _ _ Hs _ _ Hx).
Qed.
Print Assumptions C120_opened_partial.

(** With filters the claim is false of the code: the configuration is written
    again, in place, and the view cannot be opened any more. *)
Theorem C120_opened_refuted v w s sched sched' f : f <> NoFilter ->
  exists u, stopped_at (sync v sched sched' w f) s u /\ forall reg sched'', exec (open_view v reg sched'' (w_dir w)) u = (Raise ValueError, u).
Proof.
  intros Hf. exists (<[w_dir w ++ [VIEW_CONFIG] := CTorn]> s). split; [|intros; apply open_torn, lookup_insert].
  unfold sync. apply stopped_first. destruct f; [done|..]; (cbv zeta; apply stopped_first; unfold write_vconfig; eexists; eapply rtc_l; [apply step_tear|apply rtc_refl]).
Qed.
Print Assumptions C120_opened_refuted.

(** A case: the view of C62, whose reference has two partitions. *)
Example C120_case : exists M s, let w := View W_dir W_opened (mk_mdataset (md_dims (c_meta W_opened)) [] [] [] None) X_filter in
  viewable W_env w /\ represents W_opened M None s /\ is_Some (M [1%Z]) /\ exec (open_collection the_registry (c_dir (w_ref w)) (Some (lit "r"))) s = (Ok (w_ref w), s) /\
  s !! (W_dir ++ [VIEW_CONFIG]) = Some (CView (vconfig_of W_env w)) /\ well_formed (w_meta w) /\ ve_unpickle W_env (ve_pickle W_env (w_filters w)) = w_filters w /\ X_filter <> NoFilter.
Proof.
  destruct C62_case as (M & s & Eo & Hw0 & _ & Hs & _ & _ & _ & H1 & _). set (w := View W_dir W_opened (mk_mdataset (md_dims (c_meta W_opened)) [] [] [] None) X_filter).
  exists M, (<[W_dir ++ [VIEW_CONFIG] := CView (vconfig_of W_env w)]> s). cbv zeta. fold w. split_and!.
  - exact Hw0.
  - eapply (represents_frame w); [exact Hs|]. intros q Hq. apply lookup_insert_ne. intros <-. eapply (vw_apart _ _ Hw0 (W_dir ++ [VIEW_CONFIG])); [apply under_app|exact Hq].
  - exact H1.
  - eapply open_same; [exact Eo|]. by apply lookup_insert_ne.
  - apply lookup_insert.
  - apply C17_well_formed.
  - vm_compute. reflexivity.
  - discriminate.
Qed.
