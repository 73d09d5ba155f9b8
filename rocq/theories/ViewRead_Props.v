(** * Properties of the calls that read a view *)
From Verif Require Import Py Dict NdArray_Model NdArray_Spec Dataset_Model Meta_Model PartPath_Model FS_Model FS_Proofs Pool_Model Pool_Proofs
  Storage_Model Storage_Spec Storage_Proofs Storage_Change Listing_Model Listing_Spec Listing_Proofs Collection_Model Collection_Spec Collection_Proofs Crash_Spec Collection_Crash Crash_Props
  Update_Model Index_Model Validate_Props View_Model View_Spec View_State View_Proofs View_Sync View_Example View_Props2 ViewStop_Props Collection_Example Update_Example PartPath_Props ViewVarStop_Props.

(** The calls that read a view. *)
Inductive view_reads (v : venv) (w : view) : forall A, program A -> Prop :=
  | reads_partitions f : view_reads v w _ (view_parts v w f)
  | reads_load delayed f ix sel : view_reads v w _ (view_load v w delayed f ix sel)
  | reads_map B (f : callback B) delayed filt sel : view_reads v w _ (view_map v w f delayed filt sel)
  | reads_map_overlap B (f : callback B) delayed depth filt sel : view_reads v w _ (view_map_overlap v w f delayed depth filt sel)
  | reads_is_synced sched : view_reads v w _ (is_synced v sched w).

Lemma reading_sync_one v w q : reading (sync_one v w true q).
Proof.
  unfold sync_one. cbv zeta. apply within_bind; [apply within_exists; auto|]. intros [|]; cbn [negb].
  - apply within_bind; [apply within_open_array; auto|]. intros z. apply within_bind; [unfold open_group; apply within_bind; [apply within_get_tree; auto|]; intros tg; apply within_bind; [done|]; by intros|]. intros g. apply within_bind; [done|]. intros ax.
    apply within_bind; [apply within_array_attrs; auto|]. intros at_. destruct (dget at_.1 CHECKSUM_ATTR); [|done]. case_bool_decide; [done|].
    apply within_bind; [apply within_get_tree; auto|]. intros t. apply within_bind; [done|]. intros old. apply within_bind; [done|]. by intros.
  - apply within_bind; [done|]. by intros.
Qed.
Lemma reading_is_synced v w sched : reading (is_synced v sched w).
Proof.
  unfold is_synced. apply within_bind; [apply within_ref_parts|]. intros [|q l]; [done|]. apply within_bind; [|by intros]. apply within_transaction. intros p Hp.
  apply elem_of_list_In, in_map_iff in Hp as (x & <- & _). apply reading_sync_one.
Qed.

(** ** C119: reading a view changes nothing *)

(** Whatever the files are, and wherever the call is stopped. *)
Theorem C119_reading v w A (p : program A) (s u : store) : view_reads v w A p -> stopped_at p s u -> u = s.
Proof.
  intros H. apply reading_stopped. destruct H; [apply within_view_parts|apply within_view_load|apply within_view_map|apply within_view_map_overlap|apply reading_is_synced].
Qed.
(** Opening changes nothing either, unless the configuration is that of a view
    that was elsewhere (C67). *)
Theorem C119_open v reg sched d (s u : store) : (forall vc, s !! (d ++ [VIEW_CONFIG]) = Some (CView vc) -> vc_base vc = d) ->
  stopped_at (open_view v reg sched d) s u -> u = s.
Proof.
  intros Hb [p' H]. refine (always_sound CTorn (fun t => t = s) _ _ _ _ _ H). unfold open_view.
  apply always_bind; [apply always_read; [apply within_exists; auto|done]|]. intros b s1 E. rewrite exec_exists in E. injection E as <- <-.
  destruct (negb _); [by cbn|]. apply always_bind; [apply always_read; [apply within_read_file; auto|done]|]. intros f s1 E. rewrite exec_read_file in E. injection E as <- <-.
  destruct (s !! (d ++ [VIEW_CONFIG])) as [x|] eqn:Ex; [|by cbn]. destruct x as [ | | | |vc| |]; try by cbn.
  specialize (Hb vc eq_refl). apply always_bind; [by cbn|]. intros m s1 E. cbn [exec] in E. injection E as _ <-. rewrite Hb. unfold make_view.
  apply always_bind; [apply always_read; [apply within_open_collection|done]|]. intros c s1 E.
  assert (s1 = s) as ->.
  { pose proof (reading_stopped (open_collection reg (vc_ref vc) (Some (lit "r"))) s s1) as Hr. apply Hr; [apply within_open_collection|by eapply stopped_end]. }
  cbv zeta. apply always_bind; [apply always_read; [apply within_exists; auto|done]|]. intros b s1 E1. rewrite exec_exists in E1.
  assert (empty_at d s = false) as Hd by (apply empty_at_false; eexists _, _; split; [apply under_app|exact Ex]). rewrite Hd in E1. injection E1 as <- <-. by cbn.
Qed.
Print Assumptions C119_reading.
Print Assumptions C119_open.
(** A case: a view that can be opened and a call that reads it. *)
Example C119_case : exists s w', (forall vc, s !! (W_dir ++ [VIEW_CONFIG]) = Some (CView vc) -> vc_base vc = W_dir) /\
  exec (open_view W_env the_registry [] W_dir) s = (Ok w', s) /\ stopped_at (open_view W_env the_registry [] W_dir) s s /\ view_reads W_env w' _ (is_synced W_env [] w').
Proof.
  destruct C116_case as (s & _ & _ & Eo & Ec & Hm & Hf). set (w := View W_dir W_opened W_meta X_filter) in *.
  destruct (C62_open W_env the_registry [] w s Eo Ec Hm Hf) as (m & E & _). exists s. eexists. split; [|split; [exact E|split; [by eapply stopped_end|constructor]]].
  intros vc Hvc. change (W_dir ++ [VIEW_CONFIG]) with (w_dir w ++ [VIEW_CONFIG]) in Hvc. unfold w in Hvc. cbn [w_dir] in Hvc. rewrite Ec in Hvc. by injection Hvc as <-.
Qed.
