(** * Properties of the creation of a view that is interrupted *)
From Verif Require Import Py Dict NdArray_Model NdArray_Proofs Dataset_Model Dataset_Spec Meta_Model Meta_Spec Meta_Props PartPath_Model PartPath_Proofs PartPath_Props Validate_Props Variable_Props
  Split_Spec FS_Model FS_Proofs Pool_Model Pool_Proofs Storage_Model Storage_Spec Storage_Proofs
  Listing_Model Listing_Spec Listing_Proofs Collection_Model Collection_Spec Collection_Proofs Collection_State Collection_Select Collection_Example Crash_Spec Collection_Crash Crash_Props
  Update_Model Update_Spec Update_Proofs Update_Example Variable_Crash Index_Model View_Model View_Spec View_State View_Proofs View_Sync View_Init View_Vars View_Example Reopen_Spec Reopen_Props View_Props2 CopyStop_Props.

(** The checksums are not at the place of the configuration. *)
Lemma within_sums v w sched f : within (fun _ => True) (fun q => under (w_dir w) q /\ q <> w_dir w ++ [VIEW_CONFIG]) (init_partitions v sched w f).
Proof.
  apply within_bind; [apply within_ref_parts|]. intros l. apply within_bind.
  - apply within_pfilter. intros q. apply within_bind; [apply within_exists; auto|]. by intros.
  - intros missing. apply within_bind; [|by intros]. apply within_transaction. intros p Hp. apply elem_of_list_In, in_map_iff in Hp as (q & <- & _).
    apply within_bind; [apply within_view_group; auto|]. intros g. apply within_bind; [done|]. intros ax.
    assert (H' : forall x, under ((w_dir w ++ q) ++ [CHECKSUM]) x -> under (w_dir w) x /\ x <> w_dir w ++ [VIEW_CONFIG]).
    { intros x (r & ->). split; [rewrite <-!app_assoc; apply under_app|]. rewrite <-!app_assoc. intros E. apply app_inv_head in E.
      destruct q as [|a [|b q]]; cbn in E; discriminate E. }
    unfold write_checksum_array. cbv zeta. apply within_bind; [apply within_exists; auto|]. intros b. apply within_bind.
    + destruct b; [apply within_open_array; auto|]. apply within_bind; [apply within_write, H', under_app|]. intros _. apply within_bind; [apply within_write, H', under_app|done].
    + intros z. apply within_bind.
      * unfold set_array. case_bool_decide; [|done]. by apply within_write_chunks.
      * intros _. apply within_bind; [apply within_array_attrs; auto|]. intros at_. apply within_write, H', under_app.
Qed.
(** A view cannot be opened from an incomplete configuration. *)
Lemma open_torn v reg sched d (u : store) : u !! (d ++ [VIEW_CONFIG]) = Some CTorn -> exec (open_view v reg sched d) u = (Raise ValueError, u).
Proof.
  intros H. unfold open_view. rewrite exec_bind, exec_exists. destruct (empty_at _ u); [done|]. cbn [negb]. rewrite exec_bind, exec_read_file, H. done.
Qed.

(** Opening a collection only depends on its configuration. *)
Lemma open_found reg ref mode (s : store) c : exec (open_collection reg ref mode) s = (Ok c, s) -> is_Some (s !! (ref ++ [CONFIG])).
Proof.
  unfold open_collection, from_config. rewrite exec_bind, exec_exists. destruct (empty_at _ s); [done|]. cbn [negb]. rewrite exec_bind, exec_read_file.
  destruct (s !! (ref ++ [CONFIG])); [by eexists|done].
Qed.
Lemma open_same reg ref mode (s u : store) c : exec (open_collection reg ref mode) s = (Ok c, s) -> u !! (ref ++ [CONFIG]) = s !! (ref ++ [CONFIG]) ->
  exec (open_collection reg ref mode) u = (Ok c, u).
Proof.
  intros E Hu. destruct (open_found _ _ _ _ _ E) as [x Hx]. rewrite Hx in Hu. revert E.
  assert (He : forall t : store, t !! (ref ++ [CONFIG]) = Some x -> empty_at (ref ++ [CONFIG]) t = false) by (intros t Ht; apply empty_at_false; exists (ref ++ [CONFIG]), x; split; [apply under_refl|done]).
  unfold open_collection, from_config. rewrite !exec_bind, !exec_exists, (He s Hx), (He u Hu). cbn [negb]. rewrite !exec_bind, !exec_read_file, Hx, Hu.
  destruct x as [| | |cc| | |]; try done. destruct (md_from_config _) as [m|]; [|done]. cbn [pbind]. destruct (get_codecs _ _) as [p|]; [|done]. cbn [pbind]. unfold make_collection.
  destruct (new_collection _ m p ref _) as [c1|ex] eqn:En; [|done]. cbn [pbind]. destruct (c_readonly c1); [by intros [= <-]|].
  assert (Hd : c_dir c1 = ref).
  { revert En. unfold new_collection. destruct (dget _ _) as [v|]; [|done]. destruct (negb _); [done|]. destruct (negb _); [done|]. destruct (mv_dims v); [done|]. by intros [= <-]. }
  rewrite !exec_bind. unfold write_config. rewrite !exec_bind, !exec_exists, Hd, (He s Hx), (He u Hu). cbn. by intros [= <-].
Qed.

Lemma open_dir reg ref mode (s : store) c : exec (open_collection reg ref mode) s = (Ok c, s) -> c_dir c = ref.
Proof.
  intros E. pose proof E as E'. revert E. unfold open_collection, from_config. rewrite !exec_bind, !exec_exists. destruct (empty_at _ s) eqn:He; [done|]. cbn [negb]. rewrite !exec_bind, !exec_read_file.
  destruct (s !! (ref ++ [CONFIG])) as [x|]; [|done]. destruct x as [| | |cc| | |]; try done. destruct (md_from_config _) as [m|]; [|done]. cbn [pbind]. destruct (get_codecs _ _) as [p|]; [|done]. cbn [pbind]. unfold make_collection.
  destruct (new_collection _ m p ref _) as [c1|ex] eqn:En; [|done]. cbn [pbind].
  assert (Hd : c_dir c1 = ref).
  { revert En. unfold new_collection. destruct (dget _ _) as [v|]; [|done]. destruct (negb _); [done|]. destruct (negb _); [done|]. destruct (mv_dims v); [done|]. by intros [= <-]. }
  destruct (c_readonly c1); [by intros [= <-]|]. rewrite !exec_bind. unfold write_config. rewrite !exec_bind, !exec_exists, Hd, He. cbn. by intros [= <-].
Qed.

Section C102.
Context (v : venv) (reg : registry) (d ref : path) (f : filter) (c : collection).
Local Notation config := (d ++ [VIEW_CONFIG]).
Local Notation empty_metadata := (mk_mdataset (md_dims (c_meta c)) [] [] [] None).
(** The view that is asked for. *)
Local Notation w := (View d c empty_metadata f).

(** ** C102: a view that is opened after its creation was interrupted is the one that was asked for *)

(** Wherever the creation is stopped, nothing has changed outside the directory of
    the view; and nothing was done, or opening the view raises, or gives a view
    of the same reference with the same filters, without variables. *)
Theorem C102_stopped sched s u : exec (open_collection reg ref (Some (lit "r"))) s = (Ok c, s) -> viewable v w ->
  nothing_at d s -> ve_unpickle v (ve_pickle v f) = f ->
  stopped_at (create_view v reg sched d ref f) s u ->
  (forall q, ~ under d q -> u !! q = s !! q) /\
  (u = s \/ (forall reg' sched', exec (open_view v reg' sched' d) u = (Raise ValueError, u)) \/
   forall sched', exists m, exec (open_view v reg sched' d) u = (Ok (View d c m f), u) /\ same_metadata empty_metadata m).
Proof.
  intros Eo Hw Hn Hf [p' H]. assert (Ed : c_dir c = ref) by (by eapply open_dir).
  assert (Hap : forall q, under ref q -> under d q -> False) by (rewrite <-Ed; intros q U1 U2; exact (vw_apart _ _ Hw q U2 U1)).
  assert (Hm : well_formed empty_metadata) by apply C17_well_formed.
  set (conf := CView (vconfig_of v w)).
  assert (Ee : empty_at d s = true) by (by apply nothing_empty).
  assert (Ha : always CTorn (fun u => u = s \/ u = <[config := CTorn]> s \/ (forall q, ~ under d q -> u !! q = s !! q) /\ u !! config = Some conf) (create_view v reg sched d ref f) s).
  { unfold create_view. apply always_bind; [apply always_read; [apply within_exists; auto|by left]|]. intros x s' E. rewrite exec_exists, Ee in E. injection E as <- <-. cbn [negb].
    unfold make_view. apply always_bind.
    { unfold open_collection. apply always_open; [by eapply open_found|by left]. }
    intros c' s' E. rewrite Eo in E. injection E as <- <-. cbv zeta. cbn [default].
    apply always_bind; [apply always_read; [apply within_exists; auto|by left]|]. intros x s' E. rewrite exec_exists, Ee in E. injection E as <- <-. cbn [negb].
    assert (Hs0 : forall y : content, forall q, ~ under d q -> <[config := y]> s !! q = s !! q).
    { intros y q Nq. apply lookup_insert_ne. intros <-. apply Nq, under_app. }
    apply always_bind.
    { unfold write_vconfig, write_file. cbn. split; [by left|]. split; [by right; left|]. split; [|done]. right. right. split; [apply Hs0|]. apply lookup_insert. }
    intros x' s' E. unfold write_vconfig in E. rewrite exec_write in E. injection E as <- <-.
    assert (Hin : always CTorn (fun u => u = s \/ u = <[config := CTorn]> s \/ (forall q, ~ under d q -> u !! q = s !! q) /\ u !! config = Some conf) (init_partitions v sched w f) (<[config := conf]> s)).
    { eapply (always_within (fun q => under d q /\ q <> config) _ _ _ (<[config := conf]> s)); [apply (within_sums v w)|reflexivity|].
      intros u0 Hu0. right. right. split.
      + intros q Nq. rewrite Hu0; [by apply Hs0|]. intros [? _]. done.
      + rewrite Hu0; [apply lookup_insert|]. intros [_ X]. done. }
    apply always_bind; [exact Hin|]. intros y s'' E. cbn. split; [|done]. pose proof (exec_steps CTorn (init_partitions v sched w f) (<[config := conf]> s)) as Hst.
    change (exec (init_partitions v sched w f) (<[config := conf]> s) = (Ok y, s'')) in E. rewrite E in Hst. exact (always_sound CTorn _ _ _ _ _ Hin Hst). }
  pose proof (always_sound CTorn _ _ p' s u Ha H) as Hu. cbn beta in Hu. destruct Hu as [->|[->|[H1 H2]]].
  - split; [done|]. by left.
  - split; [intros q Nq; apply lookup_insert_ne; intros <-; apply Nq, under_app|]. right. left. intros reg' sched'. apply open_torn, lookup_insert.
  - split; [exact H1|]. right. right. intros sched'.
    destruct (C62_open v reg sched' w u) as (m & Em & Hsm); [|exact H2|exact Hm|exact Hf|by exists m].
    cbn [w_ref]. rewrite Ed. apply (open_same reg ref _ s); [done|]. apply H1. intros U. exact (Hap _ (under_app _ _) U).
Qed.

(** ** C103: a view that can be opened is complete *)

(** The claim is false of the code: the creation of any view with a partition may
    be stopped when the configuration is written and no partition is there; the
    view can be opened and shows none of the partitions, where the complete one
    shows them. *)
Theorem C103_complete_refuted sched s M I (P : list Z -> Prop) : exec (open_collection reg ref (Some (lit "r"))) s = (Ok c, s) -> viewable v w ->
  nothing_at d s -> ve_unpickle v (ve_pickle v f) = f ->
  represents c M I s -> (forall x ds, M x = Some ds -> made_of c ds) ->
  f = NoFilter \/ filterable c -> (forall x, is_Some (M x) -> says (c_part c) f x (P x)) -> (exists x, is_Some (M x) /\ P x) ->
  exists u s' parts, stopped_at (create_view v reg sched d ref f) s u /\
    (forall sched', exists m, exec (open_view v reg sched' d) u = (Ok (View d c m f), u) /\ same_metadata empty_metadata m /\
       exec (view_parts v (View d c m f) f) u = (Ok [], u)) /\
    exec (create_view v reg sched d ref f) s = (Ok w, s') /\ exec (view_parts v w f) s' = (Ok parts, s') /\ parts <> [].
Proof.
  intros Eo Hw Hn Hf Hs Hmo Hfi HP (x0 & Hx0 & HPx0). assert (Ed : c_dir c = ref) by (by eapply open_dir).
  assert (Hap : forall q, under ref q -> under d q -> False) by (rewrite <-Ed; intros q U1 U2; exact (vw_apart _ _ Hw q U2 U1)).
  assert (Hm : well_formed empty_metadata) by apply C17_well_formed.
  set (conf := CView (vconfig_of v w)). set (u := <[config := conf]> s).
  destruct (C62_create v reg sched d ref f c M I P s Eo Hw Hn Hs Hmo Hfi HP) as (s' & V & Ec & HV & Hs' & _ & _ & HVi & _).
  assert (Hu : represents c M I u) by (by apply (represents_config v w Hw)).
  destruct (select_chosen (ve_env v) c M I u f P (vw_regular _ _ Hw) Hu Hfi HP) as (vs & Hso & Hvs & Esel).
  destruct (select_chosen (ve_env v) c M I s' f P (vw_regular _ _ Hw) Hs' Hfi HP) as (vs' & Hso' & Hvs' & Esel').
  assert (Hlen : forall x, x ∈ vs -> length x = length (p_keys (c_part c))) by (intros x Hx; apply Hvs in Hx as [[ds Hds] _]; by destruct (rp_part _ _ _ _ Hs _ _ Hds) as (Hl & _)).
  exists u, s'. eexists. split; [|split; [|split; [exact Ec|split]]].
  - unfold create_view. eapply stopped_then; [apply exec_exists|]. rewrite (proj1 (nothing_empty d s) Hn). cbn [negb]. unfold make_view.
    eapply stopped_then; [exact Eo|]. cbv zeta. cbn [default]. eapply stopped_then; [apply exec_exists|]. rewrite (proj1 (nothing_empty d s) Hn). cbn [negb].
    eapply stopped_then; [apply exec_write|]. eexists. reflexivity.
  - intros sched'. destruct (C62_open v reg sched' w u) as (m & Em & Hsm); [|apply lookup_insert|exact Hm|exact Hf|].
    { cbn [w_ref]. rewrite Ed. apply (open_same reg ref _ s); [done|]. apply lookup_insert_ne. intros E. apply (Hap (ref ++ [CONFIG])); [apply under_app|rewrite <-E; apply under_app]. }
    exists m. split; [exact Em|]. split; [done|]. unfold view_parts. rewrite exec_bind. unfold ref_parts. rewrite exec_bind. cbn [w_ref]. rewrite Esel. cbn [exec pret].
    rewrite (exec_pfilter _ (fun _ => false)); [f_equal; f_equal; clear; by induction (map _ _)|].
    intros q Hq. rewrite exec_exists. cbn [w_dir]. change (c_dir c) with (c_dir (w_ref w)) in Hq. change (part_dir c) with (part_dir (w_ref w)) in Hq. rewrite strip_parts in Hq. apply elem_of_list_In, in_map_iff in Hq as (x & <- & Hx%elem_of_list_In).
    rewrite (proj1 (nothing_empty _ _)); [done|]. intros q (r & ->). rewrite <-app_assoc. unfold u. rewrite lookup_insert_ne; [apply Hn, under_app|]. intros E. apply app_inv_head in E.
    destruct (key_head (ve_env v) c (vw_regular _ _ Hw) x (Hlen x Hx)) as (a & k & Ea & _ & Hd). cbn [w_ref] in E. rewrite Ea in E. injection E as <- _. apply Hd. by exists (lit "view").
  - apply (exec_view_parts v w Hw V s' HV f vs'); [by apply exec_ref_parts|]. intros x Hx. apply Hvs' in Hx as [[ds Hds] _]. by destruct (rp_part _ _ _ _ Hs _ _ Hds) as (Hl & _).
  - intros X. apply map_eq_nil in X. assert (Hx : In x0 (List.filter (fun x => match V x with Some _ => true | None => false end) vs')).
    { apply filter_In. split; [apply elem_of_list_In, Hvs'; by split|]. assert (is_Some (V x0)) as [y ->] by (apply HVi; by split). done. }
    rewrite X in Hx. destruct Hx.
Qed.
End C102.
Print Assumptions C102_stopped.
Print Assumptions C103_complete_refuted.

(** A case: the view of the example of C62, with the filter "pass == 2". *)
Example C102_case : exists s u s' parts, stopped_at (create_view W_env the_registry [] W_dir X_dir X_filter) s u /\
  (exists m, exec (open_view W_env the_registry [] W_dir) u = (Ok (View W_dir W_opened m X_filter), u) /\ exec (view_parts W_env (View W_dir W_opened m X_filter) X_filter) u = (Ok [], u)) /\
  (exists w, exec (create_view W_env the_registry [] W_dir X_dir X_filter) s = (Ok w, s') /\ exec (view_parts W_env w X_filter) s' = (Ok parts, s')) /\ parts <> [].
Proof.
  destruct C62_case as (M & s & Eo & Hw & Hn & Hs & Hmo & Hfi & HP & H1 & H2).
  destruct (C103_complete_refuted W_env the_registry W_dir X_dir X_filter W_opened [] s M None (fun x => hd 0%Z x = 2%Z) Eo Hw Hn eq_refl Hs Hmo (or_intror Hfi) HP ltac:(exists [2%Z]; by split))
    as (u & s' & parts & Hu & Ho & Ec & Ep & Hne).
  exists s, u, s', parts. split; [exact Hu|]. split; [|split; [|exact Hne]].
  - destruct (Ho []) as (m & Em & _ & Ev). exists m. split; [exact Em|exact Ev].
  - eexists. split; [exact Ec|exact Ep].
Qed.
