(** * Properties of datasets: C15, C16, C42, C48, C49 *)
From Verif Require Import Py Dict NdArray_Model NdArray_Spec NdArray_Proofs.
From Verif Require Import Dataset_Model Dataset_Spec Dataset_Proofs Dataset_Concat Dataset_Main Dataset_Props.

(** ** C15: the dimensions of a dataset always describe its variables *)

(** The datasets a program can build with calls that succeed. The data given
    to add_variable has one axis per dimension (see [C15_add_refuted]). *)
Inductive made : dataset -> Prop :=
  | made_new vs attrs block chunks delayed ds :
      new_dataset vs attrs block chunks delayed = Ok ds -> made ds
  | made_add ds var data ds' : made ds ->
      (forall a, data = Some a -> length (a_shape a) = length (mv_dims var)) ->
      ds_add_variable ds var data = Ok ds' -> made ds'
  | made_rename ds names ds' : made ds -> ds_rename ds names = (ds', None) -> made ds'
  | made_drops ds names ds' : made ds -> ds_drops_vars ds names = (ds', None) -> made ds'
  | made_select ds names ds' : made ds -> ds_select_vars ds names = Ok ds' -> made ds'
  | made_isel ds slices ds' : made ds -> ds_isel ds slices = Ok ds' -> made ds'
  | made_delete ds ix axis ds' : made ds -> ds_delete ds ix axis = Ok ds' -> made ds'
  | made_concat ds others dim ds' : made ds -> (forall o, o ∈ others -> made o) ->
      ds_concat ds others dim = Ok ds' -> made ds'
  | made_merge ds other ds' : made ds -> made other -> ds_merge ds other = (ds', None) -> made ds'
  | made_by_dims ds dims predicate ds' : made ds ->
      ds_select_variables_by_dims ds dims predicate = Ok ds' -> made ds'
  | made_insertion ds chunks block ds' : made ds -> ds_set_for_insertion ds chunks block = Ok ds' -> made ds'
  | made_copy ds other : made ds -> made other -> made (ds_copy_properties ds other).

Definition invariant (ds : dataset) : Prop :=
  consistent ds /\ NoDup (dkeys (d_dims ds)) /\ NoDup (dkeys (d_vars ds)).

Lemma update_dims_var_nodup vd : forall dims sh dims', update_dims_var dims vd sh = Ok dims' ->
  NoDup (dkeys dims) -> NoDup (dkeys dims').
Proof.
  induction vd as [|d0 vd IH]; intros dims sh dims' H Hn; cbn in H; [by injection H as <-|].
  destruct sh as [|n0 sh]; [done|]. destruct (dget dims d0) as [m|] eqn:E.
  - destruct (m =? n0); [by eapply IH|done].
  - eapply IH; [exact H|by apply dset_NoDup].
Qed.
Lemma update_dimensions_nodup vs : forall dims delayed r,
  update_dimensions dims delayed vs = Ok r -> NoDup (dkeys dims) -> NoDup (dkeys r.1).
Proof.
  induction vs as [|v vs IH]; intros dims delayed r H Hn; cbn in H; [by injection H as <-|].
  destruct delayed as [b|]; [destruct (Bool.eqb b (v_delayed v)); [|done]|];
    (destruct (update_dims_var dims (v_dims v) (v_shape v)) as [d1|] eqn:E; [|done]; cbn [rbind] in H;
     apply (IH _ _ _ H); by eapply update_dims_var_nodup).
Qed.
Lemma new_dataset_invariant vs attrs block chunks delayed ds :
  new_dataset vs attrs block chunks delayed = Ok ds -> invariant ds.
Proof.
  intros H. pose proof (new_dataset_ok _ _ _ _ _ _ H) as (E & _ & _ & _ & _ & Hc). split_and!; [done| |].
  - unfold new_dataset in H. destruct (update_dimensions _ _ _) as [[dims dl]|] eqn:Eu; [|done]. cbn [rbind] in H.
    injection H as <-. cbn. apply (update_dimensions_nodup _ _ _ _ Eu). constructor.
  - rewrite E. apply dict_of_NoDup.
Qed.

Lemma rename_invariant names : forall ds ds', ds_rename ds names = (ds', None) -> invariant ds -> invariant ds'.
Proof.
  induction names as [|[old new] names IH]; intros ds ds' H Hi; cbn in H; [by injection H as <-|].
  destruct (dmem (d_vars ds) new) eqn:Em; [done|]. destruct (dget (d_vars ds) old) as [v|] eqn:E; [|done].
  apply (IH _ _ H). destruct Hi as (Hc & Hd & Hn). split_and!; [|done|by apply dset_NoDup, ddel_NoDup].
  intros name w Hw. cbn in Hw. rewrite dget_dset in Hw. destruct (decide (name = new)) as [->|].
  - injection Hw as <-. destruct (Hc _ _ E) as (_ & H2 & H3). done.
  - destruct (decide (name = old)) as [->|]; [by rewrite dget_ddel_eq in Hw|]. rewrite dget_ddel_ne in Hw by done.
    apply (Hc _ _ Hw).
Qed.
Lemma drops_invariant names : forall ds ds', ds_drops_vars ds names = (ds', None) -> invariant ds -> invariant ds'.
Proof.
  induction names as [|n names IH]; intros ds ds' H Hi; cbn in H; [by injection H as <-|].
  destruct (dmem (d_vars ds) n); [|done].
  apply (IH _ _ H). destruct Hi as (Hc & Hd & Hn). split_and!; [|done|by apply ddel_NoDup].
  intros name w Hw. cbn in Hw. 
  destruct (decide (name = n)) as [->|]; [by rewrite dget_ddel_eq in Hw|]. rewrite dget_ddel_ne in Hw by done.
  apply (Hc _ _ Hw).
Qed.
Lemma add_invariant ds var data ds' : ds_add_variable ds var data = Ok ds' ->
  (forall a, data = Some a -> length (a_shape a) = length (mv_dims var)) -> invariant ds -> invariant ds'.
Proof.
  intros H Hr (Hc & Hd & Hn). unfold ds_add_variable in H.
  destruct (forallb (fun d => dmem (d_dims ds) d) (mv_dims var)) eqn:Ef; [|done]. cbn [negb] in H.
  rewrite forallb_forall in Ef.
  assert (Hk : forall k d, mv_dims var !! k = Some d -> exists n, dget (d_dims ds) d = Some n).
  { intros k d Hk. apply dget_is_Some, dmem_true, Ef. apply elem_of_list_In. by eapply elem_of_list_lookup_2. }
  match type of H with (do data <- ?m; _) = _ => destruct m as [a|] eqn:Ea; [|done] end. cbn [rbind] in H. injection H as <-.
  split_and!; [|done|by apply dset_NoDup].
  intros name v Hv. cbn in Hv. rewrite dget_dset in Hv. destruct (decide (name = mv_name var)) as [->|]; [|by apply Hc].
  injection Hv as <-. split_and!; [done|done|]. intros k d Hkd. cbn in Hkd. destruct (Hk _ _ Hkd) as [n Hdn].
  exists n. split; [|done]. unfold v_shape. cbn.
  destruct data as [b|].
  - destruct (forallb _ (zip (mv_dims var) (a_shape b))) eqn:Eb; [|done]. injection Ea as <-.
    rewrite forallb_forall in Eb. specialize (Hr b eq_refl).
    destruct (lookup_lt_is_Some_2 (a_shape b) k) as [m Hm]; [rewrite Hr; by eapply lookup_lt_Some|].
    assert (Hz : In (d, m) (zip (mv_dims var) (a_shape b))).
    { apply elem_of_list_In, elem_of_list_lookup. exists k. apply lookup_zip_with_Some. eauto. }
    specialize (Eb _ Hz). cbn in Eb. rewrite Hdn in Eb. cbn in Eb. apply Nat.eqb_eq in Eb. by subst.
  - destruct (fill_or_raise (mv_fill var)) as [f|]; [|done]. cbn [rbind] in Ea. injection Ea as <-. cbn.
    change (map ?f ?l) with (f <$> l). rewrite list_lookup_fmap, Hkd. cbn. by rewrite Hdn.
Qed.

Lemma merge_vars_ok others : forall vars vars', merge_vars vars others = (vars', true) ->
  (forall n v, (n, v) ∈ others -> n ∉ dkeys vars) /\ NoDup (dkeys others) /\ vars' = vars ++ others.
Proof.
  induction others as [|[n v] others IH]; intros vars vars' H; cbn in H.
  - injection H as <-. rewrite app_nil_r. split_and!; [|constructor|done]. by intros n v ?%elem_of_nil.
  - destruct (dmem vars n) eqn:Em; [done|]. apply dmem_false in Em. apply IH in H as (H1 & H2 & H3).
    rewrite dset_new in H3, H1 by done. rewrite <-app_assoc in H3. cbn in H3. split_and!; [| |done].
    + intros m w [[= -> ->]|Hin]%elem_of_cons; [done|]. intros Hm. apply (H1 _ _ Hin).
      unfold dkeys. rewrite map_app. apply elem_of_app. by left.
    + cbn. constructor; [|done]. intros Hin. unfold dkeys in Hin. apply elem_of_list_In, in_map_iff in Hin as ([m w] & Hm & Hin%elem_of_list_In).
      cbn in Hm. subst m. apply (H1 _ _ Hin). unfold dkeys. rewrite map_app. apply elem_of_app. right. by left.
Qed.
Lemma dupdate_get {V} (o : list (str * V)) : forall d k, NoDup (dkeys o) ->
  dget (dupdate d o) k = match dget o k with Some v => Some v | None => dget d k end.
Proof.
  induction o as [|[k' v'] o IH]; intros d k Hn; [done|]. cbn. inversion Hn as [|? ? Hno Hn']; subst.
  unfold dupdate in IH. rewrite IH by done. rewrite dget_dset. destruct (decide (k = k')) as [->|]; [|done].
  by rewrite (proj2 (dget_None o k') Hno).
Qed.
Lemma merge_invariant ds other ds' : ds_merge ds other = (ds', None) -> invariant ds -> invariant other -> invariant ds'.
Proof.
  intros H (Hc & Hd & Hn) (Hco & Hdo & Hno). unfold ds_merge in H.
  destruct (Bool.eqb (d_delayed ds) (d_delayed other)) eqn:Eb; [|done]. cbn [negb] in H. apply eqb_prop in Eb.
  destruct (merge_vars (d_vars ds) (d_vars other)) as [vars ok] eqn:Em.
  destruct ok; [|done]. cbn [negb] in H. apply merge_vars_ok in Em as (H1 & H2 & ->).
  destruct (forallb _ (d_dims other)) eqn:Ef; [|done]. cbn [negb] in H. injection H as <-. cbn in *.
  rewrite forallb_forall in Ef. split_and!.
  - intros name v Hv. cbn in Hv |- *. rewrite dget_app in Hv.
    assert (Hs : forall d n, dget (d_dims ds) d = Some n -> dget (dupdate (d_dims ds) (d_dims other)) d = Some n).
    { intros d n Hdn. rewrite dupdate_get by done. destruct (dget (d_dims other) d) as [m|] eqn:E; [|done].
      apply dget_elem in E. apply elem_of_list_In in E. apply Ef in E. cbn in E. rewrite Hdn in E.
      apply Nat.eqb_eq in E. congruence. }
    destruct (dget (d_vars ds) name) as [w|] eqn:E.
    + injection Hv as <-. destruct (Hc _ _ E) as (G1 & G2 & G3). split_and!; [done|done|].
      intros k d Hk. destruct (G3 k d Hk) as (n & ? & ?). eauto.
    + destruct (Hco _ _ Hv) as (G1 & G2 & G3). split_and!; [done|congruence|].
      intros k d Hk. destruct (G3 k d Hk) as (n & Hn1 & Hn2). exists n. split; [done|].
      rewrite dupdate_get by done. by rewrite Hn2.
  - cbn. apply fold_dset_NoDup. done.
  - cbn. unfold dkeys. rewrite map_app. apply NoDup_app. split_and!; [done| |done].
    intros n Hin Hin'. apply elem_of_list_In, in_map_iff in Hin' as ([m w] & Hm & Hin'%elem_of_list_In).
    cbn in Hm. subst m. by apply (H1 _ _ Hin').
Qed.

Lemma made_invariant ds : made ds -> invariant ds.
Proof.
  induction 1 as [?????? H|ds var data ds' _ IH Hr H|ds names ds' _ IH H|ds names ds' _ IH H|ds names ds' _ IH H
    |ds slices ds' _ IH H|ds ix axis ds' _ IH H|ds others dim ds' _ IH _ _ H|ds other ds' _ IH1 _ IH2 H
    |ds dims predicate ds' _ IH H|ds chunks block ds' _ IH H|ds other _ IH1 _ IH2].
  - by eapply new_dataset_invariant.
  - by eapply add_invariant.
  - by eapply rename_invariant.
  - by eapply drops_invariant.
  - unfold ds_select_vars in H. destruct (traverse _ _); [|done]. by eapply new_dataset_invariant.
  - unfold ds_isel in H. destruct (negb _); [done|]. destruct (traverse _ _); [|done]. by eapply new_dataset_invariant.
  - unfold ds_delete in H. destruct (traverse _ _); [|done]. by eapply new_dataset_invariant.
  - unfold ds_concat in H. destruct (_ =? 0); [done|]. destruct (negb _); [done|].
    destruct (traverse _ _); [|done]. by eapply new_dataset_invariant.
  - by eapply merge_invariant.
  - by eapply new_dataset_invariant.
  - by eapply new_dataset_invariant.
  - destruct IH1 as (H1 & H2 & H3). by split_and!.
Qed.

(** Every variable of a dataset obtained by calls that succeed is registered
    under its name, is of the kind of the dataset, and has along each of its
    dimensions the size the dataset gives to the dimension; names are unique. *)
Theorem C15_consistent ds : made ds -> consistent ds /\ NoDup (dkeys (d_vars ds)) /\ NoDup (dkeys (d_dims ds)).
Proof. intros H. apply made_invariant in H as (H1 & H2 & H3). done. Qed.
Print Assumptions C15_consistent.

(** In particular two variables agree on the size of a dimension they share. *)
Theorem C15_sizes_agree ds n1 n2 v1 v2 k1 k2 dim : made ds ->
  dget (d_vars ds) n1 = Some v1 -> dget (d_vars ds) n2 = Some v2 ->
  v_dims v1 !! k1 = Some dim -> v_dims v2 !! k2 = Some dim ->
  v_shape v1 !! k1 = v_shape v2 !! k2 /\ is_Some (v_shape v1 !! k1).
Proof.
  intros Hm H1 H2 Hk1 Hk2. destruct (C15_consistent _ Hm) as [Hc _].
  destruct (Hc _ _ H1) as (_ & _ & Hs1). destruct (Hc _ _ H2) as (_ & _ & Hs2).
  destruct (Hs1 _ _ Hk1) as (m1 & -> & E1). destruct (Hs2 _ _ Hk2) as (m2 & -> & E2). split; [congruence|eauto].
Qed.
Print Assumptions C15_sizes_agree.

(** The constructor refuses variables that disagree. *)
Theorem C15_new_refused attrs block chunks delayed vs v1 v2 k1 k2 dim : NoDup (map v_name vs) ->
  v1 ∈ vs -> v2 ∈ vs -> v_dims v1 !! k1 = Some dim -> v_dims v2 !! k2 = Some dim ->
  v_shape v1 !! k1 <> v_shape v2 !! k2 ->
  new_dataset vs attrs block chunks delayed = Raise ValueError.
Proof.
  intros Hn H1 H2 Hk1 Hk2 Hne.
  destruct (new_dataset vs attrs block chunks delayed) as [ds|e] eqn:E.
  - exfalso. apply Hne. pose proof (new_dataset_ok _ _ _ _ _ _ E) as (Ev & _). rewrite names_nodup in Ev by done.
    assert (Hin : forall v, v ∈ vs -> dget (d_vars ds) (v_name v) = Some v).
    { intros v Hv. rewrite Ev. apply elem_dget; [unfold dkeys; by rewrite map_map|]. apply elem_of_list_In, in_map_iff.
      exists v. split; [done|by apply elem_of_list_In]. }
    apply (C15_sizes_agree ds (v_name v1) (v_name v2) v1 v2 k1 k2 dim); eauto. by eapply made_new.
  - unfold new_dataset in E. destruct (update_dimensions _ _ _) as [|e'] eqn:Eu; [done|]. cbn in E. injection E as <-.
    assert (Hd : forall vd dims sh e, update_dims_var dims vd sh = Raise e -> e = ValueError).
    { intros vd. induction vd as [|d vd IH]; intros dims sh e0 H; cbn in H; [done|]. destruct sh; [by injection H as <-|].
      destruct (dget dims d); [destruct (_ =? _); [by eapply IH|by injection H as <-]|by eapply IH]. }
    assert (Hu : forall l dims dl e, update_dimensions dims dl l = Raise e -> e = ValueError).
    { intros l. induction l as [|v l IH]; intros dims dl e0 H; cbn in H; [done|].
      destruct dl as [b|]; [destruct (Bool.eqb b (v_delayed v)); [|by injection H as <-]|];
      (destruct (update_dims_var dims (v_dims v) (v_shape v)) as [d1|] eqn:E1; cbn [rbind] in H; [by eapply IH|
        injection H as <-; by eapply Hd]). }
    by rewrite (Hu _ _ _ _ Eu).
Qed.
Print Assumptions C15_new_refused.

(** Without the side condition on add_variable the claim is false: data with
    fewer axes than dimensions is accepted. *)
Theorem C15_add_refuted : exists ds var a ds', made ds /\ ds_add_variable ds var (Some a) = Ok ds' /\ ~ consistent ds'.
Proof.
  set (ds := sample).
  exists ds, (MVar (lit "bad") (lit "int64") [lit "time"; lit "x"] [] None None []), (Arr [3] (nums [1; 2; 3]%Z)).
  eexists. split_and!; [|vm_compute; reflexivity|].
  - apply (made_new (dvals (d_vars sample)) [(lit "title", lit "s")] (Some 128%Z) [] None). vm_compute. reflexivity.
  - intros H. destruct (H (lit "bad") _ ltac:(vm_compute; reflexivity)) as (_ & _ & Hs).
    destruct (Hs 1 (lit "x") ltac:(vm_compute; reflexivity)) as (n & Hn & _). vm_compute in Hn. done.
Qed.
Print Assumptions C15_add_refuted.

Example C15_case : made sample /\ exists ds', ds_rename sample [(lit "k", lit "z")] = (ds', None) /\ made ds' /\
  dkeys (d_vars ds') = [lit "time"; lit "m"; lit "z"].
Proof.
  assert (made sample) as Hm by (apply (made_new (dvals (d_vars sample)) [(lit "title", lit "s")] (Some 128%Z) [] None); vm_compute; reflexivity).
  split; [done|]. set (ds' := (ds_rename sample [(lit "k", lit "z")]).1).
  assert (E : ds_rename sample [(lit "k", lit "z")] = (ds', None)) by (vm_compute; reflexivity).
  exists ds'. split_and!; [done| |vm_compute; reflexivity]. by eapply made_rename.
Qed.

(** ** C48: what the calls that edit the variables do *)

Definition lookup_var (ds : dataset) (name : str) : option variable := dget (d_vars ds) name.
Definition same_settings (ds ds' : dataset) : Prop :=
  d_attrs ds' = d_attrs ds /\ d_chunks ds' = d_chunks ds /\ d_block ds' = d_block ds /\ d_delayed ds' = d_delayed ds.

(** add_variable adds the variable with the given properties and data, or the
    fill value everywhere, and changes nothing else. *)
Theorem C48_add ds var data ds' : ds_add_variable ds var data = Ok ds' ->
  same_settings ds ds' /\ d_dims ds' = d_dims ds /\
  (forall n, n <> mv_name var -> lookup_var ds' n = lookup_var ds n) /\
  (exists v, lookup_var ds' (mv_name var) = Some v /\ v_metadata v = var /\ v_delayed v = d_delayed ds /\
     match data with
     | Some a => v_array v = a
     | None => exists f, mv_fill var = Some f /\ Forall (fun x => x = f) (a_flat (v_array v)) /\ arr_wf (v_array v) /\
         Forall2 (fun d n => dget (d_dims ds) d = Some n) (mv_dims var) (v_shape v)
     end).
Proof.
  intros H. unfold ds_add_variable in H. destruct (forallb (fun d => dmem (d_dims ds) d) (mv_dims var)) eqn:Ef; [|done]. cbn [negb] in H.
  match type of H with (do data <- ?m; _) = _ => destruct m as [a|] eqn:Ea; [|done] end. cbn [rbind] in H. injection H as <-.
  split_and!; try done.
  - intros n Hn. unfold lookup_var. cbn. by apply dget_dset_ne.
  - eexists. split_and!; [apply dget_dset_eq|by destruct var|done|]. destruct data as [b|].
    + destruct (forallb _ (zip _ _)); [|done]. by injection Ea as <-.
    + destruct (mv_fill var) as [f|] eqn:Efl; [|done]. cbn [fill_or_raise rbind] in Ea. injection Ea as <-.
      exists f. split_and!; [done| | |].
      * unfold full. cbn. apply Forall_forall. intros x Hx. by apply elem_of_list_In, in_map_iff in Hx as (? & <- & _).
      * apply tabulate_wf.
      * unfold v_shape, full. cbn. rewrite forallb_forall in Ef. clear -Ef. induction (mv_dims var) as [|d l IH]; cbn; constructor.
        -- specialize (Ef d (or_introl eq_refl)). apply dmem_true, dget_is_Some in Ef as [n ->]. done.
        -- apply IH. intros x Hx. apply Ef. by right.
Qed.
Print Assumptions C48_add.

(** add_variable refuses an unknown dimension and a wrong size. *)
Theorem C48_add_refused ds var data :
  (exists d, d ∈ mv_dims var /\ d ∉ dkeys (d_dims ds)) \/
  (exists a k d n, data = Some a /\ mv_dims var !! k = Some d /\ a_shape a !! k = Some n /\ dget (d_dims ds) d <> Some n) ->
  ds_add_variable ds var data = Raise ValueError.
Proof.
  unfold ds_add_variable. destruct (forallb (fun d => dmem (d_dims ds) d) (mv_dims var)) eqn:Ef; [|done]. cbn [negb].
  rewrite forallb_forall in Ef. intros [(d & Hd & Hno)|(a & k & d & n & -> & Hk & Hs & Hne)].
  - exfalso. apply Hno, dmem_true, Ef. by apply elem_of_list_In.
  - assert (Hz : In (d, n) (zip (mv_dims var) (a_shape a))).
    { apply elem_of_list_In, elem_of_list_lookup. exists k. apply lookup_zip_with_Some. eauto. }
    destruct (forallb _ (zip _ _)) eqn:Eb; [|done]. exfalso. rewrite forallb_forall in Eb. specialize (Eb _ Hz). cbn in Eb.
    assert (Hd : In d (mv_dims var)) by (apply elem_of_list_In; by eapply elem_of_list_lookup_2).
    apply Ef, dmem_true, dget_is_Some in Hd as [m Hm]. rewrite Hm in *. cbn in Eb. apply Nat.eqb_eq in Eb. congruence.
Qed.
Print Assumptions C48_add_refused.

(** rename gives the variable its new name and keeps everything else. *)
Theorem C48_rename ds old new ds' : NoDup (dkeys (d_vars ds)) -> ds_rename ds [(old, new)] = (ds', None) ->
  same_settings ds ds' /\ d_dims ds' = d_dims ds /\ lookup_var ds new = None /\
  exists v, lookup_var ds old = Some v /\ lookup_var ds' new = Some (with_name v new) /\ lookup_var ds' old = None /\
    (forall n, n <> old -> n <> new -> lookup_var ds' n = lookup_var ds n).
Proof.
  intros Hn H. unfold ds_rename in H. destruct (dmem (d_vars ds) new) eqn:Em; [done|].
  destruct (dget (d_vars ds) old) as [v|] eqn:E; [|done]. injection H as <-. apply dmem_false in Em.
  split_and!; try done; [by apply dget_None|]. exists v. unfold lookup_var. cbn. split_and!; [done|apply dget_dset_eq| |].
  - rewrite dget_dset_ne, dget_ddel_eq; [done|]. intros ->. apply Em, dget_is_Some. eauto.
  - intros n H1 H2. rewrite dget_dset_ne, dget_ddel_ne by done. done.
Qed.
Print Assumptions C48_rename.
Theorem C48_rename_refused ds old new :
  (new ∈ dkeys (d_vars ds) -> ds_rename ds [(old, new)] = (ds, Some ValueError)) /\
  (new ∉ dkeys (d_vars ds) -> old ∉ dkeys (d_vars ds) -> ds_rename ds [(old, new)] = (ds, Some KeyError)) /\
  (forall pairs, ds_rename ds ((old, new) :: pairs) =
     match ds_rename ds [(old, new)] with (ds', None) => ds_rename ds' pairs | r => r end).
Proof.
  unfold ds_rename. split_and!.
  - intros H. by rewrite (proj2 (dmem_true _ _)).
  - intros H1 H2. rewrite (proj2 (dmem_false _ _)) by done. by rewrite (proj2 (dget_None _ _)).
  - intros pairs. destruct (dmem (d_vars ds) new); [done|]. by destruct (dget (d_vars ds) old).
Qed.
Print Assumptions C48_rename_refused.

(** drops_vars removes exactly the given variables. *)
Theorem C48_drops names : forall ds ds', ds_drops_vars ds names = (ds', None) ->
  same_settings ds ds' /\ d_dims ds' = d_dims ds /\
  forall n, lookup_var ds' n = if decide (n ∈ names) then None else lookup_var ds n.
Proof.
  induction names as [|m names IH]; intros ds ds' H; cbn in H.
  - injection H as <-. split_and!; [done..|]. intros n. rewrite decide_False by apply not_elem_of_nil. done.
  - destruct (dmem (d_vars ds) m); [|done]. apply IH in H as ((H1 & H2 & H3 & H4) & H5 & H6). cbn in *.
    split_and!; [done|done|]. intros n. rewrite H6. unfold lookup_var. cbn.
    destruct (decide (n ∈ names)) as [Hn|Hn].
    + rewrite decide_True by (by right). done.
    + destruct (decide (n = m)) as [->|Hne].
      * rewrite decide_True by (by left). apply dget_ddel_eq.
      * rewrite decide_False by (by rewrite elem_of_cons; intros [|]). by apply dget_ddel_ne.
Qed.
Print Assumptions C48_drops.
Theorem C48_drops_refused ds n : (n ∉ dkeys (d_vars ds) -> ds_drops_vars ds [n] = (ds, Some KeyError)) /\
  (n ∈ dkeys (d_vars ds) -> (ds_drops_vars ds [n]).2 = None).
Proof.
  unfold ds_drops_vars. split; intros H; [by rewrite (proj2 (dmem_false _ _))|by rewrite (proj2 (dmem_true _ _))].
Qed.
Print Assumptions C48_drops_refused.

(** select_vars keeps exactly the given variables, in the given order. *)
Theorem C48_select ds names : proper ds -> NoDup names -> (forall n, n ∈ names -> n ∈ dkeys (d_vars ds)) -> names <> [] ->
  exists ds', ds_select_vars ds names = Ok ds' /\ same_settings ds ds' /\ dkeys (d_vars ds') = names /\
    forall n, n ∈ names -> lookup_var ds' n = lookup_var ds n.
Proof.
  intros Hp Hnd Hin Hne. unfold ds_select_vars.
  assert (exists vs, traverse (fun n => match dget (d_vars ds) n with Some v => Ok v | None => Raise KeyError end) names = Ok vs
     /\ Forall2 (fun n v => dget (d_vars ds) n = Some v) names vs) as (vs & -> & Hvs).
  { apply traverse_exists. intros n Hn. destruct (proj2 (dget_is_Some _ _) (Hin n Hn)) as [v ->]. eauto. }
  cbn [rbind].
  assert (Hnames : map v_name vs = names).
  { clear -Hvs Hp. induction Hvs as [|n v names vs Hv _ IH]; [done|]. cbn. rewrite IH. f_equal.
    by apply (proper_consistent _ Hp) in Hv as [-> _]. }
  assert (Hv : forall v, v ∈ vs -> exists n, dget (d_vars ds) n = Some v).
  { intros v Hv. apply elem_of_list_lookup_1 in Hv as [i Hi]. destruct (Forall2_lookup_r _ _ _ _ _ Hvs Hi) as (n & _ & H). eauto. }
  destruct (new_dataset_total (fun d => dget (d_dims ds) d) (d_delayed ds) vs (d_attrs ds) (d_block ds) (d_chunks ds) None)
    as (ds' & E & E1 & E2 & E3 & E4 & E5 & _).
  - by rewrite Hnames.
  - apply Hp.
  - apply Hp.
  - intros v Hvin. destruct (Hv v Hvin) as [n Hn]. destruct (proper_consistent _ Hp _ _ Hn) as (_ & ? & ?). done.
  - right. split; [done|]. intros ->. by inversion Hvs; subst.
  - exists ds'. split_and!; [done|done| |].
    + rewrite E1. unfold dkeys. by rewrite map_map.
    + intros n Hn. unfold lookup_var. rewrite E1.
      apply elem_of_list_lookup_1 in Hn as [i Hi]. destruct (Forall2_lookup_l _ _ _ _ _ Hvs Hi) as (v & Hvi & H).
      rewrite H. apply elem_dget; [unfold dkeys; rewrite map_map; change (NoDup (map v_name vs)); by rewrite Hnames|].
      apply elem_of_list_In, in_map_iff. exists v. split; [f_equal; by apply (proper_consistent _ Hp) in H as [-> _]|].
      apply elem_of_list_In. by eapply elem_of_list_lookup_2.
Qed.
Print Assumptions C48_select.
Theorem C48_select_refused ds names n : n ∈ names -> n ∉ dkeys (d_vars ds) -> ds_select_vars ds names = Raise KeyError.
Proof.
  intros Hin Hno. unfold ds_select_vars.
  assert (traverse (fun n => match dget (d_vars ds) n with Some v => Ok v | None => Raise KeyError end) names = Raise KeyError) as ->; [|done].
  induction names as [|m names IH]; [by apply elem_of_nil in Hin|]. cbn. destruct (dget (d_vars ds) m) as [v|] eqn:E; [|done].
  cbn [rbind]. apply elem_of_cons in Hin as [->|Hin]; [by apply dget_None in Hno; rewrite Hno in E|]. by rewrite (IH Hin).
Qed.
Print Assumptions C48_select_refused.

(** merge adds the variables, dimensions and attributes of the other dataset. *)
Theorem C48_merge ds other ds' : NoDup (dkeys (d_dims other)) -> ds_merge ds other = (ds', None) ->
  d_chunks ds' = d_chunks ds /\ d_block ds' = d_block ds /\ d_delayed ds' = d_delayed ds /\
  d_vars ds' = d_vars ds ++ d_vars other /\ (forall n, n ∈ dkeys (d_vars ds) -> n ∉ dkeys (d_vars other)) /\
  d_delayed other = d_delayed ds /\
  (forall d, dget (d_dims ds') d = match dget (d_dims ds) d with Some n => Some n | None => dget (d_dims other) d end) /\
  (forall d n m, dget (d_dims ds) d = Some n -> dget (d_dims other) d = Some m -> m = n) /\
  (NoDup (dkeys (d_attrs ds)) -> NoDup (dkeys (d_attrs other)) -> forall a, dget (d_attrs ds') a =
     match dget (d_attrs other) a with Some x => Some x | None => dget (d_attrs ds) a end).
Proof.
  intros Hd H. unfold ds_merge in H. destruct (Bool.eqb (d_delayed ds) (d_delayed other)) eqn:Eb; [|done]. cbn [negb] in H. apply eqb_prop in Eb.
  destruct (merge_vars (d_vars ds) (d_vars other)) as [vars ok] eqn:Em.
  destruct ok; [|done]. cbn [negb] in H. apply merge_vars_ok in Em as (H1 & H2 & ->).
  destruct (forallb _ (d_dims other)) eqn:Ef; [|done]. cbn [negb] in H. injection H as <-. cbn in *.
  assert (Hag : forall d n m, dget (d_dims ds) d = Some n -> dget (d_dims other) d = Some m -> m = n).
  { intros d n m Hn Hm. rewrite forallb_forall in Ef. apply dget_elem, elem_of_list_In, Ef in Hm. cbn in Hm. rewrite Hn in Hm.
    by apply Nat.eqb_eq in Hm. }
  split_and!; try done.
  - intros n Hn Hn'. unfold dkeys in Hn'. apply elem_of_list_In, in_map_iff in Hn' as ([m w] & Hm & Hin%elem_of_list_In).
    cbn in Hm. subst m. by apply (H1 _ _ Hin).
  - intros d. rewrite dupdate_get by done.
    destruct (dget (d_dims ds) d) as [n|] eqn:E1, (dget (d_dims other) d) as [m|] eqn:E2; try done. f_equal. by eapply Hag.
  - intros Ha Ho a. rewrite dupdate_get by done. by rewrite dict_of_id.
Qed.
Print Assumptions C48_merge.

(** select_variables_by_dims keeps the variables that share a dimension with
    the given ones (or, without predicate, those that share none). *)
Theorem C48_by_dims ds dims predicate : proper ds -> d_delayed ds = true \/ (exists v, v ∈ dvals (d_vars ds) /\
     dims_condition dims predicate (v_dims v) = true) ->
  exists ds', ds_select_variables_by_dims ds dims predicate = Ok ds' /\ same_settings ds ds' /\
    d_vars ds' = List.filter (fun nv => dims_condition dims predicate (v_dims nv.2)) (d_vars ds).
Proof.
  intros Hp Hk. unfold ds_select_variables_by_dims. set (f := fun v => dims_condition dims predicate (v_dims v)).
  set (vs := List.filter f (dvals (d_vars ds))).
  assert (Hsub : forall v, v ∈ vs -> v ∈ dvals (d_vars ds)).
  { intros v Hv. apply elem_of_list_In, filter_In in Hv as [Hv _]. by apply elem_of_list_In. }
  assert (Hvars : map (fun v => (v_name v, v)) vs = List.filter (fun nv => f nv.2) (d_vars ds)).
  { assert (Hg : forall l, map (fun v => (v_name v, v)) (List.filter f l) =
      List.filter (fun nv => f nv.2) (map (fun v => (v_name v, v)) l)).
    { clearbody f. intros l. induction l as [|v l IH]; [done|]. cbn. destruct (f v); [cbn; f_equal|]; apply IH. }
    subst vs. rewrite Hg. by rewrite (proper_vars _ Hp). }
  destruct (new_dataset_total (fun d => dget (d_dims ds) d) (d_delayed ds) vs (d_attrs ds) (d_block ds) (d_chunks ds) None)
    as (ds' & E & E1 & E2 & E3 & E4 & E5 & _).
  - pose proof (proper_names _ Hp) as Hn. rewrite <-(proper_vars _ Hp) in Hn. unfold dkeys in Hn. rewrite map_map in Hn. cbn in Hn.
    subst vs. clear -Hn. induction (dvals (d_vars ds)) as [|v l IH]; [constructor|]. cbn in *. inversion Hn as [|? ? Hno Hn']; subst.
    destruct (f v); [|by apply IH]. cbn. constructor; [|by apply IH]. intros Hin. apply Hno.
    apply elem_of_list_In, in_map_iff in Hin as (w & Hw & Hin). apply filter_In in Hin as [Hin _].
    apply elem_of_list_In, in_map_iff. eauto.
  - apply Hp.
  - apply Hp.
  - intros v Hv. destruct (proper_sized _ _ Hp (Hsub v Hv)) as (Hs & ? & _). done.
  - right. split; [done|]. intros Hnil. destruct Hk as [|(v & Hv & Hf)]; [done|]. exfalso.
    assert (v ∈ vs) as Hv' by (apply elem_of_list_In, filter_In; split; [by apply elem_of_list_In|done]).
    rewrite Hnil in Hv'. by apply elem_of_nil in Hv'.
  - exists ds'. split_and!; [done|done|]. by rewrite E1.
Qed.
Print Assumptions C48_by_dims.
(** The condition, in words. *)
Theorem C48_dims_condition vdims :
  (forall dims, dims <> [] -> dims_condition dims true vdims = true <-> exists d, d ∈ dims /\ d ∈ vdims) /\
  (forall dims, dims_condition dims false vdims = negb (dims_condition dims true vdims)) /\
  (dims_condition [] true vdims = true <-> vdims = []).
Proof.
  split_and!.
  - intros dims Hne. destruct dims as [|d0 dims]; [done|]. set (l := d0 :: dims).
    change (dims_condition l true vdims) with (Bool.eqb (existsb (fun d => memb d l) vdims) true).
    rewrite eqb_true_iff, existsb_exists. split.
    + intros (d & Hd%elem_of_list_In & Hm). exists d. split; [|done]. by apply bool_decide_eq_true in Hm.
    + intros (d & Hd & Hv). exists d. split; [by apply elem_of_list_In|]. by apply bool_decide_eq_true.
  - intros dims. unfold dims_condition. destruct dims; [by destruct (length vdims =? 0)|]. by destruct (existsb _ _).
  - cbn. rewrite eqb_true_iff, Nat.eqb_eq. by destruct vdims.
Qed.
Print Assumptions C48_dims_condition.

(** set_for_insertion keeps the arrays and drops the attributes. *)
Theorem C48_insertion ds chunks block : proper ds -> NoDup (dkeys chunks) -> block <> 0%Z -> d_delayed ds = true \/ d_vars ds <> [] ->
  exists ds', ds_set_for_insertion ds chunks block = Ok ds' /\ d_attrs ds' = [] /\ d_chunks ds' = chunks /\ d_block ds' = block /\
    d_delayed ds' = d_delayed ds /\ d_vars ds' = map (fun nv => (nv.1, with_attrs nv.2 [])) (d_vars ds).
Proof.
  intros Hp Hc Hb Hk. unfold ds_set_for_insertion. set (vs := map (fun v => with_attrs v []) (dvals (d_vars ds))).
  destruct (new_dataset_total (fun d => dget (d_dims ds) d) (d_delayed ds) vs [] block chunks None)
    as (ds' & E & E1 & E2 & E3 & E4 & E5 & _).
  - subst vs. rewrite map_map. cbn. change (map (fun x => v_name x)) with (map v_name). rewrite proper_names_eq by done. apply Hp.
  - done.
  - done.
  - intros v' Hv'. apply elem_of_list_In, in_map_iff in Hv' as (v & <- & Hv%elem_of_list_In).
    destruct (proper_sized _ _ Hp Hv) as (Hs & ? & _). done.
  - right. split; [done|]. intros Hnil. destruct Hk as [|Hne]; [done|]. subst vs. unfold dvals in Hnil. by destruct (d_vars ds).
  - exists ds'. split_and!; try done. rewrite E1. subst vs. rewrite <-(proper_vars _ Hp) at 2. by rewrite !map_map.
Qed.
Print Assumptions C48_insertion.

Example C48_case : exists ds1 ds2 ds3,
  ds_add_variable sample (MVar (lit "f") (lit "int64") [lit "x"] [] None (Some (Num 9)) []) None = Ok ds1 /\
  option_map v_array (lookup_var ds1 (lit "f")) = Some (Arr [2] (nums [9; 9]%Z)) /\
  ds_drops_vars ds1 [lit "time"; lit "m"] = (ds2, None) /\ dkeys (d_vars ds2) = [lit "k"; lit "f"] /\
  ds_select_vars ds1 [lit "f"; lit "m"] = Ok ds3 /\ d_dims ds3 = [(lit "x", 2); (lit "time", 3)].
Proof. do 3 eexists. split_and!; vm_compute; reflexivity. Qed.

(** ** C49: a call that raises leaves the dataset as it was *)

(** True of rename and drops_vars with one name, and of merge when the kinds
    differ. *)
Theorem C49_unchanged_partial ds ds' e :
  (forall old new, ds_rename ds [(old, new)] = (ds', Some e) -> ds' = ds) /\
  (forall n, ds_drops_vars ds [n] = (ds', Some e) -> ds' = ds) /\
  (forall other, d_delayed other <> d_delayed ds -> ds_merge ds other = (ds', Some e) -> ds' = ds).
Proof.
  split_and!.
  - intros old new. unfold ds_rename. destruct (dmem _ _); [congruence|]. by destruct (dget _ _); [|congruence].
  - intros n. unfold ds_drops_vars. destruct (dmem _ _); [done|congruence].
  - intros other Hne. unfold ds_merge. destruct (Bool.eqb _ _) eqn:E; [by apply eqb_prop in E|]. cbn. congruence.
Qed.
Print Assumptions C49_unchanged_partial.

(** False in general: a refused merge has already added the variables, and its
    result is inconsistent; a refused renaming has already renamed. *)
Theorem C49_merge_refuted : exists ds other ds', made ds /\ made other /\
  ds_merge ds other = (ds', Some ValueError) /\ ~ consistent ds'.
Proof.
  set (other := Dataset [(lit "time", 1)] [(lit "t2", simple_var "t2" ["time"] [1] [5]%Z)] [] [] 128%Z false).
  exists sample, other. eexists. split_and!; [apply C15_case| |vm_compute; reflexivity|].
  - apply (made_new (dvals (d_vars other)) [] (Some 128%Z) [] None). vm_compute. reflexivity.
  - intros H. destruct (H (lit "t2") _ ltac:(vm_compute; reflexivity)) as (_ & _ & Hs).
    destruct (Hs 0 (lit "time") ltac:(vm_compute; reflexivity)) as (n & Hn & Hn'). vm_compute in Hn, Hn'. congruence.
Qed.
Print Assumptions C49_merge_refuted.
Theorem C49_rename_refuted : exists ds names ds', made ds /\ ds_rename ds names = (ds', Some ValueError) /\
  lookup_var ds (lit "k") <> None /\ lookup_var ds' (lit "k") = None.
Proof.
  exists sample, [(lit "k", lit "z"); (lit "m", lit "time")]. eexists. split_and!; [apply C15_case|vm_compute; reflexivity|done|vm_compute; reflexivity].
Qed.
Print Assumptions C49_rename_refuted.

(** ** C16: concat never drops data silently *)

(** When the sizes agree everything is returned. *)
Theorem C16_concat_partial v os dim rs : os <> [] -> arr_wf (v_array v) -> NoDup (v_dims v) ->
  length (v_dims v) <= length (v_shape v) ->
  (forall o, o ∈ os -> v_delayed o = v_delayed v /\ v_dims o = v_dims v /\ length (v_shape o) = length (v_shape v) /\
     forall k, v_dims v !! k <> Some dim -> v_shape o !! k = v_shape v !! k) ->
  records v dim = Some rs ->
  exists v' rss, var_concat v os dim = Ok v' /\ Forall2 (fun o r => records o dim = Some r) os rss /\
    records v' dim = Some (rs ++ mjoin rss).
Proof.
  intros H1 H2 H3 H4 H5 Hr. destruct (var_concat_spec v os dim H1 H2 H3 H4 H5) as (v' & E & _ & _ & H6 & _).
  destruct (H6 _ Hr) as (rss & ? & ?). eauto.
Qed.
Print Assumptions C16_concat_partial.
(** The refusals: no operand, or operands of another kind. *)
Theorem C16_refused v os dim : os = [] \/ (exists o, o ∈ os /\ v_delayed o <> v_delayed v) ->
  var_concat v os dim = Raise ValueError.
Proof.
  unfold var_concat. intros [->|(o & Ho & Hne)]; [done|]. destruct (length os =? 0); [done|].
  assert (forallb (fun o => Bool.eqb (v_delayed o) (v_delayed v)) os = false) as ->; [|done].
  apply not_true_is_false. rewrite forallb_forall. intros H. apply Hne. apply eqb_prop, H. by apply elem_of_list_In.
Qed.
Print Assumptions C16_refused.

(** In every other case where an operand differs in size along another
    dimension, all operands are lost without an error. *)
Theorem C16_concat_refuted v o dim ax k : v_delayed o = v_delayed v -> v_dims v !! ax = Some dim -> NoDup (v_dims v) ->
  k <> ax -> k < length (v_shape v) -> v_shape o !! k <> v_shape v !! k ->
  var_concat v [o] dim = Ok v.
Proof.
  intros Hd Hax Hnd Hk Hl Hne. unfold var_concat. cbn [length Nat.eqb forallb]. rewrite Hd, eqb_reflx. cbn [andb negb].
  destruct (index_of dim (v_dims v)) as [ax'|] eqn:E; [|by rewrite with_array_id].
  apply index_of_lookup in E. assert (ax' = ax) as -> by (by apply (NoDup_lookup _ _ _ _ Hnd E Hax)).
  cbn [map cat foldM]. unfold cat2. unfold v_shape in *.
  assert (bool_decide (<[ax:=0]> (a_shape (v_array v)) = <[ax:=0]> (a_shape (v_array o))) = false) as ->.
  { apply bool_decide_eq_false. intros He. apply Hne.
    assert (H : <[ax:=0]> (a_shape (v_array v)) !! k = <[ax:=0]> (a_shape (v_array o)) !! k) by (by rewrite He).
    rewrite !list_lookup_insert_ne in H by done. done. }
  cbn [negb orb]. rewrite orb_true_r. cbn [rbind]. by rewrite with_array_id.
Qed.
Print Assumptions C16_concat_refuted.
Example C16_case : exists v o, records v (lit "time") <> None /\ records o (lit "time") <> None /\
  var_concat v [o] (lit "time") = Ok v /\ var_concat v [v] (lit "time") <> Ok v.
Proof.
  exists (simple_var "m" ["x"; "time"] [2; 3] [1; 2; 3; 4; 5; 6]%Z), (simple_var "m" ["x"; "time"] [1; 3] [1; 2; 3]%Z).
  split_and!; [done|done|vm_compute; reflexivity|vm_compute; discriminate].
Qed.

(** ** C42: masked values *)

(** The values of a variable set from a masked array: same shape, same mask,
    same values where not masked. *)
Definition same_masked (m m' : marr) : Prop :=
  a_shape (m_data m') = a_shape (m_data m) /\ m_mask m' = m_mask m /\
  forall i x, a_flat (m_data m) !! i = Some x -> m_mask m !! i = Some false -> a_flat (m_data m') !! i = Some x.

Theorem C42_masked v m z : marr_wf m -> length (a_shape (m_data m)) = length (v_dims v) ->
  m_fill m = Num z -> v_fill v = None \/ v_fill v = Some (Num z) ->
  (forall i x, a_flat (m_data m) !! i = Some x -> m_mask m !! i = Some false -> x <> Num z) ->
  exists v' m', var_set_values v (Masked m) = Ok v' /\ var_values v' = Masked m' /\ same_masked m m' /\ m_fill m' = m_fill m.
Proof.
  intros [Hw Hl] Hr Hf Hv Hno. unfold var_set_values. rewrite Hr, Nat.eqb_refl. cbn [negb].
  assert (E : as_numpy_array (Masked m) (v_fill v) = Ok (filled m (m_fill m), Some (m_fill m))).
  { destruct Hv as [-> | ->]; cbn; [done|]. rewrite Hf. cbn. rewrite Z.eqb_refl. done. }
  rewrite E. cbn [rbind fst snd]. do 2 eexists. split_and!; [done|reflexivity| |done]. cbn. rewrite Hf in *.
  split_and!; cbn; [done| |].
  - rewrite zip_with_map_mask by done. revert Hl Hno. generalize (a_flat (m_data m)) as data. generalize (m_mask m) as mask.
    intros mask data. revert mask. induction data as [|x data IH]; intros [|b mask] Hl Hno; cbn in *; try done. f_equal.
    + destruct b; cbn; [by rewrite Z.eqb_refl|]. specialize (Hno 0 x eq_refl eq_refl). destruct x as [y|]; [|done]. cbn.
      apply Z.eqb_neq. congruence.
    + apply IH; [lia|]. intros i y Hi Hb. apply (Hno (S i) y Hi Hb).
  - intros i x Hi Hb. apply lookup_zip_with_Some. exists x, false. done.
Qed.
Print Assumptions C42_masked.

(** Arrays without mask and without fill value come back as they are. *)
Theorem C42_plain v a : length (a_shape a) = length (v_dims v) -> v_fill v = None ->
  exists v', var_set_values v (Plain a) = Ok v' /\ var_values v' = Plain a.
Proof.
  intros Hr Hf. unfold var_set_values. rewrite Hr, Nat.eqb_refl. cbn. eexists. split; [done|]. unfold var_values. cbn. by rewrite Hf.
Qed.
Print Assumptions C42_plain.
(** Wrong rank and another fill value are refused. *)
Theorem C42_refused v m : length (a_shape (m_data m)) <> length (v_dims v) \/
    (length (a_shape (m_data m)) = length (v_dims v) /\ exists z f, v_fill v = Some (Num z) /\ m_fill m = f /\ f <> Num z) ->
  var_set_values v (Masked m) = Raise ValueError.
Proof.
  unfold var_set_values. intros [H|(H & z & f & Hz & <- & Hne)].
  - by rewrite (proj2 (Nat.eqb_neq _ _)).
  - rewrite H, Nat.eqb_refl. cbn. rewrite Hz. cbn. destruct (m_fill m) as [y|]; [|done]. cbn.
    rewrite (proj2 (Z.eqb_neq z y)) by congruence. done.
Qed.
Print Assumptions C42_refused.
(** fill makes every value the fill value, keeping the shape. *)
Theorem C42_fill v f : v_fill v = Some f ->
  v_shape (var_fill v) = v_shape v /\ arr_wf (v_array (var_fill v)) /\
  Forall (fun x => x = f) (a_flat (v_array (var_fill v))) /\ var_fill v = with_array v (v_array (var_fill v)).
Proof.
  intros E. unfold var_fill. rewrite E. split_and!; [done| | |done]; cbn.
  - apply tabulate_wf.
  - apply Forall_forall. intros x Hx. by apply elem_of_list_In, in_map_iff in Hx as (? & <- & _).
Qed.
Print Assumptions C42_fill.

(** With NaN as fill value the mask is lost (nothing equals NaN). *)
Theorem C42_nan_refuted : exists v m v' m', marr_wf m /\ m_fill m = NaN /\
  (forall i x, a_flat (m_data m) !! i = Some x -> m_mask m !! i = Some false -> x <> NaN) /\
  var_set_values v (Masked m) = Ok v' /\ var_values v' = Masked m' /\ m_mask m = [false; true] /\ m_mask m' = [false; false].
Proof.
  exists (Var (lit "v") false (Arr [2] [Num 0; Num 0]) (lit "float64") [lit "x"] [] None (Some NaN) []),
    (MArr (Arr [2] [Num 1; Num 2]) [false; true] NaN).
  do 2 eexists. split_and!; [done|done| |vm_compute; reflexivity|vm_compute; reflexivity|done|vm_compute; reflexivity].
  intros [|[|i]] x Hx Hb; cbn in *; try done; by injection Hx as <-.
Qed.
Print Assumptions C42_nan_refuted.
Example C42_case : exists v', var_set_values (Var (lit "v") false (Arr [0] []) (lit "int64") [lit "x"] [] None None [])
    (Masked (MArr (Arr [3] (nums [4; 5; 6]%Z)) [false; true; false] (Num (-1)))) = Ok v' /\
  var_values v' = Masked (MArr (Arr [3] (nums [4; -1; 6]%Z)) [false; true; false] (Num (-1))).
Proof. eexists. split; vm_compute; reflexivity. Qed.
