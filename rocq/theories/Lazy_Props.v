(** * Lazy and computed forms of a dataset show the same data *)
From Verif Require Import Py Dict NdArray_Model Dataset_Model Dataset_Spec Dataset_Proofs Assemble_Proofs Dataset_Props Lazy_Model.

(** ** Specification *)

(** What a user sees of a variable: its shape and its cells, hidden where they
    are equal to the fill value. *)
Definition cells (v : variable) : list (option val) :=
  map (fun x => match v_fill v with
                | Some f => if py_eq x f then None else Some x
                | None => Some x
                end) (a_flat (v_array v)).
(** What a plain or masked array shows. *)
Definition shows (d : vdata) : list nat * list (option val) :=
  match d with
  | Plain a => (a_shape a, map Some (a_flat a))
  | Masked m => (a_shape (m_data m),
      zip_with (fun x (b : bool) => if b then None else Some x) (a_flat (m_data m)) (m_mask m))
  end.

(** The calls of a user. *)
Inductive call := Compute | Persist | Rechunk.
Definition calling (c : call) (ds : ldataset) : res ldataset :=
  match c with Compute => ds_compute ds | Persist => Ok (ds_persist ds) | Rechunk => ds_rechunk ds end.
Fixpoint calling_all (cs : list call) (ds : ldataset) : res ldataset :=
  match cs with [] => Ok ds | c :: cs => do ds' <- calling c ds; calling_all cs ds' end.

(** ** Proofs *)

Lemma py_eq_true x f : py_eq x f = true -> x = f.
Proof. destruct x, f; cbn; try done. intros ->%Z.eqb_eq. done. Qed.
Lemma not_equal_refl f : not_equal f f = false.
Proof. destruct f; cbn; [|done]. by rewrite Z.eqb_refl. Qed.
Lemma filled_masked_equal a f : filled (masked_equal a f) f = a.
Proof.
  destruct a as [sh l]. unfold filled, masked_equal. cbn. f_equal.
  induction l as [|x l IH]; [done|]. cbn. rewrite IH. f_equal.
  destruct (py_eq x f) eqn:E; [|done]. by apply py_eq_true in E.
Qed.
Lemma masked_twice a f : ma_masked_equal (Masked (masked_equal a f)) f = masked_equal a f.
Proof.
  destruct a as [sh l]. unfold ma_masked_equal, masked_equal. cbn. f_equal.
  induction l as [|x l IH]; [done|]. cbn. rewrite IH. f_equal. apply orb_diag.
Qed.

Definition with_delayed (b : bool) (v : variable) : variable :=
  Var (v_name v) b (v_array v) (v_dtype v) (v_dims v) (v_attrs v) (v_compressor v) (v_fill v) (v_filters v).
Lemma with_delayed_id v : with_delayed (v_delayed v) v = v.
Proof. by destruct v. Qed.
Lemma with_delayed_twice b c v : with_delayed b (with_delayed c v) = with_delayed b v.
Proof. done. Qed.

Lemma update_dimensions_again b vs : forall dims delayed dims' d,
  update_dimensions dims delayed vs = Ok (dims', d) ->
  forall delayed', delayed' = None \/ delayed' = Some b ->
  update_dimensions dims delayed' (map (with_delayed b) vs) =
    Ok (dims', match vs with [] => delayed' | _ => Some b end).
Proof.
  induction vs as [|v vs IH]; intros dims delayed dims' d H delayed' Hd; cbn in *.
  - by injection H as <- _.
  - assert (exists dims1 dl, update_dims_var dims (v_dims v) (v_shape v) = Ok dims1 /\ update_dimensions dims1 dl vs = Ok (dims', d))
      as (dims1 & dl & E1 & E2).
    { destruct delayed as [b'|].
      - destruct (Bool.eqb b' (v_delayed v)); [|done]. destruct (update_dims_var _ _ _) as [dims1|]; [|done]. eauto.
      - destruct (update_dims_var _ _ _) as [dims1|]; [|done]. eauto. }
    pose proof (IH _ _ _ _ E2 (Some b) (or_intror eq_refl)) as E3.
    unfold v_shape in E1 |- *. cbn.
    destruct Hd as [->| ->]; [|rewrite eqb_reflx]; rewrite E1; cbn [rbind]; rewrite E3; by destruct vs.
Qed.

(** The dataset, all of whose variables are lazy or not. *)
Definition as_kind (b : bool) (ds : dataset) : dataset :=
  Dataset (d_dims ds) (map (fun nv => (nv.1, with_delayed b nv.2)) (d_vars ds))
    (d_attrs ds) (d_chunks ds) (d_block ds) b.
Definition built (ds : dataset) : Prop :=
  exists vs attrs block chunks delayed, new_dataset vs attrs block chunks delayed = Ok ds.

Lemma dvals_as b ds : dvals (d_vars (as_kind b ds)) = map (with_delayed b) (dvals (d_vars ds)).
Proof. unfold dvals. cbn. rewrite !map_map. done. Qed.

Lemma built_again ds b b' delayed : built ds -> delayed = Some b \/ (delayed = None /\ b = true) ->
  new_dataset (map (with_delayed b) (dvals (d_vars (as_kind b' ds)))) (d_attrs ds) (Some (d_block ds)) (d_chunks ds) delayed
    = Ok (as_kind b ds).
Proof.
  intros (vs & attrs & block & chunks & dl & E) Hd.
  pose proof (new_dataset_ok _ _ _ _ _ _ E) as (Ev & _ & Ec & Eb & _ & Hcons).
  assert (Hnd : NoDup (dkeys (d_vars ds))) by (rewrite Ev; apply dict_of_NoDup).
  assert (Hnames : map (fun v => (v_name v, v)) (map (with_delayed b) (dvals (d_vars ds))) = d_vars (as_kind b ds)).
  { unfold dvals. cbn. rewrite !map_map. apply map_ext_in. intros [n v] Hin. cbn.
    f_equal. apply (Hcons n v). apply elem_dget; [done|]. by apply elem_of_list_In. }
  assert (Hvals : map (with_delayed b) (dvals (d_vars (as_kind b' ds))) = map (with_delayed b) (dvals (d_vars ds))).
  { rewrite dvals_as, map_map. done. }
  rewrite Hvals. unfold new_dataset at 1. rewrite Hnames.
  rewrite dict_of_id; [|cbn; rewrite map_map; exact Hnd]. rewrite dvals_as.
  unfold new_dataset in E. rewrite <-Ev in E.
  destruct (update_dimensions [] dl (dvals (d_vars ds))) as [[dims d]|] eqn:Eu; [|done]. cbn in E.
  assert (Edims : dims = d_dims ds) by (by injection E as <-).
  erewrite update_dimensions_again; [|exact Eu|tauto]. cbn [rbind fst snd].
  rewrite Edims. unfold as_kind. f_equal. f_equal.
  - rewrite Ec. apply dict_of_id. apply dict_of_NoDup.
  - rewrite Eb. destruct block as [z|]; [|done]. cbn. destruct (Z.eqb_spec z 0) as [->|Hz]; [done|].
    by rewrite (proj2 (Z.eqb_neq _ _)).
  - destruct (dvals (d_vars ds)); [|done]. by destruct Hd as [->|[-> ->]].
Qed.

(** The mask a persisted variable holds. *)
Definition its_mask (v : variable) : option (list bool * val) :=
  option_map (fun f => (map (fun x => py_eq x f) (a_flat (v_array v)), f)) (v_fill v).
(** [ld] is [ds], lazy or not, each of its variables persisted or not. *)
Definition tracks (ds : dataset) (ld : ldataset) : Prop :=
  (exists b, ld_ds ld = as_kind b ds) /\
  forall n v, dget (d_vars ds) n = Some v -> ld_mask ld n = None \/ ld_mask ld n = its_mask v.

Lemma held_cases v m : m = None \/ m = its_mask v ->
  as_numpy_array (l_held (LVar v m)) (v_fill v) = Ok (v_array v, v_fill v) /\
  l_values (LVar v m) = var_values v /\ l_data (LVar v m) = var_values v.
Proof.
  intros Hm. unfold l_values, l_data, var_values. cbn [l_var].
  destruct (v_fill v) as [f|] eqn:Ef; cycle 1.
  { assert (m = None) as -> by (unfold its_mask in Hm; rewrite Ef in Hm; by destruct Hm). done. }
  destruct Hm as [->| ->]; [done|].
  assert (E : l_held (LVar v (its_mask v)) = Masked (masked_equal (v_array v) f)) by (unfold l_held, its_mask; cbn; by rewrite Ef).
  rewrite E, masked_twice. unfold as_numpy_array. cbn [masked_equal m_fill]. rewrite not_equal_refl.
  fold (masked_equal (v_array v) f). rewrite filled_masked_equal. done.
Qed.

Lemma dget_as ds b n : dget (d_vars (as_kind b ds)) n = option_map (with_delayed b) (dget (d_vars ds) n).
Proof. cbn. apply (dget_map_vals (fun _ => with_delayed b)). Qed.

Lemma built_nodup ds : built ds -> NoDup (dkeys (d_vars ds)).
Proof. intros (vs & a & bl & c & d & E). apply new_dataset_ok in E as (-> & _). apply dict_of_NoDup. Qed.

Lemma tracks_call ds ld c : built ds -> tracks ds ld ->
  exists ld', calling c ld = Ok ld' /\ tracks ds ld' /\
    d_delayed (ld_ds ld') = match c with Compute => false | _ => d_delayed (ld_ds ld) end.
Proof.
  intros Hb [[b Eb] Hm]. pose proof (built_nodup _ Hb) as Hnd.
  destruct (d_delayed (ld_ds ld)) eqn:Ed; cycle 1.
  { exists ld. split; [|split; [split; [by exists b|done]|rewrite Ed; by destruct c]].
    destruct c; cbn; unfold ds_compute, ds_persist, ds_rechunk; by rewrite Ed. }
  assert (b = true) as -> by (rewrite Eb in Ed; done).
  destruct c; cbn.
  - unfold ds_compute. rewrite Ed. cbn [negb].
    assert (Et : traverse computed (l_vars ld) = Ok (map (with_delayed false) (dvals (d_vars (as_kind true ds))))).
    { unfold l_vars. rewrite Eb. unfold dvals. cbn. rewrite !map_map. cbn.
      assert (Hl : forall n v, (n, v) ∈ d_vars ds -> ld_mask ld n = None \/ ld_mask ld n = its_mask v).
      { intros n v Hin. apply Hm. by apply elem_dget. }
      revert Hl. clear. induction (d_vars ds) as [|[n v] l IH]; intros Hl; [done|]. cbn [map traverse].
      assert (E : computed (LVar (with_delayed true v) (ld_mask ld n)) = Ok (with_delayed false v)).
      { unfold computed. cbn [l_var].
        destruct (held_cases (with_delayed true v) (ld_mask ld n)) as (E & _); [apply (Hl n v); by left|].
        rewrite E. done. }
      cbn [fst snd] in *. rewrite E. cbn [rbind]. rewrite IH; [done|]. intros n' v' Hin. apply Hl. by right. }
    rewrite Et. cbn [rbind]. rewrite Eb. cbn [as_kind d_attrs d_block d_chunks].
    rewrite (built_again ds false true (Some false) Hb (or_introl eq_refl)). cbn [rbind].
    eexists. split; [done|]. split; [split; [by exists false|by left]|done].
  - eexists. split; [done|]. unfold ds_persist. rewrite Ed. cbn [negb]. split; [split|].
    + exists true. cbn. rewrite Eb. cbn. unfold as_kind. f_equal. rewrite map_map. apply map_ext_in. intros [n v] Hin. cbn. f_equal.
      destruct (held_cases (with_delayed true v) (ld_mask ld n)) as (_ & _ & E).
      { apply (Hm n v). apply elem_dget; [done|]. by apply elem_of_list_In. }
      rewrite E. unfold var_values. by destruct (v_fill (with_delayed true v)).
    + intros n v Hv. cbn. unfold l_get. rewrite Eb, dget_as, Hv. cbn.
      destruct (held_cases (with_delayed true v) (ld_mask ld n)) as (_ & _ & E); [by apply (Hm n v)|].
      rewrite E. unfold var_values, its_mask. cbn. destruct (v_fill v); [by right|by left].
    + cbn. done.
  - unfold ds_rechunk. rewrite Ed. cbn [negb].
    assert (El : map l_var (l_vars ld) = map (with_delayed true) (dvals (d_vars (as_kind true ds)))).
    { unfold l_vars. rewrite Eb. unfold dvals. cbn. rewrite !map_map. done. }
    rewrite El, Eb. cbn [as_kind d_attrs d_block d_chunks].
    rewrite (built_again ds true true None Hb (or_intror (conj eq_refl eq_refl))). cbn [rbind].
    eexists. split; [done|]. split; [split; [by exists true|done]|done].
Qed.

Lemma tracks_calls ds cs : built ds -> forall ld, tracks ds ld ->
  exists ld', calling_all cs ld = Ok ld' /\ tracks ds ld' /\
    (d_delayed (ld_ds ld') = true <-> d_delayed (ld_ds ld) = true /\ Compute ∉ cs).
Proof.
  intros Hb. induction cs as [|c cs IH]; intros ld Ht; cbn.
  { exists ld. split; [done|]. split; [done|]. split; [intros ->; split; [done|apply not_elem_of_nil]|by intros []]. }
  destruct (tracks_call ds ld c Hb Ht) as (ld1 & E1 & Ht1 & Ed1). rewrite E1. cbn [rbind].
  destruct (IH ld1 Ht1) as (ld2 & E2 & Ht2 & Ed2). exists ld2. split; [done|]. split; [done|].
  rewrite Ed2, Ed1, not_elem_of_cons. destruct c; intuition congruence.
Qed.

Lemma as_kind_id ds : built ds -> as_kind (d_delayed ds) ds = ds.
Proof.
  intros Hb. pose proof (built_nodup _ Hb) as Hnd. destruct Hb as (vs & a & bl & c & d & E).
  apply new_dataset_ok in E as (_ & _ & _ & _ & _ & Hc). 
  assert (Ev : map (fun nv => (nv.1, with_delayed (d_delayed ds) nv.2)) (d_vars ds) = d_vars ds).
  { rewrite <-(map_id (d_vars ds)) at 2. apply map_ext_in. intros [n v] Hin. cbn. f_equal.
    destruct (Hc n v) as (_ & <- & _); [apply elem_dget; [done|]; by apply elem_of_list_In|]. apply with_delayed_id. }
  unfold as_kind. rewrite Ev. by destruct ds.
Qed.

Lemma tracks_fresh ds : built ds -> tracks ds (fresh ds).
Proof. intros Hb. split; [exists (d_delayed ds); symmetry; by apply as_kind_id|by left]. Qed.

Lemma shows_values v : shows (var_values v) = (v_shape v, cells v).
Proof.
  unfold shows, var_values, cells, v_shape. destruct (v_fill v) as [f|]; [|done]. cbn. f_equal.
  induction (a_flat (v_array v)) as [|x l IH]; [done|]. cbn. by rewrite IH.
Qed.

(** ** Properties *)

(** Whatever the sequence of calls, none raises, and the dataset that is left
    has the same dimensions, attributes, chunks and block size, the same
    variables in the same order with the same metadata, and each shows the same
    cells; it is in memory as soon as it was computed once. *)
Theorem C87_same ds cs : built ds ->
  exists ld, calling_all cs (fresh ds) = Ok ld /\
    d_dims (ld_ds ld) = d_dims ds /\ d_attrs (ld_ds ld) = d_attrs ds /\
    d_chunks (ld_ds ld) = d_chunks ds /\ d_block (ld_ds ld) = d_block ds /\
    dkeys (d_vars (ld_ds ld)) = dkeys (d_vars ds) /\
    (d_delayed (ld_ds ld) = true <-> d_delayed ds = true /\ Compute ∉ cs) /\
    forall n v, dget (d_vars ds) n = Some v ->
      exists v', l_get ld n = Some v' /\ v_metadata (l_var v') = v_metadata v /\
        v_delayed (l_var v') = d_delayed (ld_ds ld) /\
        v_array (l_var v') = v_array v /\ shows (l_values v') = (v_shape v, cells v).
Proof.
  intros Hb. destruct (tracks_calls ds cs Hb (fresh ds) (tracks_fresh ds Hb)) as (ld & E & [[b Eb] Hm] & Ed).
  exists ld. split; [done|]. rewrite Eb. cbn [as_kind d_dims d_attrs d_chunks d_block d_vars d_delayed].
  rewrite Eb in Ed. cbn in Ed.
  repeat (split; [first [reflexivity|exact Ed|unfold dkeys; by rewrite map_map]|]).
  intros n v Hv. unfold l_get. rewrite Eb, dget_as, Hv. cbn. eexists. split; [done|]. cbn.
  split; [done|]. split; [done|]. split; [done|].
  destruct (held_cases (with_delayed b v) (ld_mask ld n)) as (_ & E1 & _); [by apply (Hm n v)|].
  rewrite E1. apply (shows_values v).
Qed.
Print Assumptions C87_same.

(** The dictionary made of the dataset, at any moment of such a history, has
    one entry for each variable asked for, in the order of the dataset, and it
    shows the cells of this variable. Without names, or with an empty list of
    names, it has them all. *)
Theorem C87_to_dict ds cs names : built ds ->
  exists ld, calling_all cs (fresh ds) = Ok ld /\
    Forall2 (fun nv e => e.1 = nv.1 /\ shows e.2 = (v_shape nv.2, cells nv.2))
      (List.filter (fun nv => match names with
                              | None => true
                              | Some l => if decide (l = []) then true else if decide (nv.1 ∈ l) then true else false
                              end) (d_vars ds))
      (ds_to_dict ld names).
Proof.
  intros Hb. destruct (tracks_calls ds cs Hb (fresh ds) (tracks_fresh ds Hb)) as (ld & E & [[b Eb] Hm] & _).
  exists ld. split; [done|]. unfold ds_to_dict. rewrite Eb. cbn [as_kind d_vars d_delayed].
  assert (Hl : forall n v, (n, v) ∈ d_vars ds -> ld_mask ld n = None \/ ld_mask ld n = its_mask v).
  { intros n v Hin. apply Hm. apply elem_dget; [by apply built_nodup|done]. }
  set (sel := match names with None => _ | Some _ => _ end).
  assert (Hsel : forall nv, nv ∈ d_vars ds -> memb nv.1 sel = match names with
            | None => true
            | Some l => if decide (l = []) then true else if decide (nv.1 ∈ l) then true else false
            end).
  { intros nv Hin. assert (Hall : memb nv.1 (dkeys (map (fun nv => (nv.1, with_delayed b nv.2)) (d_vars ds))) = true).
    { apply bool_decide_eq_true_2. unfold dkeys. rewrite map_map. cbn.
      change (nv.1 ∈ fst <$> d_vars ds). by apply elem_of_list_fmap_1. }
    subst sel. destruct names as [[|x l]|]; [exact Hall| |exact Hall].
    destruct (decide (x :: l = [])); [done|]. unfold memb. destruct (decide (nv.1 ∈ x :: l)) as [H|H].
    - by apply bool_decide_eq_true_2.
    - by apply bool_decide_eq_false_2. }
  clearbody sel. clear E Hm. revert Hl Hsel. induction (d_vars ds) as [|[n v] l IH]; intros Hl Hsel; [constructor|].
  cbn [map List.filter fst snd]. pose proof (Hsel (n, v) (elem_of_list_here _ _)) as H1. cbn [fst] in H1. rewrite H1.
  assert (IH' := IH (fun n' v' H => Hl n' v' (elem_of_list_further _ _ _ H)) (fun nv H => Hsel nv (elem_of_list_further _ _ _ H))).
  destruct (match names with None => true | Some l => _ end); [|exact IH'].
  cbn [map]. constructor; [|exact IH']. cbn. split; [done|].
  destruct (held_cases (with_delayed b v) (ld_mask ld n)) as (_ & E1 & E2); [apply (Hl n v); by left|].
  destruct b; [rewrite E2|rewrite E1]; apply (shows_values v).
Qed.
Print Assumptions C87_to_dict.

(** Refuted: once a lazy variable is persisted, asking for its shape raises,
    and so does asking for its data when it has a fill value; without a fill
    value its data is no longer an array. *)
Theorem C88_persist_refuted d fill :
  slot_shape (SArray d) <> Raise AttributeError /\
  slot_shape (var_persist true (SArray d)) = Raise AttributeError /\
  (forall f, fill = Some f -> slot_data (var_persist true (SArray d)) fill = Raise AttributeError) /\
  (fill = None -> forall d', slot_data (var_persist true (SArray d)) fill <> Ok (SArray d')).
Proof.
  split; [by destruct d|]. split; [done|]. split; [by intros f ->|by intros -> d'].
Qed.
Print Assumptions C88_persist_refuted.

(** A lazy dataset with a hidden cell, persisted, rechunked, computed. *)
Definition lazy_sample : list variable :=
  [Var (lit "t") true (Arr [2] (nums [1; 2]%Z)) (lit "int64") [lit "n"] [] None None [];
   Var (lit "m") true (Arr [2; 2] (nums [5; 0; 0; 7]%Z)) (lit "int64") [lit "n"; lit "x"] [(lit "u", lit "km")] None (Some (Num 0%Z)) []].
Example C87_case : exists ds ld, new_dataset lazy_sample [] None [] None = Ok ds /\ built ds /\
  calling_all [Persist; Rechunk; Persist; Compute] (fresh ds) = Ok ld /\ d_delayed (ld_ds ld) = false /\
  (exists ld1, calling_all [Persist] (fresh ds) = Ok ld1 /\
     ld_mask ld1 (lit "m") = Some ([false; true; true; false], Num 0%Z)) /\
  option_map (fun v => shows (l_values v)) (l_get ld (lit "m")) =
    Some ([2; 2], [Some (Num 5%Z); None; None; Some (Num 7%Z)]).
Proof.
  eexists _, _. split; [vm_compute; reflexivity|]. split; [exists lazy_sample, [], None, [], None; vm_compute; reflexivity|].
  split; [vm_compute; reflexivity|]. split; [reflexivity|]. split; [eexists; split; [vm_compute; reflexivity|vm_compute; reflexivity]|].
  vm_compute. reflexivity.
Qed.
