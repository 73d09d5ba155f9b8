(** * A small collection, to show that the hypotheses of the theorems are met *)
From Verif Require Import Py Dict NdArray_Model NdArray_Spec Dataset_Model Dataset_Spec Dataset_Proofs Dataset_Props2 Meta_Model PartPath_Model
  Split_Spec Split_Model FS_Model Pool_Model Storage_Model Storage_Spec Listing_Model Listing_Spec Listing_Props Collection_Model Collection_Spec Collection_Split Collection_State Collection_Create.

(** Three records, along "time", of two half orbits; the variable "bias" does
    not have this dimension. *)
Definition X_var (n : str) (dtype : str) (dims : list str) (shape : list nat) (zs : list Z) : variable :=
  Var n true (Arr shape (map Num zs)) dtype dims [(lit "unit", lit "1")] None (Some (Num 99)) [].
Definition X_vars : list variable :=
  [X_var (lit "time") (lit "int64") [lit "time"] [3] [10; 20; 30]%Z;
   X_var (lit "pass") (lit "int64") [lit "time"] [3] [1; 1; 2]%Z;
   X_var (lit "height") (lit "float64") [lit "time"; lit "x"] [3; 2] [5; 6; 7; 8; 9; 4]%Z;
   X_var (lit "bias") (lit "float64") [lit "x"] [2] [3; 4]%Z].
Definition X_ds : dataset :=
  Dataset [(lit "time", 3); (lit "x", 2)] (map (fun v => (v_name v, v)) X_vars) [(lit "title", lit "t")] [(lit "time", 2)] 64%Z true.
Definition X_rows : list (list Z) := [[1]; [1]; [2]]%Z.
Definition X_part : partitioning := Sequence [lit "pass"] [lit "int64"].
Definition X_dir : path := [lit "data"; lit "c"].
Definition X_env : env := Env id (fun d => if decide (last d = Some (lit "pass=1")) then lit "1a" else lit "2b").
Definition X_coll : collection := Coll (lit "time") (ds_metadata X_ds) X_part X_dir (lit "time") true false.
Definition X_store : store := <[X_dir ++ [CONFIG] := CConf (config_of X_coll)]> ∅.

Lemma X_create : exec (create_collection (lit "time") X_ds X_part X_dir) ∅ = (Ok X_coll, X_store).
Proof. vm_compute. reflexivity. Qed.
Ltac cases_var H := cbn in H; repeat (apply elem_of_cons in H as [->|H]); [..|by apply elem_of_nil in H].
Lemma X_var_in n v : dget (d_vars X_ds) n = Some v -> v ∈ X_vars /\ v_name v = n.
Proof.
  intros H. apply dget_elem in H. unfold X_ds, d_vars in H. apply elem_of_list_In, in_map_iff in H as (w & [= <- <-] & Hw). split; [by apply elem_of_list_In|done].
Qed.
Lemma X_vals v : v ∈ dvals (d_vars X_ds) -> v ∈ X_vars.
Proof. done. Qed.
Lemma X_sound : sound X_ds.
Proof.
  split; [split|].
  - split.
    + apply (bool_decide_unpack _). vm_compute. done.
    + apply (bool_decide_unpack _). vm_compute. done.
    + done.
    + intros v Hv. apply X_vals in Hv. by cases_var Hv.
    + intros n v Hv. apply X_var_in in Hv as [Hv <-]. split_and!; [done|by cases_var Hv|].
      intros k d Hk. cases_var Hv; destruct k as [|[|k]]; cbn in Hk; try done; injection Hk as <-; eexists; split; vm_compute; reflexivity.
  - intros v Hv. apply X_vals in Hv. by cases_var Hv.
  - intros n Hn. apply dget_is_Some in Hn as [v Hv]. apply X_var_in in Hv as [Hv <-]. unfold plain_name.
    cases_var Hv; apply (bool_decide_unpack _); vm_compute; done.
  - intros v Hv. apply X_vals in Hv. cases_var Hv; apply (bool_decide_unpack _); vm_compute; done.
Qed.
Lemma X_creatable : creatable (lit "time") X_ds X_part.
Proof.
  split; [apply X_sound| |].
  - intros n v a Hn Hv Ha. cbn in Hn. apply elem_of_list_singleton in Hn as ->. vm_compute in Hv. injection Hv as <-. vm_compute in Ha. injection Ha as <-.
    exists (lit "time"). done.
  - intros n v a d Hv Ha Hd _. vm_compute in Ha. injection Ha as <-. by injection Hd as <-.
Qed.
Lemma X_declared : declared X_coll.
Proof. by destruct (create_ok _ _ _ _ _ _ _ X_creatable X_create) as (_ & _ & _ & _ & _ & H & _). Qed.
Lemma X_empty : represents X_coll (fun _ => None) None X_store.
Proof. by destruct (create_ok _ _ _ _ _ _ _ X_creatable X_create) as (_ & _ & _ & _ & _ & _ & H & _). Qed.
Lemma X_regular : regular X_env X_coll.
Proof.
  split.
  - split; [done|done| |apply (bool_decide_unpack _); vm_compute; done].
    constructor; [|constructor]. split; [|split]; [apply (bool_decide_unpack _); vm_compute; done..|]. by intros [? ?].
  - repeat constructor; apply (bool_decide_unpack _); vm_compute; done.
  - intros d. cbn. split; [by destruct (decide _)|]. intros x Hx.
    destruct (decide _) in Hx; cbn in Hx; repeat (apply elem_of_cons in Hx as [->|Hx]); try (by apply elem_of_nil in Hx);
      apply (bool_decide_unpack _); vm_compute; done.
  - done.
Qed.
Lemma X_conforms : conforms X_coll X_ds.
Proof.
  intros n v Hv. apply X_var_in in Hv as [Hv <-]. cases_var Hv; eexists; split; vm_compute; reflexivity.
Qed.
Lemma X_insertable : insertable X_env X_coll X_ds X_rows None.
Proof.
  split; [apply X_sound|apply X_conforms| |done|by left|done|].
  - exists [[1; 1; 2]%Z]. split.
    + intros i r Hr. destruct i as [|[|[|i]]]; cbn in Hr; try done; injection Hr as <-; by repeat constructor.
    + constructor; [|constructor]. split; [done|]. eexists. split; vm_compute; reflexivity.
  - intros v v' Hv Hv'. unfold X_rows in *. repeat (apply elem_of_cons in Hv as [->|Hv]); try (by apply elem_of_nil in Hv);
      repeat (apply elem_of_cons in Hv' as [->|Hv']); try (by apply elem_of_nil in Hv'); vm_compute; done.
Qed.
Lemma X_sorted : never_decreases row_lt X_rows.
Proof.
  intros i j a b Hij Ha Hb.
  destruct i as [|[|[|i]]], j as [|[|[|j]]]; cbn in Ha, Hb; try done; try lia; injection Ha as <-; injection Hb as <-;
    [by right|left; by exists [], 1%Z, 2%Z, [], []..].
Qed.
Lemma X_accepted np validate : (forall k, np = Some k -> (1 <= k)%Z) -> accepted X_coll X_ds X_rows np validate.
Proof.
  intros Hk. split; [done|done|apply X_sorted| | |done|].
  - cbn. intros vs Hvs. inversion Hvs as [|? v ? l Hv Hl]; subst. inversion Hl; subst. vm_compute in Hv. injection Hv as <-. by apply Collection_Split.promotes_integers.
  - intros n mv Hn Hni. exfalso. apply Hni. assert (Hin : n ∈ dkeys (md_vars (c_meta X_coll))) by (apply dget_is_Some; by eexists).
    assert (E : bool_decide (Forall (fun n => n ∈ dkeys (d_vars X_ds)) (dkeys (md_vars (c_meta X_coll)))) = true) by (vm_compute; done).
    apply bool_decide_eq_true in E. rewrite Forall_forall in E. by apply E.
  - intros _. split; [vm_compute; done|].
    assert (E : bool_decide (Forall (fun n => n ∈ dkeys (d_vars X_ds)) (dkeys (md_vars (c_meta X_coll)))) = true) by (vm_compute; done).
    apply bool_decide_eq_true in E. rewrite Forall_forall in E. exact E.
Qed.
Lemma X_filterable : filterable X_coll.
Proof.
  split.
  - split; [done|]. intros k Hk [s E]. cbn in Hk. apply elem_of_list_singleton in Hk as ->. by vm_compute in E.
  - apply (bool_decide_unpack _). vm_compute. done.
Qed.
(** The filter "pass == 2". *)
Definition X_filter : filter := FExpr (ECmp Eq (EName (lit "pass")) (EInt 2)).
Lemma X_says a : says X_part X_filter [a] (a = 2%Z).
Proof. change (a = 2%Z) with (compares Eq a 2). by apply m_cmp; constructor. Qed.
(** One partition per batch; the first batch's task runs by small steps. *)
Definition X_scheds (i : nat) : schedule := [(0, true); (0, false); (0, true)].
Definition X_inner (d : path) : schedule := [(2, true); (1, false); (0, true); (2, false); (3, true)].
