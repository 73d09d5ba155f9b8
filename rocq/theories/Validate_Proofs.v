(** * Checking partitions *)
From Verif Require Import Py Dict NdArray_Model NdArray_Proofs Dataset_Model PartPath_Model PartPath_Proofs
  Split_Spec FS_Model FS_Proofs Pool_Model Pool_Proofs Storage_Model Storage_Spec Storage_Proofs
  Listing_Model Listing_Spec Listing_Proofs Collection_Model Collection_Spec Collection_Proofs Collection_State Collection_Select Collection_Load
  Update_Model Validate_Spec.

Lemma array_names_elem m n : n ∈ array_names m <-> exists x, m !! [n; ZARRAY] = Some x.
Proof.
  unfold array_names. rewrite elem_of_list_omap. split.
  - intros ([q x] & Hq & E). apply elem_of_map_to_list in Hq. unfold array_name in E. cbn [fst] in E. destruct q as [|a [|z [|]]]; try done.
    destruct (decide (z = ZARRAY)) as [->|]; [|done]. injection E as ->. by exists x.
  - intros [x Hx]. exists ([n; ZARRAY], x). split; [by apply elem_of_map_to_list|]. unfold array_name. cbn [fst]. by rewrite decide_True.
Qed.
Lemma traverse_res {A B} (f : A -> res B) l : match traverse f l with Ok _ => Forall (fun x => exists y, f x = Ok y) l | Raise ex => exists x, x ∈ l /\ f x = Raise ex end.
Proof.
  induction l as [|x l IH]; [constructor|]. cbn. destruct (f x) as [y|ex] eqn:E; cbn; [|exists x; split; [left|done]].
  destruct (traverse f l) as [ys|ex]; cbn.
  - constructor; [by exists y|done].
  - destruct IH as (z & Hz & Ez). exists z. split; [by right|done].
Qed.
Lemma read_array_res z t : match read_array z t with
  | Ok _ => forall idx, idx ∈ NdArray_Model.indices (z_shape z) -> let chunk := t !! [chunk_key (chunk_of (z_chunks z) idx)] in chunk = None \/ exists a, chunk = Some (CChunk a)
  | Raise ex => ex = RuntimeError /\ exists idx x, idx ∈ NdArray_Model.indices (z_shape z) /\ t !! [chunk_key (chunk_of (z_chunks z) idx)] = Some x /\ forall a, x <> CChunk a end.
Proof.
  unfold read_array. pose proof (traverse_res (read_item z t) (NdArray_Model.indices (z_shape z))) as H.
  destruct (traverse _ _) as [l|ex]; cbn [rbind]; cbn zeta.
  - intros idx Hin. rewrite Forall_forall in H. destruct (H idx Hin) as [y Hy]. unfold read_item in Hy.
    destruct (t !! _) as [[]|]; try discriminate Hy; [right|left; done]. by eexists.
  - destruct H as (idx & Hin & E). unfold read_item in E. destruct (t !! [chunk_key (chunk_of (z_chunks z) idx)]) as [x|] eqn:Ex; [|done].
    destruct x; try discriminate E; (injection E as <-; split; [done|]; eexists idx, _; split; [done|]; split; [exact Ex|done]).
Qed.

(** A check does not raise if the metadata are there; it tells if the partition
    can be read. *)
Lemma check_group_indexed t : indexed t -> exists b, check_group t = Ok b /\ (b = true <-> readable t).
Proof.
  intros [[x Hx] Hi]. unfold check_group, read_cons. rewrite Hx. destruct x as [| |m| | | |].
  all: try (exists false; split; [reflexivity|]; split; [done|]; intros (m' & Hm & _); congruence).
  destruct (bool_decide (is_Some (m !! [ZGROUP]))) eqn:Hg; cbn [rbind].
  2: { exists false. split; [reflexivity|]. apply bool_decide_eq_false in Hg. split; [done|]. intros (m' & Hm & Hg' & _). by assert (m' = m) as -> by congruence. }
  apply bool_decide_eq_true in Hg.
  set (f := fun n => do z <- array_meta m n; read_array z (sub [n] t)). pose proof (traverse_res f (array_names m)) as H. destruct (traverse f (array_names m)) as [l|ex]; cbn [rbind].
  - exists true. split; [done|]. split; [intros _|done]. exists m. split; [done|]. split; [done|]. intros n y Hy. destruct (Hi m n y Hx Hy) as [z ->]. exists z. split; [done|].
    rewrite Forall_forall in H. destruct (H n) as [a Ha]; [apply array_names_elem; by eexists|]. unfold f, array_meta in Ha. rewrite Hy in Ha. cbn [rbind] in Ha.
    pose proof (read_array_res z (sub [n] t)) as R. rewrite Ha in R. intros idx Hin. specialize (R idx Hin). cbn zeta in R |- *. by rewrite !sub_lookup in R.
  - destruct H as (n & Hn & E). apply array_names_elem in Hn as [y Hy]. destruct (Hi m n y Hx Hy) as [z ->]. unfold f, array_meta in E. rewrite Hy in E. cbn [rbind] in E.
    pose proof (read_array_res z (sub [n] t)) as R. rewrite E in R. destruct R as (-> & idx & w & Hin & Hw & Hno). exists false. split; [reflexivity|]. split; [done|].
    intros (m' & Hm & _ & H). assert (m' = m) as -> by congruence. destruct (H n _ Hy) as (z' & [= <-] & H'). specialize (H' idx Hin). cbn zeta in H'. rewrite sub_lookup in Hw. cbn [app] in Hw.
    rewrite Hw in H'. destruct H' as [|[a Ha]]; [done|]. injection Ha as ->. exfalso. by apply (Hno a).
Qed.
(** The only exception that is not caught. *)
Lemma check_group_raises t ex : check_group t = Raise ex -> ex = KeyError.
Proof.
  unfold check_group. destruct (rbind _ _) as [|ex'] eqn:E; [done|]. destruct (memb ex' _) eqn:Hm; [done|]. intros [= ->]. apply bool_decide_eq_false in Hm.
  unfold read_cons in E. destruct (t !! [ZMETADATA]) as [[]|]; cbn [rbind] in E; try (injection E as <-; exfalso; apply Hm; set_solver); [|by injection E as <-].
  destruct (bool_decide _); cbn [rbind] in E; [|injection E as <-; exfalso; apply Hm; set_solver].
  match type of E with traverse ?f ?l = _ => pose proof (traverse_res f l) as H; rewrite E in H end. destruct H as (n & _ & En).
  destruct (array_meta m n) as [z|ex'] eqn:Em; cbn [rbind] in En.
  - pose proof (read_array_res z (sub [n] t)) as R. rewrite En in R. destruct R as [-> _]. exfalso. apply Hm. set_solver.
  - injection En as ->. unfold array_meta in Em. destruct (m !! _) as [[]|]; try done; by injection Em as <-.
Qed.
Lemma check_group_missing t : t !! [ZMETADATA] = None -> check_group t = Raise KeyError.
Proof. intros H. unfold check_group, read_cons. by rewrite H. Qed.

Section validate.
  Context (e : env) (c : collection) (Hr : regular e c).

  Lemma exec_check s v : length v = length (p_keys (c_part c)) ->
    exec (check_partition c (part_dir c v)) s = (rmap (fun b => (part_dir c v, b)) (check_group (sub (part_dir c v) s)), s).
  Proof.
    intros Hl. unfold check_partition. unfold part_dir at 1. rewrite (parse_key_dirs (c_part c) (c_dir c) v (rg_keys _ _ Hr) (rg_path _ _ Hr) Hl).
    unfold check_zarr_group. rewrite !exec_bind, exec_get_tree. cbn [exec]. by destruct (check_group _).
  Qed.
  (** The partitions are removed one after the other. *)
  Lemma exec_rm_seq s vs : NoDup vs -> (forall v, v ∈ vs -> stands c s v) -> exec (pfor (map (part_dir c) vs) rm) s = (Ok tt, prune_all c s (rev vs)).
  Proof.
    revert s. induction vs as [|v vs IH]; intros s Hnd Hv; [done|]. inversion Hnd as [|? ? Hnv Hnd']; subst.
    unfold pfor. cbn [map pseq]. rewrite !exec_bind, exec_rm.
    destruct (Hv v ltac:(left)) as (Hl & a & f & x & Hx).
    assert (empty_at (part_dir c v) s = false) as -> by (apply empty_at_false; eexists _, _; split; [|exact Hx]; apply under_app). rewrite exec_bind.
    assert (Hs' : forall w, w ∈ vs -> stands c (prune (part_dir c v) s) w).
    { intros w Hw. destruct (Hv w ltac:(by right)) as (Hlw & a' & f' & x' & Hx'). split; [done|]. exists a', f', x'. rewrite prune_lookup, decide_False; [done|].
      intros U. refine (parts_apart c v w Hl Hlw _ _ U (under_app _ _)). by intros ->. }
    specialize (IH (prune (part_dir c v) s) Hnd' Hs'). unfold pfor in IH. rewrite exec_bind in IH. destruct (exec (pseq _) _) as [[l|ex] s1]; [|done].
    cbn [exec] in IH |- *. injection IH as ->. cbn [exec]. unfold prune_all. cbn [rev]. by rewrite foldr_app.
  Qed.
End validate.
