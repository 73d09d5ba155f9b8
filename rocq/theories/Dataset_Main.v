(** * Main lemmas on datasets *)
From Verif Require Import Py Dict NdArray_Model NdArray_Spec NdArray_Proofs.
From Verif Require Import Dataset_Model Dataset_Spec Dataset_Proofs Dataset_Concat.

Lemma var_determined dims dim v v' : sized dims v -> NoDup (v_dims v) -> arr_wf (v_array v) -> arr_wf (v_array v') ->
  same_but_records dim v v' -> records v' dim = records v dim -> v' = v.
Proof.
  intros Hs Hnd Hw Hw' (Eq & Hlen & Hk & Hnot) Hr.
  destruct (decide (dim ∈ v_dims v)) as [Hin|]; [|by apply Hnot].
  rewrite Eq. rewrite <-(with_array_id v) at 2. f_equal.
  rewrite !records_index in Hr. rewrite Eq in Hr. cbn [with_array v_dims v_array] in Hr.
  destruct (index_of dim (v_dims v)) as [ax|] eqn:E; [|by apply index_of_None in E].
  injection Hr as Hr. apply index_of_lookup in E. destruct (Hs _ _ E) as (m & Hm & _).
  apply (rows_inj ax); [done|done| | |done].
  - unfold v_shape in *. rewrite Hlen. by apply lookup_lt_Some in Hm.
  - apply list_eq. intros k. destruct (decide (k = ax)) as [->|Hne].
    + assert (Hn : nth ax (a_shape (v_array v')) 0 = nth ax (a_shape (v_array v)) 0)
        by (rewrite <-!rows_length; by rewrite Hr).
      unfold v_shape in *. rewrite Hm. rewrite (nth_lookup_Some _ _ _ _ Hm) in Hn.
      destruct (lookup_lt_is_Some_2 (a_shape (v_array v')) ax) as [m' Hm']; [rewrite Hlen; by apply lookup_lt_Some in Hm|].
      rewrite (nth_lookup_Some _ _ _ _ Hm') in Hn. congruence.
    + apply Hk. intros Hk'. apply Hne. by apply (NoDup_lookup _ _ _ _ Hnd Hk' E).
Qed.

Lemma isel_compatible ds dim ps qs a b : proper ds -> no_repeat ds ->
  d_vars a = map (fun nv => (nv.1, var_take dim ps nv.2)) (d_vars ds) -> d_delayed a = d_delayed ds -> proper a ->
  d_vars b = map (fun nv => (nv.1, var_take dim qs nv.2)) (d_vars ds) -> d_delayed b = d_delayed ds -> proper b ->
  compatible dim a b.
Proof.
  intros Hp Hnr Ha Hda Hpa Hb Hdb Hpb. split; [congruence|]. intros name v Hv.
  apply dget_elem in Hv. rewrite Ha in Hv. apply elem_of_list_In, in_map_iff in Hv as ([n w] & [= <- <-] & Hin%elem_of_list_In).
  exists (var_take dim qs w). cbn [fst snd].
  assert (Hnd : NoDup (v_dims w)) by (apply Hnr, elem_dvals; by exists n).
  destruct (var_take_same dim ps w Hnd) as (_ & Hl1 & Hk1 & _).
  destruct (var_take_same dim qs w Hnd) as (_ & Hl2 & Hk2 & _).
  split_and!; [|done|done|congruence|].
  - apply elem_dget; [apply Hpb|]. rewrite Hb. apply elem_of_list_In, in_map_iff. exists (n, w). split; [done|by apply elem_of_list_In].
  - intros k Hk. rewrite Hk1, Hk2; done.
Qed.

Lemma records_in_isel ds dim n name v rs pss ds_l : dget (d_vars ds) name = Some v -> records v dim = Some rs ->
  proper ds -> dget (d_dims ds) dim = Some n -> Forall (Forall (fun j => j < n)) pss ->
  Forall2 (fun d ps => d_vars d = map (fun nv => (nv.1, var_take dim ps nv.2)) (d_vars ds)) ds_l pss ->
  forall rss, records_in dim name ds_l rss -> rss = map (fun ps => pick ps rs) pss.
Proof.
  intros Hv Hr Hp Hn Hb H. induction H as [|d ps ds_l pss Hd _ IH]; intros rss Hrss; inversion Hrss as [|? r ? rss' Hr' Hrest]; subst; [done|].
  inversion Hb; subst. cbn. f_equal; [|by apply IH].
  destruct Hr' as (w & Hw & Hrw). rewrite Hd in Hw.
  assert (Hmap : forall l, dget (map (fun nv : str * variable => (nv.1, var_take dim ps nv.2)) l) name = option_map (var_take dim ps) (dget l name)).
  { intros l. induction l as [|[k u] l IHl]; [done|]. cbn. by destruct (decide (name = k)). }
  rewrite Hmap, Hv in Hw. cbn in Hw. injection Hw as <-.
  destruct (proper_consistent _ Hp _ _ Hv) as (_ & _ & Hs).
  rewrite (var_take_records _ _ _ _ _ Hs Hn) in Hrw by done. rewrite Hr in Hrw. cbn in Hrw. congruence.
Qed.

Lemma Forall2_same_keys {A} (R : str -> A -> A -> Prop) (l l' : list (str * A)) :
  Forall2 (fun nv nv' => nv'.1 = nv.1 /\ R nv.1 nv.2 nv'.2) l l' ->
  (forall n v v', (n, v) ∈ l -> R n v v' -> v' = v) -> l' = l.
Proof.
  induction 1 as [|[n v] [n' v'] l l' [Hn HR] _ IH]; intros H; [done|]. cbn in *. subst n'.
  rewrite (H n v v') by (done || by left). f_equal. apply IH. intros m w w' Hin. apply H. by right.
Qed.

Lemma proper_dims_used ds dim : proper ds -> dim ∈ mjoin (map v_dims (dvals (d_vars ds))) ->
  exists n, dget (d_dims ds) dim = Some n.
Proof.
  intros Hp Hin. apply elem_of_list_join in Hin as (dims & Hd & Hin). apply elem_of_list_In, in_map_iff in Hin as (v & <- & Hv%elem_of_list_In).
  destruct (proper_sized _ _ Hp Hv) as (Hs & _ & _). apply elem_of_list_lookup_1 in Hd as [k Hk].
  destruct (Hs k dim Hk) as (n & _ & Hn). eauto.
Qed.

Lemma pick_take {A} (l : list A) n : n <= length l -> pick (seq 0 n) l = take n l.
Proof.
  intros H. rewrite <-(pick_seq (take n l)) at 1. rewrite take_length_le by done. unfold pick.
  assert (Hg : forall m k, k + m <= n -> omap (fun i => l !! i) (seq k m) = omap (fun i => take n l !! i) (seq k m)).
  { intros m. induction m as [|m IHm]; intros k Hk; [done|]. cbn. rewrite lookup_take by lia.
    destruct (l !! k); [f_equal|]; apply IHm; lia. }
  symmetry. rewrite (Hg n 0) by lia. done.
Qed.
Lemma pick_drop {A} (l : list A) n m : n + m = length l -> pick (seq n m) l = drop n l.
Proof.
  intros H. assert (E : pick (seq 0 (n + m)) l = l) by (rewrite H; apply pick_seq).
  rewrite seq_app, pick_app in E. cbn in E. rewrite pick_take in E by lia.
  rewrite <-(take_drop n l) in E at 3. by apply app_inv_head in E.
Qed.

Lemma delete_ok ds dim n ix ps : proper ds -> no_repeat ds ->
  dget (d_dims ds) dim = Some n -> positions n ix = Ok ps ->
  (forall v, v ∈ dvals (d_vars ds) -> dim ∈ v_dims v) ->
  exists ds', ds_delete ds ix dim = Ok ds' /\ proper ds' /\
    related (fun _ v v' => same_but_records dim v v' /\
      records v' dim = option_map (pick (List.filter (fun i => negb (memb i ps)) (seq 0 n))) (records v dim)) ds ds'.
Proof.
  intros Hp Hnr Hn Hps Hall. unfold ds_delete.
  set (qs := List.filter (fun i => negb (memb i ps)) (seq 0 n)). set (vs := dvals (d_vars ds)).
  assert (Hqs : Forall (fun j => j < n) qs).
  { apply Forall_forall. intros j Hj. apply elem_of_list_In, filter_In in Hj as [Hj _]. apply in_seq in Hj. lia. }
  rewrite (traverse_Ok _ (var_take dim qs)).
  2:{ intros v Hv. destruct (proper_sized _ _ Hp Hv) as (Hs & _ & Hw). unfold var_take.
      destruct (index_of dim (v_dims v)) as [ax|] eqn:E; [|apply index_of_None in E; by apply Hall in Hv].
      apply index_of_lookup in E. destruct (sized_at _ _ _ _ _ Hs E Hn) as [Hl Hnth]. unfold v_shape in *.
      unfold delete_axis. rewrite (proj2 (Nat.leb_gt _ _)) by done. rewrite Hnth, Hps. done. }
  cbn [rbind].
  destruct (new_dataset_total (fun d => dget (dset (d_dims ds) dim (length qs)) d) (d_delayed ds)
     (map (var_take dim qs) vs) (d_attrs ds) (d_block ds) (d_chunks ds) (Some (d_delayed ds)))
    as (ds' & E & E1 & E2 & E3 & E4 & E5 & E6 & E7).
  - rewrite map_names by done. subst vs. rewrite proper_names_eq by done. apply Hp.
  - apply Hp.
  - apply Hp.
  - intros v' Hv'. apply elem_of_list_In, in_map_iff in Hv' as (v & <- & Hv%elem_of_list_In).
    destruct (proper_sized _ _ Hp Hv) as (Hs & Hd & _). split; [done|].
    apply (var_take_shape _ _ _ _ _ Hs Hn (Hnr _ Hv)).
  - by left.
  - exists ds'. split; [exact E|].
    assert (Ev : d_vars ds' = map (fun nv => (nv.1, var_take dim qs nv.2)) (d_vars ds)).
    { rewrite E1. rewrite <-(proper_vars _ Hp). by rewrite !map_map. }
    split.
    { split.
      - rewrite Ev. unfold dkeys. rewrite map_map. apply Hp.
      - rewrite E3. apply Hp.
      - rewrite E4. apply Hp.
      - rewrite Ev. unfold dvals. rewrite map_map. intros v' Hv'.
        apply elem_of_list_In, in_map_iff in Hv' as (nv & <- & Hin%elem_of_list_In). cbn.
        apply var_take_wf. apply (proper_sized _ _ Hp). apply elem_dvals. exists nv.1. by destruct nv.
      - done. }
    split_and!; [|done..]. rewrite Ev.
    assert (Hin : forall nv, nv ∈ d_vars ds -> nv.2 ∈ vs).
    { intros [n' v] H. apply elem_dvals. by exists n'. }
    revert Hin. generalize (d_vars ds) as l. intros l. induction l as [|nv l IH]; intros Hin; [constructor|].
    cbn [map]. constructor; [|apply IH; intros nv' H; apply Hin; by right].
    split; [done|]. assert (Hv : nv.2 ∈ vs) by (apply Hin; by left).
    destruct (proper_sized _ _ Hp Hv) as (Hs & _ & _). split; [by apply var_take_same, Hnr|].
    by apply (var_take_records _ _ _ _ _ Hs Hn).
Qed.

(** ** Masked arrays *)
Lemma zip_with_map_mask (fill : val) data mask : length mask = length data ->
  map (fun v => py_eq v fill) (zip_with (fun (v : val) (b : bool) => if b then fill else v) data mask) =
  zip_with (fun (v : val) (b : bool) => py_eq (if b then fill else v) fill) data mask.
Proof. revert mask. induction data as [|v data IH]; intros [|b mask] H; cbn in *; try done. f_equal. apply IH. lia. Qed.
