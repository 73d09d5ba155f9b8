(** * C43, C61: compressed arrays *)
From Verif Require Import Py NdArray_Model NdArray_Spec NdArray_Proofs Dataset_Model Dataset_Proofs Dataset_Concat Update_Model UpdateOverlap_Proofs.
From Verif Require Import Compressed_Model Compressed_Spec.

(** ** Arrays item by item *)
Definition amap (f : val -> val) (a : arr) : arr := Arr (a_shape a) (map f (a_flat a)).
Lemma amap_wf f a : arr_wf a -> arr_wf (amap f a).
Proof. unfold arr_wf, amap. cbn. by rewrite map_length. Qed.
Lemma get_amap f a idx : arr_wf a -> valid (a_shape a) idx -> get (amap f a) idx = f (get a idx).
Proof.
  intros Hw Hv. unfold get, amap. cbn [a_shape a_flat]. apply indices_ravel in Hv as [_ Hl].
  rewrite (nth_indep _ NaN (f NaN)) by (rewrite map_length, Hw; done). apply map_nth.
Qed.
Lemma amap_tabulate f s g : amap f (tabulate s g) = tabulate s (fun i => f (g i)).
Proof. unfold amap, tabulate. cbn. by rewrite map_map. Qed.
Lemma valid_take ax ps a idx : ax < length (a_shape a) -> Forall (fun j => j < nth ax (a_shape a) 0) ps ->
  valid (<[ax := length ps]> (a_shape a)) idx -> valid (a_shape a) (<[ax := nth (nth ax idx 0) ps 0]> idx).
Proof.
  intros Hl Hps Hi. unfold valid in *.
  assert (Hlen : length idx = length (a_shape a)) by (apply Forall2_length in Hi; by rewrite insert_length in Hi).
  destruct (lookup_lt_is_Some_2 idx ax ltac:(lia)) as [i Ei].
  apply Forall2_same_length_lookup_2; [by rewrite insert_length|]. intros k j m Hk Hm.
  destruct (decide (k = ax)) as [->|N].
  - rewrite list_lookup_insert in Hk by lia. injection Hk as <-.
    destruct (Forall2_lookup_l _ _ _ _ _ Hi Ei) as (m' & Em & Him). rewrite list_lookup_insert in Em by done. injection Em as <-.
    rewrite (nth_lookup_Some _ _ _ _ Ei). destruct (lookup_lt_is_Some_2 ps i Him) as [p Ep]. rewrite (nth_lookup_Some _ _ _ _ Ep).
    pose proof (Forall_lookup_1 _ _ _ _ Hps Ep) as Hp. cbn in Hp. by rewrite (nth_lookup_Some _ _ _ _ Hm) in Hp.
  - rewrite list_lookup_insert_ne in Hk by done. destruct (Forall2_lookup_l _ _ _ _ _ Hi Hk) as (m' & Em & Hjm). rewrite list_lookup_insert_ne in Em by done. congruence.
Qed.
Lemma take_amap f ax ps a : arr_wf a -> ax < length (a_shape a) -> Forall (fun j => j < nth ax (a_shape a) 0) ps ->
  take_axis ax ps (amap f a) = amap f (take_axis ax ps a).
Proof.
  intros Hw Hl Hps. unfold take_axis at 2. rewrite amap_tabulate. unfold take_axis. apply tabulate_ext. intros idx Hv.
  apply get_amap; [done|]. by apply valid_take.
Qed.
Lemma index_amap f key : forall k a, arr_wf a -> index_axes k key (amap f a) = rmap (amap f) (index_axes k key a).
Proof.
  induction key as [|ix key IH]; intros k a Hw; [done|]. cbn [index_axes]. change (a_shape (amap f a)) with (a_shape a).
  destruct (Nat.leb_spec (length (a_shape a)) k) as [|Hl]; [done|]. destruct (positions _ ix) as [ps|] eqn:E; [|done]. cbn [rbind].
  rewrite take_amap by (done || by eapply positions_bound). apply IH, take_axis_wf.
Qed.
Lemma cat2_amap f ax a b : arr_wf a -> arr_wf b -> cat2 ax (amap f a) (amap f b) = rmap (amap f) (cat2 ax a b).
Proof.
  intros Ha Hb. unfold cat2. cbn [amap a_shape]. destruct (Nat.leb_spec (length (a_shape a)) ax) as [|Hl]; [done|].
  destruct (Nat.eqb_spec (length (a_shape a)) (length (a_shape b))) as [Hlen|]; [|done]. cbn [orb negb].
  destruct (bool_decide _) eqn:E; [|done]. cbn [negb rmap rbind]. apply bool_decide_eq_true in E. f_equal. rewrite amap_tabulate.
  apply tabulate_ext. intros idx Hv. unfold valid in Hv.
  assert (Hi : length idx = length (a_shape a)) by (apply Forall2_length in Hv; by rewrite insert_length in Hv).
  destruct (lookup_lt_is_Some_2 idx ax ltac:(lia)) as [i Ei]. rewrite (nth_lookup_Some _ _ _ _ Ei).
  assert (Hother : forall k j m, k <> ax -> idx !! k = Some j -> a_shape a !! k = Some m -> j < m).
  { intros k j m N Hj Hm. destruct (Forall2_lookup_l _ _ _ _ _ Hv Hj) as (m' & Em & ?). rewrite list_lookup_insert_ne in Em by done. congruence. }
  assert (Hmine : i < nth ax (a_shape a) 0 + nth ax (a_shape b) 0).
  { destruct (Forall2_lookup_l _ _ _ _ _ Hv Ei) as (m' & Em & ?). rewrite list_lookup_insert in Em by done. congruence. }
  destruct (Nat.ltb_spec i (nth ax (a_shape a) 0)) as [H|H].
  - apply (get_amap f a); [done|]. apply Forall2_same_length_lookup_2; [done|]. intros k j m Hk Hm. destruct (decide (k = ax)) as [->|N]; [|by eapply Hother].
    rewrite (nth_lookup_Some _ _ _ _ Hm) in H. congruence.
  - apply (get_amap f b); [done|]. apply Forall2_same_length_lookup_2; [rewrite insert_length; congruence|]. intros k j m Hk Hm. destruct (decide (k = ax)) as [->|N].
    + rewrite list_lookup_insert in Hk by lia. injection Hk as <-. rewrite (nth_lookup_Some _ _ _ _ Hm) in Hmine. lia.
    + rewrite list_lookup_insert_ne in Hk by done. eapply Hother; [done..|]. rewrite <-(list_lookup_insert_ne _ ax k 0), E, list_lookup_insert_ne by done. done.
Qed.

(** ** C43 *)
(** An array given without a fill value is read back as it is, and with a fill
    value it is masked exactly where it is equal to it. *)
Theorem C43_read d fill extra chunks : exists c, compress (GNumpy d) extra fill chunks = Ok c /\ za_chunks (ca_array c) = chunks /\
  items (to_array c) = items d /\ (is_masked (to_array c) <-> is_Some fill) /\
  forall i x, a_flat (items d) !! i = Some x ->
    (a_flat (hidden (to_array c)) !! i = Some (Num 1) /\ exists f, fill = Some f /\ py_eq x f = true) \/
    (a_flat (hidden (to_array c)) !! i = Some (Num 0) /\ forall f, fill = Some f -> py_eq x f = false).
Proof.
  eexists. split; [done|]. split; [done|]. unfold to_array, with_mask. cbn [ca_fill ca_array zarr_array za_data]. split; [by destruct fill, d|]. split.
  - destruct fill; split; [by eexists|by eexists|by intros [? ?]|by intros [? ?]].
  - intros i x Hx. replace (match d with Plain a => a | Masked m => m_data m end) with (items d) by by destruct d. destruct fill as [f|]; cbn [hidden].
    + cbn [masked_equal m_data m_mask a_flat]. rewrite map_map. change (map ?f ?l) with (f <$> l). rewrite list_lookup_fmap, Hx. cbn.
      destruct (py_eq x f) eqn:E; [left|right]; (split; [done|]); [by exists f|]. by intros f' [= <-].
    + right. cbn [a_flat]. change (map ?f ?l) with (f <$> l). rewrite list_lookup_fmap, Hx. done.
Qed.
Print Assumptions C43_read.

(** A masked array is read back with its mask when what is below the mask is the
    fill value given, which is found nowhere else. *)
Theorem C43_masked m z extra chunks : marr_wf m ->
  (forall i x b, a_flat (m_data m) !! i = Some x -> m_mask m !! i = Some b -> b = true <-> x = Num z) ->
  exists c, compress (GNumpy (Masked m)) extra (Some (Num z)) chunks = Ok c /\ to_array c = Masked (MArr (m_data m) (m_mask m) (Num z)).
Proof.
  intros [_ Hl] Hm. eexists. split; [done|]. unfold to_array, with_mask, masked_equal. cbn [ca_fill ca_array zarr_array za_data]. do 2 f_equal.
  apply list_eq. intros i. change (map ?f ?l) with (f <$> l). rewrite list_lookup_fmap. destruct (a_flat (m_data m) !! i) as [x|] eqn:Ex.
  - destruct (lookup_lt_is_Some_2 (m_mask m) i) as [b Eb]; [rewrite Hl; by eapply lookup_lt_Some|]. rewrite Eb. cbn. f_equal.
    specialize (Hm i x b Ex Eb). destruct x as [y|]; cbn.
    + destruct (Z.eqb_spec y z) as [->|N]; destruct b; [done|by destruct Hm as [_ ->]|destruct Hm as [H _]; specialize (H eq_refl); congruence|done].
    + destruct b; [|done]. destruct Hm as [H _]. by specialize (H eq_refl).
  - cbn. symmetry. apply lookup_ge_None. rewrite Hl. by apply lookup_ge_None.
Qed.
Print Assumptions C43_masked.

(** Indexing gives what indexing the whole array gives, masked alike. *)
Theorem C43_slice c key : arr_wf (za_data (ca_array c)) -> getitem c key = vd_index key (to_array c).
Proof.
  intros Hw. unfold getitem, to_array. destruct (ca_fill c) as [f|]; cbn [with_mask vd_index masked_equal m_data m_fill]; [|done].
  set (a := za_data (ca_array c)) in *. set (g := fun v => Num (if py_eq v f then 1 else 0)).
  assert (E : mask_arr (masked_equal a f) = amap g a) by (unfold mask_arr, amap; cbn; by rewrite map_map).
  change (mask_arr _) with (mask_arr (masked_equal a f)). rewrite E, index_amap by done.
  destruct (index_axes 0 key a) as [b|e]; [|done]. cbn. do 3 f_equal. unfold masked_equal. f_equal. rewrite map_map. apply map_ext. intros v. unfold g. by destruct (py_eq v f).
Qed.
Print Assumptions C43_slice.

(** A compressed array made from another one has the same values; a zarr array is
    taken as it is, and refused with other arguments; anything else is refused. *)
Theorem C43_made c z extra fill chunks :
  (exists c', compress (GCompressed c) extra fill chunks = Ok c' /\ to_array c' = to_array c /\ za_chunks (ca_array c') = za_chunks (ca_array c)) /\
  (exists c', compress (GZarr z) false None chunks = Ok c' /\ to_array c' = Plain (za_data z) /\ za_chunks (ca_array c') = za_chunks z) /\
  compress (GZarr z) true fill chunks = Raise ValueError /\ compress GOther extra fill chunks = Raise TypeError.
Proof. split; [by eexists|]. split; [by eexists|]. done. Qed.
Print Assumptions C43_made.

(** Without a fill value, changing the chunks changes nothing else. *)
Theorem C43_rechunk c chunks : ca_fill c = None ->
  exists c', rechunk c chunks = Ok c' /\ to_array c' = to_array c /\ za_chunks (ca_array c') = chunks.
Proof. intros E. eexists. split; [done|]. unfold to_array. cbn. by rewrite E. Qed.
Print Assumptions C43_rechunk.

(** numpy functions get the values of the arrays; so do the numpy operators when
    the compressed arrays have the same fill value. *)
Theorem C43_operands self args :
  Forall2 (fun o o' => match o with OCompressed c => o' = OArray (to_array c) | _ => o' = o end) args (function_inputs args) /\
  ((forall c, OCompressed c ∈ args -> ca_fill c = ca_fill self) -> OOther ∉ args ->
   exists l, ufunc_inputs self args = Ok l /\ Forall2 (fun o x => match o with
     | OCompressed c => x = inl (to_array c) | OArray d => x = inl d | OScalar v => x = inr v | OOther => False end) args l) /\
  (OOther ∈ args -> ufunc_inputs self args = Raise TypeError).
Proof.
  split; [unfold function_inputs; induction args as [|[]]; cbn; by constructor|]. unfold ufunc_inputs. split.
  - induction args as [|o args IH]; intros Hf Ho; [exists []; done|].
    destruct IH as (l & El & Hl). { intros c Hc. apply Hf. by right. } { intros H. apply Ho. by right. }
    assert (exists x, cast self o = Ok x /\ match o with OCompressed c => x = inl (to_array c) | OArray d => x = inl d | OScalar v => x = inr v | OOther => False end) as (x & Ex & Hx).
    { destruct o as [c|d|v|]; cbn [cast]; [|by eexists|by eexists|].
      - eexists. split; [done|]. unfold to_array. rewrite (Hf c) by left. done.
      - exfalso. apply Ho. left. }
    exists (x :: l). split; [|by constructor]. cbn [traverse]. rewrite Ex. cbn [rbind]. by rewrite El.
  - induction args as [|o args IH]; intros Ho; [by apply elem_of_nil in Ho|]. cbn [traverse]. destruct o as [c|d|v|]; cbn [cast rbind]; [..|done].
    all: apply elem_of_cons in Ho as [?|Ho]; [done|]; by rewrite (IH Ho).
Qed.
Print Assumptions C43_operands.

Lemma hidden_to_array c : hidden (to_array c) = amap (fun v => Num (match ca_fill c with Some f => if py_eq v f then 1 else 0 | None => 0 end)) (za_data (ca_array c)).
Proof. unfold to_array, amap. destruct (ca_fill c) as [f|]; cbn; [by rewrite map_map|done]. Qed.
Lemma hidden_wf c : arr_wf (za_data (ca_array c)) -> arr_wf (hidden (to_array c)).
Proof. intros H. rewrite hidden_to_array. by apply amap_wf. Qed.
Lemma cat_bits ax l : forall a c, arr_wf a -> ax < length (a_shape a) -> (forall b, b ∈ l -> shape_but ax (a_shape a) (a_shape b)) ->
  (forall b, b ∈ a :: l -> arr_wf b /\ amap (fun v => Num (if bool_decide (v = Num 1) then 1 else 0)) b = b) ->
  cat ax a l = Ok c -> amap (fun v => Num (if bool_decide (v = Num 1) then 1 else 0)) c = c.
Proof.
  set (f := fun v => _). induction l as [|b l IH]; intros a c Hw Hl Hb Hbits E.
  - injection E as <-. apply Hbits. left.
  - unfold cat in E. cbn [foldM] in E. destruct (cat2 ax a b) as [a'|] eqn:E2; [|done]. cbn [rbind] in E.
    destruct (cat2_ok _ _ _ _ E2) as (_ & Hlen & _ & Hs & Hw' & _). apply IH in E; [done|done|rewrite Hs, insert_length; done|..].
    + intros b' Hb'. destruct (Hb b' ltac:(by right)) as [A B]. rewrite Hs. split; [by rewrite insert_length|]. intros k N. rewrite list_lookup_insert_ne by done. by apply B.
    + intros b' [->|Hb']%elem_of_cons; [|apply Hbits; by do 2 right]. split; [done|].
      destruct (Hbits a ltac:(left)) as [_ Ha]. destruct (Hbits b ltac:(right; left)) as [Hwb Hb2].
      pose proof (cat2_amap f ax a b Hw Hwb) as H. rewrite Ha, Hb2, E2 in H. cbn in H. congruence.
Qed.

Lemma mjoin_concat {A} (l : list (list A)) : mjoin l = concat l.
Proof. induction l as [|x l IH]; [done|]. cbn. by rewrite <-IH. Qed.

(** Compressed arrays that agree beside the axis are joined with their masks. *)
Theorem C43_concatenate ax c cs :
  (forall x, x ∈ c :: cs -> arr_wf (za_data (ca_array x)) /\ length (a_shape (za_data (ca_array x))) = length (a_shape (za_data (ca_array c))) /\
     forall k, k <> ax -> a_shape (za_data (ca_array x)) !! k = a_shape (za_data (ca_array c)) !! k) -> ax < length (a_shape (za_data (ca_array c))) ->
  exists d, concatenate ax c cs = Ok d /\ joined ax (map to_array (c :: cs)) d /\
    (is_masked d <-> exists x, x ∈ c :: cs /\ ca_fill x <> None).
Proof.
  intros Hc Hax.
  assert (Hd : forall x, data_of (to_array x) = za_data (ca_array x)) by (intros x; unfold to_array; by destruct (ca_fill x)).
  assert (Hi : forall x, items (to_array x) = za_data (ca_array x)) by (intros x; unfold to_array; by destruct (ca_fill x)).
  assert (Hm : forall x, mask_of (to_array x) = hidden (to_array x)) by (intros x; unfold to_array; by destruct (ca_fill x)).
  unfold concatenate. rewrite Hd, (map_ext _ _ Hd), Hm, (map_ext _ _ Hm).
  destruct (cat_spec ax (map (fun c => za_data (ca_array c)) cs) (za_data (ca_array c))) as (a & Ea & Hwa & Hsa & Hna & Hra).
  { apply Hc. left. } { done. } { intros b (x & -> & Hx)%elem_of_list_fmap. destruct (Hc x) as (_ & A & B); [by right|]. by split. }
  destruct (cat_spec ax (map (fun c => hidden (to_array c)) cs) (hidden (to_array c))) as (b & Eb & Hwb & Hsb & Hnb & Hrb).
  { apply hidden_wf, Hc. left. } { by rewrite hidden_to_array. }
  { intros b (x & -> & Hx)%elem_of_list_fmap. destruct (Hc x) as (_ & A & B); [by right|]. rewrite !hidden_to_array. by split. }
  rewrite Ea. cbn [rbind].
  assert (Hbits : amap (fun v => Num (if bool_decide (v = Num 1) then 1 else 0)) b = b).
  { eapply cat_bits; [..|exact Eb].
    - apply hidden_wf, Hc. left.
    - by rewrite hidden_to_array.
    - intros b' (x & -> & Hx)%elem_of_list_fmap. destruct (Hc x) as (_ & A & B); [by right|]. rewrite !hidden_to_array. by split.
    - intros b' Hb'. change (b' ∈ map (fun c => hidden (to_array c)) (c :: cs)) in Hb'. apply elem_of_list_fmap in Hb' as (x & -> & Hx). split; [by apply hidden_wf, Hc|].
      rewrite hidden_to_array. unfold amap. cbn. rewrite map_map. f_equal. apply map_ext. intros v. destruct (ca_fill x) as [f|]; [by destruct (py_eq v f)|done]. }
  assert (Hshape : a_shape a = a_shape b).
  { destruct Hsa as [La Ka], Hsb as [Lb Kb]. rewrite hidden_to_array in Lb, Kb. cbn [amap a_shape] in Lb, Kb. apply list_eq. intros k. destruct (decide (k = ax)) as [->|N]; [|by rewrite Ka, Kb].
    destruct (lookup_lt_is_Some_2 (a_shape a) ax ltac:(lia)) as [n En]. destruct (lookup_lt_is_Some_2 (a_shape b) ax ltac:(lia)) as [n' En'].
    rewrite (nth_lookup_Some _ _ _ _ En) in Hna. rewrite (nth_lookup_Some _ _ _ _ En') in Hnb. rewrite En, En', Hna, Hnb. f_equal.
    rewrite hidden_to_array, !map_map. f_equal. f_equal. apply map_ext. intros x. by rewrite hidden_to_array. }
  assert (Hjoin : forall f, rows ax a = rows ax (za_data (ca_array c)) ++ mjoin (map (rows ax) (map (fun c => za_data (ca_array c)) cs)) ->
     rows ax (items f) = rows ax a -> rows ax (hidden f) = rows ax b -> joined ax (map to_array (c :: cs)) f).
  { intros f _ H1 H2. split; rewrite map_map; cbn [map concat].
    - rewrite H1, Hra, Hi. f_equal. rewrite map_map. erewrite (map_ext (fun x => rows ax (items (to_array x)))); [|intros x; by rewrite Hi]. apply mjoin_concat.
    - rewrite H2, Hrb. f_equal. rewrite map_map. apply mjoin_concat. }
  destruct (existsb _ _) eqn:Ex.
  - rewrite Eb. cbn [rbind]. eexists. split; [done|]. split.
    + apply Hjoin; [done|done|]. f_equal. cbn [hidden m_data m_mask]. rewrite map_map, Hshape. rewrite <-Hbits at 3. done.
    + split; [|by eexists]. intros _. apply existsb_exists in Ex as (x & Hx & Hfx). exists x. split; [by apply elem_of_list_In|]. by destruct (ca_fill x).
  - eexists. split; [done|].
    assert (Hno : forall x, x ∈ c :: cs -> ca_fill x = None).
    { intros x Hx. destruct (ca_fill x) eqn:Ef; [|done]. exfalso. apply not_true_iff_false in Ex. apply Ex, existsb_exists. exists x. split; [by apply elem_of_list_In|]. by rewrite Ef. }
    split.
    + apply Hjoin; [done|done|]. f_equal. cbn [hidden]. rewrite Hshape.
      assert (Hz : forall l a0 b0 a1 b1, arr_wf a0 -> (forall x, x ∈ l -> arr_wf x) -> amap (fun _ => Num 0) a0 = b0 ->
         cat ax a0 l = Ok a1 -> cat ax b0 (map (amap (fun _ => Num 0)) l) = Ok b1 -> amap (fun _ => Num 0) a1 = b1).
      { clear. intros l. induction l as [|x l IH]; intros a0 b0 a1 b1 Hw Hl <- E1 E2; [cbn in *; congruence|]. unfold cat in *. cbn [map foldM] in *.
        rewrite cat2_amap in E2; [|done|apply Hl; left]. destruct (cat2 ax a0 x) as [a2|] eqn:E; [|done]. cbn [rmap rbind] in *.
        apply (IH a2 (amap (fun _ => Num 0) a2)); [|..|done|exact E1|exact E2]; [by apply cat2_ok in E as (_ & _ & _ & _ & ? & _)|intros y Hy; apply Hl; by right]. }
      rewrite <-Hshape. change (amap (fun _ => Num 0) a = b). eapply (Hz (map (fun c => za_data (ca_array c)) cs) (za_data (ca_array c)) (hidden (to_array c))).
      * apply Hc. left.
      * intros x (y & -> & Hy)%elem_of_list_fmap. apply Hc. by right.
      * rewrite hidden_to_array, (Hno c) by left. done.
      * exact Ea.
      * rewrite map_map. rewrite <-Eb. f_equal. apply map_ext_in. intros x Hx%elem_of_list_In. rewrite hidden_to_array, (Hno x) by by right. done.
    + split; [by intros [? ?]|]. intros (x & Hx & Hfx). by rewrite (Hno x) in Hfx.
Qed.
Print Assumptions C43_concatenate.

(** A 2 x 2 array with fill value 9: one item masked, also after slicing and joining. *)
Example C43_case : let a := Arr [2; 2] [Num 1; Num 9; Num 3; Num 4] in
  exists c, compress (GNumpy (Masked (MArr a [false; true; false; false] (Num 9)))) true (Some (Num 9)) [2; 2] = Ok c /\
    arr_wf (za_data (ca_array c)) /\ to_array c = Masked (MArr a [false; true; false; false] (Num 9)) /\
    getitem c [ISlice None None; ISlice (Some 1%Z) None] = Ok (Masked (MArr (Arr [2; 1] [Num 9; Num 4]) [true; false] (Num 9))) /\
    concatenate 0 c [c] = Ok (Masked (MArr (Arr [4; 2] [Num 1; Num 9; Num 3; Num 4; Num 1; Num 9; Num 3; Num 4])
       [false; true; false; false; false; true; false; false] NaN)).
Proof. eexists. split; [reflexivity|]. split; [done|]. vm_compute. done. Qed.

(** ** C61: what is not kept *)
(** Changing the chunks of an array with a fill value drops its mask. *)
Theorem C61_rechunk_refuted : exists c c' chunks, rechunk c chunks = Ok c' /\ is_masked (to_array c) /\ ~ is_masked (to_array c').
Proof.
  exists (Compressed (ZArr (Arr [2] [Num 1; Num 9]) [2]) (Some (Num 9))). eexists. exists [1]. split; [reflexivity|]. split; [by eexists|]. by intros [? ?].
Qed.
Print Assumptions C61_rechunk_refuted.

(** The mask of the array given is not used: what is below it comes back. *)
Theorem C61_mask_refuted : exists m fill c, marr_wf m /\ compress (GNumpy (Masked m)) true (Some fill) [] = Ok c /\ m_fill m = fill /\
  hidden (to_array c) <> hidden (Masked m).
Proof.
  exists (MArr (Arr [2] [Num 1; Num 2]) [false; true] (Num 9)), (Num 9). eexists. split; [done|]. split; [reflexivity|]. split; [done|]. vm_compute. done.
Qed.
Print Assumptions C61_mask_refuted.

(** In an operation of two compressed arrays the fill value of the first is used
    for both: an item of the second that is valid becomes masked. *)
Theorem C61_operands_refuted : exists c c' x y, ufunc_inputs c [OCompressed c; OCompressed c'] = Ok [inl x; inl y] /\
  x = to_array c /\ hidden y <> hidden (to_array c').
Proof.
  exists (Compressed (ZArr (Arr [1] [Num 1]) [1]) (Some (Num 9))), (Compressed (ZArr (Arr [1] [Num 9]) [1]) None). do 2 eexists.
  split; [reflexivity|]. split; [done|]. vm_compute. done.
Qed.
Print Assumptions C61_operands_refuted.
