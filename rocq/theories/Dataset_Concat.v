(** * Concatenation, deletion and the algebra of records *)
From Verif Require Import Py Dict NdArray_Model NdArray_Spec NdArray_Proofs.
From Verif Require Import Dataset_Model Dataset_Spec Dataset_Proofs.

Definition shape_but (ax : nat) (s s' : list nat) : Prop :=
  length s' = length s /\ forall k, k <> ax -> s' !! k = s !! k.

Lemma delete_ext (ax : nat) (l l' : list nat) : shape_but ax l l' -> delete ax l' = delete ax l.
Proof.
  intros [Hl Hk]. rewrite !delete_take_drop. f_equal.
  - apply list_eq. intros k. destruct (decide (k < ax)).
    + rewrite !lookup_take by done. apply Hk. lia.
    + rewrite !lookup_take_ge by lia. done.
  - apply list_eq. intros k. rewrite !lookup_drop. apply Hk. lia.
Qed.

Lemma cat_spec ax bs : forall a, arr_wf a -> ax < length (a_shape a) ->
  (forall b, b ∈ bs -> shape_but ax (a_shape a) (a_shape b)) ->
  exists c, cat ax a bs = Ok c /\ arr_wf c /\ shape_but ax (a_shape a) (a_shape c) /\
    nth ax (a_shape c) 0 = nth ax (a_shape a) 0 + sum_list (map (fun b => nth ax (a_shape b) 0) bs) /\
    rows ax c = rows ax a ++ mjoin (map (rows ax) bs).
Proof.
  induction bs as [|b bs IH]; intros a Hw Hl Hb.
  - exists a. split_and!; [done|done|split; done|cbn; lia|by rewrite app_nil_r].
  - destruct (Hb b ltac:(by left)) as [Hlen Hk].
    destruct (cat2_total ax a b Hl ltac:(done)) as [c1 E1].
    { symmetry. by apply delete_ext. }
    destruct (cat2_ok _ _ _ _ E1) as (_ & _ & _ & Hs1 & Hw1 & Hr1).
    assert (Hsb : shape_but ax (a_shape a) (a_shape c1)).
    { rewrite Hs1. split; [by rewrite insert_length|]. intros k Hne. by apply list_lookup_insert_ne. }
    destruct (IH c1) as (c & E & Hw2 & Hs2 & Hn2 & Hr2).
    + done.
    + destruct Hsb as [-> _]. done.
    + intros b' Hb'. destruct (Hb b' ltac:(by right)) as [Hlen' Hk']. destruct Hsb as [Hlen1 Hk1].
      split; [congruence|]. intros k Hne. by rewrite Hk', Hk1.
    + exists c. split_and!.
      * unfold cat. cbn [foldM]. rewrite E1. cbn [rbind]. done.
      * done.
      * destruct Hsb, Hs2. split; [congruence|]. intros k Hne. rewrite <-H0 by done. by apply H2.
      * rewrite Hn2, Hs1. rewrite nth_insert by done. cbn. lia.
      * rewrite Hr2, Hr1. cbn [map mjoin]. by rewrite <-app_assoc.
Qed.

Lemma size_rows ax a : length (rows ax a) = nth ax (a_shape a) 0.
Proof. apply rows_length. Qed.

(** One variable *)
Lemma var_concat_spec v os dim : os <> [] -> arr_wf (v_array v) -> NoDup (v_dims v) ->
  length (v_dims v) <= length (v_shape v) ->
  (forall o, o ∈ os -> v_delayed o = v_delayed v /\ v_dims o = v_dims v /\ length (v_shape o) = length (v_shape v) /\
     forall k, v_dims v !! k <> Some dim -> v_shape o !! k = v_shape v !! k) ->
  exists v', var_concat v os dim = Ok v' /\ same_but_records dim v v' /\ arr_wf (v_array v') /\
    (forall rs, records v dim = Some rs ->
       exists rss, Forall2 (fun o r => records o dim = Some r) os rss /\ records v' dim = Some (rs ++ mjoin rss)) /\
    (forall ax, v_dims v !! ax = Some dim ->
       v_shape v' !! ax = Some (nth ax (v_shape v) 0 + sum_list (map (fun o => nth ax (v_shape o) 0) os))).
Proof.
  intros Hne Hw Hnd Hrank Ho. unfold var_concat.
  destruct (Nat.eqb_spec (length os) 0) as [H0|_]; [destruct os; done|].
  assert (Hf : forallb (fun o => Bool.eqb (v_delayed o) (v_delayed v)) os = true).
  { apply forallb_forall. intros o Hin%elem_of_list_In. destruct (Ho o Hin) as [-> _]. apply eqb_reflx. }
  rewrite Hf. cbn [negb].
  destruct (index_of dim (v_dims v)) as [ax|] eqn:E.
  - apply index_of_lookup in E as Hax.
    assert (Hl : ax < length (v_shape v)) by (apply lookup_lt_Some in Hax; lia).
    destruct (cat_spec ax (map v_array os) (v_array v) Hw Hl) as (c & Ec & Hwc & Hsc & Hnc & Hrc).
    { intros b Hb. apply elem_of_list_In, in_map_iff in Hb as (o & <- & Hin%elem_of_list_In).
      destruct (Ho o Hin) as (_ & _ & Hlen & Hk). split; [done|]. intros k Hne'. apply Hk.
      intros Hk'. apply Hne'. by apply (NoDup_lookup _ _ _ _ Hnd Hk' Hax). }
    rewrite Ec. exists (with_array v c). split_and!.
    + done.
    + split_and!; [done|apply Hsc| |].
      * intros k Hk. apply Hsc. congruence.
      * intros Hn. by apply elem_of_list_lookup_2 in Hax.
    + done.
    + intros rs Hrs. rewrite records_index, E in Hrs. injection Hrs as <-.
      exists (map (fun o => rows ax (v_array o)) os). split.
      * clear -Ho E. induction os as [|o os IH]; constructor.
        -- rewrite records_index. destruct (Ho o ltac:(by left)) as (_ & -> & _). by rewrite E.
        -- apply IH. intros o' Ho'. apply Ho. by right.
      * rewrite records_index. cbn [with_array v_dims v_array]. rewrite E, Hrc. by rewrite map_map.
    + intros ax' Hax'. assert (ax' = ax) as -> by (apply (NoDup_lookup _ _ _ _ Hnd Hax' Hax)).
      unfold v_shape in *. cbn [with_array v_array]. destruct Hsc as [Hlc _].
      destruct (lookup_lt_is_Some_2 (a_shape c) ax) as [m Hm]; [lia|].
      rewrite Hm. f_equal. rewrite (nth_lookup_Some _ _ _ _ Hm) in Hnc. rewrite Hnc, map_map. done.
  - apply index_of_None in E as Hn. exists v. rewrite with_array_id. split_and!; try done.
    + split_and!; try done. by rewrite with_array_id.
    + intros rs Hrs. by rewrite records_index, E in Hrs.
    + intros ax Hax. by apply elem_of_list_lookup_2 in Hax.
Qed.

(** ** Datasets *)
Definition size_of (ds : dataset) (dim : str) : nat := default 0 (dget (d_dims ds) dim).

Lemma traverse_exists {A B} (f : A -> res B) (P : A -> B -> Prop) l :
  (forall x, x ∈ l -> exists y, f x = Ok y /\ P x y) -> exists ys, traverse f l = Ok ys /\ Forall2 P l ys.
Proof.
  induction l as [|x l IH]; intros H; cbn; [exists []; split; [done|constructor]|].
  destruct (H x ltac:(by left)) as (y & -> & Hy). cbn [rbind].
  destruct IH as (ys & -> & Hys); [intros z Hz; apply H; by right|].
  exists (y :: ys). split; [done|by constructor].
Qed.

Lemma concat_spec ds others dim : others <> [] -> proper ds -> no_repeat ds ->
  (forall o, o ∈ others -> proper o /\ compatible dim ds o) ->
  exists ds', ds_concat ds others dim = Ok ds' /\ proper ds' /\ no_repeat ds' /\
    related (fun name v v' => same_but_records dim v v' /\
      forall rs, records v dim = Some rs ->
        exists rss, records_in dim name others rss /\ records v' dim = Some (rs ++ mjoin rss)) ds ds' /\
    (dim ∈ mjoin (map v_dims (dvals (d_vars ds))) ->
      dget (d_dims ds') dim = Some (size_of ds dim + sum_list (map (fun o => size_of o dim) others))) /\
    (forall d m, d <> dim -> dget (d_dims ds') d = Some m -> dget (d_dims ds) d = Some m).
Proof.
  intros Hne Hp Hnr Ho. unfold ds_concat.
  destruct (Nat.eqb_spec (length others) 0) as [H0|_]; [destruct others; done|].
  assert (Hf : forallb (fun o => Bool.eqb (d_delayed o) (d_delayed ds)) others = true).
  { apply forallb_forall. intros o Hin%elem_of_list_In. destruct (Ho o Hin) as [_ [-> _]]. apply eqb_reflx. }
  rewrite Hf. cbn [negb].
  set (tot := size_of ds dim + sum_list (map (fun o => size_of o dim) others)).
  set (P := fun (nv : str * variable) (v' : variable) =>
    same_but_records dim nv.2 v' /\ arr_wf (v_array v') /\
    (forall rs, records nv.2 dim = Some rs ->
        exists rss, records_in dim nv.1 others rss /\ records v' dim = Some (rs ++ mjoin rss)) /\
    (forall ax, v_dims nv.2 !! ax = Some dim -> v_shape v' !! ax = Some tot)).
  destruct (traverse_exists (fun nv : str * variable =>
      do os <- traverse (fun o => match dget (d_vars o) nv.1 with Some v => Ok v | None => Raise KeyError end) others;
      var_concat nv.2 os dim) P (d_vars ds)) as (vs & Evs & Hvs).
  { intros [n v] Hin. cbn [fst snd].
    assert (Hget := proper_get _ _ Hp Hin). cbn in Hget.
    assert (Hv : v ∈ dvals (d_vars ds)) by (apply elem_dvals; by exists n).
    destruct (proper_sized _ _ Hp Hv) as (Hs & Hd & Hw).
    destruct (traverse_exists (fun o => match dget (d_vars o) n with Some v => Ok v | None => Raise KeyError end)
      (fun o vo => dget (d_vars o) n = Some vo) others) as (os & Eos & Hos).
    { intros o Hino. destruct (Ho o Hino) as [_ [_ Hc]]. destruct (Hc n v Hget) as (vo & Hvo & _).
      exists vo. by rewrite Hvo. }
    rewrite Eos. cbn [rbind].
    assert (Hos' : forall vo, vo ∈ os -> exists o, o ∈ others /\ dget (d_vars o) n = Some vo).
    { intros vo Hvo. apply elem_of_list_lookup_1 in Hvo as [i Hi].
      destruct (Forall2_lookup_r _ _ _ _ _ Hos Hi) as (o & Hoi & Hg). exists o. split; [by apply elem_of_list_lookup_2 in Hoi|done]. }
    destruct (var_concat_spec v os dim) as (v' & E & H1 & H2 & H3 & H4).
    - intros ->. inversion Hos. by subst.
    - done.
    - by apply Hnr.
    - by apply sized_rank in Hs.
    - intros vo Hvo. destruct (Hos' vo Hvo) as (o & Hino & Hg).
      destruct (Ho o Hino) as [_ [_ Hc]]. destruct (Hc n v Hget) as (vo' & Hvo' & ? & ? & ? & ?).
      assert (vo' = vo) as -> by congruence. done.
    - exists v'. split; [done|]. unfold P. cbn [fst snd]. split_and!; [done|done| |].
      + intros rs Hrs. destruct (H3 rs Hrs) as (rss & Hf2 & Hr). exists rss. split; [|done].
        clear -Hos Hf2. revert rss Hf2. induction Hos as [|o vo others os Hg _ IH]; intros rss Hf2;
          inversion Hf2; subst; constructor; [eauto|by apply IH].
      + intros ax Hax. rewrite (H4 ax Hax). f_equal. unfold tot.
        destruct (Hs _ _ Hax) as (m & Hm & Hdm). unfold size_of at 1. rewrite Hdm. cbn [from_option id].
        rewrite (nth_lookup_Some _ _ _ _ Hm). cbn. f_equal.
        assert (Hmap : map (fun o => nth ax (v_shape o) 0) os = map (fun o => size_of o dim) others).
        { clear -Hos Ho Hax Hget. induction Hos as [|o vo others os Hg _ IH]; [done|]. cbn. f_equal.
          - destruct (Ho o ltac:(by left)) as [Hpo [_ Hc]].
            destruct (Hc n v Hget) as (vo' & Hvo' & _ & Hdims & _). assert (vo' = vo) as -> by congruence.
            destruct (proper_consistent _ Hpo _ _ Hg) as (_ & _ & Hso).
            rewrite <-Hdims in Hax. destruct (Hso _ _ Hax) as (m & Hm & Hdm).
            unfold size_of. rewrite Hdm. by rewrite (nth_lookup_Some _ _ _ _ Hm).
          - apply IH. intros o' Ho'. apply Ho. by right. }
        by rewrite Hmap. }
  rewrite Evs. cbn [rbind].
  assert (Hnames : map v_name vs = dkeys (d_vars ds)).
  { rewrite <-(proper_names_eq _ Hp). unfold dvals. rewrite map_map.
    clear -Hvs. induction Hvs as [|nv v' l vs [Hsb _] _ IH]; [done|]. cbn. rewrite IH. f_equal.
    destruct Hsb as (-> & _). done. }
  destruct (new_dataset_total (fun d => if decide (d = dim) then Some tot else dget (d_dims ds) d) (d_delayed ds) vs
     (d_attrs ds) (d_block ds) (d_chunks ds) (Some (d_delayed ds))) as (ds' & E & E1 & E2 & E3 & E4 & E5 & E6 & E7).
  - rewrite Hnames. apply Hp.
  - apply Hp.
  - apply Hp.
  - intros v' Hv'. apply elem_of_list_lookup_1 in Hv' as [i Hi].
    destruct (Forall2_lookup_r _ _ _ _ _ Hvs Hi) as ([n v] & Hnv & Hsb & _ & _ & Htot). cbn [fst snd] in *.
    apply elem_of_list_lookup_2 in Hnv.
    assert (Hv : v ∈ dvals (d_vars ds)) by (apply elem_dvals; by exists n).
    destruct (proper_sized _ _ Hp Hv) as (Hs & Hd & Hw).
    destruct Hsb as (Eq & Hlen & Hk & _). split; [by rewrite Eq|].
    intros k d Hkd. rewrite Eq in Hkd. cbn [with_array v_dims] in Hkd.
    destruct (decide (d = dim)) as [->|Hnd]; [eauto|].
    destruct (Hs k d Hkd) as (m & Hm & Hdm). exists m. split; [|done]. rewrite Hk; [done|congruence].
  - by left.
  - exists ds'. split; [done|].
    assert (Evars : Forall2 (fun nv nv' => nv'.1 = nv.1 /\ P nv nv'.2) (d_vars ds) (d_vars ds')).
    { rewrite E1.
      assert (Hall : forall nv, nv ∈ d_vars ds -> v_name nv.2 = nv.1).
      { intros nv Hin. by apply (proper_get _ _ Hp), (proper_consistent _ Hp) in Hin as [? _]. }
      clear -Hvs Hall. induction Hvs as [|nv v' l vs HP _ IH]; cbn; constructor.
      - split; [|done]. cbn. destruct HP as ((-> & _) & _). cbn. apply Hall. by left.
      - apply IH. intros nv' Hin. apply Hall. by right. }
    assert (Hvals : forall v', v' ∈ dvals (d_vars ds') -> exists nv, nv ∈ d_vars ds /\ P nv v').
    { intros v' Hv'. apply elem_dvals in Hv' as [n Hn]. apply elem_of_list_lookup_1 in Hn as [i Hi].
      destruct (Forall2_lookup_r _ _ _ _ _ Evars Hi) as (nv & Hnv & _ & HP).
      exists nv. split; [by apply elem_of_list_lookup_2 in Hnv|done]. }
    assert (Hpr : proper ds').
    { split.
      - assert (Hk : dkeys (d_vars ds') = map v_name vs) by (rewrite E1; unfold dkeys; by rewrite map_map).
        rewrite Hk, Hnames. apply Hp.
      - rewrite E3. apply Hp.
      - rewrite E4. apply Hp.
      - intros v' Hv'. destruct (Hvals v' Hv') as (nv & _ & _ & Hw' & _). done.
      - done. }
    split_and!.
    + done.
    + intros v' Hv'. destruct (Hvals v' Hv') as ([n v] & Hin & (Eq & _) & _). rewrite Eq. cbn.
      apply Hnr, elem_dvals. by exists n.
    + split_and!; try done. eapply Forall2_impl; [exact Evars|].
      intros nv nv' (Hn & H1 & _ & H3 & _). done.
    + intros Hin. apply elem_of_list_join in Hin as (dims & Hd & Hin). apply elem_of_list_In, in_map_iff in Hin as (v & <- & Hv%elem_of_list_In).
      apply elem_dvals in Hv as [n Hn]. apply elem_of_list_lookup_1 in Hn as [i Hi].
      destruct (Forall2_lookup_l _ _ _ _ _ Evars Hi) as ([n' v'] & Hnv' & Hn' & (Eq & _) & _ & _ & Htot). cbn [fst snd] in *.
      apply elem_of_list_lookup_1 in Hd as [k Hk].
      assert (Hv' : v' ∈ dvals (d_vars ds')) by (apply elem_dvals; exists n'; by apply elem_of_list_lookup_2 in Hnv').
      destruct (proper_sized _ _ Hpr Hv') as (Hs & _ & _).
      destruct (Hs k dim) as (m & Hm & Hg); [by rewrite Eq|]. rewrite Hg. rewrite Htot in Hm by done. done.
    + intros d m Hd Hg. apply E7 in Hg. by rewrite decide_False in Hg.
Qed.
