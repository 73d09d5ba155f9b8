From Verif Require Import Py NdArray_Model NdArray_Spec.

Lemma traverse_Ok {A B} (f : A -> res B) (g : A -> B) l :
  (forall x, x ∈ l -> f x = Ok (g x)) -> traverse f l = Ok (map g l).
Proof.
  induction l as [|x l IH]; intros H; [done|]. cbn [traverse map].
  rewrite H by left. cbn [rbind]. rewrite IH by (intros y Hy; apply H; by right). done.
Qed.
Lemma traverse_inv {A B} (f : A -> res B) l l' :
  traverse f l = Ok l' <-> Forall2 (fun x y => f x = Ok y) l l'.
Proof.
  revert l'. induction l as [|x l IH]; intros l'; cbn [traverse].
  - split; [intros [= <-]; constructor|inversion 1; done].
  - split.
    + intros H. destruct (f x) as [y|] eqn:E; [|done]. cbn [rbind] in H.
      destruct (traverse f l) as [ys|] eqn:E'; [|done]. cbn [rbind] in H. injection H as <-.
      constructor; [done|]. by apply IH.
    + inversion 1 as [|? y ? ys Hx Hl]; subst. rewrite Hx. cbn [rbind].
      apply IH in Hl. by rewrite Hl.
Qed.

(** ** Indices *)
Lemma indices_length s : length (indices s) = nprod s.
Proof.
  induction s as [|n s IH]; [done|]. cbn [indices nprod].
  generalize 0 at 1 as k. induction n as [|n IHn]; intros k; [done|].
  cbn [seq flat_map]. rewrite app_length, map_length, IH, IHn. lia.
Qed.

Lemma indices_ravel s idx : valid s idx -> indices s !! ravel s idx = Some idx /\ ravel s idx < nprod s.
Proof.
  revert idx. induction s as [|n s IH]; intros idx H; inversion H as [|i ? idx' ? Hi Hr]; subst; cbn.
  - split; [done|lia].
  - destruct (IH _ Hr) as [E Hl].
    assert (Hgen : forall m k, i < m ->
      flat_map (fun j => map (cons j) (indices s)) (seq k m) !! (i * nprod s + ravel s idx') = Some ((k + i) :: idx')).
    { clear Hi H Hr. induction i as [|i IHi]; intros m k Hm; destruct m as [|m]; try lia; cbn [seq flat_map].
      - rewrite lookup_app_l by (rewrite map_length, indices_length; lia).
        change (map ?f ?l) with (f <$> l). cbn [Nat.mul Nat.add].
        rewrite list_lookup_fmap, E. cbn. by rewrite Nat.add_0_r.
      - rewrite lookup_app_r by (rewrite map_length, indices_length; lia).
        rewrite map_length, indices_length.
        replace (S i * nprod s + ravel s idx' - nprod s) with (i * nprod s + ravel s idx') by lia.
        rewrite IHi by lia. by replace (S k + i) with (k + S i) by lia. }
    rewrite (Hgen n 0 Hi). split; [done|]. nia.
Qed.

Lemma indices_valid s idx : idx ∈ indices s -> valid s idx.
Proof.
  revert idx. induction s as [|n s IH]; intros idx H; cbn in H.
  - apply elem_of_list_singleton in H as ->. constructor.
  - apply elem_of_list_In, in_flat_map in H as (i & Hi & H).
    apply in_seq in Hi. apply in_map_iff in H as (idx' & <- & H).
    constructor; [lia|]. apply IH. by apply elem_of_list_In.
Qed.
Lemma indices_lookup s k idx : indices s !! k = Some idx -> valid s idx /\ ravel s idx = k.
Proof.
  intros H. assert (Hv : valid s idx) by (eapply indices_valid, elem_of_list_lookup_2, H).
  split; [done|]. destruct (indices_ravel _ _ Hv) as [E _].
  assert (Hnd : NoDup (indices s)).
  { clear. induction s as [|n s IH]; [apply NoDup_singleton|]. cbn [indices].
    generalize 0 as k. induction n as [|n IHn]; intros k; cbn [seq flat_map]; [constructor|].
    apply NoDup_app. split_and!; [|intros x Hx Hx'|apply IHn].
    - change (map ?f ?l) with (f <$> l). by apply (NoDup_fmap_2 (cons k)).
    - change (map ?f ?l) with (f <$> l) in Hx. apply elem_of_list_fmap in Hx as (y & -> & _).
      apply elem_of_list_In, in_flat_map in Hx' as (j & Hj & Hx'). apply in_seq in Hj.
      apply in_map_iff in Hx' as (z & [= ? ?] & _). lia. }
  by apply (NoDup_lookup _ _ _ _ Hnd E).
Qed.

Lemma valid_length s idx : valid s idx -> length idx = length s.
Proof. apply Forall2_length. Qed.

Lemma get_tabulate s f idx : valid s idx -> get (tabulate s f) idx = f idx.
Proof.
  intros H. unfold get, tabulate. cbn [a_shape a_flat].
  destruct (indices_ravel _ _ H) as [E _]. apply nth_lookup_Some.
  change (map ?f ?l) with (f <$> l). by rewrite list_lookup_fmap, E.
Qed.
Lemma tabulate_wf s f : arr_wf (tabulate s f).
Proof. unfold arr_wf, tabulate. cbn. by rewrite map_length, indices_length. Qed.
Lemma tabulate_ext s f g : (forall idx, valid s idx -> f idx = g idx) -> tabulate s f = tabulate s g.
Proof.
  intros H. unfold tabulate. f_equal. apply map_ext_in. intros idx Hi.
  apply H, indices_valid. by apply elem_of_list_In.
Qed.
Lemma arr_ext a b : arr_wf a -> arr_wf b -> a_shape a = a_shape b ->
  (forall idx, valid (a_shape a) idx -> get a idx = get b idx) -> a = b.
Proof.
  destruct a as [s l], b as [s' l']. unfold arr_wf. cbn. intros Ha Hb <- H. f_equal.
  apply list_eq. intros k.
  destruct (decide (k < nprod s)) as [Hk|Hk].
  - destruct (lookup_lt_is_Some_2 (indices s) k) as [idx Hi]; [by rewrite indices_length|].
    apply indices_lookup in Hi as [Hv Hr]. specialize (H _ Hv). unfold get in H. cbn in H. rewrite Hr in H.
    destruct (lookup_lt_is_Some_2 l k) as [x Hx]; [lia|].
    destruct (lookup_lt_is_Some_2 l' k) as [y Hy]; [lia|].
    rewrite (nth_lookup_Some _ _ _ _ Hx), (nth_lookup_Some _ _ _ _ Hy) in H. congruence.
  - rewrite !lookup_ge_None_2 by lia. done.
Qed.
Lemma tabulate_get a : arr_wf a -> tabulate (a_shape a) (get a) = a.
Proof.
  intros H. apply arr_ext; [apply tabulate_wf|done|done|]. intros idx Hv. by apply get_tabulate.
Qed.

(** ** Changing one coordinate *)
Lemma nth_insert {A} (l : list A) k x d : k < length l -> nth k (<[k := x]> l) d = x.
Proof. intros H. apply nth_lookup_Some, list_lookup_insert, H. Qed.
Lemma valid_insert s idx ax n i : valid s idx -> i < n -> valid (<[ax := n]> s) (<[ax := i]> idx).
Proof. intros H Hi. apply Forall2_insert; done. Qed.
Lemma valid_nth s idx ax : valid s idx -> ax < length s -> nth ax idx 0 < nth ax s 0.
Proof.
  intros H Hl. destruct (lookup_lt_is_Some_2 s ax Hl) as [n Hn].
  destruct (Forall2_lookup_r _ _ _ _ _ H Hn) as (i & Hi & Hlt).
  by rewrite (nth_lookup_Some _ _ _ _ Hi), (nth_lookup_Some _ _ _ _ Hn).
Qed.
(** An index for a shape whose axis [ax] has another size. *)
Lemma valid_update s idx ax n m i : valid (<[ax := n]> s) idx -> ax < length s ->
  i < m -> valid (<[ax := m]> s) (<[ax := i]> idx).
Proof.
  intros H Hl Hi. apply (valid_insert _ _ ax m i) in H; [|done]. by rewrite list_insert_insert in H.
Qed.
Lemma insert_nth_id {A} (l : list A) k d : k < length l -> <[k := nth k l d]> l = l.
Proof.
  intros H. destruct (lookup_lt_is_Some_2 l k H) as [x Hx].
  rewrite (nth_lookup_Some _ _ _ _ Hx). by apply list_insert_id.
Qed.
Lemma valid_ax s idx ax : valid (<[ax := nth ax s 0]> s) idx -> ax < length s -> valid s idx.
Proof. intros H Hl. by rewrite insert_nth_id in H. Qed.

(** ** Rows *)
Lemma delete_insert_ax {A} (l : list A) ax x : delete ax (<[ax := x]> l) = delete ax l.
Proof. revert ax. induction l as [|y l IH]; intros [|ax]; cbn; [done..|]. f_equal. apply IH. Qed.
Lemma take_cons_drop_insert (idx : list nat) ax i j :
  ax <= length idx -> <[ax := j]> (take ax idx ++ i :: drop ax idx) = take ax idx ++ j :: drop ax idx.
Proof.
  intros H. rewrite insert_app_r_alt by (rewrite take_length; lia).
  rewrite take_length_le by lia. by rewrite Nat.sub_diag.
Qed.
Lemma nth_take_cons_drop (idx : list nat) ax i : ax <= length idx -> nth ax (take ax idx ++ i :: drop ax idx) 0 = i.
Proof.
  intros H. rewrite app_nth2 by (rewrite take_length; lia).
  rewrite take_length_le by lia. by rewrite Nat.sub_diag.
Qed.
Lemma valid_row s ax idx i : ax < length s -> valid (delete ax s) idx -> i < nth ax s 0 ->
  valid s (take ax idx ++ i :: drop ax idx) /\ ax <= length idx.
Proof.
  intros Hl Hv Hi. assert (Hlen : ax <= length idx).
  { apply Forall2_length in Hv. rewrite Hv. pose proof (length_delete s ax) as E.
    destruct (lookup_lt_is_Some_2 s ax Hl) as [n Hn]. rewrite E by eauto. lia. }
  split; [|done]. rewrite delete_take_drop in Hv.
  rewrite <-(take_drop ax s) at 1.
  assert (Hd : drop ax s = nth ax s 0 :: drop (S ax) s).
  { destruct (lookup_lt_is_Some_2 s ax Hl) as [n Hn].
    rewrite (nth_lookup_Some _ _ _ _ Hn). by apply drop_S. }
  rewrite Hd. rewrite <-(take_drop ax idx) in Hv.
  apply Forall2_app_inv in Hv as [H1 H2]; [|rewrite !take_length; lia].
  apply Forall2_app; [done|]. constructor; [done|]. done.
Qed.
Lemma index_split s ax idx : ax < length s -> valid s idx ->
  exists idx' i, idx = take ax idx' ++ i :: drop ax idx' /\ valid (delete ax s) idx' /\ i < nth ax s 0.
Proof.
  intros Hl Hv. exists (delete ax idx), (nth ax idx 0).
  pose proof (Forall2_length _ _ _ Hv) as Hlen.
  destruct (lookup_lt_is_Some_2 idx ax) as [i Hi]; [lia|].
  split_and!.
  - rewrite (nth_lookup_Some _ _ _ _ Hi). rewrite delete_take_drop.
    rewrite take_app_alt by (rewrite take_length; lia).
    rewrite drop_app_alt by (rewrite take_length; lia). symmetry. by apply take_drop_middle.
  - rewrite !delete_take_drop. apply Forall2_app; [by apply Forall2_take|by apply Forall2_drop].
  - by apply valid_nth.
Qed.

Lemma rows_length ax a : length (rows ax a) = nth ax (a_shape a) 0.
Proof. unfold rows. by rewrite map_length, seq_length. Qed.
Lemma rows_lookup ax a i : i < nth ax (a_shape a) 0 -> rows ax a !! i = Some (row ax a i).
Proof.
  intros H. unfold rows. change (map ?f ?l) with (f <$> l).
  rewrite list_lookup_fmap, lookup_seq_lt by done. done.
Qed.
Lemma rows_lookup_Some ax a i r : rows ax a !! i = Some r -> i < nth ax (a_shape a) 0 /\ r = row ax a i.
Proof.
  intros H. assert (Hi : i < nth ax (a_shape a) 0).
  { rewrite <-rows_length. by apply lookup_lt_Some in H. }
  split; [done|]. rewrite rows_lookup in H by done. congruence.
Qed.

(** An array is determined by its shape and its records. *)
Lemma rows_inj ax a b : arr_wf a -> arr_wf b -> ax < length (a_shape a) ->
  a_shape a = a_shape b -> rows ax a = rows ax b -> a = b.
Proof.
  intros Ha Hb Hl Hs Hr. apply arr_ext; [done..|]. intros idx Hv.
  destruct (index_split _ _ _ Hl Hv) as (idx' & i & -> & Hv' & Hi).
  assert (Hrow : row ax a i = row ax b i).
  { assert (E1 := rows_lookup ax a i Hi). rewrite Hs in Hi. assert (E2 := rows_lookup ax b i Hi).
    rewrite Hr in E1. congruence. }
  assert (Hg : get (row ax a i) idx' = get (row ax b i) idx') by congruence.
  unfold row in Hg. rewrite get_tabulate in Hg by done. rewrite get_tabulate in Hg by (by rewrite <-Hs). done.
Qed.

Lemma take_axis_wf ax ixs a : arr_wf (take_axis ax ixs a).
Proof. apply tabulate_wf. Qed.
Lemma take_axis_shape ax ixs a : a_shape (take_axis ax ixs a) = <[ax := length ixs]> (a_shape a).
Proof. done. Qed.

Lemma row_take ax ixs a i j : ax < length (a_shape a) -> ixs !! i = Some j -> j < nth ax (a_shape a) 0 ->
  row ax (take_axis ax ixs a) i = row ax a j.
Proof.
  intros Hl Hij Hj. unfold row. rewrite take_axis_shape, delete_insert_ax.
  apply tabulate_ext. intros idx Hv.
  assert (Hi : i < length ixs) by (by apply lookup_lt_Some in Hij).
  destruct (valid_row _ ax idx i (ltac:(by rewrite insert_length) : ax < length (<[ax:=length ixs]> (a_shape a)))) as [Hv' Hlen].
  { by rewrite delete_insert_ax. } { by rewrite nth_insert. }
  unfold take_axis. rewrite get_tabulate by done.
  rewrite nth_take_cons_drop by done. rewrite take_cons_drop_insert by done.
  by rewrite (nth_lookup_Some _ _ _ _ Hij).
Qed.
(** Records selected by their positions. *)
Lemma rows_take ax ixs a : ax < length (a_shape a) -> Forall (fun j => j < nth ax (a_shape a) 0) ixs ->
  rows ax (take_axis ax ixs a) = map (row ax a) ixs.
Proof.
  intros Hl Hix. apply list_eq. intros i.
  destruct (ixs !! i) as [j|] eqn:E.
  - rewrite rows_lookup.
    + change (map ?f ?l) with (f <$> l). rewrite list_lookup_fmap, E. cbn. f_equal. apply row_take; [done..|].
      by apply (Forall_lookup_1 _ _ _ _ Hix E).
    + rewrite take_axis_shape, nth_insert by done. by apply lookup_lt_Some in E.
  - rewrite lookup_ge_None_2.
    + change (map ?f ?l) with (f <$> l). by rewrite list_lookup_fmap, E.
    + rewrite rows_length, take_axis_shape, nth_insert by done. by apply lookup_ge_None in E.
Qed.

Lemma cat2_ok ax a b c : cat2 ax a b = Ok c ->
  ax < length (a_shape a) /\ length (a_shape a) = length (a_shape b) /\
  delete ax (a_shape a) = delete ax (a_shape b) /\
  a_shape c = <[ax := nth ax (a_shape a) 0 + nth ax (a_shape b) 0]> (a_shape a) /\
  arr_wf c /\ rows ax c = rows ax a ++ rows ax b.
Proof.
  unfold cat2. destruct (Nat.leb_spec (length (a_shape a)) ax) as [|Hl]; [done|].
  destruct (Nat.eqb_spec (length (a_shape a)) (length (a_shape b))) as [Hlen|]; [|done]. cbn [orb negb].
  destruct (bool_decide _) eqn:E; [|done]. cbn [negb]. apply bool_decide_eq_true in E. intros [= <-].
  assert (Hdel : delete ax (a_shape a) = delete ax (a_shape b)).
  { rewrite <-(delete_insert_ax _ _ 0), E. apply delete_insert_ax. }
  split_and!; [done|done|done|done|apply tabulate_wf|].
  set (na := nth ax (a_shape a) 0). set (nb := nth ax (a_shape b) 0).
  apply list_eq. intros i.
  assert (Hsh : nth ax (<[ax:=na + nb]> (a_shape a)) 0 = na + nb) by (by apply nth_insert).
  destruct (decide (i < na + nb)) as [Hi|Hi].
  - rewrite rows_lookup by (cbn [tabulate a_shape]; by rewrite Hsh).
    assert (Hrow : forall idx, valid (delete ax (a_shape a)) idx ->
      valid (<[ax:=na + nb]> (a_shape a)) (take ax idx ++ i :: drop ax idx) /\ ax <= length idx).
    { intros idx Hv. apply valid_row; [by rewrite insert_length|by rewrite delete_insert_ax|by rewrite Hsh]. }
    destruct (decide (i < na)) as [Hia|Hia].
    + rewrite lookup_app_l by (by rewrite rows_length). rewrite rows_lookup by done. f_equal.
      unfold row. cbn [tabulate a_shape]. rewrite delete_insert_ax. apply tabulate_ext. intros idx Hv.
      destruct (Hrow idx Hv) as [Hv' Hle].
      change (Arr ?s (map ?f (indices ?s))) with (tabulate s f).
      rewrite get_tabulate by done. rewrite nth_take_cons_drop by done.
      by rewrite (proj2 (Nat.ltb_lt i na)).
    + rewrite lookup_app_r by (rewrite rows_length; unfold na in *; lia).
      rewrite rows_length. fold na. rewrite rows_lookup by (unfold nb in *; lia). f_equal.
      unfold row. cbn [tabulate a_shape]. rewrite delete_insert_ax, <-Hdel. apply tabulate_ext. intros idx Hv.
      destruct (Hrow idx Hv) as [Hv' Hle].
      change (Arr ?s (map ?f (indices ?s))) with (tabulate s f).
      rewrite get_tabulate by done. rewrite nth_take_cons_drop by done.
      rewrite (proj2 (Nat.ltb_ge i na)) by lia. by rewrite take_cons_drop_insert.
  - rewrite !lookup_ge_None_2; [done|rewrite app_length, !rows_length; unfold na, nb in *; lia|].
    rewrite rows_length. cbn [tabulate a_shape]. rewrite Hsh. lia.
Qed.
Lemma cat2_total ax a b : ax < length (a_shape a) -> length (a_shape a) = length (a_shape b) ->
  delete ax (a_shape a) = delete ax (a_shape b) -> exists c, cat2 ax a b = Ok c.
Proof.
  intros Hl Hlen Hd. unfold cat2. rewrite (proj2 (Nat.leb_gt _ _)) by done.
  rewrite (proj2 (Nat.eqb_eq _ _)) by done. cbn [orb negb].
  assert (E : <[ax:=0]> (a_shape a) = <[ax:=0]> (a_shape b)).
  { rewrite !insert_take_drop by lia. rewrite !delete_take_drop in Hd.
    apply app_inj_1 in Hd as [-> ->]; [done|rewrite !take_length; lia]. }
  rewrite bool_decide_eq_true_2 by done. cbn [negb]. eauto.
Qed.
Lemma cat2_raise ax a b e : cat2 ax a b = Raise e -> e = ValueError.
Proof. unfold cat2. destruct (_ || _); congruence. Qed.
