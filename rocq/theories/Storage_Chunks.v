(** * Arrays cut into chunk files are read back *)
From Verif Require Import Py Dict NdArray_Model NdArray_Spec NdArray_Proofs Dataset_Model Meta_Model
  PartPath_Model PartPath_Numbers FS_Model FS_Proofs Pool_Model Storage_Model.

(** ** Names of chunk files *)
Lemma show_nat_digits k : Forall is_digit (show_Z (Z.of_nat k)).
Proof. unfold show_Z. rewrite (proj2 (Z.ltb_ge _ _)) by lia. apply show_nonneg_digits. lia. Qed.
Lemma show_nat_first k : exists c s, show_Z (Z.of_nat k) = c :: s /\ is_digit c.
Proof. unfold show_Z. rewrite (proj2 (Z.ltb_ge _ _)) by lia. apply show_nonneg_nonempty. lia. Qed.
Lemma show_nat_inj k k' : show_Z (Z.of_nat k) = show_Z (Z.of_nat k') -> k = k'.
Proof. intros E. apply (f_equal int_of) in E. rewrite !int_of_show in E. injection E. lia. Qed.

Lemma digit_not_dot c : is_digit c -> c <> "."%char.
Proof. intros (d & Hd & ->) E. do 10 (destruct d as [|d]; [done|]). lia. Qed.

(** Two texts without separator, followed by nothing or by the separator. *)
Lemma upto_sep (c : ascii) (a b x y : str) : Forall (fun e => e <> c) a -> Forall (fun e => e <> c) b ->
  (x = [] \/ exists x', x = c :: x') -> (y = [] \/ exists y', y = c :: y') -> a ++ x = b ++ y -> a = b /\ x = y.
Proof.
  revert b. induction a as [|e a IH]; intros b Ha Hb Hx Hy E.
  - destruct b as [|e b]; [done|]. cbn in E. destruct Hx as [->|(x' & ->)]; [done|]. injection E as -> _. by inversion Hb.
  - inversion Ha as [|? ? He Ha']; subst. destruct b as [|e' b].
    + cbn in E. destruct Hy as [->|(y' & ->)]; [done|]. injection E as -> _. done.
    + inversion Hb as [|? ? He' Hb']; subst. injection E as -> E. destruct (IH b Ha' Hb' Hx Hy E) as [-> ->]. done.
Qed.
Lemma join_dot_tail (l : list str) : (match l with [] => [] | _ => lit "." ++ join_with (lit ".") l end) = [] \/
  exists x, (match l with [] => [] | _ => lit "." ++ join_with (lit ".") l end) = "."%char :: x.
Proof. destruct l; [by left|]. right. by eexists. Qed.
Lemma join_with_cons (sep x : str) l : join_with sep (x :: l) = x ++ match l with [] => [] | _ => sep ++ join_with sep l end.
Proof. destruct l; cbn; [by rewrite app_nil_r|done]. Qed.
Lemma join_dot_inj (l l' : list str) : Forall (fun s => Forall (fun e => e <> "."%char) s) l -> Forall (fun s => Forall (fun e => e <> "."%char) s) l' ->
  length l = length l' -> join_with (lit ".") l = join_with (lit ".") l' -> l = l'.
Proof.
  revert l'. induction l as [|x l IH]; intros l' Hl Hl' L E; [by destruct l'|]. destruct l' as [|y l']; [done|].
  inversion Hl as [|? ? Hx Hl1]; subst. inversion Hl' as [|? ? Hy Hl2]; subst. rewrite !join_with_cons in E.
  destruct (upto_sep "."%char x y _ _ Hx Hy (join_dot_tail l) (join_dot_tail l') E) as [-> E']. f_equal. injection L as L.
  apply IH; [done..|]. destruct l, l'; try done. injection E'. done.
Qed.
Lemma chunk_key_inj ci cj : length ci = length cj -> chunk_key ci = chunk_key cj -> ci = cj.
Proof.
  intros L E. destruct ci as [|k ci], cj as [|k' cj]; try done. unfold chunk_key in E.
  apply join_dot_inj in E.
  - clear L. revert E. generalize (k :: ci) (k' :: cj). intros l. induction l as [|x l IH]; intros [|y l'] E; try done.
    cbn in E. injection E as E1 E2. apply show_nat_inj in E1 as ->. by rewrite (IH l').
  - apply Forall_map, Forall_true. intros j. cbn. eapply Forall_impl; [apply show_nat_digits|]. apply digit_not_dot.
  - apply Forall_map, Forall_true. intros j. cbn. eapply Forall_impl; [apply show_nat_digits|]. apply digit_not_dot.
  - cbn. by rewrite !map_length.
Qed.
Lemma chunk_key_first ci : exists c s, chunk_key ci = c :: s /\ is_digit c.
Proof.
  destruct ci as [|k ci].
  - exists "0"%char, []. split; [done|]. exists 0. split; [lia|done].
  - unfold chunk_key. cbn [map]. rewrite join_with_cons. destruct (show_nat_first k) as (c & s & -> & H). by eexists _, _.
Qed.
Lemma chunk_key_not_meta ci n : n ∈ [ZARRAY; ZGROUP; ZATTRS; ZMETADATA] -> chunk_key ci <> n.
Proof.
  destruct (chunk_key_first ci) as (c & s & -> & H). intros Hn E. apply digit_not_dot in H.
  repeat (apply elem_of_cons in Hn as [->|Hn]; [by injection E|]). by apply elem_of_nil in Hn.
Qed.

(** ** Positions *)
Definition chunked (shape cs : list nat) : Prop := length cs = length shape /\ Forall (fun c => 1 <= c) cs.

Lemma chunk_position shape cs idx : chunked shape cs -> valid shape idx ->
  valid (grid shape cs) (chunk_of cs idx) /\
  valid (chunk_shape shape cs (chunk_of cs idx)) (offset_in cs idx) /\
  zip_with Nat.add (chunk_start cs (chunk_of cs idx)) (offset_in cs idx) = idx.
Proof.
  intros [L H] V. revert shape idx L V. induction H as [|c cs Hc H IH]; intros shape idx L V.
  - destruct shape; [|done]. inversion V; subst. repeat split; constructor.
  - destruct shape as [|n shape]; [done|]. inversion V as [|i ? idx' ? Hi V']; subst. injection L as L.
    destruct (IH shape idx' L V') as (H1 & H2 & H3). unfold valid in *.
    pose proof (Nat.div_mod i c ltac:(lia)). pose proof (Nat.mod_upper_bound i c ltac:(lia)). cbn. repeat split.
    + constructor; [|done]. apply Nat.div_lt_upper_bound; [lia|]. pose proof (Nat.div_mod (n + c - 1) c ltac:(lia)).
      pose proof (Nat.mod_upper_bound (n + c - 1) c ltac:(lia)). nia.
    + constructor; [|done]. nia.
    + f_equal; [nia|done].
Qed.
Lemma grid_length shape cs : chunked shape cs -> length (grid shape cs) = length shape.
Proof. intros [L _]. unfold grid. rewrite zip_with_length. lia. Qed.
Lemma indices_elem s idx : idx ∈ indices s <-> valid s idx.
Proof. split; [apply indices_valid|]. intros V. destruct (indices_ravel s idx V) as [E _]. by eapply elem_of_list_lookup_2. Qed.
Lemma indices_nodup s : NoDup (indices s).
Proof.
  apply NoDup_alt. intros i j x Ei Ej. apply indices_lookup in Ei as [_ <-], Ej as [_ <-]. done.
Qed.

Lemma get_chunk a cs idx : chunked (a_shape a) cs -> valid (a_shape a) idx ->
  get (chunk_at a cs (chunk_of cs idx)) (offset_in cs idx) = get a idx.
Proof.
  intros Hc V. destruct (chunk_position _ _ _ Hc V) as (_ & V2 & E). unfold chunk_at. rewrite get_tabulate by done. by rewrite E.
Qed.
Lemma get_elem a idx : arr_wf a -> valid (a_shape a) idx -> get a idx ∈ a_flat a.
Proof.
  intros Hw V. unfold get. apply indices_ravel in V as [_ H]. unfold arr_wf in Hw. apply elem_of_list_In, nth_In. lia.
Qed.

(** ** The files written *)
Lemma exec_pseq_writes (l : list (path * content)) s :
  exec (pseq (map (fun qc => write_file qc.1 qc.2) l)) s =
    (Ok (map (fun _ => tt) l), fold_left (fun s qc => <[qc.1 := qc.2]> s) l s).
Proof.
  revert s. induction l as [|[q c] l IH]; intros s; cbn; [done|]. rewrite exec_bind, IH. done.
Qed.
Lemma fold_writes_lookup (l : list (path * content)) (s : store) q : NoDup (map fst l) ->
  fold_left (fun s qc => <[qc.1 := qc.2]> s) l s !! q = match (list_to_map l : store) !! q with Some c => Some c | None => s !! q end.
Proof.
  revert s. induction l as [|[q' c] l IH]; intros s H; cbn; [by rewrite lookup_empty|].
  inversion H as [|? ? N H']; subst. rewrite IH by done. destruct (decide (q' = q)) as [->|Nq].
  - rewrite !lookup_insert. rewrite not_elem_of_list_to_map_1; [done|]. done.
  - by rewrite !lookup_insert_ne.
Qed.

(** The chunk files of an array, by their name. *)
Definition chunk_list (z : zarray) (skip : bool) (a : arr) : list (path * content) :=
  omap (fun ci => let c := chunk_at a (z_chunks z) ci in
    if skip && all_fill (z_fill z) c then None else Some ([chunk_key ci], CChunk c))
    (indices (grid (z_shape z) (z_chunks z))).
Definition chunk_tree (z : zarray) (skip : bool) (a : arr) : store := list_to_map (chunk_list z skip a).

Lemma exec_write_chunks_list d z skip a s : exec (write_chunks d z skip a) s =
  (Ok tt, fold_left (fun s qc => <[d ++ qc.1 := qc.2]> s) (chunk_list z skip a) s).
Proof.
  unfold write_chunks, pfor, chunk_list. rewrite exec_bind. set (l := indices _). clearbody l.
  assert (E : exists r, exec (pseq (map (fun ci => let c := chunk_at a (z_chunks z) ci in
      if skip && all_fill (z_fill z) c then pret tt else write_file (d ++ [chunk_key ci]) (CChunk c)) l)) s =
    (Ok r, fold_left (fun s qc => <[d ++ qc.1 := qc.2]> s) (omap (fun ci => let c := chunk_at a (z_chunks z) ci in
      if skip && all_fill (z_fill z) c then None else Some ([chunk_key ci], CChunk c)) l) s)).
  { revert s. induction l as [|ci l IH]; intros s; [by eexists|].
    cbn [map pseq omap list_omap]. rewrite exec_bind. cbv zeta. destruct (skip && all_fill (z_fill z) _).
    - cbn [exec pret]. rewrite exec_bind. destruct (IH s) as (r & E). cbv zeta in E. rewrite E. by eexists.
    - rewrite exec_write. cbv iota beta. rewrite exec_bind. destruct (IH (<[d ++ [chunk_key ci] := CChunk (chunk_at a (z_chunks z) ci)]> s)) as (r & E).
      cbv zeta in E. rewrite E. by eexists. }
  destruct E as (r & E). cbv zeta in E |- *. by rewrite E.
Qed.

Lemma chunk_list_nodup z skip a : chunked (z_shape z) (z_chunks z) -> NoDup (map fst (chunk_list z skip a)).
Proof.
  intros Hc. unfold chunk_list.
  assert (H : Forall (fun ci => length ci = length (z_shape z)) (indices (grid (z_shape z) (z_chunks z)))).
  { apply Forall_forall. intros ci Hi. apply indices_valid, valid_length in Hi. by rewrite Hi, grid_length. }
  pose proof (indices_nodup (grid (z_shape z) (z_chunks z))) as N. revert H N. generalize (indices (grid (z_shape z) (z_chunks z))).
  intros l. induction l as [|ci l IH]; intros H N; [constructor|]. inversion H as [|? ? Hi H']; subst. inversion N as [|? ? Ni N']; subst.
  cbn. destruct (skip && _); [by apply IH|]. cbn. constructor; [|by apply IH]. intros E. change (map fst ?l) with (fst <$> l) in E.
  apply elem_of_list_fmap in E as ([q c] & E & E2). apply elem_of_list_omap in E2 as (cj & Hj & E2).
  cbn in E, E2. destruct (skip && _) in E2; [done|]. injection E2 as <- <-. injection E as E. apply chunk_key_inj in E; [by subst|].
  rewrite Forall_forall in H'. rewrite Hi. symmetry. by apply H'.
Qed.
Lemma chunk_tree_at z skip a ci : chunked (z_shape z) (z_chunks z) -> valid (grid (z_shape z) (z_chunks z)) ci ->
  chunk_tree z skip a !! [chunk_key ci] =
    (if skip && all_fill (z_fill z) (chunk_at a (z_chunks z) ci) then None else Some (CChunk (chunk_at a (z_chunks z) ci))).
Proof.
  intros Hc V. unfold chunk_tree. destruct (skip && all_fill (z_fill z) (chunk_at a (z_chunks z) ci)) eqn:E.
  - apply not_elem_of_list_to_map_1. intros H. apply elem_of_list_fmap in H as ([q c] & Eq & H). cbn in Eq. subst q.
    apply elem_of_list_omap in H as (cj & Hj & Ej). cbn in Ej. destruct (skip && all_fill (z_fill z) (chunk_at a (z_chunks z) cj)) eqn:E'; [done|].
    injection Ej as Ek _. apply chunk_key_inj in Ek; [congruence|]. apply indices_valid in Hj. apply valid_length in Hj, V. congruence.
  - apply elem_of_list_to_map_1; [by apply chunk_list_nodup|]. apply elem_of_list_omap. exists ci. split; [by apply indices_elem|]. cbn. by rewrite E.
Qed.
Lemma chunk_tree_Some z skip a q c : chunk_tree z skip a !! q = Some c ->
  exists ci, valid (grid (z_shape z) (z_chunks z)) ci /\ q = [chunk_key ci] /\ c = CChunk (chunk_at a (z_chunks z) ci).
Proof.
  intros E. apply elem_of_list_to_map_2 in E. apply elem_of_list_omap in E as (ci & Hi & E). cbn in E.
  destruct (skip && _); [done|]. injection E as <- <-. exists ci. split; [by apply indices_valid|done].
Qed.

Lemma exec_write_chunks d z skip a s : chunked (z_shape z) (z_chunks z) ->
  exec (write_chunks d z skip a) s = (Ok tt, graft d (chunk_tree z skip a) s).
Proof.
  intros Hc. rewrite exec_write_chunks_list. f_equal. apply map_eq. intros q.
  pose proof (chunk_list_nodup z skip a Hc) as N. rewrite graft_lookup. unfold chunk_tree. set (l := chunk_list z skip a) in *. clearbody l. clear Hc.
  revert s. induction l as [|[q' c] l IH]; intros s; cbn.
  - destruct (strip d q); [by rewrite lookup_empty|done].
  - inversion N as [|? ? Nq N']; subst. rewrite IH by done. destruct (strip d q) as [r|] eqn:E.
    + apply strip_Some in E as ->. destruct (decide (q' = r)) as [->|Nr].
      * rewrite !lookup_insert. by rewrite not_elem_of_list_to_map_1.
      * rewrite !lookup_insert_ne; [done..|]. intros E. by apply app_inv_head in E.
    + apply strip_None in E. rewrite lookup_insert_ne; [done|]. intros <-. apply E, under_app.
Qed.

(** Reading back what has been written. *)
Lemma read_array_ok z skip a t : arr_wf a -> z_shape z = a_shape a -> chunked (z_shape z) (z_chunks z) ->
  (forall ci, valid (grid (z_shape z) (z_chunks z)) ci -> t !! [chunk_key ci] = chunk_tree z skip a !! [chunk_key ci]) ->
  read_array z t = Ok a.
Proof.
  intros Hw Es Hc Ht. unfold read_array.
  rewrite (traverse_Ok _ (get a)); [cbn; f_equal; rewrite Es; by apply tabulate_get|].
  intros idx Hi. apply indices_valid in Hi. destruct (chunk_position _ _ _ Hc Hi) as (V1 & V2 & E). unfold read_item.
  rewrite Ht, chunk_tree_at by done. destruct (skip && all_fill (z_fill z) _) eqn:Ef.
  - apply andb_true_iff in Ef as [_ Ef]. unfold all_fill in Ef. destruct (z_fill z) as [f|]; [|done]. cbn. f_equal.
    rewrite Es in *. rewrite <-(get_chunk a (z_chunks z) idx) by done. rewrite forallb_forall in Ef. symmetry.
    apply (bool_decide_eq_true_1 _ (Ef _ (proj1 (elem_of_list_In _ _) (get_elem _ _ (tabulate_wf _ _) V2)))).
  - cbv zeta. unfold inside. rewrite bool_decide_eq_true_2 by (rewrite Es in V2; exact V2). f_equal. rewrite Es in *. by apply get_chunk.
Qed.
