(** * Proofs about the listing and the selection of partitions *)
From Verif Require Import Py Dict Order PartPath_Model PartPath_Numbers PartPath_Proofs PartPath_Props Split_Spec NdArray_Model NdArray_Proofs
  FS_Model FS_Proofs Listing_Model Listing_Spec.

Lemma hidden_iff n : hidden n = true <-> starts_with_dot n.
Proof.
  unfold starts_with_dot. destruct n as [|c s]; cbn.
  - split; [done|by intros [? ?]].
  - rewrite bool_decide_eq_true. split; [intros ->; by eexists|by intros [? [= -> _]]].
Qed.

Section listing.
  Context {C : Type} (order : list str -> list str) (Horder : forall l, order l ≡ₚ l).
  Implicit Types (t : fs C) (d p q : path).

  Lemma children_elem p t n : n ∈ children order p t <-> exists f c, t !! (p ++ n :: f) = Some c.
  Proof using Horder.
    unfold children. rewrite Horder, elem_of_remove_dups, elem_of_list_omap. split.
    - intros ([q c] & Hq & Hh). cbn in Hh. apply elem_of_map_to_list in Hq. rewrite sub_lookup in Hq.
      destruct q as [|m f]; [done|]. injection Hh as ->. by exists f, c.
    - intros (f & c & H). exists (n :: f, c). split; [|done]. by apply elem_of_map_to_list; rewrite sub_lookup.
  Qed.
  Lemma children_nodup p t : NoDup (children order p t).
  Proof using Horder. unfold children. rewrite Horder. apply NoDup_remove_dups. Qed.

  Lemma is_dir_iff p t : is_dir p t = true <-> directory t p.
  Proof.
    unfold is_dir, directory. rewrite existsb_exists. split.
    - intros ([q c] & Hq & Hc). apply elem_of_list_In, elem_of_map_to_list in Hq. rewrite sub_lookup in Hq.
      cbn in Hc. destruct q as [|n f]; [done|]. by exists n, f, c.
    - intros (n & f & c & H). exists (n :: f, c). split; [|done].
      apply elem_of_list_In, elem_of_map_to_list. by rewrite sub_lookup.
  Qed.

  Lemma present_child t p n : (exists f c, t !! (p ++ n :: f) = Some c) <-> present t (p ++ [n]).
  Proof.
    unfold present, directory. split.
    - intros ([|m f] & c & H); [left; by eexists|]. right. exists m, f, c. by rewrite <-app_assoc.
    - intros [[c H]|(m & f & c & H)]; [by exists [], c|].
      exists (m :: f), c. by rewrite <-app_assoc in H.
  Qed.

  (** Nothing is both a file and a directory in the first [k] levels below [p]. *)
  Definition tree_to (k : nat) t p : Prop :=
    forall r, length r <= k -> is_Some (t !! (p ++ r)) -> ~ directory t (p ++ r).
  Lemma tree_to_here k t p : tree_to k t p -> is_Some (t !! p) -> ~ directory t p.
  Proof. intros H. specialize (H [] ltac:(cbn; lia)). by rewrite app_nil_r in H. Qed.
  Lemma tree_to_child k t p n : tree_to (S k) t p -> tree_to k t (p ++ [n]).
  Proof. intros H r Hr. specialize (H (n :: r) ltac:(cbn; lia)). by rewrite <-app_assoc. Qed.
  Lemma tree_to_le k k' t p : tree_to k t p -> k' <= k -> tree_to k' t p.
  Proof. intros H Hk r Hr. apply H. lia. Qed.
  Lemma tree_tree_to k t p : tree t -> tree_to k t p.
  Proof. intros H r _. apply H. Qed.

  Lemma ls_elem t p x : (is_Some (t !! p) -> ~ directory t p) ->
    x ∈ ls order p t <-> (x = p /\ is_Some (t !! p)) \/ (exists n, x = p ++ [n] /\ present t x).
  Proof using Horder.
    intros Ht. unfold ls. destruct (t !! p) as [c|] eqn:E.
    - rewrite elem_of_list_singleton. split; [intros ->; left; split; [done|by eexists]|].
      intros [[-> _]|(n & -> & Hp)]; [done|]. exfalso.
      apply present_child in Hp as (f & c' & H). apply Ht; [by eexists|]. by exists n, f, c'.
    - rewrite elem_of_list_In, in_map_iff. split.
      + intros (n & <- & Hn). right. exists n. split; [done|].
        apply elem_of_list_In, children_elem in Hn. by apply present_child.
      + intros [[_ [? ?]]|(n & -> & Hp)]; [done|]. exists n. split; [done|].
        apply elem_of_list_In, children_elem. by apply present_child.
  Qed.
  Lemma ls_nodup t p : NoDup (ls order p t).
  Proof using Horder.
    unfold ls. destruct (t !! p); [apply NoDup_singleton|].
    apply (NoDup_fmap_2_strong (fun n => p ++ [n])); [|apply children_nodup].
    intros x y _ _ E. by apply (inj (p ++.)) in E; injection E.
  Qed.

  Lemma present_up t p f : present t (p ++ f) -> f <> [] -> directory t p.
  Proof.
    intros H Hf. destruct f as [|n f]; [done|].
    destruct H as [[c H]|(m & g & c & H)]; [by exists n, f, c|].
    rewrite <-app_assoc in H. by exists n, (f ++ m :: g), c.
  Qed.

  (** What [list_deep] yields below [p]. *)
  Definition below (n : nat) t p x : Prop :=
    exists r, x = p ++ r /\ ((length r = n /\ present t x) \/ (length r < n /\ is_Some (t !! x))).

  Lemma list_deep_elem depth t p x : tree_to depth t p ->
    x ∈ list_deep order depth t p <-> below (S depth) t p x.
  Proof using Horder.
    revert p. induction depth as [|k IH]; intros p Ht; cbn [list_deep]; pose proof (tree_to_here _ _ _ Ht) as Hh.
    - rewrite ls_elem by done. unfold below. split.
      + intros [[-> Hs]|(n & -> & Hp)].
        * exists []. rewrite app_nil_r. split; [done|]. right. split; [cbn; lia|done].
        * exists [n]. split; [done|]. left. done.
      + intros (r & -> & [[Hl Hp]|[Hl Hs]]).
        * destruct r as [|n [|]]; try done. right. by exists n.
        * destruct r; [|cbn in Hl; lia]. rewrite app_nil_r in *. by left.
    - rewrite elem_of_list_In, in_concat. split.
      + intros (l & Hl & Hx). apply in_map_iff in Hl as (y & <- & Hy).
        apply elem_of_list_In, ls_elem in Hy; [|done]. apply elem_of_list_In, IH in Hx;
          [|destruct Hy as [[-> Hs]|(n & -> & Hp)]; [apply (tree_to_le (S k)); [done|lia]|by apply tree_to_child]].
        destruct Hx as (r & -> & Hr).
        destruct Hy as [[-> Hs]|(n & -> & Hp)].
        * destruct r as [|m r].
          -- exists []. split; [done|]. right. rewrite app_nil_r. split; [cbn; lia|done].
          -- exfalso. apply (Hh Hs). apply (present_up t p (m :: r)); [|done].
             destruct Hr as [[_ H]|[_ H]]; [done|by left].
        * exists (n :: r). rewrite <-app_assoc in *. cbn [app length] in *. split; [done|].
          destruct Hr as [[? ?]|[? ?]]; [left|right]; (split; [lia|done]).
      + intros (r & -> & Hr). destruct r as [|n r].
        * rewrite app_nil_r in *. destruct Hr as [[? _]|[_ Hs]]; [done|].
          exists (list_deep order k t p). split.
          -- apply in_map_iff. exists p. split; [done|]. apply elem_of_list_In, ls_elem; [done|]. by left.
          -- apply elem_of_list_In, IH; [apply (tree_to_le (S k)); [done|lia]|]. exists []. rewrite app_nil_r. split; [done|]. right. split; [cbn; lia|done].
        * exists (list_deep order k t (p ++ [n])). split.
          -- apply in_map_iff. exists (p ++ [n]). split; [done|]. apply elem_of_list_In, ls_elem; [done|].
             right. exists n. split; [done|]. apply present_child.
             assert (present t (p ++ n :: r)) as [[c H]|(m & g & c & H)] by (destruct Hr as [[_ ?]|[_ ?]]; [done|by left]).
             ++ by exists r, c.
             ++ rewrite <-app_assoc in H. by exists (r ++ m :: g), c.
          -- apply elem_of_list_In, IH; [by apply tree_to_child|]. exists r. rewrite <-app_assoc. split; [done|]. cbn [length app] in *.
             destruct Hr as [[? ?]|[? ?]]; [left|right]; (split; [lia|done]).
  Qed.

  Lemma concat_map_nodup {A B} (f : A -> list B) l :
    NoDup l -> (forall x, x ∈ l -> NoDup (f x)) -> (forall x y z, x ∈ l -> y ∈ l -> z ∈ f x -> z ∈ f y -> x = y) ->
    NoDup (concat (map f l)).
  Proof.
    induction 1 as [|x l Hx Hl IH]; intros Hf Hd; cbn; [constructor|].
    apply NoDup_app. split_and!.
    - apply Hf. set_solver.
    - intros z Hz Hz'. apply elem_of_list_In, in_concat in Hz' as (m & Hm & Hzm).
      apply in_map_iff in Hm as (y & <- & Hy). apply elem_of_list_In in Hy, Hzm.
      pose proof (Hd x y z ltac:(set_solver) ltac:(set_solver) Hz Hzm). by subst y.
    - apply IH; [set_solver|]. intros a b z Ha Hb. apply Hd; set_solver.
  Qed.

  Lemma list_deep_nodup depth t p : tree_to depth t p -> NoDup (list_deep order depth t p).
  Proof using Horder.
    revert p. induction depth as [|k IH]; intros p Ht; cbn [list_deep]; [apply ls_nodup|].
    assert (Hls : forall x, x ∈ ls order p t -> tree_to k t x).
    { intros x Hx. apply ls_elem in Hx as [[-> _]|(n & -> & _)]; [apply (tree_to_le (S k)); [done|lia]|by apply tree_to_child|].
      by apply (tree_to_here _ _ _ Ht). }
    apply concat_map_nodup; [apply ls_nodup|by intros x Hx; apply IH, Hls|].
    intros x y z Hx Hy Hzx Hzy.
    apply list_deep_elem in Hzx as (r & -> & _); [|by apply Hls].
    apply list_deep_elem in Hzy as (r' & E' & _); [|by apply Hls].
    unfold ls in Hx, Hy. destruct (t !! p) as [c|] eqn:E.
    { apply elem_of_list_singleton in Hx, Hy. by subst. }
    apply elem_of_list_In, in_map_iff in Hx as (n & <- & _), Hy as (m & <- & _).
    rewrite <-!app_assoc in E'. apply (inj (p ++.)) in E'. by injection E' as -> _.
  Qed.

  Lemma folders_elem t d x :
    x ∈ map (fun n => d ++ [n]) (List.filter (fun n => is_dir (d ++ [n]) t && negb (hidden n)) (children order d t)) <->
    exists a, x = d ++ [a] /\ ~ starts_with_dot a /\ directory t (d ++ [a]).
  Proof using Horder.
    rewrite elem_of_list_In, in_map_iff. split.
    - intros (a & <- & Ha). apply List.filter_In in Ha as [_ Hb].
      apply andb_true_iff in Hb as [H1 H2]. exists a. split_and!; [done| |by apply is_dir_iff].
      apply negb_true_iff in H2. rewrite <-hidden_iff, H2. done.
    - intros (a & -> & Hd & Hdir). exists a. split; [done|]. apply List.filter_In. split.
      + apply elem_of_list_In, children_elem. destruct Hdir as (n & f & c & H).
        rewrite <-app_assoc in H. by exists (n :: f), c.
      + apply andb_true_iff. split; [by apply is_dir_iff|]. apply negb_true_iff, not_true_is_false.
        by rewrite hidden_iff.
  Qed.
  Lemma folders_nodup t d :
    NoDup (map (fun n => d ++ [n]) (List.filter (fun n => is_dir (d ++ [n]) t && negb (hidden n)) (children order d t))).
  Proof using Horder.
    apply (NoDup_fmap_2_strong (fun n => d ++ [n])).
    - intros x y _ _ E. by apply (inj (d ++.)) in E; injection E.
    - apply NoDup_ListNoDup, List.NoDup_filter, NoDup_ListNoDup, children_nodup.
  Qed.

  Definition tree_root (n : nat) t d : Prop := forall a, ~ starts_with_dot a -> tree_to (n - 2) t (d ++ [a]).
  Lemma list_root_elem n t d x : tree_root n t d -> x ∈ list_root order n t d <-> listed n t d x.
  Proof using Horder.
    intros Ht. unfold list_root, listed. destruct n as [|[|k]].
    - split; [by intros ?%elem_of_nil|]. intros (a & r & _ & _ & _ & [[? _]|[? _]]); cbn in *; lia.
    - rewrite folders_elem. split.
      + intros (a & -> & Ha & Hd). exists a, []. split_and!; [done..|]. left. split; [done|by right].
      + intros (a & r & -> & Ha & Hd & [[Hl _]|[Hl _]]); [|cbn in Hl; lia].
        destruct r; [|done]. by exists a.
    - rewrite elem_of_list_In, in_concat. split.
      + intros (l & Hl & Hx). apply in_map_iff in Hl as (y & <- & Hy).
        apply elem_of_list_In, folders_elem in Hy as (a & -> & Ha & Hd).
        apply elem_of_list_In, list_deep_elem in Hx as (r & -> & Hr); [|pose proof (Ht a Ha) as Hta; cbn in Hta; by rewrite Nat.sub_0_r in Hta].
        exists a, r. rewrite <-app_assoc in Hr |- *. cbn [app length] in *. split_and!; [done..|].
        destruct Hr as [[? ?]|[? ?]]; [left|right]; (split; [lia|done]).
      + intros (a & r & -> & Ha & Hd & Hr). exists (list_deep order k t (d ++ [a])). split.
        * apply in_map_iff. exists (d ++ [a]). split; [done|]. apply elem_of_list_In, folders_elem. by exists a.
        * apply elem_of_list_In, list_deep_elem; [pose proof (Ht a Ha) as Hta; cbn in Hta; by rewrite Nat.sub_0_r in Hta|].
          exists r. rewrite <-app_assoc. cbn [app length] in *. split; [done|]. destruct Hr as [[? ?]|[? ?]]; [left|right]; (split; [lia|done]).
  Qed.

  Lemma list_root_nodup n t d : tree_root n t d -> NoDup (list_root order n t d).
  Proof using Horder.
    intros Ht. unfold list_root. destruct n as [|[|k]]; [constructor|apply folders_nodup|].
    assert (Hk : forall a, ~ starts_with_dot a -> tree_to k t (d ++ [a]))
      by (intros a Ha; pose proof (Ht a Ha) as Hta; cbn in Hta; by rewrite Nat.sub_0_r in Hta).
    apply concat_map_nodup; [apply folders_nodup| |].
    { intros x (a & -> & Ha & _)%folders_elem. by apply list_deep_nodup, Hk. }
    intros x y z Hx Hy Hzx Hzy.
    apply folders_elem in Hx as (n & -> & Hn & _), Hy as (m & -> & Hm & _).
    apply list_deep_elem in Hzx as (r & -> & _); [|by apply Hk].
    apply list_deep_elem in Hzy as (r' & E' & _); [|by apply Hk].
    rewrite <-!app_assoc in E'. apply (inj (d ++.)) in E'. by injection E' as -> _.
  Qed.

  (** *** The sorted listing *)
  Lemma keyed_spec (p : partitioning) (l : list path) keyed :
    traverse (fun q => do k <- p_parse p (path_str q); Ok (k, q)) l = Ok keyed ->
    map snd keyed = l /\ Forall (fun kq => p_parse p (path_str kq.2) = Ok kq.1) keyed.
  Proof.
    intros H. apply traverse_inv in H. induction H as [|q kq l keyed Hq _ [IH1 IH2]]; [by split|].
    cbn. destruct (p_parse p (path_str q)) as [k|] eqn:E; [|done]. cbn in Hq. injection Hq as <-.
    split; [by rewrite <-IH1|]. by constructor.
  Qed.

  Lemma scheme_order : strict_order scheme_lt.
  Proof. apply list_lt_order, pair_lt_order; [apply str_lt_order|apply Z_lt_order]. Qed.

  Lemma scheme_lt_rows ks a b : map fst a = ks -> map fst b = ks ->
    scheme_lt a b = true <-> row_lt (map snd a) (map snd b).
  Proof.
    revert a b. induction ks as [|k ks IH]; intros a b Ha Hb.
    - destruct a, b; try done. split; [done|]. intros (p & x & y & s & u & H & _). by destruct p.
    - destruct a as [|[k1 x] a]; [done|]. destruct b as [|[k2 y] b]; [done|].
      cbn in Ha, Hb. injection Ha as -> Ha. injection Hb as -> Hb. specialize (IH a b Ha Hb).
      unfold scheme_lt in *. cbn [list_lt map snd].
      assert (Hp : forall u v : Z, pair_lt str_lt Z.ltb (k, u) (k, v) = (u <? v)%Z).
      { intros u v. unfold pair_lt. cbn. by rewrite (so_irrefl _ str_lt_order). }
      rewrite !Hp. destruct (x <? y)%Z eqn:E1.
      { split; [|done]. intros _. exists [], x, y, (map snd a), (map snd b). split_and!; [done..|lia]. }
      destruct (y <? x)%Z eqn:E2.
      { split; [done|]. intros (p & u & v & s & w & H1 & H2 & H3). destruct p as [|z p].
        - injection H1 as -> _. injection H2 as -> _. lia.
        - injection H1 as -> _. injection H2 as -> _. lia. }
      assert (x = y) as -> by lia. rewrite IH. split.
      + intros (p & u & v & s & w & H1 & H2 & H3). exists (y :: p), u, v, s, w. split_and!; [cbn; f_equal; exact H1|cbn; f_equal; exact H2|done].
      + intros (p & u & v & s & w & H1 & H2 & H3). destruct p as [|z p].
        * injection H1 as -> _. injection H2 as -> _. lia.
        * injection H1 as _ H1. injection H2 as _ H2. exists p, u, v, s, w. done.
  Qed.
End listing.

(** ** Paths of the partitions *)
Lemma path_str_app a b : path_str (a ++ b) = path_str a ++ path_str b.
Proof. unfold path_str. by rewrite map_app, concat_app. Qed.

Lemma path_str_join parts : parts <> [] -> path_str parts = lit "/" ++ join_with (lit "/") parts.
Proof.
  intros H. destruct parts as [|x parts]; [done|]. clear H. revert x.
  induction parts as [|y parts IH]; intros x; [by cbn; rewrite !app_nil_r|].
  change (path_str (x :: y :: parts)) with ((lit "/" ++ x) ++ path_str (y :: parts)).
  rewrite IH. cbn [join_with]. by rewrite <-!app_assoc.
Qed.

Lemma key_dirs_length p values : length values = length (p_keys p) -> length (key_dirs p values) = length (p_keys p).
Proof. intros H. unfold key_dirs. rewrite map_length, zip_with_length. lia. Qed.

Lemma path_no_eq d : plain_path d -> "="%char ∉ path_str d.
Proof.
  intros H Hin. unfold path_str in Hin.
  apply elem_of_list_In, in_concat in Hin as (c & Hc & Hin). apply in_map_iff in Hc as (c' & <- & Hc').
  apply elem_of_list_In in Hin, Hc'. unfold plain_path in H. rewrite Forall_forall in H.
  apply elem_of_app in Hin as [Hin|Hin]; [|by apply (H c')].
  apply elem_of_list_singleton in Hin. done.
Qed.

Lemma plain_no_eq p : plain_keys p -> Forall no_eq (p_keys p).
Proof. intros H. eapply Forall_impl; [apply (plain_chars _ H)|]. by intros k (? & _). Qed.

Lemma parse_key_dirs p d values : plain_keys p -> plain_path d -> length values = length (p_keys p) ->
  p_parse p (path_str (d ++ key_dirs p values)) = Ok (zip (p_keys p) values).
Proof.
  intros Hp Hd Hl. rewrite path_str_app, (path_str_join (key_dirs p values)).
  - change (join_with (lit "/") (key_dirs p values)) with (p_join p (zip (p_keys p) values) (lit "/")).
    assert (Hr : no_eq (path_str d ++ lit "/")).
    { unfold no_eq. rewrite not_elem_of_app. split; [by apply path_no_eq|]. cbn. set_solver. }
    pose proof (C03_parse_join p (path_str d ++ lit "/") values (plain_some _ Hp) (plain_no_eq _ Hp) Hr Hl) as H.
    rewrite <-app_assoc in H. exact H.
  - intros E. apply (f_equal length) in E. rewrite key_dirs_length in E by done.
    destruct (p_keys p) eqn:Ek; [by apply (plain_some _ Hp)|done].
Qed.

Lemma p_dir_inj p k v1 v2 : p_dir p (k, v1) = p_dir p (k, v2) -> v1 = v2.
Proof.
  intros E. rewrite !p_dir_kvs in E. unfold kvs in E. cbn in E.
  apply (inj (k ++.)) in E. injection E as E. destruct p.
  - assert (Ok v1 = Ok v2) as [= ->] by (rewrite <-!int_of_show; by f_equal). done.
  - assert (Ok v1 = Ok v2) as [= ->] by (rewrite <-!int_of_show_02d; by f_equal). done.
Qed.

Lemma key_dirs_inj p v1 v2 : length v1 = length (p_keys p) -> length v2 = length (p_keys p) ->
  key_dirs p v1 = key_dirs p v2 -> v1 = v2.
Proof.
  unfold key_dirs. generalize (p_keys p). intros ks. revert v1 v2.
  induction ks as [|k ks IH]; intros [|a v1] [|b v2] H1 H2 E; try done.
  cbn in E. injection E as Ea Ev. apply p_dir_inj in Ea as ->. f_equal. apply IH; [by injection H1|by injection H2|done].
Qed.

(** Two key directories are apart unless they are the same. *)
Lemma key_dirs_prefix p d v1 v2 f g : length v1 = length (p_keys p) -> length v2 = length (p_keys p) ->
  d ++ key_dirs p v1 ++ f = d ++ key_dirs p v2 ++ g -> v1 = v2 /\ f = g.
Proof.
  intros H1 H2 E. apply (inj (d ++.)) in E.
  apply app_inj_1 in E as [E ->]; [|by rewrite !key_dirs_length].
  split; [|done]. by apply (key_dirs_inj p).
Qed.

Lemma key_dirs_head p values : plain_keys p -> length values = length (p_keys p) ->
  exists a r, key_dirs p values = a :: r /\ ~ starts_with_dot a.
Proof.
  intros Hp Hl. destruct Hp as [H1 _ H2 _]. unfold key_dirs.
  destruct (p_keys p) as [|k ks]; [done|]. destruct values as [|v vs]; [done|]. cbn.
  do 2 eexists. split; [done|]. inversion H2 as [|?? (_ & _ & Hk) _]; subst.
  intros [s E]. apply Hk. rewrite p_dir_kvs in E. unfold kvs in E. cbn in E.
  destruct k as [|c k]; [done|]. injection E as -> _. by eexists.
Qed.

(** ** Removing the base directory *)
Lemma remove_fuel_none fuel old s :
  (forall a b, s = a ++ b -> strip_prefix old b = None) -> remove_fuel fuel old s = s.
Proof.
  revert s. induction fuel as [|f IH]; intros [|c s] H; try done.
  cbn [remove_fuel]. rewrite (H [] (c :: s)) by done. f_equal. apply IH.
  intros a b ->. by apply (H (c :: a)).
Qed.

Lemma strip_prefix_app old s : strip_prefix old (old ++ s) = Some s.
Proof. induction old as [|c old IH]; [done|]. cbn. by rewrite decide_True. Qed.

Lemma str_remove_app old s : old <> [] ->
  (forall a b, s = a ++ b -> strip_prefix old b = None) -> str_remove old (old ++ s) = s.
Proof.
  intros Hne H. pose proof (strip_prefix_app old s) as Hp. destruct old as [|c o]; [done|].
  unfold str_remove. cbn [app length remove_fuel] in *. rewrite Hp. by apply remove_fuel_none.
Qed.

(** The base directory is found again in a path of partition only if it is a
    prefix of the name of a key. *)
Lemma no_second_base p d values : plain_keys p -> plain_path d -> d <> [] ->
  (forall k, k ∈ p_keys p -> strip_prefix (path_str d) (lit "/" ++ k) = None) ->
  forall a b, path_str (key_dirs p values) = a ++ b -> strip_prefix (path_str d) b = None.
Proof.
  intros Hp Hd Hne Hk. pose proof (plain_chars _ Hp) as Hc. unfold key_dirs. clear Hp.
  pose proof (path_no_eq d Hd) as Heq.
  assert (exists o, path_str d = "/"%char :: o) as [o Eo] by (destruct d; [done|by eexists]).
  revert values. induction (p_keys p) as [|k ks IH]; intros values a b E.
  - cbn in E. destruct b; [|by destruct a]. rewrite Eo. done.
  - destruct values as [|v vs]; [cbn in E; destruct b; [rewrite Eo; done|by destruct a]|].
    inversion Hc as [|?? (Hk1 & Hk2 & _) Hc']; subst.
    cbn [zip zip_with map] in E. change (zip_with pair ks vs) with (zip ks vs) in E.
    assert (Hu : forall a b, path_str (map (p_dir p) (zip ks vs)) = a ++ b -> strip_prefix (path_str d) b = None).
    { intros a' b' E'. eapply IH; [|done|exact E']. intros k' Hk'. apply Hk. set_solver. }
    change (path_str (p_dir p (k, v) :: ?l)) with ((lit "/" ++ p_dir p (k, v)) ++ path_str l) in E.
    set (u := path_str (map (p_dir p) (zip ks vs))) in *.
    rewrite p_dir_kvs in E. unfold kvs in E. cbn [fst snd] in E.
    set (num := match p with Sequence _ _ => show_Z v | Date _ _ _ => show_02d v end) in E.
    assert (Hn : Forall num_char num) by (unfold num; destruct p; [apply show_Z_chars|apply show_02d_chars]).
    destruct a as [|c a].
    + cbn [app] in E. rewrite <-E.
      destruct (strip_prefix (path_str d) _) as [r|] eqn:Er; [exfalso|done].
      apply strip_prefix_spec in Er.
      assert (Hpre : exists w, lit "/" ++ k = path_str d ++ w).
      { assert (Hs : lit "/" ++ k ++ (lit "=" ++ num ++ u) = path_str d ++ r) by (rewrite <-Er, <-!app_assoc; done).
        clear -Hs Heq. revert Hs Heq. generalize (path_str d) as x. intros x Hs Heq.
        rewrite app_assoc in Hs. revert x Hs Heq. induction (lit "/" ++ k) as [|c s IH]; intros x Hs Heq.
        - destruct x as [|c x]; [by exists []|]. cbn in Hs. injection Hs as <- _. exfalso. apply Heq. left.
        - destruct x as [|c' x]; [by eexists|]. cbn in Hs. injection Hs as <- Hs.
          apply IH in Hs as [w ->]; [by exists w|by apply not_elem_of_cons in Heq as [_ ?]]. }
      destruct Hpre as [w Hw]. specialize (Hk k ltac:(set_solver)). by rewrite Hw, strip_prefix_app in Hk.
    + cbn in E. injection E as _ E. rewrite <-!app_assoc in E. cbn [app] in E.
      assert (Hs : forall x a b, Forall (fun c => c <> "/"%char) x -> x ++ u = a ++ b -> strip_prefix (path_str d) b = None).
      { clear -Hu Eo. intros x. induction x as [|c x IH]; intros a b Hx E; [by apply (Hu a)|].
        inversion Hx; subst. destruct a as [|c' a]; [|injection E as _ E; by apply (IH a)].
        cbn in E. rewrite <-E, Eo. cbn. by rewrite decide_False by congruence. }
      apply (Hs (k ++ "="%char :: num) a b); [|by rewrite <-app_assoc].
      apply Forall_app. split; [|constructor; [done|]].
      * apply Forall_forall. by intros c' Hc'' ->.
      * eapply Forall_impl; [exact Hn|]. intros c' Hc''. apply num_char_neq in Hc''. tauto.
Qed.

Lemma str_remove_base p d values : plain_keys p -> plain_path d -> d <> [] ->
  (forall k, k ∈ p_keys p -> strip_prefix (path_str d) (lit "/" ++ k) = None) ->
  str_remove (path_str d) (path_str (d ++ key_dirs p values)) = path_str (key_dirs p values).
Proof.
  intros Hp Hd Hne Hk. pose proof (no_second_base p d values Hp Hd Hne Hk) as Hn.
  rewrite path_str_app. apply str_remove_app; [|done]. by destruct d.
Qed.

(** ** Listing a well-formed collection *)
Section laid_out.
  Context {C : Type} (order : list str -> list str) (Horder : forall l, order l ≡ₚ l).
  Implicit Types (t : fs C) (d q : path).

  Lemma laid_out_tree p d t : plain_keys p -> laid_out p d t -> tree_root (length (p_keys p)) t d.
  Proof.
    intros Hp H a Ha r Hr [c Hc]. rewrite <-app_assoc in Hc |- *.
    destruct (H _ _ Hc) as [(n & E & Hn)|[(n & f & E & Hn)|(v & n & f & Hv & E)]].
    - injection E as -> ->. done.
    - by injection E as <- _.
    - apply (f_equal length) in E. rewrite (app_length (key_dirs p v)), key_dirs_length in E by done. cbn in E.
      pose proof (plain_some _ Hp). destruct (p_keys p); [done|]. cbn in *. lia.
  Qed.

  Lemma laid_out_listed p d t q : plain_keys p -> laid_out p d t ->
    listed (length (p_keys p)) t d q <->
    exists values, length values = length (p_keys p) /\ q = d ++ key_dirs p values /\ directory t q.
  Proof.
    intros Hp H. split.
    - intros (a & r & -> & Ha & Hd & Hr).
      assert (Hex : exists g c, t !! (d ++ a :: r ++ g) = Some c /\ (length (a :: r) = length (p_keys p) \/ length (a :: r) < length (p_keys p))
        /\ (r = [] -> g <> [])).
      { destruct r as [|b r].
        - destruct Hd as (n & f & c & Hc). exists (n :: f), c. rewrite <-app_assoc in Hc.
          split_and!; [done| |done]. destruct Hr as [[? _]|[? _]]; auto.
        - destruct Hr as [[Hl [[c Hc]|(n & f & c & Hc)]]|[Hl [c Hc]]].
          + exists [], c. rewrite app_nil_r. split_and!; [done|by left|done].
          + exists (n :: f), c. rewrite <-app_assoc in Hc. split_and!; [done|by left|done].
          + exists [], c. rewrite app_nil_r. split_and!; [done|by right|done]. }
      destruct Hex as (g & c & Hc & Hl & Hg).
      destruct (H _ _ Hc) as [(n & E & Hn)|[(n & f & E & Hn)|(v & n & f & Hv & E)]].
      + injection E as _ E. apply app_nil in E as [-> ->]. by destruct Hg.
      + by injection E as <- _.
      + pose proof (key_dirs_length p v Hv) as Hkl.
        destruct Hr as [[Hr Hpr]|[Hr [c' Hc']]].
        * change (a :: r ++ g) with ((a :: r) ++ g) in E.
          apply app_inj_1 in E as [E ->]; [|lia]. exists v. split_and!; [done|by rewrite E|].
          exists n, f, c. rewrite <-Hc. f_equal. rewrite <-app_assoc. done.
        * destruct (H _ _ Hc') as [(n' & E' & Hn')|[(n' & f' & E' & Hn')|(v' & n' & f' & Hv' & E')]].
          -- injection E' as -> ->. done.
          -- by injection E' as <- _.
          -- apply (f_equal length) in E'. rewrite (app_length (key_dirs p v')), key_dirs_length in E' by done. cbn in E', Hr. lia.
    - intros (v & Hv & -> & Hd). destruct (key_dirs_head p v Hp Hv) as (a & r & E & Ha).
      exists a, r. rewrite E in Hd |- *. split_and!; [done|done| |].
      + destruct Hd as (n & f & c & Hc). rewrite <-app_assoc in Hc. cbn in Hc.
        destruct (r ++ n :: f) as [|m g] eqn:Eg; [by destruct r|].
        exists m, g, c. rewrite <-app_assoc. done.
      + left. rewrite <-E in Hd |- *. rewrite key_dirs_length by done. split; [done|]. by right.
  Qed.

  (** The list of the keys found. *)
  Lemma list_partitions_laid_out p d t : plain_keys p -> plain_path d -> laid_out p d t ->
    exists vss, list_partitions order p t d = Ok (map (fun v => d ++ key_dirs p v) vss) /\
      StronglySorted row_lt vss /\
      forall v, v ∈ vss <-> length v = length (p_keys p) /\ directory t (d ++ key_dirs p v).
  Proof using Horder.
    intros Hp Hd Ht.
    set (l := list_root order (p_len p) t d).
    assert (Hl : forall q, q ∈ l <-> exists v, length v = length (p_keys p) /\ q = d ++ key_dirs p v /\ directory t q).
    { intros q. unfold l. rewrite (plain_len _ Hp), list_root_elem; [by apply laid_out_listed|done|by apply laid_out_tree]. }
    assert (Hnd : NoDup l).
    { unfold l. rewrite (plain_len _ Hp). apply list_root_nodup; [done|by apply laid_out_tree]. }
    assert (Hv : exists ws, l = map (fun v => d ++ key_dirs p v) ws /\ Forall (fun v => length v = length (p_keys p)) ws).
    { assert (Hl' : Forall (fun q => exists v, length v = length (p_keys p) /\ q = d ++ key_dirs p v) l).
      { apply Forall_forall. intros q (v & ? & ? & _)%Hl. by exists v. }
      clear -Hl'. induction Hl' as [|q l (v & Hv & ->) _ (ws & -> & Hws)]; [by exists []|].
      exists (v :: ws). split; [done|by constructor]. }
    destruct Hv as (ws & El & Hws).
    unfold list_partitions. fold l. rewrite El.
    assert (Ht' : traverse (fun q => do k <- p_parse p (path_str q); Ok (k, q)) (map (fun v => d ++ key_dirs p v) ws)
      = Ok (map (fun v => (zip (p_keys p) v, d ++ key_dirs p v)) ws)).
    { clear -Hp Hd Hws. induction Hws as [|v ws Hv _ IH]; [done|]. cbn [map traverse].
      rewrite parse_key_dirs by done. cbn [rbind]. by rewrite IH. }
    rewrite Ht'. cbn [rbind].
    set (vss := sorted_by scheme_lt (zip (p_keys p)) ws).
    assert (Hfst : forall v : list Z, length v = length (p_keys p) -> (map fst (zip (p_keys p) v) : list str) = p_keys p).
    { intros v Hv. apply (fst_zip (p_keys p) v). lia. }
    assert (Hsnd : forall v : list Z, length v = length (p_keys p) -> map snd (zip (p_keys p) v) = v).
    { intros v Hv. apply (snd_zip (p_keys p) v). lia. }
    assert (Hinj : forall x y, x ∈ ws -> y ∈ ws -> zip (p_keys p) x = zip (p_keys p) y -> x = y).
    { rewrite Forall_forall in Hws. intros x y Hx Hy E. by rewrite <-(Hsnd x), <-(Hsnd y), E by auto. }
    exists vss. split_and!.
    - f_equal.
      assert (Es : sorted_by scheme_lt fst (map (fun v => (zip (p_keys p) v, d ++ key_dirs p v)) ws)
        = map (fun v => (zip (p_keys p) v, d ++ key_dirs p v)) vss).
      { apply sorted_unique_by with (lt := scheme_lt) (f := @fst (list (str * Z)) path); [apply scheme_order|apply sorted_by_sorted, scheme_order| | |].
        - assert (Hs : StronglySorted (key_le scheme_lt (zip (p_keys p))) vss) by apply sorted_by_sorted, scheme_order.
          clear -Hs. induction Hs as [|v vss Hs IH Hv]; cbn; constructor; [done|].
          apply Forall_forall. intros x Hx. apply elem_of_list_In, in_map_iff in Hx as (w & <- & Hw).
          rewrite Forall_forall in Hv. apply (Hv w). by apply elem_of_list_In.
        - rewrite sorted_by_perm. unfold vss. apply (fmap_Permutation (fun v => (zip (p_keys p) v, d ++ key_dirs p v))).
          by rewrite sorted_by_perm.
        - intros x y. rewrite !sorted_by_perm, !elem_of_list_In, !in_map_iff.
          intros (v & <- & Hv) (w & <- & Hw) E. cbn in E. f_equal; [done|].
          rewrite (Hinj v w); [done|by apply elem_of_list_In|by apply elem_of_list_In|done]. }
      rewrite Es, map_map. done.
    - assert (Hs : StronglySorted (key_le scheme_lt (zip (p_keys p))) vss) by apply sorted_by_sorted, scheme_order.
      assert (Hn : NoDup vss).
      { unfold vss. rewrite sorted_by_perm. rewrite El in Hnd. by apply NoDup_fmap_1 in Hnd. }
      assert (Hall : Forall (fun v => length v = length (p_keys p)) vss) by (unfold vss; by rewrite sorted_by_perm).
      clear -Hs Hn Hall Hfst Hsnd. induction Hs as [|v vss Hs IH Hv]; [constructor|].
      apply NoDup_cons in Hn as [Hn1 Hn2]. inversion Hall as [|?? Hlv Hall']; subst.
      constructor; [by apply IH|]. apply Forall_forall. intros w Hw.
      rewrite Forall_forall in Hv, Hall'. specialize (Hv w Hw). unfold key_le in Hv.
      assert (Hlw : length w = length (p_keys p)) by (by apply Hall').
      destruct (scheme_lt (zip (p_keys p) v) (zip (p_keys p) w)) eqn:E.
      + apply (scheme_lt_rows (p_keys p)) in E; [|by apply Hfst|by apply Hfst].
        by rewrite !Hsnd in E.
      + exfalso. apply Hn1.
        assert (Ez : zip (p_keys p) v = zip (p_keys p) w) by (by apply (so_total _ scheme_order)).
        by rewrite <-(Hsnd v), Ez, (Hsnd w).
    - intros v. unfold vss. rewrite sorted_by_perm. split.
      + intros Hv. assert (Hq : d ++ key_dirs p v ∈ l) by (rewrite El; apply elem_of_list_In, in_map_iff; exists v; split; [done|by apply elem_of_list_In]).
        apply Hl in Hq as (w & Hw & _ & Hdir). rewrite Forall_forall in Hws. split; [by apply Hws|done].
      + intros [Hv Hdir]. assert (Hq : d ++ key_dirs p v ∈ l) by (apply Hl; by exists v).
        rewrite El in Hq. apply elem_of_list_In, in_map_iff in Hq as (w & E & Hw). apply elem_of_list_In in Hw.
        rewrite Forall_forall in Hws. destruct (key_dirs_prefix p d w v [] []) as [-> _]; [by apply Hws|done| |done].
        by rewrite !app_nil_r.
  Qed.
End laid_out.

(** A strictly sorted list is determined by its elements. *)
Lemma row_lt_irrefl a : ~ row_lt a a.
Proof.
  intros (p & x & y & s & u & -> & E & H). apply (inj (p ++.)) in E. injection E as -> ->. lia.
Qed.
Lemma row_lt_trans a b c : length a = length b -> length b = length c -> row_lt a b -> row_lt b c -> row_lt a c.
Proof.
  intros L1 L2. set (ks := repeat (lit "k") (length a)).
  assert (H : forall v : list Z, length v = length a -> map fst (zip ks v) = ks /\ map snd (zip ks v) = v).
  { intros v Hv. split; [apply (fst_zip ks v)|apply (snd_zip ks v)]; unfold ks; rewrite repeat_length; lia. }
  destruct (H a eq_refl) as [A1 A2], (H b ltac:(lia)) as [B1 B2], (H c ltac:(lia)) as [C1 C2].
  intros H1 H2. rewrite <-A2, <-B2 in H1. rewrite <-B2, <-C2 in H2.
  apply (scheme_lt_rows ks) in H1, H2; try done.
  rewrite <-A2, <-C2. apply (scheme_lt_rows ks); try done. by apply (so_trans _ scheme_order) with (zip ks b).
Qed.

Lemma sorted_rows_unique (n : nat) l m : StronglySorted row_lt l -> StronglySorted row_lt m ->
  (forall v, v ∈ l -> length v = n) -> (forall v, v ∈ l <-> v ∈ m) -> l = m.
Proof.
  revert m. induction l as [|a l IH]; intros m Sl Sm Hn H.
  - destruct m as [|b m]; [done|]. exfalso. assert (b ∈ @nil (list Z)) as ?%elem_of_nil by (apply H; left). done.
  - inversion Sl as [|?? Sl' Ha]; subst. destruct m as [|b m].
    { exfalso. assert (a ∈ @nil (list Z)) as ?%elem_of_nil by (apply H; left). done. }
    inversion Sm as [|?? Sm' Hb]; subst. rewrite Forall_forall in Ha, Hb.
    assert (a = b) as <-.
    { assert (Ha' : a ∈ b :: m) by (apply H; left). apply elem_of_cons in Ha' as [?|Ha']; [done|].
      assert (Hb' : b ∈ a :: l) by (apply H; left). apply elem_of_cons in Hb' as [?|Hb']; [done|].
      exfalso. apply (row_lt_irrefl a). apply (row_lt_trans a b a); [| |by apply Ha|by apply Hb].
      - rewrite !Hn; [done| |]; set_solver.
      - rewrite !Hn; [done| |]; set_solver. }
    f_equal. apply IH; [done|done|set_solver|]. intros v. split; intros Hv.
    + assert (Hv' : v ∈ a :: m) by (apply H; by right). apply elem_of_cons in Hv' as [->|?]; [|done].
      exfalso. by apply (row_lt_irrefl a), Ha.
    + assert (Hv' : v ∈ a :: l) by (apply H; by right). apply elem_of_cons in Hv' as [->|?]; [|done].
      exfalso. by apply (row_lt_irrefl a), Hb.
Qed.

(** ** Filtering *)
Lemma filter_res_keeps {A} (f : A -> res bool) (P : A -> Prop) l :
  (forall x, x ∈ l -> exists b, f x = Ok b /\ (b = true <-> P x)) ->
  exists l', filter_res f l = Ok l' /\ keeps P l l'.
Proof.
  induction l as [|x l IH]; intros H; [exists []; split; [done|constructor]|].
  destruct (H x ltac:(left)) as (b & Hb & Hp). destruct IH as (l' & Hl & Hk); [intros; apply H; by right|].
  cbn. rewrite Hb, Hl. cbn. exists (if b then x :: l' else l'). split; [done|].
  destruct b; constructor; try done; [by apply Hp|]. intros ?%Hp. done.
Qed.

Lemma filter_res_raise {A} (f : A -> res bool) l e :
  (forall x, x ∈ l -> f x = Raise e) -> l <> [] -> filter_res f l = Raise e.
Proof. destruct l as [|x l]; intros H Hl; [done|]. cbn. by rewrite (H x) by left. Qed.
