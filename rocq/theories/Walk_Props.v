(** * C76: walking through a directory tree *)
From Verif Require Import Py Order FS_Model FS_Proofs Tree_Model Tree_Spec Tree_Proofs.

Section C76.
Context {C : Type} (order : list path -> list path) (Horder : forall l, order l ≡ₚ l) (sort : bool).
Implicit Types (t : disk C) (p q d : path).

  Definition entry t (e : path * list path * list str) : Prop :=
    let '(d, dirs, files) := e in
    NoDup dirs /\ (forall q, q ∈ dirs <-> exists n, q = d ++ [n] /\ t !! q = Some Dir) /\
    NoDup files /\ (forall n, n ∈ files <-> exists c, t !! (d ++ [n]) = Some (File c)) /\
    (sort = true -> StronglySorted (fun a b => str_lt a b = true) files).

  Lemma list_lt_prefix {A} (lt : A -> A -> bool) (H : strict_order lt) (a b c : list A) : list_lt lt (a ++ b) (a ++ c) = list_lt lt b c.
  Proof using. induction a as [|x a IH]; [done|]. cbn. by rewrite (so_irrefl _ H). Qed.
  Lemma path_string_app p q : path_string (p ++ q) = path_string p ++ path_string q.
  Proof using. unfold path_string. by rewrite map_app, concat_app. Qed.
  Lemma path_string_lt p n m : str_lt (path_string (p ++ [n])) (path_string (p ++ [m])) = str_lt n m.
  Proof using.
    rewrite !path_string_app. unfold str_lt. rewrite list_lt_prefix by apply ascii_lt_order. unfold path_string. cbn [map concat]. rewrite !app_nil_r.
    apply list_lt_prefix, ascii_lt_order.
  Qed.
  Lemma paths_lt_snoc p n m : list_lt str_lt (p ++ [n]) (p ++ [m]) = str_lt n m.
  Proof using. rewrite list_lt_prefix by apply str_lt_order. cbn. destruct (str_lt n m); [done|]. by destruct (str_lt m n). Qed.

  (** The directories of a walk. *)
  Definition walked (w : list (path * list path * list str)) : list path := map (fun e => e.1.1) w.

  Lemma sorted_strict {A B} (lt : B -> B -> bool) (f : A -> B) (l : list A) : strict_order lt -> NoDup l ->
    (forall x y, x ∈ l -> y ∈ l -> f x = f y -> x = y) -> StronglySorted (key_le lt f) l -> StronglySorted (fun a b => lt (f a) (f b) = true) l.
  Proof using.
    intros Ho Hnd Hinj Hs. induction Hs as [|x l Hl IH Hx]; [constructor|]. inversion Hnd as [|? ? N Hnd']; subst. constructor.
    - apply IH; [done|]. intros a b Ha Hb. apply Hinj; by right.
    - apply Forall_forall. intros y Hy. rewrite Forall_forall in Hx. specialize (Hx y Hy). unfold key_le in Hx.
      destruct (lt (f x) (f y)) eqn:E; [done|]. assert (x = y) as ->; [|done]. apply Hinj; [left|by right|]. by apply (so_total _ Ho).
  Qed.

  Section one.
    Context (t : disk C) (p : path) (Hw : well_formed t).
    Definition subdirs : list path :=
      let l := List.filter (is_dir t) (children order t p) in if sort then sorted_by str_lt path_string l else l.
    Definition names : list str :=
      let l := map basename (List.filter (fun q => negb (is_dir t q)) (children order t p)) in if sort then sorted_by str_lt id l else l.
    Lemma subdirs_perm : subdirs ≡ₚ List.filter (is_dir t) (children order t p).
    Proof using. unfold subdirs. destruct sort; [apply sorted_by_perm|done]. Qed.
    Lemma names_perm : names ≡ₚ map basename (List.filter (fun q => negb (is_dir t q)) (children order t p)).
    Proof using. unfold names. destruct sort; [apply sorted_by_perm|done]. Qed.
    Lemma filter_children f q : q ∈ List.filter f (children order t p) <-> f q = true /\ is_Some (t !! q) /\ exists n, q = p ++ [n].
    Proof using Hw Horder. rewrite elem_of_list_In, List.filter_In, <-elem_of_list_In, (children_elem order Horder) by apply Hw. naive_solver. Qed.
    Lemma filter_nodup f : NoDup (List.filter f (children order t p)).
    Proof using Horder. apply NoDup_ListNoDup, List.NoDup_filter, NoDup_ListNoDup. by apply children_nodup. Qed.
    Lemma subdirs_elem q : q ∈ subdirs <-> exists n, q = p ++ [n] /\ t !! q = Some Dir.
    Proof using Hw Horder.
      rewrite subdirs_perm, filter_children. split.
      - intros (H1 & H2 & n & ->). exists n. split; [done|]. apply is_dir_at in H1. rewrite at_path_ne in H1; [done|by destruct p as [|? ?]].
      - intros (n & -> & H). split; [|split; [rewrite H; by eexists|by exists n]]. apply is_dir_at. rewrite at_path_ne; [done|by destruct p as [|? ?]].
    Qed.
    Lemma subdirs_nodup : NoDup subdirs.
    Proof using Horder. rewrite subdirs_perm. apply filter_nodup. Qed.
    Lemma names_elem n : n ∈ names <-> exists c, t !! (p ++ [n]) = Some (File c).
    Proof using Hw Horder.
      rewrite names_perm. change (map ?f ?l) with (f <$> l). rewrite elem_of_list_fmap. split.
      - intros (q & -> & Hq). apply filter_children in Hq as (H1 & [x Hx] & m & ->). rewrite basename_snoc. apply negb_true_iff in H1.
        destruct x as [|c]; [|by exists c]. exfalso. rewrite (proj2 (is_dir_at t (p ++ [m]))) in H1; [done|]. rewrite at_path_ne; [done|by destruct p as [|? ?]].
      - intros [c Hc]. exists (p ++ [n]). rewrite basename_snoc. split; [done|]. apply filter_children. split; [|split; [rewrite Hc; by eexists|by exists n]].
        apply negb_true_iff. destruct (is_dir t (p ++ [n])) eqn:E; [|done]. exfalso. apply is_dir_at in E. rewrite at_path_ne in E; [congruence|by destruct p as [|? ?]].
    Qed.
    Lemma names_nodup : NoDup names.
    Proof using Hw Horder.
      rewrite names_perm. assert (H : Forall (fun q => exists n, q = p ++ [n]) (List.filter (fun q => negb (is_dir t q)) (children order t p))).
      { apply Forall_forall. intros q Hq. by apply filter_children in Hq as (_ & _ & ?). }
      pose proof (filter_nodup (fun q => negb (is_dir t q))) as Hn. revert Hn. induction H as [|q l [n ->] Hl IH]; intros Hn; [constructor|]. inversion Hn as [|? ? N Hn']; subst.
      cbn [map]. constructor; [|by apply IH]. rewrite basename_snoc. change (map ?f ?l) with (f <$> l). rewrite elem_of_list_fmap. intros (q & E & Hq).
      rewrite Forall_forall in Hl. destruct (Hl q Hq) as [m ->]. rewrite basename_snoc in E. by subst m.
    Qed.
    Lemma subdirs_sorted : sort = true -> StronglySorted (fun a b => list_lt str_lt a b = true) subdirs.
    Proof using Hw Horder.
      intros Es. pose proof subdirs_nodup as Hn. pose proof subdirs_elem as He. unfold subdirs in *. rewrite Es in *.
      set (l := sorted_by _ _ _) in *. assert (Hs : StronglySorted (key_le str_lt path_string) l) by apply sorted_by_sorted, str_lt_order.
      apply sorted_strict in Hs; [|apply str_lt_order|done|].
      - clear Es. assert (Hall : Forall (fun q => exists n, q = p ++ [n]) l) by (apply Forall_forall; intros q Hq; apply He in Hq as (n & -> & _); by exists n).
        clear He Hn. clearbody l. induction Hs as [|x l Hl IH Hx]; [constructor|]. inversion Hall as [|? ? [n ->] Hall']; subst. constructor; [by apply IH|].
        apply Forall_forall. intros y Hy. rewrite Forall_forall in Hx, Hall'. specialize (Hx y Hy). destruct (Hall' y Hy) as [m ->]. cbv beta in Hx.
        rewrite path_string_lt in Hx. by rewrite paths_lt_snoc.
      - intros x y Hx Hy E. apply He in Hx as (n & -> & _), Hy as (m & -> & _). f_equal. f_equal. apply (so_total _ str_lt_order); rewrite <-(path_string_lt p), E; apply (so_irrefl _ str_lt_order).
    Qed.
    Lemma entry_one : entry t (p, subdirs, names).
    Proof using Hw Horder.
      split; [apply subdirs_nodup|]. split; [apply subdirs_elem|]. split; [apply names_nodup|]. split; [apply names_elem|].
      intros Es. pose proof names_nodup as Hn. unfold names in *. rewrite Es in *. apply (sorted_strict str_lt id); [apply str_lt_order|done|done|]. apply sorted_by_sorted, str_lt_order.
    Qed.
    Lemma walk_unfold n : is_dir t p = true -> fs_walk order sort (S n) t p = (p, subdirs, names) :: concat (map (fs_walk order sort n t) subdirs).
    Proof using. intros Hp. cbn [fs_walk]. unfold ls. by rewrite Hp. Qed.
  End one.

  Lemma StronglySorted_app {A} (R : A -> A -> Prop) l m : (forall x y, x ∈ l -> y ∈ m -> R x y) -> StronglySorted R l -> StronglySorted R m -> StronglySorted R (l ++ m).
  Proof using.
    intros H Hl Hm. induction Hl as [|x l Hl IH Hx]; [done|]. cbn [app]. constructor.
    - apply IH. intros a b Ha Hb. apply H; [by right|done].
    - apply Forall_app. split; [done|]. apply Forall_forall. intros y Hy. apply H; [left|done].
  Qed.
  Lemma sub_under p n m r r' : p ++ [n] ++ r = p ++ [m] ++ r' -> n = m.
  Proof using. intros E. apply app_inv_head in E. by injection E. Qed.

  Lemma walk_all fuel t p : well_formed t -> is_dir t p = true -> (forall r, is_Some (t !! (p ++ r)) -> length r < fuel) -> 0 < fuel ->
    Forall (entry t) (fs_walk order sort fuel t p) /\ NoDup (walked (fs_walk order sort fuel t p)) /\
    (forall d, d ∈ walked (fs_walk order sort fuel t p) <-> under p d /\ at_path t d = Some Dir) /\
    StronglySorted (fun a b => ~ under b a) (walked (fs_walk order sort fuel t p)) /\
    (sort = true -> StronglySorted (fun a b => list_lt str_lt a b = true) (walked (fs_walk order sort fuel t p))).
  Proof using Horder.
    intros Hw. revert p. induction fuel as [|k IH]; intros p Hp Hf H0; [lia|]. rewrite walk_unfold by done.
    assert (Hsub : forall d, d ∈ subdirs t p -> exists n, d = p ++ [n] /\ is_dir t d = true /\
      Forall (entry t) (fs_walk order sort k t d) /\ NoDup (walked (fs_walk order sort k t d)) /\
      (forall e, e ∈ walked (fs_walk order sort k t d) <-> under d e /\ at_path t e = Some Dir) /\
      StronglySorted (fun a b => ~ under b a) (walked (fs_walk order sort k t d)) /\
      (sort = true -> StronglySorted (fun a b => list_lt str_lt a b = true) (walked (fs_walk order sort k t d)))).
    { intros d Hd. apply subdirs_elem in Hd as (n & -> & Hd); [|done]. exists n. assert (Hd' : is_dir t (p ++ [n]) = true) by (apply is_dir_at; rewrite at_path_ne; [done|by destruct p]).
      split; [done|]. split; [done|]. apply IH; [done| |].
      - intros r Hr. rewrite <-app_assoc in Hr. specialize (Hf ([n] ++ r) Hr). cbn in Hf. lia.
      - specialize (Hf [n]). rewrite Hd in Hf. specialize (Hf ltac:(by eexists)). cbn in Hf. lia. }
    assert (Hconcat : forall l, walked (concat (map (fs_walk order sort k t) l)) = concat (map (fun d => walked (fs_walk order sort k t d)) l)).
    { intros l. induction l as [|d l IHl]; [done|]. cbn [map concat]. unfold walked in *. by rewrite map_app, IHl. }
    set (rest := concat (map (fun d => walked (fs_walk order sort k t d)) (subdirs t p))).
    assert (Hwk : walked ((p, subdirs t p, names t p) :: concat (map (fs_walk order sort k t) (subdirs t p))) = p :: rest) by (unfold rest; rewrite <-Hconcat; done).
    assert (Hrest : forall e, e ∈ rest <-> exists n s, e = p ++ [n] ++ s /\ t !! (p ++ [n]) = Some Dir /\ at_path t e = Some Dir).
    { intros e. unfold rest. rewrite elem_of_list_In, in_concat. split.
      - intros (l & Hl & He). apply in_map_iff in Hl as (d & <- & Hd). apply elem_of_list_In in Hd, He. destruct (Hsub d Hd) as (n & -> & _ & _ & _ & Hm & _).
        apply subdirs_elem in Hd as (n' & En & Hd); [|done]. apply Hm in He as [[s ->] He]. exists n, s. rewrite app_assoc. done.
      - intros (n & s & -> & Hd & He). exists (walked (fs_walk order sort k t (p ++ [n]))). assert (Hin : p ++ [n] ∈ subdirs t p) by (apply subdirs_elem; [done|by exists n]).
        split; [apply (in_map (fun d => walked (fs_walk order sort k t d))); by apply elem_of_list_In|]. apply elem_of_list_In. destruct (Hsub _ Hin) as (n' & _ & _ & _ & _ & Hm & _).
        apply Hm. split; [exists s; by rewrite app_assoc|done]. }
    assert (Hnp : p ∉ rest).
    { intros Hin. apply Hrest in Hin as (n & s & E & _). apply (f_equal length) in E. rewrite app_length in E. cbn in E. lia. }
    rewrite Hwk. split; [|split; [|split; [|split]]].
    - constructor; [by apply entry_one|]. apply Forall_concat. apply Forall_forall. intros l Hl. change (map ?f ?l) with (f <$> l) in Hl. apply elem_of_list_fmap in Hl as (d & -> & Hd).
      destruct (Hsub d Hd) as (n & _ & _ & ? & _). done.
    - constructor; [done|]. pose proof (subdirs_nodup t p) as Hn. unfold rest. assert (Hs : forall d, d ∈ subdirs t p -> exists n, d = p ++ [n] /\ NoDup (walked (fs_walk order sort k t d)) /\
        (forall e, e ∈ walked (fs_walk order sort k t d) -> under d e)).
      { intros d Hd. destruct (Hsub d Hd) as (n & -> & _ & _ & ? & Hm & _). exists n. split; [done|]. split; [done|]. intros e He. by apply Hm. }
      clear -Hn Hs. induction Hn as [|d l N Hn IHl]; [constructor|]. cbn [map concat]. apply NoDup_app. destruct (Hs d ltac:(left)) as (n & -> & Hd & He). split; [done|]. split.
      + intros e H1 H2. apply He in H1 as [s ->]. apply elem_of_list_In, in_concat in H2 as (l' & Hl' & H2). apply in_map_iff in Hl' as (d' & <- & Hd'). apply elem_of_list_In in Hd', H2.
        destruct (Hs d' ltac:(by right)) as (m & -> & _ & He'). apply He' in H2 as [s' E]. rewrite <-!app_assoc in E. apply sub_under in E as ->. done.
      + apply IHl. intros d' Hd'. apply Hs. by right.
    - intros d. rewrite elem_of_cons, Hrest. split.
      + intros [->|(n & s & -> & _ & H)]; [split; [apply under_refl|by apply is_dir_at]|]. split; [apply under_app|done].
      + intros [[s ->] H]. destruct s as [|n s]; [left; apply app_nil_r|]. right. exists n, s. split; [done|]. split; [|done]. destruct s as [|m s].
        * rewrite at_path_ne in H; [done|by destruct p].
        * assert (Hd : at_path t (p ++ [n]) = Some Dir).
          { apply (wf_dir t (p ++ [n]) (m :: s) Hw); [done|]. rewrite <-app_assoc. rewrite at_path_ne in H by (by destruct p). cbn [app] in H |- *. rewrite H. by eexists. }
          rewrite at_path_ne in Hd; [done|by destruct p].
    - constructor.
      + unfold rest. pose proof (subdirs_nodup t p) as Hn. assert (Hs : forall d, d ∈ subdirs t p -> exists n, d = p ++ [n] /\ StronglySorted (fun a b => ~ under b a) (walked (fs_walk order sort k t d)) /\
          (forall e, e ∈ walked (fs_walk order sort k t d) -> under d e)).
        { intros d Hd. destruct (Hsub d Hd) as (n & -> & _ & _ & _ & Hm & ? & _). exists n. split; [done|]. split; [done|]. intros e He. by apply Hm. }
        clear -Hn Hs. induction Hn as [|d l N Hn IHl]; [constructor|]. cbn [map concat]. destruct (Hs d ltac:(left)) as (n & -> & Hd & He).
        apply StronglySorted_app; [|done|apply IHl; intros d' Hd'; apply Hs; by right].
        intros e e' H1 H2 [s3 E3]. apply He in H1 as [s ->]. apply elem_of_list_In, in_concat in H2 as (l' & Hl' & H2). apply in_map_iff in Hl' as (d' & <- & Hd'). apply elem_of_list_In in Hd', H2.
        destruct (Hs d' ltac:(by right)) as (m & -> & _ & He'). apply He' in H2 as [s' ->]. rewrite <-!app_assoc in E3. apply sub_under in E3 as ->. done.
      + apply Forall_forall. intros e He. apply Hrest in He as (n & s & -> & _). intros [s' E]. apply (f_equal length) in E. rewrite !app_length in E. cbn in E. lia.
    - intros Es. constructor.
      + unfold rest. pose proof (subdirs_sorted t p Hw Es) as Hn. assert (Hs : forall d, d ∈ subdirs t p -> exists n, d = p ++ [n] /\ StronglySorted (fun a b => list_lt str_lt a b = true) (walked (fs_walk order sort k t d)) /\
          (forall e, e ∈ walked (fs_walk order sort k t d) -> under d e)).
        { intros d Hd. destruct (Hsub d Hd) as (n & -> & _ & _ & _ & Hm & _ & ?). exists n. split; [done|]. split; [by auto|]. intros e He. by apply Hm. }
        clear -Hn Hs. induction Hn as [|d l Hl IHl Hd]; [constructor|]. cbn [map concat]. destruct (Hs d ltac:(left)) as (n & -> & H1 & He).
        apply StronglySorted_app; [|done|apply IHl; intros d' Hd'; apply Hs; by right].
        intros e e' H2 H3. apply He in H2 as [s ->]. apply elem_of_list_In, in_concat in H3 as (l' & Hl' & H3). apply in_map_iff in Hl' as (d' & <- & Hd'). apply elem_of_list_In in Hd', H3.
        destruct (Hs d' ltac:(by right)) as (m & -> & _ & He'). apply He' in H3 as [s' ->]. rewrite Forall_forall in Hd. specialize (Hd _ Hd'). cbv beta in Hd. rewrite paths_lt_snoc in Hd.
        rewrite <-!app_assoc, list_lt_prefix by apply str_lt_order. cbn. by rewrite Hd.
      + apply Forall_forall. intros e He. apply Hrest in He as (n & s & -> & _). rewrite <-(app_nil_r p) at 1. rewrite list_lt_prefix by apply str_lt_order. done.
  Qed.

  Lemma depth_enough t p : forall r, is_Some (t !! (p ++ r)) -> length r < depth t.
  Proof using.
    intros r [x Hx]. unfold depth. assert (length (p ++ r) <= list_max (map (fun e => length e.1) (map_to_list t))).
    { pose proof (proj1 (list_max_le (map (fun e => length e.1) (map_to_list t)) _) (le_n _)) as Hm. rewrite List.Forall_forall in Hm. apply Hm.
      apply in_map_iff. exists (p ++ r, x). split; [done|]. apply elem_of_list_In. by apply elem_of_map_to_list. }
    rewrite app_length in H. lia.
  Qed.

(** A walk from a directory gives one entry for this directory and one for each
    directory below it, never two. *)
Theorem C76_directories t p :
  well_formed t -> at_path t p = Some Dir ->
  NoDup (map (fun e => e.1.1) (fs_walk order sort (depth t) t p)) /\
  forall d, d ∈ map (fun e => e.1.1) (fs_walk order sort (depth t) t p) <-> under p d /\ at_path t d = Some Dir.
Proof using Horder.
  intros Hw Hp. apply is_dir_at in Hp. destruct (walk_all (depth t) t p Hw Hp (depth_enough t p)) as (_ & H1 & H2 & _); [unfold depth; lia|done].
Qed.

(** The entry of a directory gives the paths of its directories and the names of
    its files, each of them once. *)
Theorem C76_entries t p d dirs files :
  well_formed t -> at_path t p = Some Dir -> (d, dirs, files) ∈ fs_walk order sort (depth t) t p ->
  NoDup dirs /\ (forall q, q ∈ dirs <-> exists n, q = d ++ [n] /\ t !! q = Some Dir) /\
  NoDup files /\ (forall n, n ∈ files <-> exists c, t !! (d ++ [n]) = Some (File c)).
Proof using Horder.
  intros Hw Hp Hin. apply is_dir_at in Hp. destruct (walk_all (depth t) t p Hw Hp (depth_enough t p)) as (H & _); [unfold depth; lia|].
  rewrite Forall_forall in H. destruct (H _ Hin) as (H1 & H2 & H3 & H4 & _). done.
Qed.

(** A directory comes before the directories below it. *)
Theorem C76_parents_first t p before e after f :
  well_formed t -> at_path t p = Some Dir -> fs_walk order sort (depth t) t p = before ++ e :: after -> f ∈ after -> ~ under f.1.1 e.1.1.
Proof using Horder.
  intros Hw Hp E Hf. apply is_dir_at in Hp. destruct (walk_all (depth t) t p Hw Hp (depth_enough t p)) as (_ & _ & _ & H & _); [unfold depth; lia|].
  unfold walked in H. rewrite E, map_app in H. cbn [map] in H. clear E. induction before as [|b l IH]; cbn [map app] in H; apply StronglySorted_inv in H as [H1 H2]; [|by apply IH].
  rewrite Forall_forall in H2. apply H2. apply (elem_of_list_fmap_1 (fun e => e.1.1)) in Hf. exact Hf.
Qed.

(** With [sort], the directories come in alphabetical order, component by
    component, and so do the names of the files of each of them. *)
Theorem C76_sorted t p :
  sort = true -> well_formed t -> at_path t p = Some Dir ->
  StronglySorted (fun a b => list_lt str_lt a b = true) (map (fun e => e.1.1) (fs_walk order sort (depth t) t p)) /\
  forall d dirs files, (d, dirs, files) ∈ fs_walk order sort (depth t) t p -> StronglySorted (fun a b => str_lt a b = true) files /\
    StronglySorted (fun a b => list_lt str_lt a b = true) dirs.
Proof using Horder.
  intros Es Hw Hp. apply is_dir_at in Hp. destruct (walk_all (depth t) t p Hw Hp (depth_enough t p)) as (H & _ & _ & _ & H2); [unfold depth; lia|]. split; [by apply H2|].
  intros d dirs files Hin. rewrite Forall_forall in H. destruct (H _ Hin) as (_ & _ & _ & _ & H3). split; [by apply H3|].
  clear H H2 H3. revert p Hp Hin. generalize (depth t). intros n. induction n as [|n IH]; intros p Hp Hin; [by apply elem_of_nil in Hin|]. rewrite walk_unfold in Hin by done.
  apply elem_of_cons in Hin as [[= -> -> ->]|Hin]; [by apply subdirs_sorted|].
  apply elem_of_list_In, in_concat in Hin as (l & Hl & Hin). apply in_map_iff in Hl as (q & <- & Hq). apply elem_of_list_In in Hq, Hin. apply (IH q); [|done].
  apply subdirs_elem in Hq as (m & -> & Hq); [|done]. apply is_dir_at. rewrite at_path_ne; [done|by destruct p].
Qed.

(** A path where there is nothing gives one empty entry; the path of a file gives
    the file as if it were a directory that holds it. *)
Theorem C76_missing t p :
  p <> [] -> t !! p = None -> fs_walk order sort (depth t) t p = [([], [], [])].
Proof using. intros Hn H. unfold depth. cbn [fs_walk]. unfold ls, is_dir. destruct p; [done|]. by rewrite H. Qed.
Theorem C76_file t p n c :
  t !! (p ++ [n]) = Some (File c) -> fs_walk order sort (depth t) t (p ++ [n]) = [(p ++ [n], [], [n])].
Proof using.
  intros H. unfold depth. cbn [fs_walk]. assert (Hd : is_dir t (p ++ [n]) = false) by (unfold is_dir; destruct (p ++ [n]) eqn:E; [by destruct p|]; by rewrite H).
  unfold ls. rewrite Hd, H. cbn [List.filter]. rewrite Hd. cbn [negb map]. rewrite basename_snoc. by destruct sort.
Qed.
End C76.
Print Assumptions C76_directories.
Print Assumptions C76_entries.
Print Assumptions C76_parents_first.
Print Assumptions C76_sorted.
Print Assumptions C76_missing.
Print Assumptions C76_file.

(** ** A concrete case *)
Example C76_case :
  let t : disk nat := list_to_map [([lit "b"], Dir); ([lit "b"; lit "x"], File 1); ([lit "a"], Dir); ([lit "a"; lit "d"], Dir); ([lit "z"], File 2); ([lit "c"], File 3)] in
  well_formed t /\
  fs_walk (@rev path) true (depth t) t [] =
    [([], [[lit "a"]; [lit "b"]], [lit "c"; lit "z"]); ([lit "a"], [[lit "a"; lit "d"]], []); ([lit "a"; lit "d"], [], []); ([lit "b"], [], [lit "x"])].
Proof.
  cbv zeta. split; [|vm_compute; reflexivity]. split; [done|]. intros p n [x Hx]. apply elem_of_list_to_map_2 in Hx.
  repeat (apply elem_of_cons in Hx as [Hx|Hx]); [..|by apply elem_of_nil in Hx]; injection Hx as Hx _;
    (apply (f_equal (@removelast str)) in Hx; rewrite removelast_last in Hx; cbn [removelast] in Hx; subst p; vm_compute; reflexivity).
Qed.
