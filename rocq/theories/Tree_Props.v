(** * C41: copying trees and files *)
From Verif Require Import Py FS_Model FS_Proofs Tree_Model Tree_Spec Tree_Proofs.

Section C41.
Context {C : Type} (order : list path -> list path) (Horder : forall l, order l ≡ₚ l).
Implicit Types (t : disk C) (q : path).

(** A directory is copied to a place that does not exist, outside of it: the
    target is a directory, holds below it what the source holds, directories
    and files, and nothing else changes, except that the missing parents of the
    target are made. *)
Theorem C41_copy t source target :
  well_formed t -> at_path t source = Some Dir -> at_path t target = None -> ~ under source target ->
  (forall q c, under q target -> t !! q <> Some (File c)) ->
  exists t', copy_tree order source target t = (Ok tt, t') /\ well_formed t' /\
    (forall n r, t' !! (target ++ n :: r) = t !! (source ++ n :: r)) /\
    (forall q, q <> [] -> under q target -> t' !! q = Some Dir) /\
    (forall q, ~ under q target -> ~ under target q -> t' !! q = t !! q).
Proof using Horder.
  intros Hw Hs Ht Hst Hf.
  assert (Hnt : target <> []) by (intros ->; done). assert (Hns : source <> []) by (intros ->; apply Hst; by exists target).
  rewrite at_path_ne in Hs, Ht by done.
  assert (Hnone : forall q, under target q -> t !! q = None).
  { intros q [r ->]. destruct r as [|n r]; [by rewrite app_nil_r|]. destruct (t !! (target ++ n :: r)) as [x|] eqn:E; [|done]. exfalso.
    assert (H : at_path t target = Some Dir) by (apply (wf_dir t target (n :: r) Hw); [done|rewrite E; by eexists]). rewrite at_path_ne in H by done. congruence. }
  assert (Hts : ~ under target source) by (intros H; apply Hnone in H; congruence).
  unfold copy_tree. assert (exists_node t target = false) as Ee.
  { unfold exists_node. destruct target; [done|]. rewrite Ht. by apply bool_decide_eq_false_2; intros [? ?]. }
  rewrite Ee. unfold mkdir. rewrite Ee.
  destruct (make_dirs_spec [] target t) as (T & ET & HT).
  { intros q c _ Hq. by apply Hf. }
  rewrite ET. cbn [app] in HT.
  assert (HT1 : forall q, q <> [] -> under q target -> T !! q = Some Dir).
  { intros q Hq Hu. destruct q as [|n r]; [done|]. apply HT; [by exists n, r|done]. }
  assert (HT2 : forall q, ~ under q target -> T !! q = t !! q).
  { intros q Hq. apply HT. intros [_ H]. done. }
  assert (HT0 : T !! [] = None).
  { destruct (HT []) as [_ H]. rewrite H; [apply Hw|]. intros [(n & r & E) _]. done. }
  assert (HwT : well_formed T).
  { split; [done|]. intros p n Hp. destruct p as [|m p]; [done|]. cbn [at_path]. assert (Hdec : under ((m :: p) ++ [n]) target \/ ~ under ((m :: p) ++ [n]) target).
    { destruct (strip ((m :: p) ++ [n]) target) eqn:E; [left|right; by apply strip_None]. destruct (decide (under ((m :: p) ++ [n]) target)); [done|]. exfalso.
      apply strip_None in n0. congruence. }
    destruct Hdec as [Hu|Hu].
    - apply HT1; [done|]. destruct Hu as [r ->]. exists ([n] ++ r). by rewrite app_assoc.
    - rewrite HT2 in Hp by done. destruct Hw as [_ Hw]. apply Hw in Hp. cbn [at_path] in Hp.
      destruct (decide (under (m :: p) target)); [by apply HT1|]. by rewrite HT2. }
  assert (Hsrc : forall q, under source q -> T !! q = t !! q).
  { intros q Hq. apply HT2. intros Hq'. apply Hst. by eapply under_trans. }
  assert (HsT : is_dir T source = true).
  { apply is_dir_at. rewrite at_path_ne by done. by rewrite Hsrc by apply under_refl. }
  assert (Hfuel : forall r, is_Some (T !! (source ++ r)) -> length r < depth T).
  { intros r [x Hx]. unfold depth. assert (length (source ++ r) <= list_max (map (fun e => length e.1) (map_to_list T))).
    { pose proof (proj1 (list_max_le (map (fun e => length e.1) (map_to_list T)) _) (le_n _)) as Hm. rewrite List.Forall_forall in Hm. apply Hm.
      apply in_map_iff. exists (source ++ r, x). split; [done|]. apply elem_of_list_In. by apply elem_of_map_to_list. }
    rewrite app_length in H. lia. }
  set (l := visits order (depth T) T source).
  assert (Hl : forall q, q ∈ l <-> below source q /\ is_Some (T !! q)).
  { intros q. apply visits_elem; [done|done|done|done|]. unfold depth. lia. }
  assert (Hcmds : concat (map (fun '(root, dirs, files) =>
      map (fun name => copy_file (root ++ [name]) (target ++ relpath (root ++ [name]) source)) files ++
      map (fun d => mkdir (target ++ relpath d source)) dirs) (fs_walk order false (depth T) T source)) = map (cmd_of source target T) l).
  { unfold l. rewrite <-(walk_visits order Horder) by done. unfold visited.
    assert (Hk : forall fuel p, is_dir T p = true -> Forall (fun e => Forall (fun n => is_dir T (e.1.1 ++ [n]) = false) e.2 /\ Forall (fun d => is_dir T d = true) e.1.2) (fs_walk order false fuel T p)).
    { intros fuel. induction fuel as [|k IH]; intros p Hp; [constructor|]. cbn [fs_walk]. unfold ls. rewrite Hp. cbv zeta. constructor.
      - cbn [fst snd]. split; apply Forall_forall.
        + intros n Hn. change (map ?f ?l) with (f <$> l) in Hn. apply elem_of_list_fmap in Hn as (q & -> & Hq).
          apply elem_of_list_In, List.filter_In in Hq as [Hq Hd]. apply elem_of_list_In, (children_elem order Horder) in Hq as (_ & m & ->); [|done].
          rewrite basename_snoc. by apply negb_true_iff in Hd.
        + intros q Hq. apply elem_of_list_In, List.filter_In in Hq as [_ Hd]. done.
      - assert (Hds : Forall (fun q => is_dir T q = true) (List.filter (is_dir T) (children order T p))).
        { apply Forall_forall. intros q Hq. by apply elem_of_list_In, List.filter_In in Hq as [_ ?]. }
        induction Hds as [|d ds Hd _ IHd]; [constructor|]. cbn [map concat]. apply Forall_app. split; [by apply IH|done]. }
    specialize (Hk (depth T) source HsT). induction Hk as [|[[root dirs] files] es [H1 H2] _ IH]; [done|]. cbn [map concat fst snd] in *. rewrite IH, map_app. f_equal.
    unfold visit. cbn [fst snd]. rewrite map_app, map_map. f_equal.
    - clear -H1. induction H1 as [|n ns Hn _ IHn]; [done|]. cbn [map]. rewrite IHn. f_equal. unfold cmd_of. by rewrite Hn.
    - clear -H2. induction H2 as [|d ds Hd _ IHd]; [done|]. cbn [map]. rewrite IHd. f_equal. unfold cmd_of. by rewrite Hd. }
  match goal with |- context [all_cmds ?cs T] => change cs with (concat (map (fun '(root, dirs, files) =>
      map (fun name => copy_file (C := C) (root ++ [name]) (target ++ relpath (root ++ [name]) source)) files ++
      map (fun d => mkdir (C := C) (target ++ relpath d source)) dirs) (fs_walk order false (depth T) T source))) end.
  rewrite Hcmds.
  destruct (copy_all source target T HwT Hst Hts l (eq source) T) as (u & E & Hin & Hout).
  - intros q Hq. by apply Hl.
  - apply visits_nodup; [done|done|done|done|]. unfold depth. lia.
  - by apply visits_ordered.
  - done.
  - intros x <- _. split; [apply under_refl|]. intros a b Ea. unfold relpath in Ea. rewrite drop_all, app_nil_r in Ea. destruct a as [|a0 a1]; [done|]. rewrite at_path_ne by done.
    apply HT1; [done|]. by exists b.
  - intros q Hq. apply Hl in Hq as [(n & r & ->) _]. unfold relpath. rewrite drop_app. rewrite HT2; [apply Hnone, under_app|].
    intros [x Ex]. apply (f_equal length) in Ex. rewrite !app_length in Ex. cbn in Ex. lia.
  - exists u. split; [exact E|].
    assert (G1 : forall n r, u !! (target ++ n :: r) = t !! (source ++ n :: r)).
    { intros n r. rewrite <-Hsrc by apply under_app. destruct (T !! (source ++ n :: r)) as [x|] eqn:Ex.
      - rewrite (Hin (n :: r)); [done|]. apply Hl. split; [by exists n, r|]. rewrite Ex. by eexists.
      - rewrite Hout.
        + rewrite HT2; [apply Hnone, under_app|]. intros [y Ey]. apply (f_equal length) in Ey. rewrite !app_length in Ey. cbn in Ey. lia.
        + intros s Es. apply app_inv_head in Es as <-. rewrite Hl, Ex. by intros [_ [? ?]]. }
    assert (G0 : forall q, ~ below target q -> u !! q = T !! q).
    { intros q Hq. apply Hout. intros s -> Hsl. apply Hl in Hsl as [(n & r & Es) _]. apply app_inv_head in Es as ->. apply Hq. by exists n, r. }
    assert (G2 : forall q, q <> [] -> under q target -> u !! q = Some Dir).
    { intros q Hq Hu. rewrite G0; [by apply HT1|]. intros (n & r & ->). destruct Hu as [y Ey]. apply (f_equal length) in Ey. rewrite !app_length in Ey. cbn in Ey. lia. }
    assert (G3 : forall q, ~ under q target -> ~ under target q -> u !! q = t !! q).
    { intros q H1 H2. rewrite G0; [by apply HT2|]. intros H. apply H2. by apply below_under. }
    split; [|done]. split.
    + rewrite G0; [done|]. intros (n & r & Er). destruct target; done.
    + intros p n Hp. destruct (decide (under target p)) as [[r ->]|N1].
      * destruct r as [|m r].
        -- rewrite app_nil_r, at_path_ne by done. apply G2; [done|apply under_refl].
        -- rewrite at_path_ne by (by destruct target). rewrite <-app_assoc in Hp. cbn [app] in Hp. rewrite G1 in Hp |- *.
           destruct Hw as [_ Hw]. specialize (Hw (source ++ m :: r) n). rewrite <-app_assoc in Hw. cbn [app] in Hw. apply Hw in Hp. by rewrite at_path_ne in Hp by (by destruct source).
      * assert (Nb : forall q, under target (q ++ [n]) -> under target q \/ target = q ++ [n]).
        { intros q [r Er]. destruct (decide (r = [])) as [->|Nr]; [right; by rewrite app_nil_r in Er|]. left. destruct (exists_last Nr) as (r' & k & ->).
          rewrite app_assoc in Er. apply app_inj_tail in Er as [-> _]. apply under_app. }
        destruct p as [|p0 p1] eqn:Ep; [done|]. rewrite <-Ep in *. assert (Hpn : p <> []) by (by rewrite Ep). rewrite at_path_ne by done.
        destruct (decide (under p target)) as [U|N2]; [by apply G2|]. rewrite G3 by done. rewrite G3 in Hp.
        -- destruct Hw as [_ Hw]. apply Hw in Hp. by rewrite at_path_ne in Hp.
        -- intros [r ->]. apply N2. exists ([n] ++ r). by rewrite app_assoc.
        -- intros H. apply Nb in H as [H|H]; [done|]. apply N2. rewrite H. apply under_app.
Qed.

(** A copy on something that exists is refused, and changes nothing. *)
Theorem C41_exists t source target x :
  at_path t target = Some x -> copy_tree order source target t = (Raise ValueError, t).
Proof.
  intros H. unfold copy_tree. assert (exists_node t target = true) as ->; [|done]. unfold exists_node, at_path in *. destruct target; [done|].
  apply bool_decide_eq_true_2. rewrite H. by eexists.
Qed.

(** The copy of something that does not exist raises nothing: the target is an
    empty directory. *)
Theorem C41_missing t source target :
  well_formed t -> source <> [] -> t !! source = None -> at_path t target = None -> ~ under source target -> (forall q c, under q target -> t !! q <> Some (File c)) ->
  exists t', copy_tree order source target t = (Ok tt, t') /\
    (forall q, q <> [] -> under q target -> t' !! q = Some Dir) /\ (forall q, ~ under q target -> t' !! q = t !! q).
Proof.
  intros Hw Hns Hs Ht Hst Hf. assert (Hnt : target <> []) by (intros ->; done). unfold copy_tree.
  assert (exists_node t target = false) as Ee.
  { rewrite at_path_ne in Ht by done. unfold exists_node. destruct target; [done|]. rewrite Ht. by apply bool_decide_eq_false_2; intros [? ?]. }
  rewrite Ee. unfold mkdir. rewrite Ee. destruct (make_dirs_spec [] target t) as (T & ET & HT).
  { intros q c _ Hq. by apply Hf. }
  rewrite ET. cbn [app] in HT. exists T. split; [|split].
  - unfold depth. cbn [fs_walk]. assert (HsT : T !! source = None).
    { destruct (HT source) as [_ H]. rewrite H; [done|]. by intros [_ H']. }
    unfold ls. assert (is_dir T source = false) as -> by (unfold is_dir; destruct source; [done|]; by rewrite HsT). by rewrite HsT.
  - intros q Hq Hu. destruct q as [|n r]; [done|]. apply HT; [by exists n, r|done].
  - intros q Hq. apply HT. intros [_ H]. done.
Qed.

(** The copy of a file raises, and leaves an empty directory. *)
Theorem C41_file t source target c :
  well_formed t -> t !! source = Some (File c) -> at_path t target = None -> (forall q c, under q target -> t !! q <> Some (File c)) ->
  exists t', copy_tree order source target t = (Raise FileNotFoundError, t') /\
    (forall q, q <> [] -> under q target -> t' !! q = Some Dir) /\ (forall q, ~ under q target -> t' !! q = t !! q).
Proof.
  intros Hw Hs Ht Hf. assert (Hnt : target <> []) by (intros ->; done). assert (Hns : source <> []) by (intros ->; destruct Hw; congruence). unfold copy_tree.
  assert (exists_node t target = false) as Ee.
  { rewrite at_path_ne in Ht by done. unfold exists_node. destruct target; [done|]. rewrite Ht. by apply bool_decide_eq_false_2; intros [? ?]. }
  rewrite Ee. unfold mkdir. rewrite Ee. destruct (make_dirs_spec [] target t) as (T & ET & HT).
  { intros q d _ Hq. by apply Hf. }
  rewrite ET. cbn [app] in HT.
  assert (Hst : ~ under source target) by (intros H; by apply (Hf source c H)).
  assert (HsT : T !! source = Some (File c)).
  { destruct (HT source) as [_ H]. rewrite H; [done|]. by intros [_ H']. }
  assert (Hno : forall m, t !! (source ++ [m]) = None).
  { intros m. destruct (t !! (source ++ [m])) eqn:E; [|done]. exfalso. destruct Hw as [_ Hw]. specialize (Hw source m). rewrite E in Hw. specialize (Hw ltac:(by eexists)).
    rewrite at_path_ne in Hw by done. congruence. }
  assert (Hno' : T !! (source ++ [basename source]) = None).
  { destruct (HT (source ++ [basename source])) as [_ H]. rewrite H; [done|]. intros [_ H']. apply Hst. by eapply under_trans; [apply under_app|]. }
  exists T. split; [|split].
  - unfold depth. cbn [fs_walk]. assert (Hd : is_dir T source = false) by (unfold is_dir; destruct source; [done|]; by rewrite HsT).
    unfold ls. rewrite Hd, HsT. cbn [List.filter]. rewrite Hd. cbn [negb map concat app all_cmds]. unfold copy_file. by rewrite Hno'.
  - intros q Hq Hu. destruct q as [|n r]; [done|]. apply HT; [by exists n, r|done].
  - intros q Hq. apply HT. intros [_ H]. done.
Qed.

(** Files with different names, none of which is in the target directory, are
    copied to this directory under their names; nothing else changes. *)
Theorem C41_files t (sources : list (path * str)) target :
  at_path t target = Some Dir -> NoDup (map snd sources) ->
  (forall d n, (d, n) ∈ sources -> d <> target /\ (exists c, t !! (d ++ [n]) = Some (File c)) /\ t !! (target ++ [n]) <> Some Dir) ->
  exists t', copy_files (map (fun s => s.1 ++ [s.2]) sources) target t = (Ok tt, t') /\
    (forall d n, (d, n) ∈ sources -> t' !! (target ++ [n]) = t !! (d ++ [n])) /\
    (forall q, (forall d n, (d, n) ∈ sources -> q <> target ++ [n]) -> t' !! q = t !! q).
Proof.
  unfold copy_files. revert t. induction sources as [|[d n] ps IH]; intros t Hd Hnd Hf.
  - exists t. split; [done|]. split; [|done]. intros d n Hp. by apply elem_of_nil in Hp.
  - cbn [map snd] in Hnd. inversion Hnd as [|? ? Hp Hnd']; subst. destruct (Hf d n ltac:(left)) as (Ho & [c Hc] & Ht). cbn [map all_cmds fst snd].
    rewrite basename_snoc.
    assert (copy_file (d ++ [n]) (target ++ [n]) t = (Ok tt, <[target ++ [n] := File c]> t)) as ->.
    { unfold copy_file. rewrite Hc, dirname_snoc. assert (is_dir t target = true) as -> by (by apply is_dir_at).
      by destruct (t !! (target ++ [n])) as [[|]|]. }
    set (u := <[target ++ [n] := File c]> t).
    assert (Hne : forall n, target <> target ++ [n]) by (intros m E; apply (f_equal length) in E; rewrite app_length in E; cbn in E; lia).
    destruct (IH u) as (t' & E & H1 & H2).
    + destruct (decide (target = [])) as [->|N]; [done|]. rewrite at_path_ne in Hd |- * by done. unfold u. by rewrite lookup_insert_ne.
    + done.
    + intros d' m Hq. destruct (Hf d' m ltac:(by right)) as (H3 & [e H4] & H5). split; [done|]. split.
      * exists e. unfold u. rewrite lookup_insert_ne; [done|]. intros E. apply app_inj_tail in E as [-> _]. done.
      * unfold u. rewrite lookup_insert_ne; [done|]. intros E. apply app_inv_head in E. injection E as ->. apply Hp. apply (elem_of_list_fmap_1 snd) in Hq. exact Hq.
    + exists t'. split; [exact E|]. split.
      * intros d' m Hq. apply elem_of_cons in Hq as [[= -> ->]|Hq].
        -- rewrite H2; [unfold u; by rewrite lookup_insert, Hc|]. intros d' m Hq E1. apply app_inv_head in E1. injection E1 as <-. apply Hp. apply (elem_of_list_fmap_1 snd) in Hq. exact Hq.
        -- rewrite (H1 d') by done. unfold u. apply lookup_insert_ne. intros E1. apply app_inj_tail in E1 as [E1 _]. destruct (Hf d' m ltac:(by right)) as (H3 & _). by symmetry in E1.
      * intros q Hq. rewrite H2; [|intros d' m Hp'; apply (Hq d'); by right]. unfold u.  apply lookup_insert_ne. intros E1. symmetry in E1. by apply (Hq d n ltac:(left)).
Qed.
End C41.
Print Assumptions C41_copy.
Print Assumptions C41_exists.
Print Assumptions C41_missing.
Print Assumptions C41_file.
Print Assumptions C41_files.

(** ** A concrete case *)

Definition D_disk : disk nat :=
  list_to_map [([lit "a"], Dir); ([lit "a"; lit "x"], File 1); ([lit "a"; lit "d"], Dir); ([lit "a"; lit "d"; lit "y"], File 2); ([lit "a"; lit "e"], Dir)].
Example C41_case : well_formed D_disk /\ at_path D_disk [lit "a"] = Some Dir /\
  exists t', copy_tree (@rev path) [lit "a"] [lit "b"; lit "c"] D_disk = (Ok tt, t') /\
    t' !! [lit "b"; lit "c"; lit "d"; lit "y"] = Some (File 2) /\ t' !! [lit "b"; lit "c"; lit "e"] = Some Dir /\ t' !! [lit "b"; lit "c"; lit "z"] = None.
Proof.
  assert (Hw : well_formed D_disk).
  { split; [done|]. intros p n [x Hx]. unfold D_disk in Hx. apply elem_of_list_to_map_2 in Hx.
    repeat (apply elem_of_cons in Hx as [Hx|Hx]); [..|by apply elem_of_nil in Hx]; injection Hx as Hx _;
      (apply (f_equal (@removelast str)) in Hx; rewrite removelast_last in Hx; cbn [removelast] in Hx; subst p; vm_compute; reflexivity). }
  split; [exact Hw|]. split; [reflexivity|].
  destruct (C41_copy (@rev path) ltac:(intros; symmetry; apply Permutation_rev) D_disk [lit "a"] [lit "b"; lit "c"] Hw eq_refl eq_refl) as (t' & E & _ & H & _).
  { intros [r Er]. discriminate Er. }
  { intros q c [r Er] Hq. destruct q as [|q0 q]; [vm_compute in Hq; discriminate Hq|]. injection Er as Eq _. subst q0. apply elem_of_list_to_map_2 in Hq.
    repeat (apply elem_of_cons in Hq as [Hq|Hq]); [..|by apply elem_of_nil in Hq]; discriminate Hq. }
  exists t'. split; [exact E|]. split; [etransitivity; [exact (H (lit "d") [lit "y"])|vm_compute; reflexivity]|].
  split; [etransitivity; [exact (H (lit "e") [])|]|etransitivity; [exact (H (lit "z") [])|]]; vm_compute; reflexivity.
Qed.

(** The copy of a directory into itself also copies the target: the condition
    on the target cannot be dropped. *)
Theorem C41_nested_refuted : exists (t : disk nat) source target t', well_formed t /\ at_path t source = Some Dir /\ at_path t target = None /\
  copy_tree id source target t = (Ok tt, t') /\ exists n, t' !! (target ++ [n]) <> t !! (source ++ [n]).
Proof.
  exists {[ [lit "a"] := Dir ]}, [lit "a"], [lit "a"; lit "b"]. eexists. split; [|split; [reflexivity|split; [reflexivity|split; [vm_compute; reflexivity|]]]].
  - split; [done|]. intros p n [x Hx]. apply lookup_singleton_Some in Hx as [Hx _]. destruct p as [|? [|]]; done.
  - exists (lit "b"). vm_compute. discriminate.
Qed.
Print Assumptions C41_nested_refuted.
