(** * Copies of trees: proofs *)
From Verif Require Import Py FS_Model FS_Proofs Tree_Model Tree_Spec.

Section tree.
  Context {C : Type} (order : list path -> list path) (Horder : forall l, order l ≡ₚ l).
  Implicit Types (t u T : disk C) (p q a b : path).

  Lemma below_under p q : below p q -> under p q.
  Proof. intros (n & r & ->). by eexists. Qed.
  Lemma below_cases p q : below p q -> dirname q = p \/ exists n, below (p ++ [n]) q.
  Proof.
    intros (n & r & ->). destruct r as [|m r]; [left; unfold dirname; by rewrite removelast_last|]. right. exists n, m, r. by rewrite <-app_assoc.
  Qed.
  Lemma dirname_snoc p n : dirname (p ++ [n]) = p.
  Proof. unfold dirname. apply removelast_last. Qed.
  Lemma dirname_app p n r : dirname (p ++ n :: r) = p ++ dirname (n :: r).
  Proof. unfold dirname. rewrite removelast_app by done. done. Qed.
  Lemma basename_snoc p n : basename (p ++ [n]) = n.
  Proof. unfold basename. by rewrite last_snoc. Qed.
  Lemma snoc_of q : q <> [] -> q = dirname q ++ [basename q].
  Proof. intros H. destruct (exists_last H) as (p & n & ->). by rewrite dirname_snoc, basename_snoc. Qed.

  Lemma at_path_ne t p : p <> [] -> at_path t p = t !! p.
  Proof. by destruct p. Qed.
  Lemma wf_dir t a b : well_formed t -> b <> [] -> is_Some (t !! (a ++ b)) -> at_path t a = Some Dir.
  Proof.
    intros [_ Hw]. revert a. induction b as [|m b IH]; intros a Hb H; [done|]. destruct b as [|m' b].
    - by eapply Hw.
    - apply (Hw a m). specialize (IH (a ++ [m]) ltac:(done)). rewrite <-app_assoc in IH. specialize (IH H).
      unfold at_path in IH. destruct (a ++ [m]) eqn:E; [by destruct a|]. rewrite IH. by eexists.
  Qed.
  Lemma is_dir_at t p : is_dir t p = true <-> at_path t p = Some Dir.
  Proof. unfold is_dir, at_path. destruct p as [|n p]; [done|]. destruct (t !! (n :: p)) as [[|c]|]; naive_solver. Qed.

  Lemma children_elem t p q : t !! [] = None -> q ∈ children order t p <-> is_Some (t !! q) /\ exists n, q = p ++ [n].
  Proof.
    intros H0. unfold children. rewrite Horder. rewrite elem_of_list_In, List.filter_In, <-elem_of_list_In.
    assert (q ∈ map fst (map_to_list t) <-> is_Some (t !! q)) as ->.
    { change (map fst (map_to_list t)) with ((map_to_list t).*1). rewrite elem_of_list_fmap. split.
      - intros ([k v] & -> & H). apply elem_of_map_to_list in H. by eexists.
      - intros [v Hv]. exists (q, v). split; [done|]. by apply elem_of_map_to_list. }
    rewrite bool_decide_eq_true. split.
    - intros (H1 & H2 & <-). split; [done|]. exists (basename q). by apply snoc_of.
    - intros (H1 & n & ->). split; [done|]. split; [by destruct p|]. apply dirname_snoc.
  Qed.
  Lemma children_nodup t p : NoDup (children order t p).
  Proof. unfold children. rewrite Horder. apply NoDup_ListNoDup, List.NoDup_filter, NoDup_ListNoDup. apply NoDup_fst_map_to_list. Qed.

  (** The paths a walk visits. *)
  Definition visit (e : path * list path * list str) : list path := map (fun n => e.1.1 ++ [n]) e.2 ++ e.1.2.
  Definition visited (l : list (path * list path * list str)) : list path := concat (map visit l).
  Fixpoint visits (fuel : nat) t p : list path :=
    match fuel with
    | 0 => []
    | S n => let l := children order t p in
        List.filter (fun q => negb (is_dir t q)) l ++ List.filter (is_dir t) l ++ concat (map (visits n t) (List.filter (is_dir t) l))
    end.
  Lemma walk_visits fuel t p : t !! [] = None -> is_dir t p = true -> visited (fs_walk order false fuel t p) = visits fuel t p.
  Proof.
    intros H0. revert p. induction fuel as [|n IH]; intros p Hp; [done|]. cbn [fs_walk visits]. unfold ls. rewrite Hp. cbv zeta. unfold visited. cbn [map concat].
    unfold visit at 1. cbn [fst snd]. rewrite <-app_assoc. f_equal; [|f_equal].
    - rewrite map_map. assert (H : Forall (fun q => p ++ [basename q] = q) (List.filter (fun q => negb (is_dir t q)) (children order t p))).
      { apply Forall_forall. intros q Hq. apply elem_of_list_In, List.filter_In in Hq as [Hq _]. apply elem_of_list_In, children_elem in Hq as (_ & m & ->); [|done]. by rewrite basename_snoc. }
      induction H as [|q l Hq _ IHl]; [done|]. cbn. by rewrite Hq, IHl.
    - set (ds := List.filter (is_dir t) (children order t p)).
      assert (H : Forall (fun q => is_dir t q = true) ds).
      { apply Forall_forall. intros q Hq. apply elem_of_list_In, List.filter_In in Hq as [_ Hq]. done. }
      induction H as [|q l Hq _ IHl]; [done|]. cbn [map concat]. rewrite map_app, concat_app, <-(IH q Hq), <-IHl. done.
  Qed.

  Lemma visits_elem fuel t p q : well_formed t -> is_dir t p = true -> (forall r, is_Some (t !! (p ++ r)) -> length r < fuel) -> 0 < fuel ->
    q ∈ visits fuel t p <-> below p q /\ is_Some (t !! q).
  Proof.
    intros Hw. revert p q. induction fuel as [|n IH]; intros p q Hp Hf H0; [lia|]. cbn [visits]. rewrite !elem_of_app.
    assert (Hfil : forall f, q ∈ List.filter f (children order t p) <-> f q = true /\ is_Some (t !! q) /\ exists m, q = p ++ [m]).
    { intros f. rewrite elem_of_list_In, List.filter_In, <-elem_of_list_In, children_elem by apply Hw. naive_solver. }
    rewrite !Hfil. assert (Hsub : forall m, is_Some (t !! (p ++ [m])) -> is_dir t (p ++ [m]) = true ->
      (q ∈ visits n t (p ++ [m]) <-> below (p ++ [m]) q /\ is_Some (t !! q))).
    { intros m Hm Hd. apply IH; [done| |].
      - intros r Hr. rewrite <-app_assoc in Hr. specialize (Hf ([m] ++ r) Hr). cbn in Hf. lia.
      - specialize (Hf [m] Hm). cbn in Hf. lia. }
    assert (Hcc : q ∈ concat (map (visits n t) (List.filter (is_dir t) (children order t p))) <->
      exists m, is_Some (t !! (p ++ [m])) /\ is_dir t (p ++ [m]) = true /\ below (p ++ [m]) q /\ is_Some (t !! q)).
    { rewrite elem_of_list_In, in_concat. split.
      - intros (l & Hl & Hq). apply in_map_iff in Hl as (d & <- & Hd). apply List.filter_In in Hd as [Hd1 Hd2].
        apply elem_of_list_In, children_elem in Hd1 as (Hd1 & m & ->); [|apply Hw]. exists m. apply elem_of_list_In, Hsub in Hq; tauto.
      - intros (m & H1 & H2 & H3 & H4). exists (visits n t (p ++ [m])). split; [|apply elem_of_list_In; by apply Hsub].
        apply in_map. apply List.filter_In. split; [|done]. apply elem_of_list_In, children_elem; [apply Hw|]. split; [done|by exists m]. }
    rewrite Hcc. split.
    - intros [(_ & H1 & m & ->)|[(_ & H1 & m & ->)|(m & H1 & H2 & (k & r & ->) & H4)]]; (split; [|done]).
      + by exists m, [].
      + by exists m, [].
      + exists m, (k :: r). by rewrite <-app_assoc.
    - intros [(m & r & ->) Hq]. destruct r as [|k r].
      + destruct (is_dir t (p ++ [m])) eqn:E; [right; left|left]; (split; [by rewrite ?E|]); (split; [done|by exists m]).
      + right. right. exists m. assert (Hd : at_path t (p ++ [m]) = Some Dir).
        { apply (wf_dir t (p ++ [m]) (k :: r) Hw); [done|]. by rewrite <-app_assoc. }
        split; [|split; [by apply is_dir_at|split; [exists k, r; by rewrite <-app_assoc|done]]].
        unfold at_path in Hd. destruct (p ++ [m]) eqn:E; [by destruct p|]. rewrite Hd. by eexists.
  Qed.
  Lemma visits_nodup fuel t p : well_formed t -> is_dir t p = true -> (forall r, is_Some (t !! (p ++ r)) -> length r < fuel) -> 0 < fuel -> NoDup (visits fuel t p).
  Proof.
    intros Hw. revert p. induction fuel as [|n IH]; intros p Hp Hf H0; [lia|]. cbn [visits].
    assert (Hfil : forall f q, q ∈ List.filter f (children order t p) -> f q = true /\ is_Some (t !! q) /\ exists m, q = p ++ [m]).
    { intros f q. rewrite elem_of_list_In, List.filter_In, <-elem_of_list_In, children_elem by apply Hw. naive_solver. }
    assert (Hnf : forall f, NoDup (List.filter f (children order t p))) by (intros f; apply NoDup_ListNoDup, List.NoDup_filter, NoDup_ListNoDup, children_nodup).
    assert (Hsub : forall m, is_Some (t !! (p ++ [m])) -> is_dir t (p ++ [m]) = true ->
      NoDup (visits n t (p ++ [m])) /\ forall q, q ∈ visits n t (p ++ [m]) -> below (p ++ [m]) q).
    { intros m Hm Hd. assert (Hfu : forall r, is_Some (t !! ((p ++ [m]) ++ r)) -> length r < n).
      { intros r Hr. rewrite <-app_assoc in Hr. specialize (Hf ([m] ++ r) Hr). cbn in Hf. lia. }
      assert (Hn : 0 < n) by (specialize (Hf [m] Hm); cbn in Hf; lia).
      split; [by apply IH|]. intros q Hq. by apply visits_elem in Hq as [? _]. }
    assert (Hcb : forall q, q ∈ concat (map (visits n t) (List.filter (is_dir t) (children order t p))) -> exists m, below (p ++ [m]) q).
    { intros q Hq. apply elem_of_list_In, in_concat in Hq as (l & Hl & Hq). apply in_map_iff in Hl as (d & <- & Hd).
      apply elem_of_list_In, Hfil in Hd as (Hd1 & Hd2 & m & ->). exists m. apply Hsub; [done|done|]. by apply elem_of_list_In. }
    assert (Hlen : forall m q, below (p ++ [m]) q -> forall m', q <> p ++ [m']).
    { intros m q (k & r & ->) m' E. rewrite <-app_assoc in E. apply app_inv_head in E. cbn in E. injection E as _ E. by destruct r. }
    apply NoDup_app. split; [apply Hnf|]. split.
    { intros q Hq. apply Hfil in Hq as (H1 & H2 & m & ->). rewrite elem_of_app. intros [Hq|Hq].
      - apply Hfil in Hq as (H3 & _). by rewrite H3 in H1.
      - apply Hcb in Hq as [m' Hq]. by eapply Hlen. }
    apply NoDup_app. split; [apply Hnf|]. split.
    { intros q Hq. apply Hfil in Hq as (H1 & H2 & m & ->). intros Hq. apply Hcb in Hq as [m' Hq]. by eapply Hlen. }
    specialize (Hnf (is_dir t)). assert (Hall : forall d, d ∈ List.filter (is_dir t) (children order t p) -> exists m, d = p ++ [m] /\ NoDup (visits n t d) /\ forall q, q ∈ visits n t d -> below d q).
    { intros d Hd. apply Hfil in Hd as (H1 & H2 & m & ->). exists m. split; [done|]. by apply Hsub. }
    clear -Hnf Hall. induction Hnf as [|d l Hd Hl IH]; [constructor|]. cbn [map concat]. apply NoDup_app. split; [|split].
    - destruct (Hall d ltac:(left)) as (m & -> & ? & _). done.
    - intros q Hq Hq'. destruct (Hall d ltac:(left)) as (m & -> & _ & Hb). apply Hb in Hq.
      apply elem_of_list_In, in_concat in Hq' as (l' & Hl' & Hq'). apply in_map_iff in Hl' as (d' & <- & Hd'). apply elem_of_list_In in Hd'.
      destruct (Hall d' ltac:(by right)) as (m' & -> & _ & Hb'). apply elem_of_list_In, Hb' in Hq'.
      destruct Hq as (k & r & ->). destruct Hq' as (k' & r' & E). rewrite <-!app_assoc in E. apply app_inv_head in E. cbn in E. injection E as -> _. done.
    - apply IH. intros d' Hd'. apply Hall. by right.
  Qed.

  (** A list that gives each directory before what it holds. *)
  Fixpoint ordered (S : path -> Prop) (l : list path) : Prop :=
    match l with
    | [] => True
    | q :: l => S (dirname q) /\ ordered (fun x => S x \/ x = q) l
    end.
  Lemma ordered_mono (S S' : path -> Prop) l : (forall x, S x -> S' x) -> ordered S l -> ordered S' l.
  Proof. revert S S'. induction l as [|q l IH]; intros S S' H; [done|]. cbn. intros [H1 H2]. split; [by apply H|]. eapply IH; [|exact H2]. naive_solver. Qed.
  Lemma ordered_app (S : path -> Prop) l m : ordered S l -> ordered (fun x => S x \/ x ∈ l) m -> ordered S (l ++ m).
  Proof.
    revert S. induction l as [|q l IH]; intros S H1 H2.
    - cbn. eapply ordered_mono; [|exact H2]. intros x [?|Hx]; [done|by apply elem_of_nil in Hx].
    - cbn in *. destruct H1 as [H1 H3]. split; [done|]. apply IH; [done|]. eapply ordered_mono; [|exact H2]. intros x. cbn. rewrite elem_of_cons. tauto.
  Qed.
  Lemma ordered_flat (S : path -> Prop) l : (forall q, q ∈ l -> S (dirname q)) -> ordered S l.
  Proof.
    revert S. induction l as [|q l IH]; intros S H; [done|]. split; [apply H; left|]. apply IH. intros q' Hq'. left. apply H. by right.
  Qed.
  Lemma visits_ordered fuel t p : t !! [] = None -> ordered (eq p) (visits fuel t p).
  Proof.
    intros H0. revert p. induction fuel as [|n IH]; intros p; [done|]. cbn [visits].
    assert (Hfil : forall f q, q ∈ List.filter f (children order t p) -> p = dirname q).
    { intros f q. rewrite elem_of_list_In, List.filter_In, <-elem_of_list_In, children_elem by done. intros ((_ & m & ->) & _). by rewrite dirname_snoc. }
    apply ordered_app; [apply ordered_flat, Hfil|]. apply ordered_app; [apply ordered_flat; intros q Hq; left; by eapply Hfil|].
    set (ds := List.filter (is_dir t) (children order t p)). assert (H : forall d, d ∈ ds -> (fun x => (p = x \/ x ∈ List.filter (fun q => negb (is_dir t q)) (children order t p)) \/ x ∈ ds) d) by (intros d Hd; by right).
    revert H. generalize (fun x => (p = x \/ x ∈ List.filter (fun q => negb (is_dir t q)) (children order t p)) \/ x ∈ ds). generalize ds.
    intros l. induction l as [|d l IHl]; intros S HS; [done|]. cbn [map concat]. apply ordered_app.
    - eapply ordered_mono; [|apply IH]. intros x <-. apply HS. left.
    - apply IHl. intros d' Hd'. left. apply HS. by right.
  Qed.

  Lemma make_dirs_last base rest n t :
    (forall a b, rest = a ++ b -> at_path t (base ++ a) = Some Dir) -> t !! (base ++ rest ++ [n]) = None ->
    make_dirs base (rest ++ [n]) t = (Ok tt, <[base ++ rest ++ [n] := Dir]> t).
  Proof.
    revert base. induction rest as [|m rest IH]; intros base Ha Hn; cbn [app make_dirs].
    - cbn [app] in Hn. by rewrite Hn.
    - pose proof (Ha [m] rest eq_refl) as Hm. unfold at_path in Hm. destruct (base ++ [m]) eqn:E; [by destruct base|]. rewrite <-E in *. rewrite Hm.
      rewrite IH.
      + by rewrite <-app_assoc.
      + intros a b ->. rewrite <-app_assoc. by apply (Ha (m :: a) b).
      + rewrite <-app_assoc. done.
  Qed.
  (** [mkdir] and the parents it makes. *)
  Lemma make_dirs_spec base rest t :
    (forall q c, below base q -> under q (base ++ rest) -> t !! q <> Some (File c)) ->
    exists u, make_dirs base rest t = (Ok tt, u) /\
      forall q, (below base q -> under q (base ++ rest) -> u !! q = Some Dir) /\
                (~ (below base q /\ under q (base ++ rest)) -> u !! q = t !! q).
  Proof.
    revert base t. induction rest as [|n rest IH]; intros base t Hf; cbn [make_dirs].
    - exists t. split; [done|]. intros q. split; [|done]. intros (n & r & ->) [x E]. exfalso. apply (f_equal length) in E. rewrite !app_length in E. cbn in E. lia.
    - assert (Hq : forall q, below base q -> under q (base ++ n :: rest) -> q = base ++ [n] \/ below (base ++ [n]) q).
      { intros q (m & r & ->) [x E]. rewrite <-app_assoc in E. apply app_inv_head in E. cbn in E. injection E as <- E.
        destruct r as [|k r]; [by left|]. right. exists k, r. by rewrite <-app_assoc. }
      assert (Hb : forall q, below (base ++ [n]) q -> below base q) by (intros q (k & r & ->); exists n, (k :: r); by rewrite <-app_assoc).
      assert (E0 : base ++ n :: rest = (base ++ [n]) ++ rest) by (by rewrite <-app_assoc).
      assert (Hself : below base (base ++ [n])) by (by exists n, []).
      assert (Hund : under (base ++ [n]) (base ++ n :: rest)) by (rewrite E0; apply under_app).
      assert (Hirr : ~ below (base ++ [n]) (base ++ [n])).
      { intros (k & r & E). apply (f_equal length) in E. rewrite !app_length in E. cbn in E. lia. }
      assert (Hgo : forall t', t' !! (base ++ [n]) = Some Dir -> (forall q, q <> base ++ [n] -> t' !! q = t !! q) ->
        exists u, make_dirs (base ++ [n]) rest t' = (Ok tt, u) /\
          forall q, (below base q -> under q (base ++ n :: rest) -> u !! q = Some Dir) /\ (~ (below base q /\ under q (base ++ n :: rest)) -> u !! q = t !! q)).
      { intros t' H1 H2. destruct (IH (base ++ [n]) t') as (u & E & Hu).
        - intros q c Hb1 Hu1. rewrite <-E0 in Hu1. rewrite H2; [by apply Hf; [apply Hb|]|]. intros ->. done.
        - exists u. split; [exact E|]. intros q. rewrite <-E0 in Hu. destruct (Hu q) as [Hu1 Hu2]. split.
          + intros Hb1 Hb2. destruct (Hq q Hb1 Hb2) as [->|Hb3]; [|by apply Hu1]. rewrite Hu2; [done|]. intros [? _]. done.
          + intros Hn. rewrite Hu2; [|intros [? ?]; apply Hn; split; [by apply Hb|done]]. apply H2. intros ->. by apply Hn. }
      destruct (t !! (base ++ [n])) as [[|c]|] eqn:En.
      + by apply Hgo.
      + exfalso. by apply (Hf _ c Hself Hund).
      + apply Hgo; [apply lookup_insert|]. intros q N. by rewrite lookup_insert_ne.
  Qed.

  Section copy.
    Context (source target : path) (T : disk C) (HT : well_formed T).
    Context (Hst : ~ under source target) (Hts : ~ under target source).
    Definition cmd_of (q : path) : cmd C :=
      if is_dir T q then mkdir (target ++ relpath q source) else copy_file q (target ++ relpath q source).

    Lemma copy_all l : forall (S : path -> Prop) u,
      (forall q, q ∈ l -> below source q /\ is_Some (T !! q)) -> NoDup l -> ordered S l ->
      (forall q, under source q -> u !! q = T !! q) ->
      (forall x, S x -> at_path T x = Some Dir -> under source x /\ forall a b, target ++ relpath x source = a ++ b -> at_path u a = Some Dir) ->
      (forall q, q ∈ l -> u !! (target ++ relpath q source) = None) ->
      exists u', all_cmds (map cmd_of l) u = (Ok tt, u') /\
        (forall s, source ++ s ∈ l -> u' !! (target ++ s) = T !! (source ++ s)) /\
        (forall q, (forall s, q = target ++ s -> source ++ s ∉ l) -> u' !! q = u !! q).
    Proof using HT Hst Hts.
      induction l as [|q l IH]; intros S u Hl Hnd Hord Hu HS Hnew.
      - exists u. split; [done|]. split; [|done]. intros s Hs. by apply elem_of_nil in Hs.
      - destruct (Hl q ltac:(left)) as [(n & r & Eq) [x Hx]]. inversion Hnd as [|? ? Hq Hnd']; subst.
        destruct Hord as [Hd Hord]. set (q := source ++ n :: r) in *.
        assert (Erel : relpath q source = n :: r) by (unfold relpath, q; by rewrite drop_app).
        assert (Edir : dirname q = source ++ dirname (n :: r)) by (unfold q; apply dirname_app).
        assert (Ereld : relpath (dirname q) source = dirname (n :: r)) by (rewrite Edir; unfold relpath; by rewrite drop_app).
        assert (Hqn : q <> []) by (unfold q; by destruct source).
        assert (HdT : at_path T (dirname q) = Some Dir).
        { apply (wf_dir T (dirname q) [basename q] HT); [done|]. rewrite <-snoc_of by done. by eexists. }
        destruct (HS _ Hd HdT) as [_ Hpre]. rewrite Ereld in Hpre.
        assert (Esn : target ++ relpath q source = (target ++ dirname (n :: r)) ++ [basename (n :: r)]).
        { rewrite Erel, <-app_assoc. f_equal. by apply snoc_of. }
        assert (Hnq : u !! (target ++ relpath q source) = None) by (apply Hnew; left).
        assert (Hcmd : cmd_of q u = (Ok tt, <[target ++ relpath q source := x]> u)).
        { unfold cmd_of. destruct (is_dir T q) eqn:Ed.
          - apply is_dir_at in Ed. rewrite at_path_ne, Hx in Ed by done. injection Ed as ->.
            unfold mkdir. assert (exists_node u (target ++ relpath q source) = false) as ->.
            { unfold exists_node. destruct (target ++ relpath q source) eqn:E1; [rewrite Erel in E1; by destruct target|]. rewrite Hnq. by apply bool_decide_eq_false_2; intros [? ?]. }
            rewrite Esn in Hnq |- *. apply (make_dirs_last [] (target ++ dirname (n :: r))).
            + intros a b E. cbn [app]. by apply Hpre in E.
            + exact Hnq.
          - unfold copy_file. rewrite (Hu q) by (unfold q; apply under_app). rewrite Hx. destruct x as [|c].
            + exfalso. assert (is_dir T q = true); [|congruence]. apply is_dir_at. by rewrite at_path_ne.
            + rewrite Hnq. assert (is_dir u (dirname (target ++ relpath q source)) = true) as ->; [|done].
              apply is_dir_at. rewrite Esn, dirname_snoc. by apply (Hpre _ []); rewrite app_nil_r. }
        cbn [map all_cmds]. rewrite Hcmd. set (u1 := <[target ++ relpath q source := x]> u).
        assert (Hrel : forall q', q' ∈ q :: l -> exists s, q' = source ++ s /\ relpath q' source = s).
        { intros q' Hq'. destruct (Hl q' Hq') as [(m & w & ->) _]. exists (m :: w). split; [done|]. unfold relpath. by rewrite drop_app. }
        destruct (IH (fun x => S x \/ x = q) u1) as (u' & E & Hin & Hout).
        + intros q' Hq'. apply Hl. by right.
        + done.
        + done.
        + intros q' Hq'. unfold u1. rewrite lookup_insert_ne; [by apply Hu|]. intros <-. destruct (under_cases target source _ (under_app _ _) Hq'); done.
        + intros y [Hy| ->] HyT.
          * destruct (HS y Hy HyT) as [Hy1 Hy2]. split; [done|]. intros a b Ea. specialize (Hy2 a b Ea). unfold at_path in *. destruct a as [|a0 a1] eqn:E0; [done|]. rewrite <-E0 in *.
            unfold u1. rewrite lookup_insert_ne; [done|]. intros E1. rewrite E1 in Hnq. congruence.
          * split; [unfold q; apply under_app|]. intros a b Ea. destruct (decide (b = [])) as [->|Nb].
            -- rewrite app_nil_r in Ea. subst a. rewrite at_path_ne, Hx in HyT by done. injection HyT as ->.
               rewrite at_path_ne by (rewrite Erel; by destruct target). apply lookup_insert.
            -- destruct (exists_last Nb) as (b' & m & ->). rewrite Esn, app_assoc in Ea. apply app_inj_tail in Ea as [Ea _].
               specialize (Hpre a b' Ea). unfold at_path in *. destruct a as [|a0 a1] eqn:E0; [done|]. rewrite <-E0 in *.
               unfold u1. rewrite lookup_insert_ne; [done|]. intros E1. rewrite E1 in Hnq. congruence.
        + intros q' Hq'. unfold u1. rewrite lookup_insert_ne; [apply Hnew; by right|]. intros E1. apply app_inv_head in E1.
          destruct (Hrel q ltac:(left)) as (s1 & Es1 & R1). destruct (Hrel q' ltac:(by right)) as (s2 & Es2 & R2). rewrite R1, R2 in E1. subst s2. rewrite Es1, <-Es2 in Hq. done.
        + exists u'. split; [exact E|]. split.
          * intros s Hs. apply elem_of_cons in Hs as [Hs|Hs]; [|by apply Hin]. unfold q in Hs. apply app_inv_head in Hs as ->.
            rewrite Hout.
            -- unfold u1. rewrite Erel, lookup_insert. symmetry. exact Hx.
            -- intros s E1. apply app_inv_head in E1 as <-. done.
          * intros q' Hq'. rewrite Hout.
            -- unfold u1. apply lookup_insert_ne. rewrite Erel. intros <-. apply (Hq' (n :: r) eq_refl). left.
            -- intros s Es Hs. apply (Hq' s Es). by right.
    Qed.
  End copy.
End tree.
