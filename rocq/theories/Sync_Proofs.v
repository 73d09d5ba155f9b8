(** * Processes that share a synchronizer: proofs *)
From Verif Require Import Py FS_Model FS_Proofs Pool_Model Pool_Proofs Sync_Model Sync_Spec.

Section sync.
  Context {C : Type} (torn : C).
  Implicit Types (y : system C) (s : fs C).
  Local Notation task := (prog C unit).

  Lemma map_at {A B : Type} (f : A -> B) (l : list A) i : map f l !! i = f <$> l !! i.
  Proof. exact (list_lookup_fmap f l i). Qed.
  Lemma over_all (ts : list task) : Forall over ts -> Forall (fun t => ~ failed t) ts -> exists l, ts = map Ret (map Ok l).
  Proof.
    induction 1 as [|t ts [r ->] _ IH]; intros Hf; [by exists []|]. inversion Hf as [|? ? H1 H2]; subst.
    destruct (IH H2) as [l ->]. destruct r as [a|e]; [by exists (a :: l)|]. exfalso. apply H1. by exists e.
  Qed.

  Definition scr (gs : list (list task)) : script C := foldr transaction Stop gs.
  Lemma script_inserts cs : Forall inserts cs -> script_calls cs = scr (concat (map groups cs)).
  Proof.
    unfold scr. induction 1 as [|c cs (im & bs & ->) _ IH]; [done|]. cbn [script_calls foldr map concat script_call groups].
    change (foldr script_call Stop cs) with (script_calls cs). rewrite IH. destruct im as [t|]; cbn [option_list app transaction foldr];
      [do 3 f_equal; f_equal|]; by rewrite foldr_app.
  Qed.

  Lemma one_skip gss i pre gs s s' :
    gss !! i = Some (pre ++ gs) -> Forall (eq []) pre -> one_by_one torn (<[i := gs]> gss) s s' -> one_by_one torn gss s s'.
  Proof.
    intros Hi Hp. revert gss Hi. induction Hp as [|g pre <- _ IH]; intros gss Hi H.
    - by rewrite list_insert_id in H.
    - eapply (one_next torn _ i [] (pre ++ gs) []); [exact Hi|reflexivity|]. apply IH.
      + apply list_lookup_insert. by eapply lookup_lt_Some.
      + by rewrite list_insert_insert.
  Qed.
  Lemma scr_cases gs : (Forall (eq []) gs /\ scr gs = Stop) \/
    exists pre g r, gs = pre ++ g :: r /\ Forall (eq []) pre /\ g <> [] /\ scr gs = Enter (Submit g (Gather (Exit (scr r)) (Exit (Await Stop)))).
  Proof.
    induction gs as [|g gs IH]; [by left|]. destruct g as [|t g].
    - destruct IH as [[H E]|(pre & g & r & -> & Hp & Hg & E)]; [left; split; [by constructor|exact E]|right].
      exists ([] :: pre), g, r. split; [done|]. split; [by constructor|]. split; [done|]. exact E.
    - right. exists [], (t :: g), gs. done.
  Qed.

  Definition idle (p : process C) (gs : list (list task)) : Prop := pr_script p = scr gs /\ pr_tasks p = [].
  Definition active (p : process C) (gs : list (list task)) s0 s : Prop :=
    (s = s0 /\ pr_tasks p = [] /\ exists g r, gs = g :: r /\ pr_script p = Submit g (Gather (Exit (scr r)) (Exit (Await Stop)))) \/
    (exists g r, gs = g :: r /\ pr_script p = Gather (Exit (scr r)) (Exit (Await Stop)) /\ rtc (pool_step torn) (g, s0) (pr_tasks p, s)) \/
    (s = s0 /\ pr_tasks p = [] /\ pr_script p = Exit (scr gs)).
  Definition Inv all s y : Prop :=
    exists s0 gss, (forall s', one_by_one torn gss s0 s' -> one_by_one torn all s s') /\ length gss = length (sy_procs y) /\
    (forall i p gs, sy_owner y <> Some i -> sy_procs y !! i = Some p -> gss !! i = Some gs -> idle p gs) /\
    match sy_owner y with
    | None => sy_store y = s0
    | Some o => exists p gs, sy_procs y !! o = Some p /\ gss !! o = Some gs /\ active p gs s0 (sy_store y)
    end.

  Lemma no_failure_back y y' : system_step torn ProcessSync y y' -> no_failure y' -> no_failure y.
  Proof.
    intros Hs Hn. assert (Hkeep : forall i p q, sy_procs y !! i = Some p -> sy_procs y' = <[i := q]> (sy_procs y) ->
      (forall t, t ∈ pr_tasks p -> failed t -> exists t', t' ∈ pr_tasks q /\ failed t') -> no_failure y).
    { intros i p q Hi Ey Hq j p' t Hj Ht Hf. destruct (decide (i = j)) as [<-|N].
      - rewrite Hi in Hj. injection Hj as <-. destruct (Hq t Ht Hf) as (t' & Ht' & Hf'). refine (Hn i q t' _ Ht' Hf').
        rewrite Ey. apply list_lookup_insert. by eapply lookup_lt_Some.
      - refine (Hn j p' t _ Ht Hf). by rewrite Ey, list_lookup_insert_ne. }
    inversion Hs as [? i p ts s Hi Hp|? i p q o Hi ? ?|? i p q Hi ?|? i p q ts Hi ?|? i p q f Hi ? Ho Hf|? i p q f Hi ? ?|? i p q Hi ? ?]; subst.
    - eapply Hkeep; [exact Hi|reflexivity|]. cbn [pr_tasks]. intros t Ht [e ->]. exists (Ret (Raise e)). split; [|by exists e].
      inversion Hp as [? j t0 t1 ? ? Ej Hst]; subst. apply elem_of_list_lookup in Ht as [j' Hj']. apply elem_of_list_lookup. exists j'.
      rewrite list_lookup_insert_ne; [done|]. intros <-. rewrite Ej in Hj'. injection Hj' as ->. inversion Hst.
    - eapply Hkeep; [exact Hi|reflexivity|]. cbn. eauto.
    - eapply Hkeep; [exact Hi|reflexivity|]. cbn. eauto.
    - eapply Hkeep; [exact Hi|reflexivity|]. cbn. intros t Ht Ht'. exists t. split; [|done]. apply elem_of_app. by left.
    - eapply Hkeep; [exact Hi|reflexivity|]. cbn. intros t Ht Ht'. rewrite Forall_forall in Hf. by apply Hf in Ht.
    - eapply Hkeep; [exact Hi|reflexivity|]. cbn. eauto.
    - eapply Hkeep; [exact Hi|reflexivity|]. cbn. eauto.
  Qed.

  Lemma inv_step all s y y' : system_step torn ProcessSync y y' -> no_failure y -> Inv all s y -> Inv all s y'.
  Proof.
    intros Hs Hn (s0 & gss & Hser & Hlen & Hidle & Hown).
    assert (Hget : forall i p, sy_procs y !! i = Some p -> exists gs, gss !! i = Some gs /\ i < length gss).
    { intros i p Hi. apply lookup_lt_Some in Hi. rewrite <-Hlen in Hi. destruct (lookup_lt_is_Some_2 gss i Hi) as [gs Hg]. by exists gs. }
    (* the process that steps is idle or holds the lock *)
    assert (Hcase : forall i p, sy_procs y !! i = Some p -> exists gs, gss !! i = Some gs /\
      ((sy_owner y <> Some i /\ idle p gs) \/ (sy_owner y = Some i /\ active p gs s0 (sy_store y)))).
    { intros i p Hi. destruct (Hget i p Hi) as (gs & Hg & _). exists gs. split; [done|]. destruct (decide (sy_owner y = Some i)) as [E|N].
      - right. split; [done|]. rewrite E in Hown. destruct Hown as (p' & gs' & Hp' & Hg' & Ha). congruence.
      - left. split; [done|]. exact (Hidle i p gs N Hi Hg). }
    inversion Hs as [? i p ts st Hi Hp|? i p q o Hi Eq Ho|? i p q Hi Eq|? i p q ts Hi Eq|? i p q f Hi Eq Ho Hf|? i p q f Hi Eq Hf|? i p q Hi Eq Ho]; subst;
      destruct (Hcase i p Hi) as (gs & Hg & [[No [Hs1 Hs2]]|[Ow Ha]]).
    - exfalso. rewrite Hs2 in Hp. inversion Hp as [? j ? ? ? ? Ej]; subst. done.
    - destruct Ha as [(_ & Et & _)|[(g & r & -> & E1 & E2)|(_ & Et & _)]]; [|shelve|]; exfalso; rewrite Et in Hp; inversion Hp as [? j ? ? ? ? Ej]; subst; done.
      Unshelve. exists s0, gss. split; [done|]. split; [cbn [sy_procs]; by rewrite insert_length|]. cbn [sy_owner sy_procs sy_store]. split.
      + intros j p' gs' Hj Hp' Hg'. destruct (decide (i = j)) as [<-|N]; [by rewrite Ow in Hj|]. rewrite list_lookup_insert_ne in Hp' by done. exact (Hidle j p' gs' ltac:(done || congruence) Hp' Hg').
      + rewrite Ow. exists (Process (pr_script p) ts), (g :: r). split; [apply list_lookup_insert; by eapply lookup_lt_Some|]. split; [done|].
        right. left. exists g, r. split; [done|]. split; [done|]. eapply rtc_r; [exact E2|exact Hp].
    - (* the lock is taken *)
      cbn [enter] in Ho. destruct (sy_owner y) as [|] eqn:Ow; [done|]. injection Ho as <-.
      destruct (scr_cases gs) as [[_ E]|(pre & g & r & -> & Hpre & Hne & E)]; rewrite Hs1, E in Eq; [done|]. injection Eq as <-.
      exists s0, (<[i := g :: r]> gss). split; [intros s' H'; apply Hser; by eapply one_skip|]. split; [cbn [sy_procs]; by rewrite !insert_length|]. cbn [sy_owner sy_procs sy_store]. split.
      + intros j p' gs' Hj Hp' Hg'. assert (i <> j) by congruence. rewrite list_lookup_insert_ne in Hp' by done; rewrite list_lookup_insert_ne in Hg' by done. exact (Hidle j p' gs' ltac:(done || congruence) Hp' Hg').
      + eexists _, (g :: r). split; [apply list_lookup_insert; by eapply lookup_lt_Some|]. split; [apply list_lookup_insert; by eapply lookup_lt_Some|].
        left. split; [done|]. split; [done|]. by exists g, r.
    - exfalso. cbn in Ho. by rewrite Ow in Ho.
    - exfalso. destruct (scr_cases gs) as [[_ E]|(pre & g & r & -> & Hpre & Hne & E)]; rewrite Hs1, E in Eq; done.
    - (* the lock is released *)
      destruct Ha as [(_ & _ & g & r & _ & E)|[(g & r & _ & E & _)|(E1 & Et & E)]]; rewrite E in Eq; try done. injection Eq as <-.
      exists s0, gss. split; [done|]. split; [cbn [sy_procs]; by rewrite insert_length|]. cbn [sy_owner sy_procs sy_store exit]. rewrite decide_True by done. split; [|done].
      intros j p' gs' _ Hp' Hg'. destruct (decide (i = j)) as [<-|N].
      + rewrite list_lookup_insert in Hp' by (by eapply lookup_lt_Some). injection Hp' as <-. rewrite Hg in Hg'. injection Hg' as <-. done.
      + rewrite list_lookup_insert_ne in Hp' by done. eapply Hidle; [|done|done]. congruence.
    - exfalso. destruct (scr_cases gs) as [[_ E]|(pre & g & r & -> & Hpre & Hne & E)]; rewrite Hs1, E in Eq; done.
    - (* the tasks start *)
      destruct Ha as [(E1 & Et & g & r & -> & E)|[(g & r & _ & E & _)|(E1 & Et & E)]]; rewrite E in Eq; try done. injection Eq as <- <-.
      exists s0, gss. split; [done|]. split; [cbn [sy_procs]; by rewrite insert_length|]. cbn [sy_owner sy_procs sy_store]. split.
      + intros j p' gs' Hj Hp' Hg'. assert (i <> j) by congruence. rewrite list_lookup_insert_ne in Hp' by done. exact (Hidle j p' gs' ltac:(done || congruence) Hp' Hg').
      + rewrite Ow. eexists _, (g :: r). split; [apply list_lookup_insert; by eapply lookup_lt_Some|]. split; [done|].
        right. left. exists g, r. split; [done|]. split; [done|]. cbn [pr_tasks]. rewrite Et, E1. reflexivity.
    - exfalso. destruct (scr_cases gs) as [[_ E]|(pre & g & r & -> & Hpre & Hne & E)]; rewrite Hs1, E in Eq; done.
    - (* the results are gathered *)
      destruct Ha as [(E1 & Et & g & r & -> & E)|[(g & r & -> & E & Hr)|(E1 & Et & E)]]; rewrite E in Eq; try done. injection Eq as <- <-.
      destruct (over_all _ Ho Hf) as [l El]. rewrite El in Hr.
      exists (sy_store y), (<[i := r]> gss). split.
      { intros s' H'. apply Hser. exact (one_next torn _ i g r l _ _ _ Hg Hr H'). }
      split; [cbn [sy_procs]; by rewrite !insert_length|]. cbn [sy_owner sy_procs sy_store]. split.
      + intros j p' gs' Hj Hp' Hg'. assert (i <> j) by congruence. rewrite list_lookup_insert_ne in Hp' by done; rewrite list_lookup_insert_ne in Hg' by done. exact (Hidle j p' gs' ltac:(done || congruence) Hp' Hg').
      + rewrite Ow. eexists _, r. split; [apply list_lookup_insert; by eapply lookup_lt_Some|]. split; [apply list_lookup_insert; by eapply lookup_lt_Some|].
        right. right. done.
    - exfalso. destruct (scr_cases gs) as [[_ E]|(pre & g & r & -> & Hpre & Hne & E)]; rewrite Hs1, E in Eq; done.
    - exfalso. apply Exists_exists in Hf as (t & Ht & Hft). by apply (Hn i p t).
    - exfalso. destruct (scr_cases gs) as [[_ E]|(pre & g & r & -> & Hpre & Hne & E)]; rewrite Hs1, E in Eq; done.
    - exfalso. destruct Ha as [(E1 & Et & g & r & -> & E)|[(g & r & -> & E & Hr)|(E1 & Et & E)]]; rewrite E in Eq; done.
  Qed.

  Lemma inv_reachable calls s y :
    Forall (Forall inserts) calls -> reachable torn ProcessSync calls s y -> no_failure y -> Inv (map (fun cs => concat (map groups cs)) calls) s y.
  Proof.
    intros Hc Hy. unfold reachable in Hy. remember (start calls s) as x eqn:Ex.
    refine (rtc_ind_r (fun y => no_failure y -> Inv _ s y) x _ _ y Hy); subst x.
    - intros _. exists s, (map (fun cs => concat (map groups cs)) calls). split; [done|]. unfold start; cbn [sy_procs sy_owner sy_store]. split; [by rewrite !map_length|]. split; [|done].
      intros i p gs _ Hp Hg.
      rewrite map_at in Hp. rewrite map_at in Hg.
      destruct (calls !! i) as [cs|] eqn:Ei; [|done]. cbn in Hp, Hg. injection Hp as <-. injection Hg as <-. split; [|done].
      apply script_inserts. rewrite Forall_forall in Hc. apply Hc. by eapply elem_of_list_lookup_2.
    - intros y1 y2 _ H12 IH Hn. pose proof (no_failure_back _ _ H12 Hn) as Hn1. by eapply inv_step, IH.
  Qed.
End sync.
