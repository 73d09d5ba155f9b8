(** * What concurrent tasks do *)
From Verif Require Import Py FS_Model FS_Proofs Pool_Model.

Section pool.
  Context {C : Type} (torn : C).
  Implicit Types (s t : fs C).

  Lemma exec_attempt {A : Type} (p : prog C A) s : exec (attempt p) s = (Ok (exec p s).1, (exec p s).2).
  Proof. revert s. induction p as [r|o k IH]; intros s; cbn; [done|]. destruct (exec_op o s). apply IH. Qed.
  Lemma exec_run_all {A : Type} (ps : list (prog C A)) s : exec (run_all ps) s = (Ok (exec_all ps s).1, (exec_all ps s).2).
  Proof.
    revert s. induction ps as [|p ps IH]; intros s; cbn; [done|]. rewrite exec_bind, exec_attempt.
    destruct (exec p s) as [r s1]; cbn. rewrite exec_bind, IH. by destruct (exec_all ps s1).
  Qed.

  (** Running an interleaving is one of the runs of the pool. *)
  Lemma exec_interleave {A : Type} sched (ps : list (prog C A)) s :
    exists rs s', exec (interleave torn sched ps) s = (Ok rs, s') /\ rtc (pool_step torn) (ps, s) (map Ret rs, s').
  Proof.
    revert ps s. induction sched as [|[i tear] sched IH]; intros ps s; cbn.
    - exists (exec_all ps s).1, (exec_all ps s).2. split; [apply exec_run_all|apply exec_all_steps].
    - destruct (ps !! i) as [[r|o k]|] eqn:E; [apply IH| |apply IH].
      assert (forall o' : op (C := C), o' = o -> exists rs s', exec (Op o' (fun r => interleave torn sched (<[i := k r]> ps))) s = (Ok rs, s')
        /\ rtc (pool_step torn) (ps, s) (map Ret rs, s')) as Hdo.
      { intros o' ->. cbn. destruct (IH (<[i := k (exec_op o s).1]> ps) (exec_op o s).2) as (rs & s' & E1 & E2).
        exists rs, s'. split; [by destruct (exec_op o s)|]. eapply rtc_l; [|exact E2]. eapply pool_one; [exact E|]. apply step_do. }
      destruct tear, o; try by apply Hdo. cbn. destruct (IH ps (<[p := torn]> s)) as (rs & s' & E1 & E2).
      exists rs, s'. split; [done|]. eapply rtc_l; [|exact E2]. rewrite <-(list_insert_id ps i _ E) at 2. eapply pool_one; [exact E|]. apply step_tear.
  Qed.

  (** Concurrent independent tasks end as if they had been run one by one. *)
  Lemma exec_transaction {A : Type} sched (ps : list (prog C A)) R W s :
    (forall i q, Decision (W i q)) -> independent ps R W ->
    exec (execute_transaction torn sched ps) s = (first_error (exec_all ps s).1, (exec_all ps s).2).
  Proof.
    intros D Hi. unfold execute_transaction. rewrite exec_bind. destruct (exec_interleave sched ps s) as (rs & s' & -> & H).
    cbn. by rewrite (pool_deterministic torn ps R W s rs s' D Hi H).
  Qed.
  Lemma exec_all_spec {A : Type} (ps : list (prog C A)) R W s :
    independent ps R W ->
    (exec_all ps s).1 = map (fun p : prog C A => (exec p s).1) ps /\
    (forall i (p : prog C A) q, ps !! i = Some p -> R i q \/ W i q -> (exec_all ps s).2 !! q = (exec p s).2 !! q) /\
    (forall q, (forall i (p : prog C A), ps !! i = Some p -> ~ W i q) -> (exec_all ps s).2 !! q = s !! q).
  Proof. intros Hi. eapply pool_finished; [exact Hi|]. apply (exec_all_steps torn). Qed.

  Lemma first_error_Ok {A : Type} (rs : list (res A)) l : first_error rs = Ok l <-> rs = map Ok l.
  Proof.
    revert l. induction rs as [|[a|e] rs IH]; intros l; cbn.
    - destruct l; naive_solver.
    - destruct (first_error rs) as [l'|e]; cbn.
      + split; [intros [= <-]|intros H]; [by rewrite (proj1 (IH l') eq_refl)|]. destruct l as [|b l]; [done|]. injection H as -> H. apply IH in H. naive_solver.
      + split; [done|]. intros H. destruct l as [|b l]; [done|]. injection H as -> H. by apply IH in H.
    - destruct l; naive_solver.
  Qed.
  Lemma first_error_Raise {A : Type} (rs : list (res A)) e : first_error rs = Raise e -> Raise e ∈ rs.
  Proof.
    induction rs as [|[a|e'] rs IH]; cbn; [done| |].
    - destruct (first_error rs); cbn; [done|]. intros [= ->]. right. by apply IH.
    - intros [= ->]. left.
  Qed.

  Lemma within_attempt {A : Type} R W (p : prog C A) : within R W p -> within R W (attempt p).
  Proof. induction p as [r|o k IH]; cbn; [done|]. naive_solver. Qed.
  Lemma within_run_all {A : Type} R W (ps : list (prog C A)) : (forall p : prog C A, p ∈ ps -> within R W p) -> within R W (run_all ps).
  Proof.
    induction ps as [|p ps IH]; intros H; cbn; [done|]. apply within_bind; [apply within_attempt, H; by left|]. intros r.
    apply within_bind; [apply IH; intros; apply H; by right|done].
  Qed.
  Lemma within_interleave {A : Type} R W sched (ps : list (prog C A)) :
    (forall p : prog C A, p ∈ ps -> within R W p) -> within R W (interleave torn sched ps).
  Proof.
    revert ps. induction sched as [|[i tear] sched IH]; intros ps H; cbn; [by apply within_run_all|].
    destruct (ps !! i) as [[r|o k]|] eqn:E; [by apply IH| |by apply IH].
    pose proof (H _ (elem_of_list_lookup_2 _ _ _ E)) as [Ho Hk].
    assert (forall r, possible o r -> within R W (interleave torn sched (<[i := k r]> ps))).
    { intros r Hr. apply IH. intros p Hp. apply elem_of_list_lookup in Hp as (j & Ej). destruct (decide (i = j)) as [<-|N].
      - rewrite list_lookup_insert in Ej by (by eapply lookup_lt_Some). injection Ej as <-. by apply Hk.
      - rewrite list_lookup_insert_ne in Ej by done. apply H. by eapply elem_of_list_lookup_2. }
    destruct tear, o; cbn in *; auto.
  Qed.
  Lemma within_transaction {A : Type} R W sched (ps : list (prog C A)) :
    (forall p : prog C A, p ∈ ps -> within R W p) -> within R W (execute_transaction torn sched ps).
  Proof. intros H. apply within_bind; [by apply within_interleave|done]. Qed.

  (** ** Crash points of concurrent tasks *)
  (** A property that only looks at a region. *)
  Definition local (X : path -> Prop) (Phi : fs C -> Prop) : Prop := forall s t, agree X s t -> Phi s -> Phi t.
  Lemma agree_sym (X : path -> Prop) s t : agree X s t -> agree X t s.
  Proof. intros H q Hq. by rewrite H. Qed.
  Lemma agree_trans (X : path -> Prop) s t u : agree X s t -> agree X t u -> agree X s u.
  Proof. intros H G q Hq. rewrite H by done. by apply G. Qed.
  Lemma always_local {A : Type} R W Phi (p : prog C A) s t :
    within R W p -> local (fun q => R q \/ W q) Phi -> agree (fun q => R q \/ W q) s t -> always torn Phi p s -> always torn Phi p t.
  Proof.
    intros Hw Hl. revert s t Hw. induction p as [r|o k IH]; intros s t Hw Ha; cbn; [naive_solver|].
    destruct Hw as [Ho Hk]. intros (H1 & H2 & H3). destruct (exec_op_frame R W o s t Ho Ha) as [E1 E2]. split_and!.
    - by apply (Hl s).
    - destruct o as [p|p c|p|p|a b]; cbn in *; [done| | | |done].
      + apply (Hl (<[p := torn]> s)); [|done]. intros q Hq. destruct (decide (p = q)) as [->|]; [by rewrite !lookup_insert|]. rewrite !lookup_insert_ne by done. by apply Ha.
      + intros t' Ht. destruct (partly_frame (fun q => R q \/ W q) p t s t' (fun q U => or_intror (Ho q U)) (agree_sym _ _ _ Ha) Ht) as (s' & Hs & Ha').
        apply (Hl s'); [by apply agree_sym|]. by apply H2.
      + intros t' Ht. destruct (partly_frame (fun q => R q \/ W q) p t s t' (fun q U => or_intror (Ho q U)) (agree_sym _ _ _ Ha) Ht) as (s' & Hs & Ha').
        apply (Hl s'); [by apply agree_sym|]. by apply H2.
    - rewrite <-E1. eapply IH; [apply Hk, possible_exec|done|done].
  Qed.

  (** What an operation may do, complete or not, is within its region. *)
  Lemma mid_outside (R W : path -> Prop) (o : op (C := C)) s (Phi : fs C -> Prop) :
    op_within R W o -> (forall s', (forall q, ~ W q -> s' !! q = s !! q) -> Phi s') -> mid torn o s Phi.
  Proof.
    intros Ho H. destruct o as [p|p c|p|p|a b]; cbn in *; try done.
    - apply H. intros q Hq. rewrite lookup_insert_ne; [done|]. by intros ->.
    - intros s' Hs. apply H. intros q Hq. destruct (Hs q) as [|[U _]]; [done|]. by apply Ho in U.
    - intros s' Hs. apply H. intros q Hq. destruct (Hs q) as [|[U _]]; [done|]. by apply Ho in U.
  Qed.
  (** Nothing changes outside the region of a program. *)
  Lemma always_region {A : Type} (R W : path -> Prop) (p : prog C A) s : within R W p -> always torn (fun u => forall q, ~ W q -> u !! q = s !! q) p s.
  Proof.
    intros Hw. assert (H : forall q, ~ W q -> s !! q = s !! q) by done. revert H. generalize s at 1 4. revert Hw.
    induction p as [r|o k IH]; intros Hw t Ht; cbn [always]; [done|]. destruct Hw as [Ho Hk]. split_and!; [done| |].
    - eapply mid_outside; [exact Ho|]. intros s' Hs q Hq. rewrite Hs by done. by apply Ht.
    - apply IH; [apply Hk, possible_exec|]. intros q Hq. rewrite (exec_op_outside R W o t q Ho Hq). by apply Ht.
  Qed.
  Lemma mid_and (o : op (C := C)) s (Phi Psi : fs C -> Prop) : mid torn o s Phi -> mid torn o s Psi -> mid torn o s (fun u => Phi u /\ Psi u).
  Proof. destruct o; cbn; auto. Qed.
  Lemma mid_impl (o : op (C := C)) s (Phi Psi : fs C -> Prop) : (forall u, Phi u -> Psi u) -> mid torn o s Phi -> mid torn o s Psi.
  Proof. destruct o; cbn; auto. Qed.
  Lemma mid_forall {I : Type} (o : op (C := C)) s (Phi : I -> fs C -> Prop) : (forall i, mid torn o s (Phi i)) -> mid torn o s (fun u => forall i, Phi i u).
  Proof. destruct o; cbn; auto. Qed.

  Section always.
    Context {A : Type} (R W : nat -> path -> Prop) (Phi : nat -> fs C -> Prop) (s0 : fs C) (n : nat).
    Hypothesis Hdis : forall i j, i < n -> j < n -> i <> j -> forall q, W i q -> ~ (R j q \/ W j q).
    Hypothesis Hloc : forall i, i < n -> local (fun q => R i q \/ W i q) (Phi i).

    Definition good (ps : list (prog C A)) s : Prop :=
      length ps = n /\
      (forall i (p : prog C A), ps !! i = Some p -> within (R i) (W i) p /\ always torn (Phi i) p s) /\
      (forall q, (forall i, i < n -> ~ W i q) -> s !! q = s0 !! q).
    Definition holds s : Prop :=
      (forall i, i < n -> Phi i s) /\ (forall q, (forall i, i < n -> ~ W i q) -> s !! q = s0 !! q).

    Lemma good_holds ps s : good ps s -> holds s.
    Proof.
      intros (L & H & Ho). split; [|done]. intros i Hi. rewrite <-L in Hi. apply lookup_lt_is_Some in Hi as [p Ep].
      destruct (H i p Ep) as [_ Ha]. by apply always_here in Ha.
    Qed.
    Lemma good_change ps s s' i : i < n -> (forall q, ~ W i q -> s' !! q = s !! q) -> good ps s ->
      forall j (p : prog C A), j <> i -> ps !! j = Some p -> within (R j) (W j) p /\ always torn (Phi j) p s'.
    Proof.
      intros Hi Hc (L & H & Ho) j p N Ej. destruct (H j p Ej) as [Hw Ha]. split; [done|].
      assert (j < n) by (rewrite <-L; by eapply lookup_lt_Some).
      eapply always_local; [exact Hw|by apply Hloc| |exact Ha]. intros q Hq. rewrite Hc; [done|]. intros Wq. by apply (Hdis i j Hi H0 (not_eq_sym N) q).
    Qed.
    Lemma good_outside s s' i : i < n -> (forall q, ~ W i q -> s' !! q = s !! q) ->
      (forall q, (forall i, i < n -> ~ W i q) -> s !! q = s0 !! q) -> (forall q, (forall i, i < n -> ~ W i q) -> s' !! q = s0 !! q).
    Proof. intros Hi Hc Ho q Hq. rewrite Hc by (by apply Hq). by apply Ho. Qed.

    Lemma good_mid ps s i o k : good ps s -> ps !! i = Some (Op o k) -> mid torn o s holds.
    Proof.
      intros G Ei. pose proof G as (L & H & Ho). destruct (H i _ Ei) as [[How Hk] Ha]. cbn in Ha. destruct Ha as (H1 & H2 & H3).
      assert (Hi : i < n) by (rewrite <-L; by eapply lookup_lt_Some).
      apply (mid_impl o s (fun u => Phi i u /\ (forall q, ~ W i q -> u !! q = s !! q))).
      - intros u [Hu Hout]. split; [|by eapply good_outside]. intros j Hj. destruct (decide (j = i)) as [->|N]; [done|].
        rewrite <-L in Hj. apply lookup_lt_is_Some in Hj as [p Ep]. destruct (good_change ps s u i Hi Hout G j p N Ep) as [_ Ha]. by apply always_here in Ha.
      - apply mid_and; [done|]. eapply mid_outside; [exact How|]. done.
    Qed.
    Lemma good_do ps s i o k : good ps s -> ps !! i = Some (Op o k) -> good (<[i := k (exec_op o s).1]> ps) (exec_op o s).2.
    Proof.
      intros G Ei. pose proof G as (L & H & Ho). destruct (H i _ Ei) as [[How Hk] Ha]. cbn in Ha. destruct Ha as (H1 & H2 & H3).
      assert (Hi : i < n) by (rewrite <-L; by eapply lookup_lt_Some).
      assert (Hout : forall q, ~ W i q -> (exec_op o s).2 !! q = s !! q) by (intros q; by eapply exec_op_outside).
      split_and!; [by rewrite insert_length| |by eapply good_outside].
      intros j p Ej. destruct (decide (i = j)) as [<-|N].
      - rewrite list_lookup_insert in Ej by (by eapply lookup_lt_Some). injection Ej as <-. split; [apply Hk, possible_exec|done].
      - rewrite list_lookup_insert_ne in Ej by done. by eapply good_change.
    Qed.
    Lemma good_tear ps s i p c k : good ps s -> ps !! i = Some (Op (Write p c) k) -> good ps (<[p := torn]> s).
    Proof.
      intros G Ei. pose proof G as (L & H & Ho). pose proof (H i _ Ei) as [[How Hk] Ha]. cbn in How.
      assert (Hi : i < n) by (rewrite <-L; by eapply lookup_lt_Some).
      assert (Hout : forall q, ~ W i q -> <[p := torn]> s !! q = s !! q) by (intros q Hq; rewrite lookup_insert_ne; [done|by intros ->]).
      split_and!; [done| |by eapply good_outside]. intros j p' Ej. destruct (decide (j = i)) as [->|N].
      - rewrite Ei in Ej. injection Ej as <-. split; [done|]. eapply always_step; [exact Ha|]. apply step_tear.
      - by eapply good_change.
    Qed.

    Lemma always_attempt (Psi : fs C -> Prop) (p : prog C A) s : always torn Psi p s -> always torn Psi (attempt p) s.
    Proof. revert s. induction p as [r|o k IH]; intros s; cbn; [done|]. naive_solver. Qed.

    Lemma always_run_all (done_ ps : list (prog C A)) s : good (done_ ++ ps) s -> (forall p, p ∈ done_ -> exists r, p = Ret r) -> always torn holds (run_all ps) s.
    Proof.
      revert done_ s. induction ps as [|p ps IH]; intros done_ s G Hd; cbn; [split; [by eapply good_holds|done]|].
      assert (always torn holds (attempt p) s /\ good (done_ ++ Ret (exec p s).1 :: ps) (exec p s).2) as [H1 H2].
      { clear IH. revert s G. induction p as [r|o k IH]; intros s G; cbn.
        - split; [|done]. split; [by eapply good_holds|done].
        - assert (Ei : (done_ ++ Op o k :: ps) !! length done_ = Some (Op o k)) by (rewrite lookup_app_r by lia; by rewrite Nat.sub_diag).
          pose proof (good_do _ _ _ _ _ G Ei) as G'. rewrite insert_app_r_alt in G' by lia. rewrite Nat.sub_diag in G'. cbn in G'.
          destruct (IH _ _ G') as [H1 H2]. split; [split_and!; [by eapply good_holds|by eapply good_mid|done]|].
          by destruct (exec_op o s). }
      apply always_bind; [done|]. intros r s' E. rewrite exec_attempt in E. injection E as <- <-.
      apply always_bind; [|intros rs s' E; cbn; split; [|done]].
      - apply (IH (done_ ++ [Ret (exec p s).1])); [by rewrite <-app_assoc|]. intros p' Hp. apply elem_of_app in Hp as [|Hp]; [auto|].
        apply elem_of_list_singleton in Hp as ->. by eexists.
      - assert (always torn holds (run_all ps) (exec p s).2) as Ha.
        { apply (IH (done_ ++ [Ret (exec p s).1])); [by rewrite <-app_assoc|]. intros p' Hp. apply elem_of_app in Hp as [|Hp]; [auto|].
          apply elem_of_list_singleton in Hp as ->. by eexists. }
        pose proof (exec_steps torn (run_all ps) (exec p s).2) as Hs. rewrite E in Hs. by eapply always_sound in Hs.
    Qed.
    Lemma always_interleave sched (ps : list (prog C A)) s : good ps s -> always torn holds (interleave torn sched ps) s.
    Proof.
      revert ps s. induction sched as [|[i tear] sched IH]; intros ps s G; cbn.
      - apply (always_run_all []); [done|]. intros p Hp. by apply elem_of_nil in Hp.
      - destruct (ps !! i) as [[r|o k]|] eqn:E; [by apply IH| |by apply IH].
        assert (always torn holds (Op o (fun r => interleave torn sched (<[i := k r]> ps))) s) as Hdo.
        { cbn. split_and!; [by eapply good_holds|by eapply good_mid|]. apply IH. by apply good_do. }
        destruct tear, o as [p|p c|p|p|a b]; try done. cbn. split_and!.
        + by eapply good_holds.
        + eapply good_holds. by eapply good_tear.
        + apply IH. by eapply good_tear.
    Qed.
  End always.

  (** Whatever the schedule and wherever it is stopped: each task is at one of
      the states it goes through alone (as told by a property of its region
      that holds at all of them), and no other file has changed. *)
  Lemma always_transaction {A : Type} sched (ps : list (prog C A)) (R W : nat -> path -> Prop) (Phi : nat -> fs C -> Prop) s :
    independent ps R W ->
    (forall i, i < length ps -> local (fun q => R i q \/ W i q) (Phi i)) ->
    (forall i (p : prog C A), ps !! i = Some p -> always torn (Phi i) p s) ->
    always torn (fun u => (forall i, i < length ps -> Phi i u) /\ (forall q, (forall i, i < length ps -> ~ W i q) -> u !! q = s !! q))
      (execute_transaction torn sched ps) s.
  Proof.
    intros [Hw Hd] Hl Ha.
    assert (Hdis : forall i j, i < length ps -> j < length ps -> i <> j -> forall q, W i q -> ~ (R j q \/ W j q)).
    { intros i j Hi Hj. apply lookup_lt_is_Some in Hi as [p Ep], Hj as [p' Ep']. by eapply Hd. }
    assert (G : good R W Phi s (length ps) ps s).
    { split_and!; [done| |done]. intros i p Ep. split; [by apply Hw|by apply Ha]. }
    pose proof (always_interleave R W Phi s (length ps) Hdis Hl sched ps s G) as H.
    apply always_bind; [exact H|]. intros rs s' E. cbn. split; [|done].
    pose proof (exec_steps torn (interleave torn sched ps) s) as Hs. rewrite E in Hs. exact (always_sound torn _ _ _ _ _ H Hs).
  Qed.
End pool.
