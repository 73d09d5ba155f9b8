(** * C40, C60: processes that share a synchronizer *)
From Verif Require Import Py FS_Model FS_Proofs Pool_Model Pool_Proofs Sync_Model Sync_Spec Sync_Proofs.

Section C60.
Context {C : Type} (torn : C).
Implicit Types (y : system C) (s : fs C).

(** ** C60: insertions exclude one another *)

(** As long as no task fails, tasks of two processes that make insertions never
    run at the same time; the process whose tasks run holds the lock. *)
Theorem C60_exclusive calls s y i j :
  Forall (Forall inserts) calls -> reachable torn ProcessSync calls s y -> no_failure y -> busy y i -> busy y j -> i = j /\ sy_owner y = Some i.
Proof.
  intros Hc Hy Hn Hi Hj. destruct (inv_reachable torn calls s y Hc Hy Hn) as (s0 & gss & _ & Hlen & Hidle & _).
  assert (H : forall k, busy y k -> sy_owner y = Some k).
  { intros k (p & t & Hp & Ht & _). destruct (decide (sy_owner y = Some k)) as [|N]; [done|]. exfalso.
    destruct (lookup_lt_is_Some_2 gss k) as [gs Hg]; [rewrite Hlen; by eapply lookup_lt_Some|].
    destruct (Hidle k p gs N Hp Hg) as [_ E]. rewrite E in Ht. by apply elem_of_nil in Ht. }
  apply H in Hi. apply H in Hj. split; [congruence|done].
Qed.

(** When the calls are over and no task has failed, the store is what the groups
    of tasks give when they are run one group after the other. *)
Theorem C60_serial calls s y :
  Forall (Forall inserts) calls -> reachable torn ProcessSync calls s y -> no_failure y -> all_stopped y ->
  one_by_one torn (map (fun cs => concat (map groups cs)) calls) s (sy_store y).
Proof.
  intros Hc Hy Hn Hs. destruct (inv_reachable torn calls s y Hc Hy Hn) as (s0 & gss & Hser & Hlen & Hidle & Hown).
  assert (Hfree : sy_owner y = None).
  { destruct (sy_owner y) as [o|]; [|done]. exfalso. destruct Hown as (p & gs & Hp & _ & Ha). apply Hs in Hp.
    destruct Ha as [(_ & _ & g & r & _ & E)|[(g & r & _ & E & _)|(_ & _ & E)]]; by rewrite E in Hp. }
  rewrite Hfree in Hown. rewrite Hown. apply Hser.
  assert (He : forall i gs, gss !! i = Some gs -> Forall (eq []) gs).
  { intros i gs Hg. destruct (lookup_lt_is_Some_2 (sy_procs y) i) as [p Hp]; [rewrite <-Hlen; by eapply lookup_lt_Some|].
    destruct (Hidle i p gs) as [E _]; [by rewrite Hfree|done|done|]. rewrite (Hs _ _ Hp) in E.
    destruct (scr_cases gs) as [[? _]|(pre & g & r & _ & _ & _ & E')]; [done|]. by rewrite E' in E. }
  clear -He. assert (H : forall n, n <= length gss -> one_by_one torn (replicate n [] ++ drop n gss) s0 s0 -> one_by_one torn gss s0 s0).
  { intros n. induction n as [|n IH]; intros Hl H; [done|]. apply IH; [lia|].
    destruct (lookup_lt_is_Some_2 gss n ltac:(lia)) as [gs Hg]. eapply (one_skip torn _ n gs []).
    - rewrite lookup_app_r by (by rewrite replicate_length). rewrite replicate_length, lookup_drop, app_nil_r. by rewrite Nat.sub_diag, Nat.add_0_r.
    - by eapply He.
    - erewrite (drop_S _ _ _ Hg). replace n with (length (replicate n (A := list (list (prog C unit))) []) + 0) at 1 by (rewrite replicate_length; lia).
      rewrite insert_app_r. cbn. rewrite replicate_S_end, <-app_assoc in H. exact H. }
  apply (H (length gss)); [done|]. rewrite drop_all, app_nil_r. apply one_end. apply Forall_forall. intros x Hx. by apply elem_of_replicate in Hx as [-> _].
Qed.

(** As long as no task fails and the calls are not all over, something can
    happen: the processes do not block one another. *)
Theorem C60_progress calls s y :
  Forall (Forall inserts) calls -> reachable torn ProcessSync calls s y -> no_failure y -> ~ all_stopped y ->
  exists y', system_step torn ProcessSync y y'.
Proof.
  intros Hc Hy Hn Hs. destruct (inv_reachable torn calls s y Hc Hy Hn) as (s0 & gss & Hser & Hlen & Hidle & Hown).
  destruct (sy_owner y) as [o|] eqn:Ow.
  - destruct Hown as (p & gs & Hp & _ & Ha). destruct Ha as [(_ & _ & g & r & _ & E)|[(g & r & _ & E & _)|(_ & _ & E)]].
    + eexists. by eapply step_submit.
    + assert (Hd : Forall over (pr_tasks p) \/ exists t, t ∈ pr_tasks p /\ ~ over t).
      { induction (pr_tasks p) as [|t ts IH]; [by left|]. destruct t as [x|op k].
        - destruct IH as [?|(t & ? & ?)]; [left; constructor; [by exists x|done]|right]. exists t. split; [by right|done].
        - right. exists (Op op k). split; [left|]. by intros [x Hx]. }
      destruct Hd as [Ho|(t & Ht & Hno)].
      * eexists. eapply step_gather; [exact Hp|exact E|done|]. apply Forall_forall. intros t Ht. by eapply Hn.
      * apply elem_of_list_lookup in Ht as [j Hj]. destruct t as [x|op k]; [exfalso; apply Hno; by exists x|].
        eexists. eapply step_task; [exact Hp|]. eapply pool_one; [exact Hj|]. apply step_do.
    + eexists. by eapply step_exit.
  - assert (Hd : all_stopped y \/ exists i p, sy_procs y !! i = Some p /\ pr_script p <> Stop).
    { clear. unfold all_stopped. induction (sy_procs y) as [|p ps IH]; [left; intros i p Hi; by destruct i|].
      destruct (pr_script p) eqn:E; try (right; exists 0, p; split; [done|]; by rewrite E).
      destruct IH as [IH|(i & q & ? & ?)]; [left; intros [|i] q Hq; [by injection Hq as <-|by eapply IH]|right; by exists (S i), q]. }
    destruct Hd as [?|(i & p & Hp & Hne)]; [done|]. destruct (lookup_lt_is_Some_2 gss i) as [gs Hg]; [rewrite Hlen; by eapply lookup_lt_Some|].
    destruct (Hidle i p gs) as [E _]; [done|done|done|]. destruct (scr_cases gs) as [[_ E']|(pre & g & r & _ & _ & _ & E')]; [by rewrite E' in E|].
    eexists. eapply step_enter; [exact Hp|by rewrite E|]. by rewrite Ow.
Qed.

(** Whatever the calls and the failures, the lock is free when the calls are
    over: it is never kept by a process that has ended. *)
Fixpoint balanced (held : bool) (k : script C) : Prop :=
  match k with
  | Stop => held = false
  | Enter k => held = false /\ balanced true k
  | Exit k => held = true /\ balanced false k
  | Submit _ k | Await k => balanced held k
  | Gather k f => balanced held k /\ balanced held f
  end.
Theorem C60_released calls s y :
  reachable torn ProcessSync calls s y -> all_stopped y -> sy_owner y = None.
Proof.
  intros Hy Hs.
  assert (Hb : (forall i p, sy_procs y !! i = Some p -> balanced (bool_decide (sy_owner y = Some i)) (pr_script p)) /\
               (forall o, sy_owner y = Some o -> o < length (sy_procs y))).
  { unfold reachable in Hy. refine (rtc_ind_r (fun y => (forall i p, sy_procs y !! i = Some p -> balanced (bool_decide (sy_owner y = Some i)) (pr_script p)) /\
               (forall o, sy_owner y = Some o -> o < length (sy_procs y))) _ _ _ y Hy); clear y Hy Hs.
    - split; [|done]. intros i p Hp. cbn [start sy_procs sy_owner] in *. rewrite map_at in Hp. destruct (calls !! i) as [cs|]; [|done]. cbn in Hp. injection Hp as <-.
      rewrite bool_decide_eq_false_2 by done. cbn [pr_script].
      assert (Ht : forall ts k, balanced false k -> balanced false (transaction ts k)) by (intros [|t ts] k Hk; cbn; done).
      induction cs as [|c cs IH]; [done|]. cbn [script_calls foldr]. change (foldr script_call Stop cs) with (script_calls cs).
      destruct c as [im bs|ts]; cbn [script_call].
      + apply Ht. induction bs as [|b bs IHb]; [done|]. by apply Ht.
      + cbn. destruct ts; cbn; done.
    - intros y1 y2 _ H12 [IH1 IH2].
      assert (Hsame : forall i p k ts, sy_procs y1 !! i = Some p -> balanced (bool_decide (sy_owner y1 = Some i)) k ->
        (forall j q, <[i := Process k ts]> (sy_procs y1) !! j = Some q -> balanced (bool_decide (sy_owner y1 = Some j)) (pr_script q)) /\
        (forall o, sy_owner y1 = Some o -> o < length (<[i := Process k ts]> (sy_procs y1)))).
      { intros i p k ts Hi Hk. split; [|intros o Ho; rewrite insert_length; by apply IH2]. intros j q Hj. destruct (decide (i = j)) as [<-|N].
        - rewrite list_lookup_insert in Hj by (by eapply lookup_lt_Some). by injection Hj as <-.
        - rewrite list_lookup_insert_ne in Hj by done. by apply IH1. }
      inversion H12 as [? i p ts st Hi Hp|? i p q o Hi Eq Ho|? i p q Hi Eq|? i p q ts Hi Eq|? i p q f Hi Eq Ho Hf|? i p q f Hi Eq Hf|? i p q Hi Eq Ho]; subst;
        cbn [sy_procs sy_owner]; pose proof (IH1 i p Hi) as Hbi; try rewrite Eq in Hbi; cbn [balanced] in Hbi.
      + by eapply Hsame.
      + destruct Hbi as [_ Hbi]. cbn [enter] in Ho. destruct (sy_owner y1) eqn:Ow; [done|]. injection Ho as <-. split.
        * intros j q' Hj. destruct (decide (i = j)) as [<-|N].
          -- rewrite list_lookup_insert in Hj by (by eapply lookup_lt_Some). injection Hj as <-. by rewrite bool_decide_eq_true_2.
          -- rewrite list_lookup_insert_ne in Hj by done. rewrite bool_decide_eq_false_2 by congruence. specialize (IH1 j q' Hj). by rewrite bool_decide_eq_false_2 in IH1.
        * intros o [= <-]. rewrite insert_length. by eapply lookup_lt_Some.
      + destruct Hbi as [Hh Hbi]. apply bool_decide_eq_true in Hh. cbn [exit]. rewrite decide_True by done. split; [|done].
        intros j q' Hj. destruct (decide (i = j)) as [<-|N].
        * rewrite list_lookup_insert in Hj by (by eapply lookup_lt_Some). injection Hj as <-. by rewrite bool_decide_eq_false_2.
        * rewrite list_lookup_insert_ne in Hj by done. rewrite bool_decide_eq_false_2 by done. specialize (IH1 j q' Hj). rewrite bool_decide_eq_false_2 in IH1; [done|]. congruence.
      + by eapply Hsame.
      + eapply Hsame; [done|]. apply Hbi.
      + eapply Hsame; [done|]. apply Hbi.
      + by eapply Hsame. }
  destruct Hb as [Hb1 Hb2]. destruct (sy_owner y) as [o|] eqn:Ow; [|done]. destruct (lookup_lt_is_Some_2 (sy_procs y) o (Hb2 o eq_refl)) as [p Hp].
  specialize (Hb1 o p Hp). rewrite (Hs o p Hp) in Hb1. cbn [balanced] in Hb1. by apply bool_decide_eq_false in Hb1.
Qed.
End C60.
Print Assumptions C60_exclusive.
Print Assumptions C60_serial.
Print Assumptions C60_progress.
Print Assumptions C60_released.

(** ** Concrete cases *)

Definition S_file : path := [lit "f"].
(** Adds one to the number in a file. *)
Definition S_incr : prog nat unit := let! v <- read_file S_file; write_file S_file (S (default 0 v)).
Definition S_wrote (v : nat) : prog nat unit := write_file S_file v.
Definition S_store : fs nat := {[ S_file := 0 ]}.
Definition S_fail : prog nat unit := Ret (Raise ValueError).


(** A run, given as the list of its steps. *)
Inductive turn := Next (i : nat) | Task (i j : nat).
Definition is_over (t : prog nat unit) : bool := match t with Ret _ => true | Op _ _ => false end.
Definition is_failed (t : prog nat unit) : bool := match t with Ret (Raise _) => true | _ => false end.
Definition play (y : system nat) (t : turn) : option (system nat) :=
  let 'System s o f ps := y in
  match t with
  | Task i j =>
      match ps !! i with
      | Some (Process k ts) =>
          match ts !! j with
          | Some (Op op c) => Some (System (exec_op op s).2 o f (<[i := Process k (<[j := c (exec_op op s).1]> ts)]> ps))
          | _ => None
          end
      | None => None
      end
  | Next i =>
      match ps !! i with
      | Some (Process k ts) =>
          match k with
          | Enter q => match o with None => Some (System s (Some i) true (<[i := Process q ts]> ps)) | Some _ => None end
          | Exit q => Some (System s (exit ProcessSync i o) f (<[i := Process q ts]> ps))
          | Submit us q => Some (System s o f (<[i := Process q (ts ++ us)]> ps))
          | Gather q e =>
              if existsb is_failed ts then Some (System s o f (<[i := Process e ts]> ps))
              else if forallb is_over ts then Some (System s o f (<[i := Process q []]> ps)) else None
          | Await q => if forallb is_over ts then Some (System s o f (<[i := Process q ts]> ps)) else None
          | Stop => None
          end
      | None => None
      end
  end.
Lemma play_sound y t y' : play y t = Some y' -> system_step 99 ProcessSync y y'.
Proof.
  assert (Hov : forall ts, forallb is_over ts = true -> Forall over ts).
  { intros ts H. apply Forall_forall. intros t' Ht. apply elem_of_list_In in Ht. pose proof (proj1 (forallb_forall _ _) H t' Ht). destruct t'; [by eexists|done]. }
  assert (Hfa : forall ts, existsb is_failed ts = false -> Forall (fun t => ~ failed t) ts).
  { intros ts H. apply Forall_forall. intros t' Ht [e ->]. apply elem_of_list_In in Ht. assert (existsb is_failed ts = true) by (apply existsb_exists; by exists (Ret (Raise e))). congruence. }
  assert (Hex : forall ts, existsb is_failed ts = true -> Exists failed ts).
  { intros ts H. apply existsb_exists in H as (t' & Ht & Hf). apply Exists_exists. exists t'. split; [by apply elem_of_list_In|]. destruct t' as [[|e]|]; try done. by exists e. }
  destruct y as [s o f ps]. destruct t as [i|i j]; cbn [play]; destruct (ps !! i) as [[k ts]|] eqn:Ei; try done.
  - destruct k as [|q|q|us q|q e|q]; try done.
    + destruct o; [done|]. intros [= <-]. exact (step_enter 99 ProcessSync (System s None f ps) i (Process _ ts) q (Some i) Ei eq_refl eq_refl).
    + intros [= <-]. exact (step_exit 99 ProcessSync (System s o f ps) i (Process _ ts) q Ei eq_refl).
    + intros [= <-]. exact (step_submit 99 ProcessSync (System s o f ps) i (Process _ ts) q us Ei eq_refl).
    + destruct (existsb is_failed ts) eqn:Ef; [|destruct (forallb is_over ts) eqn:Eo; [|done]]; intros [= <-].
      * exact (step_error 99 ProcessSync (System s o f ps) i (Process _ ts) q e Ei eq_refl (Hex ts Ef)).
      * exact (step_gather 99 ProcessSync (System s o f ps) i (Process _ ts) q e Ei eq_refl (Hov ts Eo) (Hfa ts Ef)).
    + destruct (forallb is_over ts) eqn:Eo; [|done]. intros [= <-]. exact (step_await 99 ProcessSync (System s o f ps) i (Process _ ts) q Ei eq_refl (Hov ts Eo)).
  - destruct (ts !! j) as [[|op c]|] eqn:Ej; try done. intros [= <-].
    refine (step_task 99 ProcessSync (System s o f ps) i (Process k ts) _ _ Ei _). eapply pool_one; [exact Ej|]. apply step_do.
Qed.
Fixpoint plays (y : system nat) (l : list turn) : option (system nat) :=
  match l with [] => Some y | t :: l => match play y t with Some y => plays y l | None => None end end.
Lemma plays_reachable calls s l y : plays (start calls s) l = Some y -> reachable 99 ProcessSync calls s y.
Proof.
  unfold reachable. generalize (start calls s). induction l as [|t l IH]; intros x; cbn [plays]; [by intros [= ->]|].
  destruct (play x t) eqn:E; [|done]. intros H. eapply rtc_l; [by apply play_sound in E|]. by apply IH.
Qed.
Definition ended (y : system nat) : bool := forallb (fun p => match pr_script p with Stop => true | _ => false end) (sy_procs y).
Definition fine (y : system nat) : bool := forallb (fun p => negb (existsb is_failed (pr_tasks p))) (sy_procs y).
Definition active_now (y : system nat) (i : nat) : bool := match sy_procs y !! i with Some p => existsb (fun t => negb (is_over t)) (pr_tasks p) | None => false end.
Lemma ended_sound y : ended y = true -> all_stopped y.
Proof.
  intros H i p Hp. apply elem_of_list_lookup_2, elem_of_list_In in Hp. pose proof (proj1 (forallb_forall _ _) H p Hp) as E. cbn in E. by destruct (pr_script p).
Qed.
Lemma fine_sound y : fine y = true -> no_failure y.
Proof.
  intros H i p t Hp Ht [e ->]. apply elem_of_list_lookup_2, elem_of_list_In in Hp. pose proof (proj1 (forallb_forall _ _) H p Hp) as E. cbn in E.
  apply negb_true_iff in E. assert (existsb is_failed (pr_tasks p) = true) by (apply existsb_exists; exists (Ret (Raise e)); split; [by apply elem_of_list_In|done]). congruence.
Qed.
Lemma active_sound y i : active_now y i = true -> busy y i.
Proof.
  unfold active_now, busy. destruct (sy_procs y !! i) as [p|]; [|done]. intros H. apply existsb_exists in H as (t & Ht & Hf). exists p, t.
  split; [done|]. split; [by apply elem_of_list_In|]. intros [r ->]. done.
Qed.
(** The end of a run, when it is one. *)
Definition final calls s l : system nat := default (start calls s) (plays (start calls s) l).
Lemma final_reachable calls s l : is_Some (plays (start calls s) l) -> reachable 99 ProcessSync calls s (final calls s l).
Proof. intros [y E]. unfold final. rewrite E. by eapply plays_reachable. Qed.
Lemma is_Some_check {A} (o : option A) : match o with Some _ => true | None => false end = true -> is_Some o.
Proof. by destruct o; [eexists|]. Qed.

(** Two processes make an insertion of one task each: the file ends with two. *)
Example C60_case : exists y, reachable 99 ProcessSync [[Insert None [[S_incr]]]; [Insert None [[S_incr]]]] S_store y /\
  no_failure y /\ all_stopped y /\ sy_store y !! S_file = Some 2.
Proof.
  pose (l := [Next 1; Next 1; Task 1 0; Task 1 0; Next 1; Next 1; Next 0; Next 0; Task 0 0; Task 0 0; Next 0; Next 0]).
  eexists. split; [apply (final_reachable _ _ l), is_Some_check; vm_compute; reflexivity|].
  split; [apply fine_sound; vm_compute; reflexivity|]. split; [apply ended_sound; vm_compute; reflexivity|]. vm_compute. reflexivity.
Qed.

(** ** C40: what is not excluded *)

Lemma S_within {A} (p : prog nat A) : within (fun _ => True) (fun _ => True) p.
Proof. induction p as [r|o k IH]; [done|]. split; [by destruct o; cbn; auto|]. intros r _. apply IH. Qed.
Lemma S_count gs s z v : one_by_one 99 gs s z -> Forall (Forall (eq [S_incr])) gs -> s !! S_file = Some v -> z !! S_file = Some (v + length (concat gs)).
Proof.
  intros H. revert v. induction H as [gs s He|gs i g r l s s1 z Hi Hr H IH]; intros v Hg Hv.
  - assert (concat gs = []) as -> by (clear -He; induction He as [|? ? <- _ IHe]; [reflexivity|exact IHe]). by rewrite Nat.add_0_r.
  - pose proof (take_drop_middle gs i _ Hi) as Em. rewrite <-Em in Hg. apply Forall_app in Hg as [Hg1 Hg2]. inversion Hg2 as [|? ? Hg3 Hg4]; subst.
    inversion Hg3 as [|? ? <- Hg5]; subst.
    assert (E1 : s1 !! S_file = Some (S v)).
    { apply (pool_deterministic 99 _ (fun _ _ => True) (fun _ _ => True)) in Hr.
      - cbn [exec_all] in Hr. unfold S_incr in Hr. rewrite exec_bind, exec_read_file, exec_write in Hr. injection Hr as _ <-. rewrite Hv. apply lookup_insert.
      - intros _ _. left. exact I.
      - split; [|intros i0 j p p' Hp Hp' N; exfalso; destruct i0, j; done]. intros i0 p Hp. destruct i0; [|done]. injection Hp as <-. apply S_within. }
    rewrite (insert_take_drop gs i r) in IH by (by eapply lookup_lt_Some). rewrite (IH (S v)); [|by apply Forall_app; split; [|constructor]|done].
    f_equal. rewrite <-Em at 3. rewrite !concat_app. cbn [concat]. rewrite !app_length. cbn [length]. lia.
Qed.

(** The tasks of update, drop_partitions, add_variable and drop_variable are
    submitted before the lock is taken. One process updates the collection and
    another one inserts in it: their tasks run at the same time, and one of the
    changes is lost, which no order of the two calls gives. *)
Theorem C40_modify_refuted : exists (calls : list (list (call nat))) s,
  (exists y, reachable 99 ProcessSync calls s y /\ no_failure y /\ busy y 0 /\ busy y 1) /\
  exists y, reachable 99 ProcessSync calls s y /\ no_failure y /\ all_stopped y /\
    ~ one_by_one 99 (map (fun cs => concat (map groups cs)) calls) s (sy_store y).
Proof.
  exists [[Modify [S_incr]]; [Insert None [[S_incr]]]], S_store. split.
  - pose (l := [Next 0; Next 0; Next 0; Next 1; Next 1; Task 0 0; Task 1 0]).
    eexists. split; [apply (final_reachable _ _ l), is_Some_check; vm_compute; reflexivity|].
    split; [apply fine_sound; vm_compute; reflexivity|]. split; apply active_sound; vm_compute; reflexivity.
  - pose (l := [Next 0; Next 0; Next 0; Next 1; Next 1; Task 0 0; Task 1 0; Task 0 0; Task 1 0; Next 1; Next 1; Next 0; Next 0; Next 0]).
    eexists. split; [apply (final_reachable _ _ l), is_Some_check; vm_compute; reflexivity|].
    split; [apply fine_sound; vm_compute; reflexivity|]. split; [apply ended_sound; vm_compute; reflexivity|].
    match goal with |- ~ one_by_one _ _ _ ?z => assert (Hz : z !! S_file = Some 1) by (vm_compute; reflexivity); generalize dependent z end.
    intros z Hz H. cbn [map concat groups app] in H. apply S_count with (v := 0) in H; [|repeat constructor|reflexivity]. rewrite Hz in H. discriminate H.
Qed.
Print Assumptions C40_modify_refuted.

(** A task of an insertion fails: the lock is released before the other tasks of
    the insertion are over, and the tasks of another process run with them. *)
Theorem C40_failure_refuted : exists (calls : list (list (call nat))) s y, Forall (Forall inserts) calls /\
  reachable 99 ProcessSync calls s y /\ busy y 0 /\ busy y 1.
Proof.
  pose (l := [Next 0; Next 0; Task 0 1; Next 0; Next 0; Next 1; Next 1; Task 1 0]).
  exists [[Insert None [[S_fail; S_incr]]]; [Insert None [[S_incr]]]], S_store. eexists. split; [repeat constructor; by do 2 eexists|].
  split; [apply (final_reachable _ _ l), is_Some_check; vm_compute; reflexivity|]. split; apply active_sound; vm_compute; reflexivity.
Qed.
Print Assumptions C40_failure_refuted.

(** is_locked says that the collection is locked when the calls are over and
    the lock is free. *)
Theorem C40_is_locked_refuted : exists (calls : list (list (call nat))) s y,
  reachable 99 ProcessSync calls s y /\ no_failure y /\ all_stopped y /\ sy_owner y = None /\ is_locked ProcessSync y = true.
Proof.
  pose (l := [Next 0; Next 0; Task 0 0; Task 0 0; Next 0; Next 0]).
  exists [[Insert None [[S_incr]]]], S_store. eexists. split; [apply (final_reachable _ _ l), is_Some_check; vm_compute; reflexivity|].
  split; [apply fine_sound; vm_compute; reflexivity|]. split; [apply ended_sound; vm_compute; reflexivity|]. split; vm_compute; reflexivity.
Qed.
Print Assumptions C40_is_locked_refuted.
