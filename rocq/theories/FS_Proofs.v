(** * Programs over a file system: running, stopping, interleaving *)
From Verif Require Import Py FS_Model.
From stdpp Require Import relations.

Lemma strip_Some p q t : strip p q = Some t <-> q = p ++ t.
Proof.
  revert q. induction p as [|x p IH]; intros q; cbn; [naive_solver|].
  destruct q as [|y q]; [done|]. destruct (decide (x = y)) as [->|N]; [rewrite IH; naive_solver|]. split; [done|]. intros [=]; congruence.
Qed.
Lemma strip_app p t : strip p (p ++ t) = Some t.
Proof. by apply strip_Some. Qed.
Lemma strip_None p q : strip p q = None <-> ~ under p q.
Proof.
  split.
  - intros E (t & ->). by rewrite strip_app in E.
  - intros N. destruct (strip p q) as [t|] eqn:E; [|done]. apply strip_Some in E. destruct N. by exists t.
Qed.
Global Instance under_dec p q : Decision (under p q).
Proof.
  destruct (strip p q) as [t|] eqn:E; [left|right].
  - apply strip_Some in E. by exists t.
  - by apply strip_None.
Defined.
Lemma under_refl p : under p p.
Proof. exists []. by rewrite app_nil_r. Qed.
Lemma under_app p t : under p (p ++ t).
Proof. by exists t. Qed.
Lemma under_trans p q r : under p q -> under q r -> under p r.
Proof. intros (t & ->) (u & ->). exists (t ++ u). by rewrite app_assoc. Qed.
Lemma under_cases p q r : under p r -> under q r -> under p q \/ under q p.
Proof.
  intros (t & ->) (u & E). revert q E. induction p as [|x p IH]; intros [|y q] E; cbn in E.
  - left. apply under_refl.
  - left. by exists (y :: q).
  - right. by exists (x :: p).
  - injection E as -> E. destruct (IH q E) as [(v & ->)|(v & ->)]; [left|right]; by exists v.
Qed.
Lemma under_antisym p q : under p q -> under q p -> p = q.
Proof.
  intros (t & ->) (u & E). rewrite <-app_assoc in E. rewrite <-(app_nil_r p) in E at 1. apply app_inv_head in E.
  symmetry in E. apply app_eq_nil in E as [-> _]. by rewrite app_nil_r.
Qed.
(** Two paths in different directories. *)
Definition apart (p q : path) : Prop := forall r, under p r -> under q r -> False.
Lemma apart_sym p q : apart p q -> apart q p.
Proof. intros H r H1 H2. by apply (H r). Qed.
Lemma apart_iff p q : apart p q <-> ~ under p q /\ ~ under q p.
Proof.
  split.
  - intros H. split; intros U; [apply (H q)|apply (H p)]; auto using under_refl.
  - intros [H1 H2] r Hp Hq. by destruct (under_cases _ _ _ Hp Hq).
Qed.
Lemma apart_app d x y t u : x <> y -> apart (d ++ x :: t) (d ++ y :: u).
Proof.
  intros N. apply apart_iff. split; intros (w & E); rewrite <-app_assoc in E; apply app_inv_head in E; injection E; congruence.
Qed.
Lemma apart_under p q p' q' : apart p q -> under p p' -> under q q' -> apart p' q'.
Proof. intros H H1 H2 r Hp Hq. apply (H r); by eapply under_trans. Qed.

Section fs.
  Context {C : Type} (torn : C).
  Implicit Types (s t : fs C) (p q : path).

  Lemma sub_lookup p s q : sub p s !! q = s !! (p ++ q).
  Proof.
    unfold sub. revert q. apply (map_fold_ind (M := gmap path) (fun t m => forall q, t !! q = m !! (p ++ q))); [by intros; rewrite !lookup_empty|].
    intros i x m r Hm IH q. destruct (strip p i) as [u|] eqn:E.
    - apply strip_Some in E as ->. destruct (decide (u = q)) as [->|N]; [by rewrite !lookup_insert|].
      rewrite !lookup_insert_ne; [apply IH| |done]. intros E. by apply app_inv_head in E.
    - rewrite IH, lookup_insert_ne; [done|]. intros ->. by rewrite strip_app in E.
  Qed.
  Lemma prune_lookup p s q : prune p s !! q = if decide (under p q) then None else s !! q.
  Proof.
    unfold prune. revert q.
    apply (map_fold_ind (M := gmap path) (fun t m => forall q, t !! q = if decide (under p q) then None else m !! q)).
    - intros q. rewrite !lookup_empty. by destruct (decide _).
    - intros i x m r Hm IH q. destruct (strip p i) as [u|] eqn:E.
      + rewrite IH. destruct (decide (under p q)); [done|]. rewrite lookup_insert_ne; [done|].
        intros ->. apply strip_Some in E. by destruct n; exists u.
      + apply strip_None in E. destruct (decide (i = q)) as [->|N].
        * rewrite lookup_insert, decide_False by done. by rewrite lookup_insert.
        * rewrite !lookup_insert_ne by done. apply IH.
  Qed.
  Lemma graft_lookup p t s q : graft p t s !! q =
    match strip p q with Some r => match t !! r with Some c => Some c | None => s !! q end | None => s !! q end.
  Proof.
    unfold graft. revert q.
    apply (map_fold_ind (M := gmap path) (fun u m => forall q, u !! q = match strip p q with Some r => match m !! r with Some c => Some c | None => s !! q end | None => s !! q end)).
    - intros q. destruct (strip p q); [by rewrite lookup_empty|done].
    - intros i x m r Hm IH q. destruct (decide (p ++ i = q)) as [<-|N].
      + by rewrite lookup_insert, strip_app, lookup_insert.
      + rewrite lookup_insert_ne by done. rewrite IH. destruct (strip p q) as [v|] eqn:E; [|done]. apply strip_Some in E as ->.
        rewrite lookup_insert_ne; [done|]. intros ->. done.
  Qed.
  Lemma empty_at_true p s : empty_at p s = true <-> forall q, under p q -> s !! q = None.
  Proof.
    unfold empty_at. rewrite bool_decide_eq_true, map_to_list_empty_iff. split.
    - intros E q (t & ->). by rewrite <-sub_lookup, E, lookup_empty.
    - intros E. apply map_eq. intros q. rewrite sub_lookup, lookup_empty. apply E, under_app.
  Qed.
  Lemma empty_at_false p s : empty_at p s = false <-> exists q c, under p q /\ s !! q = Some c.
  Proof.
    split.
    - intros E. destruct (decide (sub p s = ∅)) as [E'|N].
      + assert (empty_at p s = true); [|congruence]. apply empty_at_true. intros q (t & ->). by rewrite <-sub_lookup, E', lookup_empty.
      + apply map_choose in N as (q & c & E'). rewrite sub_lookup in E'. exists (p ++ q), c. split; [apply under_app|done].
    - intros (q & c & U & E). destruct (empty_at p s) eqn:E'; [|done]. rewrite empty_at_true in E'. rewrite E' in E by done. done.
  Qed.

  (** ** Running *)
  Lemma exec_bind {A B : Type} (p : prog C A) (f : A -> prog C B) s :
    exec (pbind p f) s = match exec p s with (Ok a, s') => exec (f a) s' | (Raise e, s') => (Raise e, s') end.
  Proof. revert s. induction p as [[a|e]|o k IH]; intros s; cbn; try done. destruct (exec_op o s). apply IH. Qed.
  Lemma exec_catch {A : Type} (p : prog C A) (h : exn -> prog C A) s :
    exec (pcatch p h) s = match exec p s with (Ok a, s') => (Ok a, s') | (Raise e, s') => exec (h e) s' end.
  Proof. revert s. induction p as [[a|e]|o k IH]; intros s; cbn; try done. destruct (exec_op o s). apply IH. Qed.
  Lemma exec_get_tree p s : exec (get_tree p) s = (Ok (sub p s), s).
  Proof. done. Qed.
  Lemma exec_read_file p s : exec (read_file p) s = (Ok (s !! p), s).
  Proof. unfold read_file. rewrite exec_bind, exec_get_tree. cbn. by rewrite sub_lookup, app_nil_r. Qed.
  Lemma exec_exists p s : exec (exists_path p) s = (Ok (negb (empty_at p s)), s).
  Proof. done. Qed.
  Lemma exec_write p c s : exec (write_file p c) s = (Ok tt, <[p := c]> s).
  Proof. done. Qed.
  Lemma exec_rm p s : exec (rm p) s = if empty_at p s then (Raise FileNotFoundError, s) else (Ok tt, prune p s).
  Proof. unfold rm. cbn. by destruct (empty_at p s). Qed.
  Lemma exec_rmtree p s : exec (rmtree p) s = (Ok tt, prune p s).
  Proof. done. Qed.

  (** A step does not change how a program ends. *)
  Lemma prune_partly p s s' : partly_removed p s s' -> prune p s' = prune p s.
  Proof.
    intros H. apply map_eq. intros q. rewrite !prune_lookup. destruct (decide (under p q)); [done|]. destruct (H q) as [|[? _]]; done.
  Qed.
  Lemma step_exec {A : Type} (p p' : prog C A) s s' : step torn (p, s) (p', s') -> exec p' s' = exec p s.
  Proof.
    intros H. remember (p, s) as x. remember (p', s') as y. destruct H; injection Heqx as <- <-; injection Heqy as <- <-; cbn.
    - by destruct (exec_op o s0).
    - by rewrite insert_insert.
    - rewrite H. by erewrite prune_partly.
    - by erewrite prune_partly.
  Qed.
  Lemma steps_exec {A : Type} (p p' : prog C A) s s' : rtc (step torn) (p, s) (p', s') -> exec p' s' = exec p s.
  Proof.
    intros H. remember (p, s) as x. remember (p', s') as y. revert p s Heqx. induction H as [x|x [p1 s1] y H1 H2 IH]; intros p s E; subst.
    - by injection E as -> ->.
    - rewrite (IH eq_refl p1 s1 eq_refl). by apply step_exec in H1.
  Qed.
  Lemma exec_steps {A : Type} (p : prog C A) s : rtc (step torn) (p, s) (Ret (exec p s).1, (exec p s).2).
  Proof.
    revert s. induction p as [r|o k IH]; intros s; cbn; [done|].
    eapply rtc_l; [apply step_do|]. destruct (exec_op o s) as [r s'] eqn:E. cbn. apply IH.
  Qed.

  (** ** Stopping: what holds at every point of a run *)
  Definition mid (o : op (C := C)) s (Phi : fs C -> Prop) : Prop :=
    match o with
    | Write p _ => Phi (<[p := torn]> s)
    | Rm p | RmTree p => forall s', partly_removed p s s' -> Phi s'
    | _ => True
    end.
  Fixpoint always {A : Type} (Phi : fs C -> Prop) (p : prog C A) s : Prop :=
    Phi s /\
    match p with
    | Ret _ => True
    | Op o k => mid o s Phi /\ always Phi (k (exec_op o s).1) (exec_op o s).2
    end.
  Lemma partly_refl p s : partly_removed p s s.
  Proof. by left. Qed.
  Lemma partly_trans p s s' s'' : partly_removed p s s' -> partly_removed p s' s'' -> partly_removed p s s''.
  Proof. intros H1 H2 q. destruct (H2 q) as [->|]; [apply H1|by right]. Qed.
  Lemma always_here {A : Type} Phi (p : prog C A) s : always Phi p s -> Phi s.
  Proof. destruct p; cbn; tauto. Qed.
  Lemma always_step {A : Type} Phi (p p' : prog C A) s s' : always Phi p s -> step torn (p, s) (p', s') -> always Phi p' s'.
  Proof.
    intros Ha H. remember (p, s) as x. remember (p', s') as y. destruct H; injection Heqx as <- <-; injection Heqy as <- <-.
    - by destruct Ha as (_ & _ & H).
    - cbn in Ha |- *. destruct Ha as (_ & H1 & H2). split; [done|]. rewrite !insert_insert. done.
    - cbn in Ha |- *. destruct Ha as (_ & H1 & H2). rewrite H in H2. split; [by apply H1|].
      split; [intros u Hu; apply H1; by eapply partly_trans|]. cbn in H2. by erewrite prune_partly.
    - cbn in Ha |- *. destruct Ha as (_ & H1 & H2). split; [by apply H1|].
      split; [intros u Hu; apply H1; by eapply partly_trans|]. by erewrite prune_partly.
  Qed.
  (** Soundness: [Phi] holds of every state of every run. *)
  Lemma always_sound {A : Type} Phi (p p' : prog C A) s s' : always Phi p s -> rtc (step torn) (p, s) (p', s') -> Phi s'.
  Proof.
    intros Ha H. apply (always_here _ p'). remember (p, s) as x. remember (p', s') as y. revert p s Heqx Ha.
    induction H as [x|x [p1 s1] y H1 H2 IH]; intros p s E Ha; subst; [by injection E as -> ->|].
    eapply IH; [done..|]. by eapply always_step.
  Qed.
  Lemma always_impl {A : Type} (Phi Psi : fs C -> Prop) (p : prog C A) s : (forall u, Phi u -> Psi u) -> always Phi p s -> always Psi p s.
  Proof.
    intros H. revert s. induction p as [r|o k IH]; intros s; cbn; [naive_solver|].
    intros (H1 & H2 & H3). split_and!; [auto| |by apply IH]. destruct o; cbn in *; auto.
  Qed.
  Lemma always_bind {A B : Type} Phi (p : prog C A) (f : A -> prog C B) s :
    always Phi p s -> (forall a s', exec p s = (Ok a, s') -> always Phi (f a) s') -> always Phi (pbind p f) s.
  Proof.
    revert s. induction p as [[a|e]|o k IH]; intros s; cbn.
    - intros _ H. by apply H.
    - auto.
    - intros (H1 & H2 & H3) H. split_and!; [done..|]. apply IH; [done|]. intros a s' E. apply H. by destruct (exec_op o s).
  Qed.
  Lemma always_catch {A : Type} Phi (p : prog C A) (h : exn -> prog C A) s :
    always Phi p s -> (forall e s', exec p s = (Raise e, s') -> always Phi (h e) s') -> always Phi (pcatch p h) s.
  Proof.
    revert s. induction p as [[a|e]|o k IH]; intros s; cbn.
    - auto.
    - intros _ H. by apply H.
    - intros (H1 & H2 & H3) H. split_and!; [done..|]. apply IH; [done|]. intros a s' E. apply H. by destruct (exec_op o s).
  Qed.
  Lemma always_and {A : Type} (Phi Psi : fs C -> Prop) (p : prog C A) s : always Phi p s -> always Psi p s -> always (fun u => Phi u /\ Psi u) p s.
  Proof.
    revert s. induction p as [r|o k IH]; intros s; cbn; [tauto|].
    intros (H1 & H2 & H3) (G1 & G2 & G3). split_and!; [done..| |by apply IH]. destruct o; cbn in *; auto.
  Qed.

  (** ** Regions: what a program may read and write *)
  Definition op_within (R W : path -> Prop) (o : op (C := C)) : Prop :=
    match o with
    | Get p => forall q, under p q -> R q \/ W q
    | Write p _ => W p
    | Rm p | RmTree p => forall q, under p q -> W q
    | Move a b => forall q, under a q \/ under b q -> W q
    end.
  (** The answers an operation may get, on any file system. *)
  Definition possible (o : op (C := C)) (r : option (fs C)) : Prop :=
    match o with
    | Get _ => is_Some r
    | Write _ _ | RmTree _ => r = Some ∅
    | Rm _ | Move _ _ => r = None \/ r = Some ∅
    end.
  Lemma possible_exec o s : possible o (exec_op o s).1.
  Proof. destruct o as [p|p c|p|p|a b]; cbn; try done; [by destruct (empty_at p s); auto|by destruct (empty_at a s); auto]. Qed.
  Fixpoint within {A : Type} (R W : path -> Prop) (p : prog C A) : Prop :=
    match p with
    | Ret _ => True
    | Op o k => op_within R W o /\ forall r, possible o r -> within R W (k r)
    end.
  (** The program does not raise. *)
  Fixpoint silent {A : Type} (p : prog C A) : Prop :=
    match p with
    | Ret r => exists a, r = Ok a
    | Op o k => forall r, possible o r -> silent (k r)
    end.
  Lemma within_bind {A B : Type} R W (p : prog C A) (f : A -> prog C B) : within R W p -> (forall a, within R W (f a)) -> within R W (pbind p f).
  Proof. intros Hp Hf. induction p as [[a|e]|o k IH]; cbn in *; [done..|]. destruct Hp. split; [done|]. intros r Hr. apply IH; auto. Qed.
  Lemma within_catch {A : Type} R W (p : prog C A) (h : exn -> prog C A) : within R W p -> (forall e, within R W (h e)) -> within R W (pcatch p h).
  Proof. intros Hp Hf. induction p as [[a|e]|o k IH]; cbn in *; [done..|]. destruct Hp. split; [done|]. intros r Hr. apply IH; auto. Qed.
  Lemma within_impl {A : Type} (R W R' W' : path -> Prop) (p : prog C A) :
    (forall q, R q -> R' q) -> (forall q, W q -> W' q) -> within R W p -> within R' W' p.
  Proof.
    intros HR HW. induction p as [r|o k IH]; cbn; [done|]. intros [H1 H2]. split; [|intros r Hr; apply IH; auto].
    destruct o; cbn in *; naive_solver.
  Qed.
  Lemma within_catch_silent {A : Type} R W (p : prog C A) (h : exn -> prog C A) : silent p -> within R W p -> within R W (pcatch p h).
  Proof.
    intros Hs Hp. induction p as [[a|e]|o k IH]; cbn in *; [done|by destruct Hs|]. destruct Hp. split; [done|]. intros r Hr. apply IH; auto.
  Qed.
  Lemma silent_bind {A B : Type} (p : prog C A) (f : A -> prog C B) : silent p -> (forall a, silent (f a)) -> silent (pbind p f).
  Proof. intros Hp Hf. induction p as [[a|e]|o k IH]; cbn in *; [done|by destruct Hp|auto]. Qed.
  Lemma silent_pseq {A : Type} (l : list (prog C A)) : (forall p : prog C A, p ∈ l -> silent p) -> silent (pseq l).
  Proof.
    induction l as [|p l IH]; intros H; cbn; [by eexists|]. apply silent_bind; [apply H; by left|]. intros a.
    apply silent_bind; [apply IH; intros; apply H; by right|]. intros; by eexists.
  Qed.
  Lemma silent_pfor {A B : Type} (l : list A) (f : A -> prog C B) : (forall a, a ∈ l -> silent (f a)) -> silent (pfor l f).
  Proof.
    intros H. apply silent_bind; [|by eexists]. apply silent_pseq. intros p Hp. apply elem_of_list_In, in_map_iff in Hp as (a & <- & Ha).
    apply H. by apply elem_of_list_In.
  Qed.
  Lemma silent_write p c : silent (write_file p c).
  Proof. intros r ->. by eexists. Qed.
  Lemma silent_rmtree p : silent (rmtree p).
  Proof. intros r ->. by eexists. Qed.
  Lemma within_write (R W : path -> Prop) p c : W p -> within R W (write_file p c).
  Proof. intros H. split; [done|]. by intros r ->. Qed.
  Lemma within_get_tree (R W : path -> Prop) p : (forall q, under p q -> R q \/ W q) -> within R W (get_tree p).
  Proof. intros H. split; [done|]. by intros r [t ->]. Qed.
  Lemma within_read_file (R W : path -> Prop) p : (forall q, under p q -> R q \/ W q) -> within R W (read_file p).
  Proof. intros H. apply within_bind; [by apply within_get_tree|done]. Qed.
  Lemma within_exists (R W : path -> Prop) p : (forall q, under p q -> R q \/ W q) -> within R W (exists_path p).
  Proof. intros H. apply within_bind; [by apply within_get_tree|done]. Qed.
  Lemma within_rmtree (R W : path -> Prop) p : (forall q, under p q -> W q) -> within R W (rmtree p).
  Proof. by split. Qed.
  Lemma within_rm (R W : path -> Prop) p : (forall q, under p q -> W q) -> within R W (rm p).
  Proof. split; [done|]. by intros r [->| ->]. Qed.
  Lemma within_move (R W : path -> Prop) a b : (forall q, under a q \/ under b q -> W q) -> within R W (move a b).
  Proof. split; [done|]. by intros r [->| ->]. Qed.
  Lemma within_pseq {A : Type} R W (l : list (prog C A)) : (forall p : prog C A, p ∈ l -> within R W p) -> within R W (pseq l).
  Proof.
    induction l as [|p l IH]; intros H; cbn; [done|]. apply within_bind; [apply H; by left|]. intros a.
    apply within_bind; [apply IH; intros; apply H; by right|done].
  Qed.
  Lemma within_pfor {A B : Type} R W (l : list A) (f : A -> prog C B) : (forall a, a ∈ l -> within R W (f a)) -> within R W (pfor l f).
  Proof.
    intros H. apply within_bind; [|done]. apply within_pseq. intros p Hp. apply elem_of_list_In, in_map_iff in Hp as (a & <- & Ha).
    apply H. by apply elem_of_list_In.
  Qed.

  (** Two states are the same on a region. *)
  Definition agree (X : path -> Prop) s t : Prop := forall q, X q -> s !! q = t !! q.
  Lemma empty_at_agree p s t : agree (under p) s t -> empty_at p s = empty_at p t.
  Proof.
    intros H. destruct (empty_at p t) eqn:E.
    - rewrite empty_at_true in E |- *. intros q U. rewrite H by done. auto.
    - rewrite empty_at_false in E |- *. destruct E as (q & c & U & E). exists q, c. by rewrite H.
  Qed.
  Lemma sub_agree p s t : agree (under p) s t -> sub p s = sub p t.
  Proof. intros H. apply map_eq. intros q. rewrite !sub_lookup. apply H, under_app. Qed.

  Definition moved (a b : path) s : path :=
    if empty_at b (prune a s) then b else b ++ match last a with Some n => [n] | None => [] end.
  Lemma moved_under a b s : under b (moved a b s).
  Proof. unfold moved. destruct (empty_at b _); [apply under_refl|apply under_app]. Qed.

  Lemma exec_op_frame R W o s t : op_within R W o -> agree (fun q => R q \/ W q) s t ->
    (exec_op o s).1 = (exec_op o t).1 /\ agree (fun q => R q \/ W q) (exec_op o s).2 (exec_op o t).2.
  Proof.
    intros Ho H. destruct o as [p|p c|p|p|a b]; cbn in *.
    - split; [|done]. f_equal. apply sub_agree. intros q U. apply H. auto.
    - split; [done|]. intros q Hq. destruct (decide (p = q)) as [->|]; [by rewrite !lookup_insert|]. rewrite !lookup_insert_ne by done. by apply H.
    - rewrite (empty_at_agree p s t) by (intros q U; apply H; auto). destruct (empty_at p t); [done|]. cbn. split; [done|].
      intros q Hq. rewrite !prune_lookup. destruct (decide _); [done|]. by apply H.
    - split; [done|]. intros q Hq. rewrite !prune_lookup. destruct (decide _); [done|]. by apply H.
    - rewrite (empty_at_agree a s t) by (intros q U; apply H; auto). destruct (empty_at a t); [done|]. cbn. split; [done|].
      rewrite (sub_agree a s t) by (intros q U; apply H; auto).
      rewrite (empty_at_agree b (prune a s) (prune a t)).
      2: { intros q U. rewrite !prune_lookup. destruct (decide _); [done|]. apply H. auto. }
      intros q Hq. rewrite !graft_lookup.
      assert (Hp : prune a s !! q = prune a t !! q) by (rewrite !prune_lookup; destruct (decide _); [done|by apply H]).
      by rewrite Hp.
  Qed.
  Lemma exec_op_outside R W o s q : op_within R W o -> ~ W q -> (exec_op o s).2 !! q = s !! q.
  Proof.
    intros Ho Hq. destruct o as [p|p c|p|p|a b]; cbn in *.
    - done.
    - rewrite lookup_insert_ne; [done|]. by intros ->.
    - destruct (empty_at p s); [done|]. cbn. rewrite prune_lookup, decide_False; naive_solver.
    - rewrite prune_lookup, decide_False; naive_solver.
    - destruct (empty_at a s); [done|]. cbn. fold (moved a b s). rewrite graft_lookup.
      replace (strip (moved a b s) q) with (@None path).
      + rewrite prune_lookup, decide_False; naive_solver.
      + symmetry. apply strip_None. intros U. apply Hq, Ho. right. eapply under_trans; [apply moved_under|done].
  Qed.
  Lemma exec_frame {A : Type} R W (p : prog C A) s t : within R W p -> agree (fun q => R q \/ W q) s t ->
    (exec p s).1 = (exec p t).1 /\ agree (fun q => R q \/ W q) (exec p s).2 (exec p t).2.
  Proof.
    revert s t. induction p as [r|o k IH]; intros s t Hp H; cbn; [done|]. destruct Hp as [Ho Hk].
    destruct (exec_op_frame R W o s t Ho H) as [E1 E2]. pose proof (possible_exec o s) as Hr.
    destruct (exec_op o s) as [r u], (exec_op o t) as [r' v]. cbn in *. subst r'. apply IH; auto.
  Qed.
  Lemma exec_outside {A : Type} R W (p : prog C A) s q : within R W p -> ~ W q -> (exec p s).2 !! q = s !! q.
  Proof.
    revert s. induction p as [r|o k IH]; intros s Hp Hq; cbn; [done|]. destruct Hp as [Ho Hk].
    pose proof (exec_op_outside R W o s q Ho Hq) as E. pose proof (possible_exec o s) as Hr.
    destruct (exec_op o s) as [r u]. cbn in *. rewrite IH by auto. done.
  Qed.

  (** ** Interleaving *)
  Lemma step_within {A : Type} R W (p p' : prog C A) s s' : within R W p -> step torn (p, s) (p', s') -> within R W p'.
  Proof.
    intros Hp H. remember (p, s) as x. remember (p', s') as y. destruct H; injection Heqx as <- <-; injection Heqy as <- <-; cbn in *; try naive_solver.
    destruct Hp as [_ Hk]. apply Hk, possible_exec.
  Qed.
  Lemma step_outside {A : Type} R W (p p' : prog C A) s s' q : within R W p -> step torn (p, s) (p', s') -> ~ W q -> s' !! q = s !! q.
  Proof.
    intros Hp H Hq. remember (p, s) as x. remember (p', s') as y. destruct H as [o k s0|p0 c k s0|p0 k s0 s1 E Hpr|p0 k s0 s1 Hpr];
      injection Heqx as <- <-; injection Heqy as <- <-; destruct Hp as [Ho _]; cbn in Ho.
    - by eapply exec_op_outside.
    - rewrite lookup_insert_ne; [done|]. by intros ->.
    - destruct (Hpr q) as [|[U _]]; [done|]. by apply Ho in U.
    - destruct (Hpr q) as [|[U _]]; [done|]. by apply Ho in U.
  Qed.
  Lemma partly_frame (X : path -> Prop) p s t s' : (forall q, under p q -> X q) -> agree X s t -> partly_removed p s s' ->
    exists t', partly_removed p t t' /\ agree X s' t'.
  Proof.
    intros Hu H Hp.
    exists (filter (fun kc => ~ (under p kc.1 /\ s' !! kc.1 = None)) t).
    assert (L : forall q, filter (fun kc : path * C => ~ (under p kc.1 /\ s' !! kc.1 = None)) t !! q =
      if decide (under p q /\ s' !! q = None) then None else t !! q).
    { intros q. destruct (decide (under p q /\ s' !! q = None)) as [D|D].
      - apply map_filter_lookup_None. right. intros c _ N. by apply N.
      - destruct (t !! q) as [c|] eqn:E; [by apply map_filter_lookup_Some|]. apply map_filter_lookup_None. by left. }
    split.
    - intros q. rewrite L. destruct (decide _) as [[? _]|]; auto.
    - intros q Hq. rewrite L. destruct (decide _) as [[? ?]|N]; [done|]. destruct (Hp q) as [->|[? ?]]; [by apply H|naive_solver].
  Qed.
  Lemma step_frame {A : Type} R W (p p' : prog C A) s s' t : within R W p -> agree (fun q => R q \/ W q) s t ->
    step torn (p, s) (p', s') -> exists t', step torn (p, t) (p', t') /\ agree (fun q => R q \/ W q) s' t'.
  Proof.
    intros Hp Ha H. remember (p, s) as x. remember (p', s') as y. destruct H as [o k s0|p0 c k s0|p0 k s0 s1 E Hpr|p0 k s0 s1 Hpr];
      injection Heqx as <- <-; injection Heqy as <- <-; destruct Hp as [Ho _].
    - destruct (exec_op_frame R W o _ _ Ho Ha) as [E1 E2]. exists (exec_op o t).2. rewrite E1. split; [apply step_do|done].
    - exists (<[p0 := torn]> t). split; [apply step_tear|]. intros q Hq.
      destruct (decide (p0 = q)) as [->|]; [by rewrite !lookup_insert|]. rewrite !lookup_insert_ne by done. by apply Ha.
    - cbn in Ho. destruct (partly_frame (fun q => R q \/ W q) _ _ _ _ (fun q U => or_intror (Ho q U)) Ha Hpr) as (t' & H1 & H2).
      exists t'. split; [|done]. apply step_rm; [|done]. rewrite <-E. symmetry. apply empty_at_agree. intros q U. apply Ha. auto.
    - cbn in Ho. destruct (partly_frame (fun q => R q \/ W q) _ _ _ _ (fun q U => or_intror (Ho q U)) Ha Hpr) as (t' & H1 & H2).
      exists t'. split; [|done]. by apply step_rmtree.
  Qed.

  (** The programs of a pool do not interfere. *)
  Definition independent {A : Type} (ps : list (prog C A)) (R W : nat -> path -> Prop) : Prop :=
    (forall i (p : prog C A), ps !! i = Some p -> within (R i) (W i) p) /\
    (forall i j (p p' : prog C A), ps !! i = Some p -> ps !! j = Some p' -> i <> j -> forall q, W i q -> ~ (R j q \/ W j q)).

  (** Seen from its region, each program runs as if it were alone; no other
      file changes. *)
  Lemma pool_local {A : Type} (ps ps' : list (prog C A)) R W s s' :
    independent ps R W -> rtc (pool_step torn) (ps, s) (ps', s') ->
    length ps' = length ps /\
    (forall i (p p' : prog C A), ps !! i = Some p -> ps' !! i = Some p' ->
       exists t, rtc (step torn) (p, s) (p', t) /\ within (R i) (W i) p' /\ agree (fun q => R i q \/ W i q) s' t) /\
    (forall q, (forall i (p : prog C A), ps !! i = Some p -> ~ W i q) -> s' !! q = s !! q).
  Proof.
    intros [Hw Hi] H.
    refine (rtc_ind_r (fun y : list (prog C A) * fs C =>
      length y.1 = length ps /\
      (forall i (p p' : prog C A), ps !! i = Some p -> y.1 !! i = Some p' ->
         exists t, rtc (step torn) (p, s) (p', t) /\ within (R i) (W i) p' /\ agree (fun q => R i q \/ W i q) y.2 t) /\
      (forall q, (forall i (p : prog C A), ps !! i = Some p -> ~ W i q) -> y.2 !! q = s !! q)) (ps, s) _ _ (ps', s') H); clear ps' s' H; cbn.
    - split_and!; [done| |done]. intros i p p' E1 E2. rewrite E1 in E2. injection E2 as ->.
      exists s. split_and!; [done|by apply Hw|done].
    - intros [ps1 s1] [ps' s'] H1 H2 (L & Hl & Ho). cbn in *.
      inversion H2 as [? i p1 p2 ? ? Ei Hs]; subst.
      assert (is_Some (ps !! i)) as [p0 E0]. { apply lookup_lt_is_Some. rewrite <-L. by eapply lookup_lt_Some. }
      destruct (Hl i p0 p1 E0 Ei) as (t1 & Ht1 & Hwi & Ha1).
      split_and!; [by rewrite insert_length| |].
      + intros j p p' Ej Ej'. destruct (decide (i = j)) as [<-|N].
        * rewrite E0 in Ej. injection Ej as <-. rewrite list_lookup_insert in Ej' by (by eapply lookup_lt_Some). injection Ej' as <-.
          destruct (step_frame _ _ _ _ _ _ t1 Hwi Ha1 Hs) as (t2 & Hs2 & Ha2). exists t2. split_and!; [by eapply rtc_r|by eapply step_within|done].
        * rewrite list_lookup_insert_ne in Ej' by done. destruct (Hl j p p' Ej Ej') as (t & Ht & Hwj & Ha). exists t. split_and!; [done..|].
          intros q Hq. rewrite <-Ha by done. eapply step_outside; [exact Hwi|exact Hs|]. intros Wq. by apply (Hi i j p0 p E0 Ej N q Wq).
      + intros q Hq. rewrite <-Ho by done. eapply step_outside; [exact Hwi|exact Hs|]. by apply (Hq i p0).
  Qed.
  (** A pool that has come to its end: every program has the result it has
      alone, and the state is determined file by file. *)
  Lemma pool_finished {A : Type} (ps : list (prog C A)) R W s rs s' :
    independent ps R W -> rtc (pool_step torn) (ps, s) (map Ret rs, s') ->
    rs = map (fun p : prog C A => (exec p s).1) ps /\
    (forall i (p : prog C A) q, ps !! i = Some p -> R i q \/ W i q -> s' !! q = (exec p s).2 !! q) /\
    (forall q, (forall i (p : prog C A), ps !! i = Some p -> ~ W i q) -> s' !! q = s !! q).
  Proof.
    intros Hi H. destruct (pool_local _ _ _ _ _ _ Hi H) as (L & Hl & Ho). rewrite map_length in L.
    assert (Hx : forall i (p : prog C A) r, ps !! i = Some p -> rs !! i = Some r -> r = (exec p s).1 /\ agree (fun q => R i q \/ W i q) s' (exec p s).2).
    { intros i p r Ep Er. destruct (Hl i p (Ret r) Ep) as (t & Ht & _ & Ha).
      - etransitivity; [apply (list_lookup_fmap (Ret (C:=C) (A:=A)) rs i)|]. by rewrite Er.
      - apply steps_exec in Ht. by rewrite <-Ht. }
    split_and!; [| |done].
    - apply list_eq. intros i. change (map (fun p : prog C A => (exec p s).1) ps) with ((fun p : prog C A => (exec p s).1) <$> ps). rewrite list_lookup_fmap.
      destruct (ps !! i) as [p|] eqn:Ep; cbn.
      + assert (is_Some (rs !! i)) as [r Er]. { apply lookup_lt_is_Some. rewrite L. by eapply lookup_lt_Some. }
        rewrite Er. f_equal. by apply (Hx i).
      + apply lookup_ge_None in Ep. apply lookup_ge_None. lia.
    - intros i p q Ep Hq. assert (is_Some (rs !! i)) as [r Er]. { apply lookup_lt_is_Some. rewrite L. by eapply lookup_lt_Some. }
      by apply (Hx i p r).
  Qed.

  (** Running the programs one after the other. *)
  Fixpoint exec_all {A : Type} (ps : list (prog C A)) s : list (res A) * fs C :=
    match ps with
    | [] => ([], s)
    | p :: ps => let '(r, s) := exec p s in let '(rs, s) := exec_all ps s in (r :: rs, s)
    end.
  Lemma pool_step_mono {A : Type} (ps ps' : list (prog C A)) (p : prog C A) s s' : pool_step torn (ps, s) (ps', s') -> pool_step torn (p :: ps, s) (p :: ps', s').
  Proof. intros H. inversion H as [? i ? ? ? ? Ei Hs]; subst. eapply (pool_one torn (p :: ps) (S i)); done. Qed.
  Lemma exec_all_steps {A : Type} (ps : list (prog C A)) s : rtc (pool_step torn) (ps, s) (map Ret (exec_all ps s).1, (exec_all ps s).2).
  Proof.
    revert s. induction ps as [|p ps IH]; intros s; cbn; [done|].
    destruct (exec p s) as [r s1] eqn:E1. destruct (exec_all ps s1) as [rs s2] eqn:E2. cbn.
    pose proof (exec_steps p s) as H. rewrite E1 in H. cbn in H.
    transitivity (Ret r :: ps, s1).
    - clear IH E2. remember (p, s) as x eqn:Ex. remember (Ret r : prog C A, s1) as y eqn:Ey. clear E1. revert p s Ex.
      induction H as [x|x [p1 t1] y H1 H2 IH]; intros p s Ex; subst; [by injection Ex as -> ->|].
      eapply rtc_l; [|by apply IH]. by apply (pool_one torn (p :: ps) 0 p).
    - specialize (IH s1). rewrite E2 in IH. cbn in IH. remember (ps, s1) as x eqn:Ex. remember (map Ret rs, s2) as y eqn:Ey. clear -IH Ex Ey.
      revert ps s1 Ex. induction IH as [x|x [p1 t1] y H1 H2 IH]; intros ps s1 Ex; subst; [by injection Ex as -> ->|].
      eapply rtc_l; [|by apply IH]. by apply pool_step_mono.
  Qed.
  (** Whatever the interleaving, a pool of independent programs ends with the
      results and the state of running them one after the other. *)
  Lemma pool_deterministic {A : Type} (ps : list (prog C A)) R W s rs s' :
    (forall i q, Decision (W i q)) ->
    independent ps R W -> rtc (pool_step torn) (ps, s) (map Ret rs, s') -> exec_all ps s = (rs, s').
  Proof.
    intros D Hi H. pose proof (exec_all_steps ps s) as H'. destruct (exec_all ps s) as [rs2 s2]. cbn in H'.
    destruct (pool_finished _ _ _ _ _ _ Hi H) as (E1 & F1 & G1). destruct (pool_finished _ _ _ _ _ _ Hi H') as (E2 & F2 & G2).
    f_equal; [congruence|]. apply map_eq. intros q.
    assert (D' : Decision (exists i, i < length ps /\ W i q)).
    { clear -D. induction (length ps) as [|n IH]; [right; intros (i & ? & _); lia|].
      destruct IH as [Y|N]; [left; destruct Y as (i & ? & ?); exists i; split; [lia|done]|].
      destruct (D n q) as [Y|N']; [left; exists n; split; [lia|done]|]. right. intros (i & Hi & Wi).
      destruct (decide (i = n)) as [->|]; [done|]. apply N. exists i. split; [lia|done]. }
    destruct D' as [(i & Hl & Wi)|N].
    - apply lookup_lt_is_Some in Hl as [p Ep]. rewrite (F1 i p), (F2 i p) by auto. done.
    - rewrite G1, G2; [done|intros i p Ep Wi; apply N; exists i; split; [by eapply lookup_lt_Some|done]..].
  Qed.
End fs.
