(** * Concurrent tasks that read what the others write *)
From Verif Require Import Py FS_Model FS_Proofs Pool_Model Pool_Proofs.

(** Each task owns files that only it writes; [Inv] holds of the files whatever
    the tasks do. *)
Section rely.
  Context {C : Type} (torn : C) (Inv : fs C -> Prop).
  Implicit Types (s t : fs C) (O : path -> Prop).

  (** The task [p], in the state [s], writes only files of [O], keeps the
      invariant and ends as [Q] says, whatever the other tasks do meanwhile to the
      files that are not in [O]. A file that is being written may be incomplete. *)
  Fixpoint safe {A : Type} O (Q : res A -> fs C -> Prop) (p : prog C A) s : Prop :=
    match p with
    | Ret r => forall s', Inv s' -> agree O s s' -> Q r s'
    | Op (Get d) k => forall s', Inv s' -> agree O s s' -> safe O Q (k (Some (sub d s'))) s'
    | Op (Write d x) k => O d /\ forall s', Inv s' -> (forall q, O q -> q <> d -> s !! q = s' !! q) ->
        Inv (<[d := torn]> s') /\ Inv (<[d := x]> s') /\ safe O Q (k (Some ∅)) (<[d := x]> s')
    | Op _ _ => False
    end.

  Lemma safe_stable {A : Type} O (Q : res A -> fs C -> Prop) p s s' : safe O Q p s -> agree O s s' -> safe O Q p s'.
  Proof.
    destruct p as [r|o k]; cbn.
    - intros H Ha t Ht Hat. apply H; [done|]. by eapply agree_trans.
    - destruct o as [d|d x| | |]; try done.
      + intros H Ha t Ht Hat. apply H; [done|]. by eapply agree_trans.
      + intros [Hd H] Ha. split; [done|]. intros t Ht Hat. apply H; [done|]. intros q Hq N. rewrite Ha by done. by apply Hat.
  Qed.
  Lemma safe_tear {A : Type} O (Q : res A -> fs C -> Prop) d x k s : safe O Q (Op (Write d x) k) s -> safe O Q (Op (Write d x) k) (<[d := torn]> s).
  Proof.
    cbn. intros [Hd H]. split; [done|]. intros t Ht Hat. apply H; [done|]. intros q Hq N. rewrite <-Hat by done. by rewrite lookup_insert_ne.
  Qed.
  Lemma safe_mono {A : Type} O (Q Q' : res A -> fs C -> Prop) p s : (forall r s', Inv s' -> Q r s' -> Q' r s') -> safe O Q p s -> safe O Q' p s.
  Proof.
    intros HQ. revert s. induction p as [r|o k IH]; intros s; cbn.
    - intros H t Ht Ha. apply HQ; [done|]. by apply H.
    - destruct o as [d|d x| | |]; try done.
      + intros H t Ht Ha. apply IH. by apply H.
      + intros [Hd H]. split; [done|]. intros t Ht Ha. destruct (H t Ht Ha) as (H1 & H2 & H3). auto.
  Qed.
  Lemma safe_bind {A B : Type} O (Q : res A -> fs C -> Prop) (Q' : res B -> fs C -> Prop) p k s : Inv s -> safe O Q p s ->
    (forall a s', Inv s' -> Q (Ok a) s' -> safe O Q' (k a) s') -> (forall ex s', Inv s' -> Q (Raise ex) s' -> Q' (Raise ex) s') ->
    safe O Q' (pbind p k) s.
  Proof.
    intros Hs Hp Hk Hex. revert s Hs Hp. induction p as [[a|ex]|o g IH]; intros s Hs; cbn.
    - intros H. apply Hk; [done|]. by apply H.
    - intros H t Ht Ha. apply Hex; [done|]. by apply H.
    - destruct o as [d|d x| | |]; try done.
      + intros H t Ht Ha. apply IH; [done|]. by apply H.
      + intros [Hd H]. split; [done|]. intros t Ht Ha. destruct (H t Ht Ha) as (H1 & H2 & H3). split_and!; auto.
  Qed.
  Lemma safe_ret {A : Type} O (Q : res A -> fs C -> Prop) r s : (forall s', Inv s' -> agree O s s' -> Q r s') -> safe O Q (Ret r) s.
  Proof. done. Qed.
  (** What is read holds of some state of the owned files. *)
  Lemma safe_get_tree O d s : safe O (fun r s1 => agree O s s1 /\ exists s', Inv s' /\ agree O s s' /\ r = Ok (sub d s')) (get_tree d) s.
  Proof. cbn. intros t Ht Ha u Hu Hau. split; [by eapply agree_trans|]. by exists t. Qed.

  (** A task leaves alone the owned files that it does not need. *)
  Lemma safe_widen {A : Type} O O' (Q : res A -> fs C -> Prop) p s : (forall q, O q -> O' q) -> safe O Q p s ->
    safe O' (fun r s' => Q r s' /\ forall q, O' q -> ~ O q -> s' !! q = s !! q) p s.
  Proof.
    intros HO. revert s. induction p as [r|o k IH]; intros s; cbn.
    - intros H t Ht Ha. split; [apply H; [done|]; intros q Hq; by apply Ha, HO|]. intros q Hq _. symmetry. by apply Ha.
    - destruct o as [d|d x| | |]; try done.
      + intros H t Ht Ha. assert (Ha' : agree O s t) by (intros q Hq; by apply Ha, HO).
        eapply safe_mono; [|apply IH, H; done]. cbv beta. intros r s' _ [H1 H2]. split; [done|]. intros q Hq Hn. rewrite H2 by done. symmetry. by apply Ha.
      + intros [Hd H]. split; [by apply HO|]. intros t Ht Ha. destruct (H t Ht) as (H1 & H2 & H3); [intros q Hq; by apply Ha, HO|]. split_and!; [done..|].
        eapply safe_mono; [|apply IH, H3]. cbv beta. intros r s' _ [H4 H5]. split; [done|]. intros q Hq Hn. rewrite H5 by done.
        assert (q <> d) by (by intros ->). rewrite lookup_insert_ne by done. symmetry. by apply Ha.
  Qed.

  (** Sequences. *)
  Lemma safe_assoc {A B D : Type} O (Q : res D -> fs C -> Prop) (p : prog C A) (k : A -> prog C B) (g : B -> prog C D) s :
    safe O Q (pbind p (fun a => pbind (k a) g)) s -> safe O Q (pbind (pbind p k) g) s.
  Proof.
    revert s. induction p as [[a|ex]|o h IH]; intros s; cbn; [done..|]. destruct o as [d|d x| | |]; try done.
    - intros H t Ht Ha. apply IH. by apply H.
    - intros [Hd H]. split; [done|]. intros t Ht Ha. destruct (H t Ht Ha) as (H1 & H2 & H3). split_and!; auto.
  Qed.
  Lemma safe_cont {A B : Type} O (Q : res B -> fs C -> Prop) (p : prog C A) (k k' : A -> prog C B) s :
    (forall a s, safe O Q (k a) s -> safe O Q (k' a) s) -> safe O Q (pbind p k) s -> safe O Q (pbind p k') s.
  Proof.
    intros Hk. revert s. induction p as [[a|ex]|o h IH]; intros s; cbn; [apply Hk|done|]. destruct o as [d|d x| | |]; try done.
    - intros H t Ht Ha. apply IH. by apply H.
    - intros [Hd H]. split; [done|]. intros t Ht Ha. destruct (H t Ht Ha) as (H1 & H2 & H3). split_and!; auto.
  Qed.
  Lemma safe_pfor_cons {X : Type} O (Q : res unit -> fs C -> Prop) (x : X) l (body : X -> prog C unit) s :
    safe O Q (pbind (body x) (fun _ => pfor l body)) s -> safe O Q (pfor (x :: l) body) s.
  Proof.
    intros H. unfold pfor at 1. cbn [map pseq]. apply safe_assoc. eapply safe_cont; [|exact H]. cbv beta. intros a t Ht. by apply safe_assoc.
  Qed.

  (** ** A task that only reads and writes its own files *)
  Fixpoint simple {A : Type} O (p : prog C A) : Prop :=
    match p with
    | Ret _ => True
    | Op (Write d x) k => (O d /\ forall s, Inv s -> Inv (<[d := torn]> s) /\ Inv (<[d := x]> s)) /\ forall r, simple O (k r)
    | Op _ _ => False
    end.
  Lemma simple_bind {A B : Type} O (p : prog C A) (k : A -> prog C B) : simple O p -> (forall a, simple O (k a)) -> simple O (pbind p k).
  Proof.
    induction p as [[a|ex]|o g IH]; cbn; [auto|done|]. destruct o; try done. intros [H1 H2] Hk. split; [done|]. intros r. by apply IH.
  Qed.
  Lemma safe_simple {A : Type} O (p : prog C A) : forall s, simple O p -> safe O (fun r s' => r = (exec p s).1 /\ agree O (exec p s).2 s') p s.
  Proof.
    induction p as [r|o k IH]; intros s Hp; cbn.
    - by intros t Ht Ha.
    - destruct o as [d|d x| | |]; try done. cbn in Hp. destruct Hp as [[Hd Hi] Hk]. split; [done|]. intros t Ht Ha.
      destruct (Hi t Ht) as [H1 H2]. split_and!; [done..|]. cbn.
      apply (safe_stable _ _ _ (<[d := x]> s)).
      + by apply IH.
      + intros q Hq. destruct (decide (d = q)) as [->|N]; [by rewrite !lookup_insert|]. rewrite !lookup_insert_ne by done. by apply Ha.
  Qed.

  (** ** Interleavings *)
  Lemma safe_interleave {A : Type} sched (ps : list (prog C A)) (O : nat -> path -> Prop) (Q : nat -> res A -> fs C -> Prop) s :
    (forall i j q, i < length ps -> j < length ps -> i <> j -> O i q -> ~ O j q) -> Inv s ->
    (forall i p, ps !! i = Some p -> safe (O i) (Q i) p s) ->
    exists rs s', exec (interleave torn sched ps) s = (Ok rs, s') /\ Inv s' /\ length rs = length ps /\
      (forall i r, rs !! i = Some r -> Q i r s') /\ (forall q, (forall i, i < length ps -> ~ O i q) -> s' !! q = s !! q).
  Proof.
    intros Hd Hs Hps. destruct (exec_interleave torn sched ps s) as (rs & s' & E & H). exists rs, s'. split; [done|]. clear E.
    set (n := length ps) in *.
    set (G := fun x : list (prog C A) * fs C => Inv x.2 /\ length x.1 = n /\ (forall i p, x.1 !! i = Some p -> safe (O i) (Q i) p x.2) /\
      forall q, (forall i, i < n -> ~ O i q) -> x.2 !! q = s !! q).
    assert (HG : G (map Ret rs, s')).
    { refine (rtc_ind_r G _ _ _ _ H); [by split_and!|]. clear H s' rs. intros y z _ Hstep (Gi & Gl & Gs & Gf).
      destruct Hstep as [qs i p p' t t' Ei Hstep]. cbn in *. pose proof (Gs i p Ei) as Hp.
      assert (Hi : i < n) by (rewrite <-Gl; by eapply lookup_lt_Some).
      assert (Hgo : forall t', Inv t' -> safe (O i) (Q i) p' t' -> (forall q, ~ O i q -> t' !! q = t !! q) -> G (<[i := p']> qs, t')).
      { intros u Hu Hpu Hout. split_and!; cbn; [done|by rewrite insert_length| |].
        - intros j pj Ej. destruct (decide (i = j)) as [<-|N].
          + rewrite list_lookup_insert in Ej by (by eapply lookup_lt_Some). by injection Ej as <-.
          + rewrite list_lookup_insert_ne in Ej by done. apply (safe_stable _ _ _ t); [by apply Gs|]. intros q Hq. rewrite Hout; [done|].
            intros Hq'. assert (Hj : j < n) by (rewrite <-Gl; by eapply lookup_lt_Some). by apply (Hd i j q Hi Hj N).
        - intros q Hq. rewrite Hout by (by apply Hq). by apply Gf. }
      inversion Hstep as [o k ? Eo|d x k ? Eo|d k ? ? He Hpr Eo|d k ? ? Hpr Eo]; subst; cbn in Hp.
      - destruct o as [d|d x| | |]; try done; cbn in *.
        + apply Hgo; [done|by apply Hp|done].
        + destruct Hp as [Hd' Hp]. destruct (Hp t Gi ltac:(done)) as (_ & H2 & H3). apply Hgo; [done..|]. intros q Hq. rewrite lookup_insert_ne; [done|]. by intros ->.
      - pose proof Hp as [Hd' Hp']. destruct (Hp' t Gi ltac:(done)) as (H1 & _). apply Hgo; [done|by apply safe_tear|]. intros q Hq. rewrite lookup_insert_ne; [done|]. by intros ->.
      - done.
      - done. }
    destruct HG as (Gi & Gl & Gs & Gf). cbn in *. rewrite map_length in Gl. split_and!; [done|done| |done].
    intros i r Er. specialize (Gs i (Ret r)). rewrite list_lookup_fmap, Er in Gs. by apply (Gs eq_refl).
  Qed.
End rely.
