(** * Orders and sorting (Python's comparison of strings and tuples, sorted) *)
From Verif Require Import Py.
From stdpp Require Import sorting.

(** A strict total order, as a boolean function. *)
Record strict_order {A} (lt : A -> A -> bool) : Prop := {
  so_irrefl : forall x, lt x x = false;
  so_trans : forall x y z, lt x y = true -> lt y z = true -> lt x z = true;
  so_total : forall x y, lt x y = false -> lt y x = false -> x = y;
}.

(** Comparison of characters, strings, numbers, tuples of two and lists: by the
    first item that differs, the shorter list first. *)
Definition ascii_lt (a b : ascii) : bool := nat_of_ascii a <? nat_of_ascii b.
Definition pair_lt {A B} (lta : A -> A -> bool) (ltb : B -> B -> bool) (p q : A * B) : bool :=
  if lta p.1 q.1 then true else if lta q.1 p.1 then false else ltb p.2 q.2.
Fixpoint list_lt {A} (lt : A -> A -> bool) (l m : list A) : bool :=
  match l, m with
  | _, [] => false
  | [], _ :: _ => true
  | x :: l, y :: m => if lt x y then true else if lt y x then false else list_lt lt l m
  end.
Definition str_lt : str -> str -> bool := list_lt ascii_lt.

(** [sorted(l, key=f)] *)
Definition key_le {A B} (lt : B -> B -> bool) (f : A -> B) (x y : A) : Prop := lt (f y) (f x) = false.
Global Instance key_le_dec {A B} (lt : B -> B -> bool) (f : A -> B) x y : Decision (key_le lt f x y).
Proof. unfold key_le. apply _. Defined.
Definition sorted_by {A B} (lt : B -> B -> bool) (f : A -> B) (l : list A) : list A := merge_sort (key_le lt f) l.

Lemma so_asym {A} (lt : A -> A -> bool) (H : strict_order lt) x y : lt x y = true -> lt y x = false.
Proof.
  intros E. destruct (lt y x) eqn:E'; [|done]. pose proof (so_trans _ H _ _ _ E E'). rewrite (so_irrefl _ H) in H0. done.
Qed.
Lemma so_negtrans {A} (lt : A -> A -> bool) (H : strict_order lt) x y z : lt y x = false -> lt z y = false -> lt z x = false.
Proof.
  intros E1 E2. destruct (lt z x) eqn:E; [|done].
  destruct (lt y z) eqn:E3; [by rewrite (so_trans _ H _ _ _ E3 E) in E1|].
  assert (y = z) as -> by (by apply (so_total _ H)). congruence.
Qed.

Lemma nat_lt_order : strict_order Nat.ltb.
Proof.
  split.
  - intros x. apply Nat.ltb_irrefl.
  - intros x y z H1%Nat.ltb_lt H2%Nat.ltb_lt. apply Nat.ltb_lt. lia.
  - intros x y H1%Nat.ltb_ge H2%Nat.ltb_ge. lia.
Qed.
Lemma Z_lt_order : strict_order Z.ltb.
Proof.
  split.
  - intros x. apply Z.ltb_irrefl.
  - intros x y z H1%Z.ltb_lt H2%Z.ltb_lt. apply Z.ltb_lt. lia.
  - intros x y H1%Z.ltb_ge H2%Z.ltb_ge. lia.
Qed.
Lemma ascii_lt_order : strict_order ascii_lt.
Proof.
  destruct nat_lt_order as [I T To]. split; unfold ascii_lt; intros.
  - apply I.
  - by eapply T.
  - rewrite <-(ascii_nat_embedding x), <-(ascii_nat_embedding y). f_equal. by apply To.
Qed.
Lemma pair_lt_order {A B} (lta : A -> A -> bool) (ltb : B -> B -> bool) :
  strict_order lta -> strict_order ltb -> strict_order (pair_lt lta ltb).
Proof.
  intros Ha Hb. unfold pair_lt. split.
  - intros [x y]. cbn. by rewrite (so_irrefl _ Ha), (so_irrefl _ Hb).
  - intros [x1 x2] [y1 y2] [z1 z2]. cbn.
    destruct (lta x1 y1) eqn:E1; [|destruct (lta y1 x1) eqn:E2; [done|]].
    + intros _. destruct (lta y1 z1) eqn:E3; [by rewrite (so_trans _ Ha _ _ _ E1 E3)|].
      destruct (lta z1 y1) eqn:E4; [done|]. assert (y1 = z1) as -> by (by apply (so_total _ Ha)). by rewrite E1.
    + assert (x1 = y1) as -> by (by apply (so_total _ Ha)). intros H1.
      destruct (lta y1 z1) eqn:E3; [done|]. destruct (lta z1 y1) eqn:E4; [done|]. intros H2. by apply (so_trans _ Hb _ y2).
  - intros [x1 x2] [y1 y2]. cbn.
    destruct (lta x1 y1) eqn:E1; [done|]. destruct (lta y1 x1) eqn:E2; [done|].
    intros H1 H2. f_equal; [by apply (so_total _ Ha)|by apply (so_total _ Hb)].
Qed.
Lemma list_lt_order {A} (lt : A -> A -> bool) : strict_order lt -> strict_order (list_lt lt).
Proof.
  intros H. split.
  - intros l. induction l as [|x l IH]; [done|]. cbn. by rewrite (so_irrefl _ H).
  - intros l. induction l as [|x l IH]; intros [|y m] [|z n]; cbn; try done.
    destruct (lt x y) eqn:E1; [|destruct (lt y x) eqn:E2; [done|]].
    + intros _. destruct (lt y z) eqn:E3; [by rewrite (so_trans _ H _ _ _ E1 E3)|].
      destruct (lt z y) eqn:E4; [done|]. assert (y = z) as -> by (by apply (so_total _ H)). by rewrite E1.
    + assert (x = y) as -> by (by apply (so_total _ H)). intros H1.
      destruct (lt y z) eqn:E3; [done|]. destruct (lt z y) eqn:E4; [done|]. by apply IH.
  - intros l. induction l as [|x l IH]; intros [|y m]; cbn; try done.
    destruct (lt x y) eqn:E1; [done|]. destruct (lt y x) eqn:E2; [done|]. intros H1 H2.
    f_equal; [by apply (so_total _ H)|by apply IH].
Qed.
Lemma str_lt_order : strict_order str_lt.
Proof. apply list_lt_order, ascii_lt_order. Qed.

Section sorted.
  Context {A B : Type} (lt : B -> B -> bool) (Hlt : strict_order lt) (f : A -> B).
  Lemma key_le_total : Total (key_le lt f).
  Proof using Hlt.
    intros x y. unfold key_le. destruct (lt (f y) (f x)) eqn:E; [|by left]. right. by apply (so_asym _ Hlt).
  Qed.
  Lemma key_le_trans : Transitive (key_le lt f).
  Proof using Hlt. intros x y z H1 H2. unfold key_le in *. by eapply (so_negtrans _ Hlt). Qed.
  Lemma sorted_by_perm l : sorted_by lt f l ≡ₚ l.
  Proof. apply merge_sort_Permutation. Qed.
  Lemma sorted_by_sorted l : StronglySorted (key_le lt f) (sorted_by lt f l).
  Proof using Hlt. pose proof key_le_total. pose proof key_le_trans. by apply StronglySorted_merge_sort. Qed.
  (** Two sorted permutations are equal when the keys determine the items. *)
  Lemma sorted_unique_by l m : StronglySorted (key_le lt f) l -> StronglySorted (key_le lt f) m -> l ≡ₚ m ->
    (forall x y, x ∈ l -> y ∈ l -> f x = f y -> x = y) -> l = m.
  Proof using Hlt.
    intros Sl. revert m. induction Sl as [|x l Sl IH Hx]; intros m Sm Hp Hinj.
    - by apply Permutation_nil in Hp as ->.
    - destruct m as [|y m]; [by apply Permutation_sym, Permutation_nil in Hp|].
      apply StronglySorted_inv in Sm as [Sm Hy].
      assert (x = y) as ->.
      { assert (Hxy : x ∈ y :: m) by (rewrite <-Hp; by left). assert (Hyx : y ∈ x :: l) by (rewrite Hp; by left).
        apply elem_of_cons in Hxy as [|Hxm]; [done|]. apply elem_of_cons in Hyx as [|Hyl]; [done|].
        apply Hinj; [by left|by right|]. rewrite Forall_forall in Hx, Hy. specialize (Hx _ Hyl). specialize (Hy _ Hxm).
        unfold key_le in *. by apply (so_total _ Hlt). }
      f_equal. apply IH; [done|by apply Permutation_cons_inv in Hp|]. intros a b Ha Hb. apply Hinj; by right.
  Qed.
  Lemma sorted_by_unique l m : l ≡ₚ m -> (forall x y, x ∈ l -> y ∈ l -> f x = f y -> x = y) -> sorted_by lt f l = sorted_by lt f m.
  Proof using Hlt.
    intros Hp Hinj. apply sorted_unique_by; try apply sorted_by_sorted; [by rewrite !sorted_by_perm|].
    intros x y. rewrite !sorted_by_perm. apply Hinj.
  Qed.
  Lemma sorted_by_id l : StronglySorted (key_le lt f) l -> (forall x y, x ∈ l -> y ∈ l -> f x = f y -> x = y) -> sorted_by lt f l = l.
  Proof using Hlt.
    intros Hs Hinj. apply sorted_unique_by; [apply sorted_by_sorted|done|apply sorted_by_perm|].
    intros x y. rewrite !sorted_by_perm. apply Hinj.
  Qed.
  Lemma sorted_by_idem l : (forall x y, x ∈ l -> y ∈ l -> f x = f y -> x = y) -> sorted_by lt f (sorted_by lt f l) = sorted_by lt f l.
  Proof using Hlt. intros Hinj. symmetry. apply sorted_by_unique; [by rewrite sorted_by_perm|done]. Qed.
End sorted.
