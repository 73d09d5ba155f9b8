(** * Specification vocabulary for the listing and the selection of partitions *)
From Verif Require Import Py PartPath_Model Split_Spec FS_Model Listing_Model.

Section tree.
  Context {C : Type}.
  Implicit Types (t : fs C) (d q : path).

  (** [q] is a directory: some file lies strictly below. *)
  Definition directory t q : Prop := exists n f c, t !! (q ++ n :: f) = Some c.
  (** [q] is a file or a directory. *)
  Definition present t q : Prop := is_Some (t !! q) \/ directory t q.
  (** Nothing is both a file and a directory. *)
  Definition tree t : Prop := forall q, is_Some (t !! q) -> ~ directory t q.

  Definition starts_with_dot (n : str) : Prop := exists s, n = "."%char :: s.

  (** The entries of the tree that count as partitions when the keys have [n]
      levels: what is found [n] levels below the root [d], in a directory of the
      root that is not hidden; and stray files at the levels between. *)
  Definition listed (n : nat) t d q : Prop :=
    exists a r, q = d ++ a :: r /\ ~ starts_with_dot a /\ directory t (d ++ [a]) /\
      ((length (a :: r) = n /\ present t q) \/ (length (a :: r) < n /\ is_Some (t !! q))).

  (** The directories of the key [values], one level per key. *)
  Definition key_dirs (p : partitioning) (values : list Z) : path := map (p_dir p) (zip (p_keys p) values).

  (** A well-formed collection directory: its own files, hidden directories,
      and files in the partition directories. *)
  Definition laid_out (p : partitioning) d t : Prop :=
    forall q c, t !! (d ++ q) = Some c ->
      (exists n, q = [n] /\ ~ directory t (d ++ [n])) \/ (exists n f, q = n :: f /\ starts_with_dot n) \/
      (exists values n f, length values = length (p_keys p) /\ q = key_dirs p values ++ n :: f).
End tree.

(** The names of the keys are ordinary: not empty, no '=', '/', and no '.' in
    front; there is one declared type per key. *)
Record plain_keys (p : partitioning) : Prop := {
  plain_some : p_keys p <> [];
  plain_len : p_len p = length (p_keys p);
  plain_chars : Forall (fun k => "="%char ∉ k /\ "/"%char ∉ k /\ ~ starts_with_dot k) (p_keys p);
  plain_nodup : NoDup (p_keys p);
}.

(** [l'] is the list of the items of [l] that satisfy [P], in the same order. *)
Inductive keeps {A} (P : A -> Prop) : list A -> list A -> Prop :=
  | keeps_nil : keeps P [] []
  | keeps_in x l l' : P x -> keeps P l l' -> keeps P (x :: l) (x :: l')
  | keeps_out x l l' : ~ P x -> keeps P l l' -> keeps P (x :: l) l'.

(** No component of the path contains '='. *)
Definition plain_path (d : path) : Prop := Forall (fun c => "="%char ∉ c) d.

(** ** Meaning of the filter expressions, over integers *)

(** Integer terms. *)
Fixpoint term (keys : str -> option Z) (e : expr) : option Z :=
  match e with
  | EInt z => Some z
  | EName n => keys n
  | ENeg a => match term keys a with Some x => Some (- x)%Z | None => None end
  | EArith o a b =>
      match term keys a, term keys b with
      | Some x, Some y =>
          match o with
          | Add => Some (x + y)%Z | Sub => Some (x - y)%Z | Mul => Some (x * y)%Z
          | FloorDiv => if decide (y = 0%Z) then None else Some (x / y)%Z
          | Mod => if decide (y = 0%Z) then None else Some (x mod y)%Z
          end
      | _, _ => None
      end
  | _ => None
  end.

Definition compares (o : cmp) (x y : Z) : Prop :=
  match o with
  | Eq => x = y | Ne => x <> y | Lt => x < y | Le => x <= y | Gt => x > y | Ge => x >= y
  end%Z.

(** [z] is the item number [k] of the range start, start + step, start + 2 step, ... before stop. *)
Definition range_item (k z start stop step : Z) : Prop :=
  (0 <= k /\ z = start + k * step /\ ((step > 0 /\ z < stop) \/ (step < 0 /\ z > stop)))%Z.
Definition in_range (z start stop step : Z) : Prop := exists k, range_item k z start stop step.

(** The two ranges hold the same items in the same order. *)
Definition same_range (r r' : Z * Z * Z) : Prop :=
  forall k z, range_item k z r.1.1 r.1.2 r.2 <-> range_item k z r'.1.1 r'.1.2 r'.2.

(** Arguments of [range]: start, stop and step. *)
Inductive range_args : list Z -> Z * Z * Z -> Prop :=
  | range_1 b : range_args [b] (0, b, 1)%Z
  | range_2 a b : range_args [a; b] (a, b, 1)%Z
  | range_3 a b s : s <> 0%Z -> range_args [a; b; s] (a, b, s).

(** [means keys e P]: the expression [e] makes sense for these keys and says [P].
    An integer alone says that it is not 0, a range alone that it has an item. *)
Inductive means (keys : str -> option Z) : expr -> Prop -> Prop :=
  | m_bool b : means keys (EBool b) (b = true)
  | m_term e x : term keys e = Some x -> means keys e (x <> 0%Z)
  | m_range es zs s : Forall2 (fun e x => term keys e = Some x) es zs -> range_args zs s ->
      means keys (ECall (EName (lit "range")) es) (exists z, in_range z s.1.1 s.1.2 s.2)
  | m_same es zs s es' zs' s' : Forall2 (fun e x => term keys e = Some x) es zs -> range_args zs s ->
      Forall2 (fun e x => term keys e = Some x) es' zs' -> range_args zs' s' ->
      means keys (ECmp Eq (ECall (EName (lit "range")) es) (ECall (EName (lit "range")) es')) (same_range s s')
  | m_other es zs s es' zs' s' : Forall2 (fun e x => term keys e = Some x) es zs -> range_args zs s ->
      Forall2 (fun e x => term keys e = Some x) es' zs' -> range_args zs' s' ->
      means keys (ECmp Ne (ECall (EName (lit "range")) es) (ECall (EName (lit "range")) es')) (~ same_range s s')
  | m_cmp o a b x y : term keys a = Some x -> term keys b = Some y -> means keys (ECmp o a b) (compares o x y)
  | m_in a z es zs s : term keys a = Some z -> Forall2 (fun e x => term keys e = Some x) es zs ->
      range_args zs s -> means keys (EIn a (ECall (EName (lit "range")) es)) (in_range z s.1.1 s.1.2 s.2)
  | m_notin a z es zs s : term keys a = Some z -> Forall2 (fun e x => term keys e = Some x) es zs ->
      range_args zs s -> means keys (ENotIn a (ECall (EName (lit "range")) es)) (~ in_range z s.1.1 s.1.2 s.2)
  | m_not e P : means keys e P -> means keys (ENot e) (~ P)
  | m_and a b P Q : means keys a P -> means keys b Q -> means keys (EAnd a b) (P /\ Q)
  | m_or a b P Q : means keys a P -> means keys b Q -> means keys (EOr a b) (P \/ Q).
