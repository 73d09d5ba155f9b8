(** * Directory trees and their copies (fs_utils.py)

    The trees have directories, empty or not, and files. The two file systems of
    a copy are two directories of one tree. *)
From Verif Require Import Py Order FS_Model.

Section tree.
  Context {C : Type}.
  Inductive node := Dir | File (c : C).
  Local Notation disk := (gmap path node).
  (** The order in which [fs.ls] gives the entries of a directory. *)
  Context (order : list path -> list path).

  Definition is_dir (t : disk) (p : path) : bool :=
    match p, t !! p with
    | [], _ => true
    | _, Some Dir => true
    | _, _ => false
    end.
  (** The name of an entry and the directory it is in. *)
  Definition basename (p : path) : str := default [] (last p).
  Definition dirname (p : path) : path := removelast p.

  (** The entries of a directory; a file is its own entry (fsspec). *)
  Definition children (t : disk) (p : path) : list path :=
    order (List.filter (fun q => bool_decide (q <> [] /\ dirname q = p)) (map fst (map_to_list t))).
  Definition ls (t : disk) (p : path) : res (list path) :=
    if is_dir t p then Ok (children t p)
    else match t !! p with Some _ => Ok [p] | None => Raise FileNotFoundError end.

  (** A path as a string *)
  Definition path_string (p : path) : str := concat (map (fun c => lit "/" ++ c) p).
  (** fs_utils.py:67-108, [fs_walk]: directory, its directories, the names of
      its files. The empty path stands for the empty string. [fuel]: more than
      the depth of the tree. *)
  Fixpoint fs_walk (sort : bool) (fuel : nat) (t : disk) (p : path) : list (path * list path * list str) :=
    match fuel with
    | 0 => []
    | S n =>
        match ls t p with
        | Raise _ => [([], [], [])]
        | Ok listing =>
            let dirs := List.filter (is_dir t) listing in
            let files := map basename (List.filter (fun q => negb (is_dir t q)) listing) in
            let dirs := if sort then sorted_by str_lt path_string dirs else dirs in
            (p, dirs, if sort then sorted_by str_lt id files else files) :: concat (map (fs_walk sort n t) dirs)
        end
    end.
  Definition depth (t : disk) : nat := S (list_max (map (fun e => length e.1) (map_to_list t))).

  (** What changes the tree, and may raise. *)
  Definition cmd : Type := disk -> res unit * disk.
  Fixpoint all_cmds (l : list cmd) : cmd := fun t =>
    match l with
    | [] => (Ok tt, t)
    | c :: l => match c t with
                | (Ok _, t) => all_cmds l t
                | (Raise e, t) => (Raise e, t)
                end
    end.

  Definition exists_node (t : disk) (p : path) : bool := match p with [] => true | _ => bool_decide (is_Some (t !! p)) end.
  (** The directory and its parents that do not exist yet. *)
  Fixpoint make_dirs (base rest : path) (t : disk) : res unit * disk :=
    match rest with
    | [] => (Ok tt, t)
    | n :: rest =>
        let p := base ++ [n] in
        match t !! p with
        | None => make_dirs p rest (<[p := Dir]> t)
        | Some Dir => make_dirs p rest t
        | Some (File _) => (Raise OSError, t)
        end
    end.
  (** [fs.mkdir], which creates the parents by default (fsspec) *)
  Definition mkdir (p : path) : cmd := fun t =>
    if exists_node t p then (Raise OSError, t) else make_dirs [] p t.

  (** fs_utils.py:111-127, [copy_file] *)
  Definition copy_file (source target : path) : cmd := fun t =>
    match t !! source with
    | Some (File c) =>
        match t !! target with
        | Some Dir => (Raise OSError, t)
        | _ => if is_dir t (dirname target) then (Ok tt, <[target := File c]> t) else (Raise FileNotFoundError, t)
        end
    | Some Dir => (Raise OSError, t)
    | None => (Raise FileNotFoundError, t)
    end.

  (** [os.path.relpath], for a path below [source] *)
  Definition relpath (p source : path) : path := drop (length source) p.

  (** fs_utils.py:151-179, [copy_tree] *)
  Definition copy_tree (source target : path) : cmd := fun t =>
    if exists_node t target then (Raise ValueError, t)
    else match mkdir target t with
         | (Raise e, t) => (Raise e, t)
         | (Ok _, t) =>
             all_cmds (concat (map (fun '(root, dirs, files) =>
               map (fun name => copy_file (root ++ [name]) (target ++ relpath (root ++ [name]) source)) files ++
               map (fun d => mkdir (target ++ relpath d source)) dirs) (fs_walk false (depth t) t source))) t
         end.

  (** fs_utils.py:130-148, [copy_files] *)
  Definition copy_files (source : list path) (target : path) : cmd :=
    all_cmds (map (fun p => copy_file p (target ++ [basename p])) source).
End tree.
Arguments node : clear implicits.
Notation disk C := (gmap path (node C)).
Arguments cmd : clear implicits.
