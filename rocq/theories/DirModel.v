(** * Directories: src/fingerprint/FingerprintDIRF.cpp

    FingModel.v only records what DIRF asks of the operating system.  Here is the
    fingerprint together with a tree of files and directories.

    Simplifications: no symbolic links and no file permissions; nobody else changes
    the tree. *)

From Coq Require Import ZArith List Bool.
From Verif Require Import Base StackModel World IpModel LoadModel FingModel.
Import ListNotations.
Open Scope Z_scope.

(** ** The file system *)

Inductive kind := KFile | KDir.
(** Components below the root, outermost first. *)
Definition path := list bytes.
(** The nodes but for the root, and the working directory; [None] if that has been
    removed. *)
Record tree := { t_nodes : list (path * kind); t_cwd : option path }.

Fixpoint path_eqb (a b : path) : bool :=
  match a, b with
  | [], [] => true
  | x :: a', y :: b' => bytes_eqb x y && path_eqb a' b'
  | _, _ => false
  end.
Fixpoint find_node (p : path) (l : list (path * kind)) : option kind :=
  match l with
  | [] => None
  | (q, k) :: t => if path_eqb q p then Some k else find_node p t
  end.
Definition lookup (t : tree) (p : path) : option kind :=
  match p with [] => Some KDir | _ => find_node p (t_nodes t) end.
Definition is_dir (t : tree) (p : path) : bool :=
  match lookup t p with Some KDir => true | _ => false end.

(** Pathname resolution (POSIX.1, 4.13): components are separated by slashes, empty
    ones and [.] mean the directory itself, [..] its parent. *)
Fixpoint components (cur : bytes) (b : bytes) : path :=
  match b with
  | [] => [cur]
  | c :: t => if c =? 47 then cur :: components [] t else components (cur ++ [c]) t
  end.
Definition dot : bytes := [46].
Definition dotdot : bytes := [46; 46].
Fixpoint walk (t : tree) (p : path) (l : path) : option path :=
  match l with
  | [] => Some p
  | c :: l' =>
      if is_dir t p then
        walk t (if bytes_eqb c [] || bytes_eqb c dot then p
                else if bytes_eqb c dotdot then removelast p
                else p ++ [c]) l'
      else None
  end.
Definition resolve (t : tree) (b : bytes) : option path :=
  match b with
  | [] => None
  | c :: _ =>
      if c =? 47 then walk t [] (components [] b)
      else match t_cwd t with
           | Some p => walk t p (components [] b)
           | None => None
           end
  end.

(** std::filesystem::exists and is_directory. *)
Definition names_dir (t : tree) (b : bytes) : bool :=
  match resolve t b with Some p => is_dir t p | None => false end.

(** mkdir(2), with std::filesystem::create_directory, which throws
    filesystem_error unless the directory is made or there already. *)
Definition create_directory (b : bytes) (t : tree) : res tree :=
  match resolve t b with
  | None => Bad BadThrow
  | Some p =>
      match lookup t p with
      | Some KDir => Ok t
      | Some KFile => Bad BadThrow
      | None => Ok {| t_nodes := (p, KDir) :: t_nodes t; t_cwd := t_cwd t |}
      end
  end.

(** rmdir(2), with std::filesystem::remove, which throws filesystem_error if it
    fails: for the root, a directory with entries, and names that end in [.] or
    [..]. *)
Definition below (p q : path) : bool :=
  match q with [] => false | _ => path_eqb p (removelast q) end.
Definition is_empty (t : tree) (p : path) : bool :=
  negb (existsb (fun e => below p (fst e)) (t_nodes t)).
Fixpoint last_name (l : path) : bytes :=
  match l with
  | [] => []
  | c :: t => match last_name t with [] => c | x => x end
  end.
Definition remove_dir (b : bytes) (t : tree) : res tree :=
  match resolve t b with
  | None => Bad BadThrow
  | Some p =>
      let name := last_name (components [] b) in
      if bytes_eqb name [] || bytes_eqb name dot || bytes_eqb name dotdot || negb (is_empty t p)
      then Bad BadThrow
      else Ok {| t_nodes := filter (fun e => negb (path_eqb (fst e) p)) (t_nodes t);
                 t_cwd := match t_cwd t with
                          | Some c => if path_eqb c p then None else Some c
                          | None => None
                          end |}
  end.

(** ** The fingerprint *)

(** FingerprintDIRF::execute, src/fingerprint/FingerprintDIRF.cpp:17-44, by an IP in
    a file system. *)
Definition dirf_tree (c : Z) (s : st) (t : tree) : res (err * st * tree) :=
  if (c =? 67) || (c =? 77) || (c =? 82) then
    match popString s with
    | Bad b => Bad b
    | Ok (str, s1) =>
        let d := cstr str in
        if c =? 67 then
          if names_dir t d then Ok (ENone, s1, {| t_nodes := t_nodes t; t_cwd := resolve t d |})
          else Ok (EUnspec, s1, t)
        else if c =? 77 then t1 <-- create_directory d t ;; Ok (ENone, s1, t1)
        else
          if names_dir t d then t1 <-- remove_dir d t ;; Ok (ENone, s1, t1)
          else Ok (EUnspec, s1, t)
    end
  else Ok (EUnimp, s, t).
