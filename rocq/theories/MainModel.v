(** * The interpreter's main function, src/Funge.cpp. *)

From Coq Require Import ZArith List.
From Verif Require Import Base World CoreModel UniModel OptModel FileModel.
Import ListNotations.
Open Scope Z_scope.

(** ** The interpreter *)

(** How the interpreter comes to its end: refused arguments (EINVAL), a file that
    cannot be opened (EIO), or what was printed and the exit code. *)
Inductive outcome := Refused | Unopened (path : bytes) | Ended (out : bytes) (code : Z).
(** fungemain, src/Funge.cpp:104-243: [args] are argv[1..].  Simplification: waitAll is
    the run of the first universe, which is all there is to wait for if no other
    universe was made. *)
Definition fungemain (F : positive) (D depth : nat) (args env : list bytes) (w : world) : res outcome :=
  r <-- parse_args args env ;;
  match r with
  | None => Ok Refused
  | Some (path, c) =>
      s <-- create_universe depth F path c w ;;
      match s with
      | (NoFile p, _) => Ok (Unopened p)
      | (Started, w1) => w' <-- run_universe F D 0 w1 ;; Ok (Ended (w_out w') (u_exit (w_uni w' 0)))
      end
  end.
