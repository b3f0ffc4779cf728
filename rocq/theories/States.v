(** * Concrete interpreter states for the examples beside the theorems. *)

From Coq Require Import ZArith List Bool.
From Verif Require Import Base VectorModel TextModel StackModel StackProofs FieldModel
  World IpModel LoadModel FingModel CoreModel UniModel ExecProofs.
Import ListNotations.
Open Scope Z_scope.

(** The state in which the first IP of program [data] starts, [c] being the
    configuration. *)
Definition start (c : cfg) (data input : bytes) : res st :=
  w <-- boot 1000 data c (world0 input (fun _ => None) (fun _ => 0)) ;;
  match w_run w 0 with
  | Some r => Ok {| s_w := w; s_r := r |}
  | None => Bad BadNull
  end.
Definition dummy_w : world := world0 [] (fun _ => None) (fun _ => 0).
Definition dummy : st :=
  {| s_w := dummy_w; s_r := runner_blank 0 0 ss_new [] |}.
Definition the {A} (d : A) (x : res A) : A := match x with Ok a => a | Bad _ => d end.
(** A Funge-98 program of [d] dimensions. *)
Definition start98 (d : nat) (data input : bytes) : st :=
  the dummy (start (set_c_dims d (set_c_std STD_98 cfg_default)) data input).
(** The same with [l] on the stack. *)
Definition with_list (l : list Z) (s : st) : st :=
  setSS (ss_set (mySS s) 0 {| s_mode := 0; s_list := l; s_ops := 0 |}) s.

Lemma holds_with_list l s :
  ss_sel (mySS s) = 0%nat -> ss_list (mySS s) <> [] -> Holds (with_list l s) l.
Proof.
  intros H N. exists {| s_mode := 0; s_list := l; s_ops := 0 |}. split; [|split; [|reflexivity]].
  - unfold with_list. rewrite mySS_setSS. unfold ss_top, ss_at, ss_set. cbn [ss_sel ss_list].
    rewrite H. destruct (ss_list (mySS s)); [congruence|]. reflexivity.
  - split; reflexivity.
Qed.

(** Reading off a result: the IP's selected stack and its error code. *)
Definition stack_of (s : st) : list Z :=
  match ss_top (mySS s) with Ok k => s_list k | Bad _ => [] end.
Definition run_stack {A} (m : M A) (s : st) : res (A * list Z) :=
  match m s with Ok (a, s') => Ok (a, stack_of s') | Bad b => Bad b end.
