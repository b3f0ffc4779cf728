(** * Outcomes, machine integers and loops shared by the whole model.

    The modelled platform is the one the project is built for: x86-64 Linux,
    g++, C++20, with [char] signed and 8 bits, [int] 32 bits, and [dim_t],
    [stack_t] and [inst_t] 64 bits (src/include/funge_types.h:14-16). *)

From Coq Require Import ZArith List Bool.
Import ListNotations.
Open Scope Z_scope.

(** ** Outcomes

    C++ undefined behaviour, uncaught exceptions and exhausted loop fuel are
    outcomes of their own, never silently given a meaning. *)

Inductive bad : Type :=
| BadOverflow   (** signed 64-bit overflow, or [abs]/negation of the minimum *)
| BadOob        (** access outside a container or table *)
| BadNull       (** null pointer dereference *)
| BadFreed      (** use of a deleted object *)
| BadShift      (** shift by a negative or too large amount *)
| BadDiv        (** [INT64_MIN / -1], traps on x86-64 *)
| BadCtype      (** [isspace] and friends outside their domain *)
| BadThrow      (** exception that nothing catches: std::terminate *)
| BadFuel       (** the loop did not finish within the given fuel *)
| BadUnmodelled (** behaviour deliberately outside the model *).

Inductive res (A : Type) : Type :=
| Ok (a : A)
| Bad (b : bad).
Arguments Ok {A} _.
Arguments Bad {A} _.

Definition bind {A B} (x : res A) (f : A -> res B) : res B :=
  match x with
  | Ok a => f a
  | Bad b => Bad b
  end.

Notation "x <-- e ;; k" := (bind e (fun x => k))
  (at level 61, e at next level, right associativity).

(** ** Machine integers *)

Definition INT64_MIN : Z := -9223372036854775808.
Definition INT64_MAX : Z := 9223372036854775807.

(** Does a value fit a signed 64-bit integer? *)
Definition in64b (z : Z) : bool := (INT64_MIN <=? z) && (z <=? INT64_MAX).

(** Result of a signed 64-bit operation whose exact result is [z]. *)
Definition chk64 (z : Z) : res Z := if in64b z then Ok z else Bad BadOverflow.

Definition add64 (a b : Z) : res Z := chk64 (a + b).
Definition sub64 (a b : Z) : res Z := chk64 (a - b).
Definition mul64 (a b : Z) : res Z := chk64 (a * b).
Definition neg64 (a : Z) : res Z := chk64 (- a).

(** [a / b] and [a % b] in C++ truncate towards zero; [b] is never 0 at the
    call sites.  [INT64_MIN / -1] overflows and traps, and so does the
    corresponding [%]. *)
Definition div64 (a b : Z) : res Z :=
  if in64b (Z.quot a b) then Ok (Z.quot a b) else Bad BadDiv.
Definition rem64 (a b : Z) : res Z :=
  if in64b (Z.quot a b) then Ok (Z.rem a b) else Bad BadDiv.

(** Conversion to a signed [n]-bit integer (modular, C++20). *)
Definition wrap (n : Z) (z : Z) : Z :=
  (z + 2 ^ (n - 1)) mod 2 ^ n - 2 ^ (n - 1).
Definition to_i8 (z : Z) : Z := wrap 8 z.    (** [static_cast<char>] *)
Definition to_i32 (z : Z) : Z := wrap 32 z.  (** [static_cast<int>] *)
Definition to_i64 (z : Z) : Z := wrap 64 z.  (** back from unsigned 64 bits *)
Definition to_u64 (z : Z) : Z := z mod 2 ^ 64.
Definition to_u32 (z : Z) : Z := z mod 2 ^ 32.
Definition to_u8 (z : Z) : Z := z mod 2 ^ 8.

(** [a << n] and [a >> n] on signed 64-bit values (C++20). *)
Definition shl64 (a n : Z) : res Z :=
  if (0 <=? n) && (n <? 64) then Ok (to_i64 (Z.shiftl a n)) else Bad BadShift.
Definition shr64 (a n : Z) : res Z :=
  if (0 <=? n) && (n <? 64) then Ok (Z.shiftr a n) else Bad BadShift.

Definition bz (b : bool) : Z := if b then 1 else 0.

(** ** Characters *)

(** [isspace] in the C locale; its domain is unsigned char or EOF (-1).  The
    model treats anything else as [BadCtype]. *)
Definition isspace (c : Z) : bool := (c =? 32) || ((9 <=? c) && (c <=? 13)).
Definition isspace_ub (c : Z) : res bool :=
  if (-1 <=? to_i32 c) && (to_i32 c <=? 255) then Ok (isspace (to_i32 c))
  else Bad BadCtype.

Definition isdigit (c : Z) : bool := (48 <=? c) && (c <=? 57).

(** ** Loops

    [loopP p f s] runs [f] at most [p] times; [f] returns [inl] to go on and
    [inr] to leave.  The fuel is a binary number so that a bound like 2^65 can
    be given without being paid for. *)

Section Loop.
  Context {S R : Type}.
  Variable f : S -> res (S + R).

  Fixpoint loopP (p : positive) (s : S) : res (S + R) :=
    match p with
    | xH => f s
    | xO q =>
        match loopP q s with
        | Ok (inl s') => loopP q s'
        | r => r
        end
    | xI q =>
        match f s with
        | Ok (inl s') =>
            match loopP q s' with
            | Ok (inl s'') => loopP q s''
            | r => r
            end
        | r => r
        end
    end.

  Definition loop (p : positive) (s : S) : res R :=
    match loopP p s with
    | Ok (inr r) => Ok r
    | Ok (inl _) => Bad BadFuel
    | Bad b => Bad b
    end.
End Loop.

(** Counted loop: [for(i = 0; i < n; ++i) s = f(i, s)]. *)
Fixpoint forN {S : Type} (n : nat) (i : nat) (f : nat -> S -> res S) (s : S)
  : res S :=
  match n with
  | O => Ok s
  | Datatypes.S n' => s' <-- f i s ;; forN n' (Datatypes.S i) f s'
  end.

(** More steps than any loop over in-range 64-bit positions can take. *)
Definition BIG : positive := 73786976294838206464. (* 2^66 *)

(** ** Byte strings

    [std::string] is a list of [char] values, each in [-128, 127]; input and
    output streams are lists of bytes in [0, 255]. *)
Definition bytes := list Z.
