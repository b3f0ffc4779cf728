(** * What a 64-bit cell means as a double, and which double is nearest to a number

    This is the specification the theorems about floating point refer to.  It uses
    the real numbers of Coq's standard library and nothing of the model. *)

From Coq Require Import ZArith Reals.
Open Scope Z_scope.

(** The three fields of a binary64. *)
Definition sign_field (c : Z) : bool := Z.testbit (c mod 2 ^ 64) 63.
Definition exponent_field (c : Z) : Z := (c mod 2 ^ 64) / 2 ^ 52 mod 2 ^ 11.
Definition fraction_field (c : Z) : Z := c mod 2 ^ 52.

(** The cell is a number, an infinity, or no number at all. *)
Definition number (c : Z) : Prop := exponent_field c <> 2047.
Definition infinite (s : bool) (c : Z) : Prop :=
  exponent_field c = 2047 /\ fraction_field c = 0 /\ sign_field c = s.
Definition not_a_number (c : Z) : Prop := exponent_field c = 2047 /\ fraction_field c <> 0.

(** The value of a number. *)
Definition value (c : Z) : R :=
  ((if sign_field c then -1 else 1) *
   (if Z.eqb (exponent_field c) 0
    then IZR (fraction_field c) * powerRZ 2 (-1074)
    else IZR (2 ^ 52 + fraction_field c) * powerRZ 2 (exponent_field c - 1075)))%R.

(** [c] is the number nearest to [x]; of two equally near ones, the even one. *)
Definition nearest (x : R) (c : Z) : Prop :=
  number c /\
  forall n, number n ->
    (Rabs (value c - x) <= Rabs (value n - x))%R /\
    (Rabs (value c - x) = Rabs (value n - x) -> value n = value c \/ Z.even c = true)%R.

(** The same for a binary32 in the lower half of a cell. *)
Definition single_sign (c : Z) : bool := Z.testbit (c mod 2 ^ 32) 31.
Definition single_exponent (c : Z) : Z := (c mod 2 ^ 32) / 2 ^ 23 mod 2 ^ 8.
Definition single_number (c : Z) : Prop := single_exponent c <> 255.
Definition single_value (c : Z) : R :=
  ((if single_sign c then -1 else 1) *
   (if Z.eqb (single_exponent c) 0
    then IZR (c mod 2 ^ 23) * powerRZ 2 (-149)
    else IZR (2 ^ 23 + c mod 2 ^ 23) * powerRZ 2 (single_exponent c - 150)))%R.

(** Results at least this large are too large for a double: halfway between the
    largest double and 2^1024. *)
Definition too_large : R := (powerRZ 2 1024 - powerRZ 2 970)%R.

(** What an operation with the exact result [x] gives. *)
Definition rounded (x : R) (c : Z) : Prop :=
  ((Rabs x < too_large)%R -> nearest x c) /\
  ((too_large <= x)%R -> infinite false c) /\
  ((x <= - too_large)%R -> infinite true c).
