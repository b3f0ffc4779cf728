(** * Stream primitives and Vector text I/O (src/Vector.cpp:160-209). *)

From Coq Require Import ZArith List Bool.
From Verif Require Import Base VectorModel.
Import ListNotations.
Open Scope Z_scope.

(** [os << n] for a 64-bit integer: decimal digits, most significant first. *)
Fixpoint dec_loop (fuel : nat) (n : Z) (acc : bytes) : bytes :=
  match fuel with
  | O => acc
  | S f =>
      let acc' := (48 + n mod 10) :: acc in
      if n / 10 =? 0 then acc' else dec_loop f (n / 10) acc'
  end.
Definition dec_nat (n : Z) : bytes := dec_loop (S (Z.to_nat (Z.log2 n))) n [].
Definition dec (z : Z) : bytes := if z <? 0 then 45 :: dec_nat (- z) else dec_nat z.

(** operator<<(ostream, Vector), src/Vector.cpp:160-170. *)
Fixpoint vprint_loop (v : vec) : bytes :=
  match v with
  | [] => []
  | [x] => dec x
  | x :: t => dec x ++ [44; 32] ++ vprint_loop t
  end.
Definition vprint (v : vec) : bytes := [40] ++ vprint_loop v ++ [41].

(** A [std::istream]: the bytes left and whether a previous extraction failed.
    Simplification: badbit and exceptions masks are not modelled. *)
Record istr := { is_rest : bytes; is_fail : bool }.

Fixpoint skipws (l : bytes) : bytes :=
  match l with
  | c :: t => if isspace c then skipws t else l
  | [] => []
  end.

(** [is >> c] on a [char]: skips white space; at end of input sets failbit and
    leaves [c] unchanged; does nothing on a failed stream.  Bytes above 127
    become negative [char]s. *)
Definition extract (is : istr) (c : Z) : Z * istr :=
  if is_fail is then (c, is)
  else match skipws (is_rest is) with
       | x :: t => (to_i8 x, {| is_rest := t; is_fail := false |})
       | [] => (c, {| is_rest := []; is_fail := true |})
       end.

(** [is.unget()] after extracting [c]. *)
Definition unget (is : istr) (c : Z) : istr :=
  if is_fail is then is
  else {| is_rest := to_u8 c :: is_rest is; is_fail := false |}.

(** State of the while loop of operator>>, src/Vector.cpp:181-200. *)
Record vread_st := {
  vr_is : istr; vr_c : Z; vr_d : nat; vr_v : Z; vr_neg : bool; vr_vec : vec }.

(** One iteration; [inr] leaves the loop.  [isdigit]/[isspace] are applied to
    a plain char; a negative one is outside their domain. *)
Definition vread_step (s : vread_st) : res (vread_st + vread_st) :=
  let c := vr_c s in
  if c =? 41 (* ')' *) then Ok (inr s)
  else if c <? 0 then Bad BadCtype
  else
    let go (s' : vread_st) : res (vread_st + vread_st) :=
      let '(c', is') := extract (vr_is s') (vr_c s') in
      Ok (inl {| vr_is := is'; vr_c := c'; vr_d := vr_d s'; vr_v := vr_v s';
                 vr_neg := vr_neg s'; vr_vec := vr_vec s' |}) in
    if isdigit c then
      m <-- mul64 (vr_v s) 10 ;;
      v' <-- add64 m (c - 48) ;;
      go {| vr_is := vr_is s; vr_c := c; vr_d := vr_d s; vr_v := v';
            vr_neg := vr_neg s; vr_vec := vr_vec s |}
    else if c =? 44 (* ',' *) then
      v' <-- (if vr_neg s then neg64 (vr_v s) else Ok (vr_v s)) ;;
      go {| vr_is := vr_is s; vr_c := c; vr_d := S (vr_d s); vr_v := 0;
            vr_neg := false; vr_vec := vset (vr_vec s) (vr_d s) v' |}
    else if (vr_v s =? 0) && (c =? 45 (* '-' *)) then
      go {| vr_is := vr_is s; vr_c := c; vr_d := vr_d s; vr_v := vr_v s;
            vr_neg := true; vr_vec := vr_vec s |}
    else if negb (isspace c) then
      Ok (inr {| vr_is := unget (vr_is s) c; vr_c := c; vr_d := vr_d s;
                 vr_v := vr_v s; vr_neg := vr_neg s; vr_vec := vr_vec s |})
    else go s.

(** operator>>(istream, Vector), src/Vector.cpp:172-209.  [c] is uninitialised
    when the very first extraction fails: reading it is undefined.  When the
    first character is not '(' it is put back and the result is empty. *)
Definition vread (fuel : positive) (is : istr) : res (vec * istr) :=
  let '(c, is1) := extract is 0 in
  if is_fail is1 then Bad BadOob
  else if c =? 40 (* '(' *) then
    let '(c2, is2) := extract is1 c in
    s <-- loop vread_step fuel
            {| vr_is := is2; vr_c := c2; vr_d := 0; vr_v := 0;
               vr_neg := false; vr_vec := [] |} ;;
    v <-- (if vr_neg s then neg64 (vr_v s) else Ok (vr_v s)) ;;
    Ok (normalize (vset (vr_vec s) (vr_d s) v), vr_is s)
  else Ok ([], unget is1 c).
