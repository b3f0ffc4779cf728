(** * Model of src/VectorRange.cpp. *)

From Coq Require Import ZArith List Bool.
From Verif Require Import Base VectorModel.
Import ListNotations.
Open Scope Z_scope.

(** Fields of class VectorRange (src/include/VectorRange.h). *)
Record vrange := { vr_begin : vec; vr_last : vec; vr_end : vec; vr_cur : vec }.

(** VectorRange::VectorRange, src/VectorRange.cpp:11-22. *)
Definition range_make (vfirst vlast : vec) : res vrange :=
  e <-- (if vget vlast 0 >=? vget vfirst 0
         then add64 (vget vlast 0) 1
         else sub64 (vget vlast 0) 1) ;;
  Ok {| vr_begin := vfirst; vr_last := vlast;
        vr_end := vset vlast 0 e; vr_cur := vfirst |}.

(** VectorRange::operator++, src/VectorRange.cpp:36-64: the for loop from
    dimension [i], [n] iterations left; [break] returns at once. *)
Fixpoint range_incr_loop (n i : nat) (b last e cur : vec) : res vec :=
  match n with
  | O => Ok cur
  | S n' =>
      x <-- (if vget e i >=? vget b i
             then add64 (vget cur i) 1
             else sub64 (vget cur i) 1) ;;
      let cur1 := vset cur i x in
      if veqb cur1 e then Ok cur1
      else if vget last i >=? vget b i then
        (if x >? vget last i
         then range_incr_loop n' (S i) b last e (vset cur1 i (vget b i))
         else Ok cur1)
      else
        (if x <? vget last i
         then range_incr_loop n' (S i) b last e (vset cur1 i (vget b i))
         else Ok cur1)
  end.
Definition range_incr (r : vrange) : res vrange :=
  let len := Nat.max (vsize (vr_begin r)) (vsize (vr_end r)) in
  c <-- range_incr_loop len 0 (vr_begin r) (vr_last r) (vr_end r) (vr_cur r) ;;
  Ok {| vr_begin := vr_begin r; vr_last := vr_last r; vr_end := vr_end r;
        vr_cur := c |}.

(** The idiom [for(; *range != range.end(); ++range) body], used at
    src/fingerprint/FingerprintTOYS.cpp and FingerprintMVRS.cpp: fold the body
    over the visited positions. *)
Section RangeFold.
  Context {S : Type}.
  Variable body : vec -> S -> res S.

  Definition range_step (st : vrange * S) : res ((vrange * S) + S) :=
    let '(r, s) := st in
    if veqb (vr_cur r) (vr_end r) then Ok (inr s)
    else s' <-- body (vr_cur r) s ;;
         r' <-- range_incr r ;;
         Ok (inl (r', s')).

  Definition range_fold (fuel : positive) (vfirst vlast : vec) (s : S) : res S :=
    r <-- range_make vfirst vlast ;;
    loop range_step fuel (r, s).
End RangeFold.
