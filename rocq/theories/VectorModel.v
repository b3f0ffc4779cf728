(** * Model of src/Vector.cpp (class Vector, src/include/Vector.h:18-131). *)

From Coq Require Import ZArith List Bool.
From Verif Require Import Base.
Import ListNotations.
Open Scope Z_scope.

(** [std::vector<dim_t> values] (Vector.h:129). *)
Definition vec := list Z.

(** Vector::normalize, src/Vector.cpp:44-48: the while loop drops the last
    element while it is 0 and more than one element is left.  It runs at most
    [length v] times. *)
Fixpoint normalize_loop (n : nat) (v : vec) : vec :=
  match n with
  | O => v
  | S n' =>
      if (1 <? Z.of_nat (length v)) && (last v 0 =? 0)
      then normalize_loop n' (removelast v)
      else v
  end.
Definition normalize (v : vec) : vec := normalize_loop (length v) v.

(** Vector::Vector(initializer_list), copy constructor and assignment,
    src/Vector.cpp:18-42. *)
Definition mkvec (l : list Z) : vec := normalize l.

(** Vector::size, src/Vector.cpp:50-52. *)
Definition vsize (v : vec) : nat := length v.

(** Vector::get and operator[], src/Vector.cpp:54-60, 90-92. *)
Definition vget (v : vec) (d : nat) : Z :=
  if Nat.ltb d (length v) then nth d v 0 else 0.

(** [values[d] = x] for an index in range. *)
Fixpoint upd (v : vec) (d : nat) (x : Z) : vec :=
  match v, d with
  | [], _ => []
  | _ :: t, O => x :: t
  | y :: t, S d' => y :: upd t d' x
  end.

(** [while(d >= values.size()) values.push_back(0)], src/Vector.cpp:63-65. *)
Definition pad (v : vec) (d : nat) : vec := v ++ repeat 0 (S d - length v).

(** Vector::set, src/Vector.cpp:62-68. *)
Definition vset (v : vec) (d : nat) (x : Z) : vec :=
  normalize (upd (pad v d) d x).

(** Vector::reverse, src/Vector.cpp:70-74.  The loop tests [i < values.size()]
    on every iteration; [length v] iterations suffice because [set] on an
    existing index never grows the vector. *)
Fixpoint vrev_loop (n i : nat) (v : vec) : res vec :=
  match n with
  | O => Ok v
  | S n' =>
      if Nat.ltb i (vsize v)
      then x <-- neg64 (vget v i) ;; vrev_loop n' (S i) (vset v i x)
      else Ok v
  end.
Definition vrev (v : vec) : res vec := vrev_loop (vsize v) 0 v.

(** Vector::left, src/Vector.cpp:76-81. *)
Definition vleft (v : vec) : res vec :=
  let tx := vget v 0 in
  let ty := vget v 1 in
  let v1 := vset v 0 ty in
  n <-- neg64 tx ;;
  Ok (vset v1 1 n).

(** Vector::right, src/Vector.cpp:83-88. *)
Definition vright (v : vec) : res vec :=
  let tx := vget v 0 in
  let ty := vget v 1 in
  n <-- neg64 ty ;;
  let v1 := vset v 0 n in
  Ok (vset v1 1 tx).

(** Vector::operator+=, src/Vector.cpp:94-100 (and operator+, 102-104). *)
Definition vadd (a b : vec) : res vec :=
  let len := Nat.max (vsize a) (vsize b) in
  forN len 0
       (fun i v => x <-- add64 (vget v i) (vget b i) ;; Ok (vset v i x)) a.

(** Vector::operator-=, src/Vector.cpp:106-112 (and operator-, 114-116). *)
Definition vsub (a b : vec) : res vec :=
  let len := Nat.max (vsize a) (vsize b) in
  forN len 0
       (fun i v => x <-- sub64 (vget v i) (vget b i) ;; Ok (vset v i x)) a.

(** The loop shared by operator< and operator<=, src/Vector.cpp:118-144:
    [dflt] is what is returned when no dimension differs. *)
Fixpoint vcmp_loop (dflt : bool) (i : nat) (a b : vec) : bool :=
  match i with
  | O => dflt
  | S i' =>
      let l := vget a i' in
      let r := vget b i' in
      if r <? l then false
      else if l <? r then true
      else vcmp_loop dflt i' a b
  end.
Definition vltb (a b : vec) : bool :=
  vcmp_loop false (Nat.max (vsize a) (vsize b)) a b.
Definition vleb (a b : vec) : bool :=
  vcmp_loop true (Nat.max (vsize a) (vsize b)) a b.

(** Vector::operator==, src/Vector.cpp:146-154; operator!= is its negation. *)
Fixpoint veq_loop (n i : nat) (a b : vec) : bool :=
  match n with
  | O => true
  | S n' =>
      if vget a i =? vget b i then veq_loop n' (S i) a b else false
  end.
Definition veqb (a b : vec) : bool :=
  veq_loop (Nat.max (vsize a) (vsize b)) 0 a b.

(** Vector::hash, src/Vector.cpp:211-217: size_t arithmetic modulo 2^64. *)
Definition vhash (v : vec) : Z :=
  fold_left (fun h i => Z.lxor (to_u64 (Z.shiftl h 8)) (to_u64 i)) v 0.
