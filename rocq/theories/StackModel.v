(** * Model of src/Stack.cpp and src/StackStack.cpp. *)

From Coq Require Import ZArith List Bool.
From Verif Require Import Base.
Import ListNotations.
Open Scope Z_scope.

(** FungeMode flags, src/include/funge_types.h:83-93, as bit numbers. *)
Definition MODE_HOVER : Z := 13.
Definition MODE_INVERT : Z := 14.
Definition MODE_QUEUE : Z := 15.
Definition MODE_SWITCH : Z := 16.
Definition MODE_DIVE : Z := 17.
Global Arguments MODE_HOVER : simpl never.
Global Arguments MODE_INVERT : simpl never.
Global Arguments MODE_QUEUE : simpl never.
Global Arguments MODE_SWITCH : simpl never.
Global Arguments MODE_DIVE : simpl never.
Global Arguments Z.testbit : simpl never.

(** Class Stack (src/include/Stack.h).  [s_list] is the [std::list] with its
    BACK first, so that the usual top of stack is the head.  The mutex is not
    modelled here: every operation is one atomic step. *)
Record stk := { s_mode : Z; s_list : list Z; s_ops : Z }.

(** Stack::Stack(), src/Stack.cpp:12-19. *)
Definition stk_new : stk := {| s_mode := 0; s_list := []; s_ops := 0 |}.
(** Stack::Stack(const Stack&), src/Stack.cpp:21-28: mode and age are reset. *)
Definition stk_copy (s : stk) : stk :=
  {| s_mode := 0; s_list := s_list s; s_ops := 0 |}.

(** [std::list::front()]/[pop_front()] seen from the back-first list. *)
Definition front (l : list Z) : Z := last l 0.
Definition pop_front (l : list Z) : list Z := removelast l.

(** Stack::pop, src/Stack.cpp:30-44. *)
Definition stk_pop (s : stk) : Z * stk :=
  match s_list s with
  | [] => (0, {| s_mode := s_mode s; s_list := []; s_ops := s_ops s + 1 |})
  | x :: t =>
      if Z.testbit (s_mode s) MODE_QUEUE
      then (front (s_list s),
            {| s_mode := s_mode s; s_list := pop_front (s_list s);
               s_ops := s_ops s + 1 |})
      else (x, {| s_mode := s_mode s; s_list := t; s_ops := s_ops s + 1 |})
  end.

(** Stack::peek, src/Stack.cpp:46-57. *)
Definition stk_peek (s : stk) : Z :=
  match s_list s with
  | [] => 0
  | x :: _ => if Z.testbit (s_mode s) MODE_QUEUE then front (s_list s) else x
  end.

(** Stack::push, src/Stack.cpp:59-68. *)
Definition stk_push (x : Z) (s : stk) : stk :=
  {| s_mode := s_mode s;
     s_list := if Z.testbit (s_mode s) MODE_INVERT
               then s_list s ++ [x] else x :: s_list s;
     s_ops := s_ops s + 1 |}.

(** Stack::clear, src/Stack.cpp:70-74. *)
Definition stk_clear (s : stk) : stk :=
  {| s_mode := s_mode s; s_list := []; s_ops := s_ops s + 1 |}.

(** Stack::size, src/Stack.cpp:76-78; age, 80-82. *)
Definition stk_size (s : stk) : Z := Z.of_nat (length (s_list s)).
Definition stk_age (s : stk) : Z := s_ops s.

(** Stack::get, src/Stack.cpp:84-104; [p] is a size_t. *)
Definition stk_get (p : Z) (s : stk) : Z :=
  if (p <=? stk_size s) && (0 <? p) then
    if Z.testbit (s_mode s) MODE_QUEUE
    then nth (Z.to_nat (p - 1)) (rev (s_list s)) 0
    else nth (Z.to_nat (p - 1)) (s_list s) 0
  else 0.

(** Stack::setMode, src/Stack.cpp:110-112. *)
Definition stk_setmode (m : Z) (s : stk) : stk :=
  {| s_mode := m; s_list := s_list s; s_ops := s_ops s |}.

(** Replace the contents only (used by model code that rewrites a stack
    through pushes and pops). *)
Definition stk_pushes (l : list Z) (s : stk) : stk :=
  fold_left (fun s x => stk_push x s) l s.

(** ** StackStack *)

(** Class StackStack: [ss_list] is the [std::vector<Stack*>] with its BACK
    first, so that [at(x)] is the [x]-th element. *)
Record sstk := { ss_sel : nat; ss_list : list stk }.

(** StackStack::StackStack(), src/StackStack.cpp:11-16. *)
Definition ss_new : sstk := {| ss_sel := 0; ss_list := [stk_new] |}.

(** StackStack::StackStack(const StackStack&), src/StackStack.cpp:25-32: pushes
    [orig.at(0)], [orig.at(1)], ... to the back in that order, so the last one
    pushed, the bottom of the original, ends up on top. *)
Definition ss_copy (s : sstk) : sstk :=
  {| ss_sel := ss_sel s;
     ss_list := fold_left (fun acc x => stk_copy x :: acc) (ss_list s) [] |}.

(** StackStack::at, src/StackStack.cpp:42-44, 54-56. *)
Definition ss_at (s : sstk) (x : nat) : res stk :=
  match nth_error (ss_list s) x with
  | Some k => Ok k
  | None => Bad BadOob
  end.
(** StackStack::top and second, src/StackStack.cpp:34-40. *)
Definition ss_top (s : sstk) : res stk := ss_at s (ss_sel s).
Definition ss_second (s : sstk) : res stk := ss_at s (S (ss_sel s)).

(** Writing back through the reference returned by [at]. *)
Fixpoint lupd {A} (l : list A) (n : nat) (x : A) : list A :=
  match l, n with
  | [], _ => []
  | _ :: t, O => x :: t
  | y :: t, S n' => y :: lupd t n' x
  end.
Definition ss_set (s : sstk) (x : nat) (k : stk) : sstk :=
  {| ss_sel := ss_sel s; ss_list := lupd (ss_list s) x k |}.

(** StackStack::pop, src/StackStack.cpp:58-62: back() of an empty vector is
    undefined. *)
Definition ss_pop (s : sstk) : res sstk :=
  match ss_list s with
  | [] => Bad BadOob
  | _ :: t => Ok {| ss_sel := ss_sel s; ss_list := t |}
  end.

(** StackStack::push, src/StackStack.cpp:64-66. *)
Definition ss_push (s : sstk) : sstk :=
  {| ss_sel := ss_sel s; ss_list := stk_new :: ss_list s |}.

(** StackStack::insert, src/StackStack.cpp:68-72: inserting before index
    [size-pos-select] from the bottom is inserting before index [pos+select]
    from the top; beyond the end it is undefined. *)
Definition ss_insert (pos : nat) (s : sstk) : res sstk :=
  let k := (pos + ss_sel s)%nat in
  if Nat.leb k (length (ss_list s))
  then Ok {| ss_sel := ss_sel s;
             ss_list := firstn k (ss_list s) ++ stk_new :: skipn k (ss_list s) |}
  else Bad BadOob.

(** StackStack::remove, src/StackStack.cpp:74-78: erases index
    [size-pos-select] from the bottom, i.e. [pos+select-1] from the top. *)
Definition ss_remove (pos : nat) (s : sstk) : res sstk :=
  let k := (pos + ss_sel s)%nat in
  if Nat.leb 1 k && Nat.leb k (length (ss_list s))
  then Ok {| ss_sel := ss_sel s;
             ss_list := firstn (k - 1) (ss_list s) ++ skipn k (ss_list s) |}
  else Bad BadOob.

(** StackStack::size, src/StackStack.cpp:80-82. *)
Definition ss_size (s : sstk) : nat := length (ss_list s).

(** StackStack::setMode, src/StackStack.cpp:84-88. *)
Definition ss_setmode (m : Z) (s : sstk) : sstk :=
  {| ss_sel := ss_sel s; ss_list := map (stk_setmode m) (ss_list s) |}.

(** StackStack::increment, src/StackStack.cpp:90-97; [None] is
    ERROR_UNSPEC. *)
Definition ss_increment (s : sstk) : option sstk :=
  match ss_sel s with
  | S n => Some {| ss_sel := n; ss_list := ss_list s |}
  | O => None
  end.
(** StackStack::decrement, src/StackStack.cpp:99-106. *)
Definition ss_decrement (s : sstk) : option sstk :=
  if Nat.ltb (ss_sel s) (length (ss_list s) - 1)
  then Some {| ss_sel := S (ss_sel s); ss_list := ss_list s |}
  else None.

(** ** Vectors and strings on a stack: src/util/FungeUtilities.cpp *)

(** pushVector, src/util/FungeUtilities.cpp:14-23, for [dims] dimensions:
    [for(i = 0; i < s; ++i) stack->push(vector[i])]. *)
Fixpoint stk_push_vec_loop (n i : nat) (get : nat -> Z) (s : stk) : stk :=
  match n with
  | O => s
  | S n' => stk_push_vec_loop n' (S i) get (stk_push (get i) s)
  end.

(** pushString, src/util/FungeUtilities.cpp:48-55: a 0 and then the characters
    from the last to the first. *)
Definition stk_push_string (str : bytes) (s : stk) : stk :=
  stk_pushes (rev str) (stk_push 0 s).

(** popString, src/util/FungeUtilities.cpp:57-63.  Pops until a 0; an empty
    stack gives 0, so [size + 1] pops always suffice. *)
Fixpoint stk_pop_string_loop (fuel : nat) (acc : bytes) (s : stk) : bytes * stk :=
  match fuel with
  | O => (acc, s)
  | S f =>
      let '(c, s') := stk_pop s in
      if c =? 0 then (acc, s')
      else stk_pop_string_loop f (acc ++ [to_i8 c]) s'
  end.
Definition stk_pop_string (s : stk) : bytes * stk :=
  stk_pop_string_loop (S (length (s_list s))) [] s.
