(** * The instruction pointer and the primitive effects of instructions:
    src/InstructionPointer.cpp, src/util/FungeUtilities.cpp and the mode
    functions of src/FungeUniverse.cpp. *)

From Coq Require Import ZArith List Bool.
From Verif Require Import Base VectorModel TextModel StackModel FieldModel World.
Import ListNotations.
Open Scope Z_scope.

(** ** Movement *)

(** InstructionPointer::inField, src/InstructionPointer.cpp:44-51: the for loop
    from dimension [i], [n] dimensions left. *)
Fixpoint in_field_loop (n i : nat) (f : field) (p : vec) : bool :=
  match n with
  | O => true
  | S n' =>
      if (vget p i <? f_min f i) || (vget p i >? f_max f i) then false
      else in_field_loop n' (S i) f p
  end.
Definition in_field (dims : nat) (f : field) (p : vec) : bool :=
  in_field_loop dims 0 f p.

(** The torus branch of InstructionPointer::next,
    src/InstructionPointer.cpp:57-67. *)
Definition torus_wrap (p : vec) : vec :=
  let p1 := if vget p 0 >? 80 then vset p 0 0
            else if vget p 0 <? 0 then vset p 0 79 else p in
  if vget p1 1 >? 25 then vset p1 1 0
  else if vget p1 1 <? 0 then vset p1 1 24 else p1.

(** One iteration of [while(inField(field)) pos += delta],
    src/InstructionPointer.cpp:72-74. *)
Definition walk_step (dims : nat) (f : field) (delta p : vec) : res (vec + vec) :=
  if in_field dims f p
  then p' <-- vadd p delta ;; Ok (inl p')
  else Ok (inr p).

(** The Lahey branch, src/InstructionPointer.cpp:69-77, entered after
    [pos += delta]: new position and delta. *)
Definition lahey_wrap (dims : nat) (f : field) (p delta : vec) : res (vec * vec) :=
  if in_field dims f p then Ok (p, delta)
  else
    d <-- vrev delta ;;
    p1 <-- vadd p d ;;
    p2 <-- loop (walk_step dims f d) BIG p1 ;;
    d' <-- vrev d ;;
    p3 <-- vadd p2 d' ;;
    Ok (p3, d').

(** InstructionPointer::next of an IP that is not stopped,
    src/InstructionPointer.cpp:53-80. *)
Definition ip_next (torus : bool) (dims : nat) (f : field) (p delta : vec)
  : res (vec * vec) :=
  p1 <-- vadd p delta ;;
  if torus then Ok (torus_wrap p1, delta) else lahey_wrap dims f p1 delta.

(** ** The IP of the executing runner *)

(** InstructionPointer::get, src/InstructionPointer.cpp:36-38: in the current
    universe's Field. *)
Definition ipGet : M Z := r <- getR ;; fget (r_uni r) (r_pos r).
(** InstructionPointer::put, src/InstructionPointer.cpp:40-42. *)
Definition ipPut (i : Z) : M unit := r <- getR ;; fput (r_uni r) (r_pos r) i.

(** InstructionPointer::next, src/InstructionPointer.cpp:53-80. *)
Definition ipNext : M unit :=
  r <- getR ;; u <- getU ;;
  if r_stopped r then ret tt
  else
    pd <- lift (ip_next (c_torus (u_cfg u)) (c_dims (u_cfg u)) (u_field u)
                        (r_pos r) (r_delta r)) ;;
    modR (fun r => set_r_delta (snd pd) (set_r_pos (fst pd) r)).

(** InstructionPointer::setPos, src/InstructionPointer.cpp:82-84. *)
Definition ipSetPos (v : vec) : M unit := modR (set_r_pos v).
(** InstructionPointer::setStorage, src/InstructionPointer.cpp:100-102. *)
Definition ipSetStorage (v : vec) : M unit := modR (set_r_storage v).

(** The only delta observer is FingerprintFISH::fishermanChange,
    src/fingerprint/FingerprintFISH.cpp:146-150. *)
Definition observe_delta (d : vec) (r : runner) : runner :=
  match r_fish r with
  | Some (s, c) =>
      if negb (vget d 0 =? 0) && (vget d 1 =? 0)
      then set_r_fish (Some (s, d)) r else r
  | None => r
  end.

(** The HOVER loop of InstructionPointer::setDelta,
    src/InstructionPointer.cpp:87-91. *)
Fixpoint hover_loop (n i : nat) (v delta : vec) : res vec :=
  match n with
  | O => Ok delta
  | S n' => x <-- add64 (vget delta i) (vget v i) ;;
            hover_loop n' (S i) v (vset delta i x)
  end.
Definition hover_add (delta v : vec) : res vec :=
  hover_loop (Nat.max (vsize delta) (vsize v)) 0 v delta.

Definition testmode (b : Z) (u : universe) : bool := Z.testbit (c_mode (u_cfg u)) b.

(** InstructionPointer::setDelta, src/InstructionPointer.cpp:86-98. *)
Definition ipSetDelta (v : vec) : M unit :=
  r <- getR ;; u <- getU ;;
  d <- (if testmode MODE_HOVER u then lift (hover_add (r_delta r) v) else ret v) ;;
  modR (fun r => observe_delta d (set_r_delta d r)).

(** reflect, left, right, src/InstructionPointer.cpp:104-114: these do not call
    the observers. *)
Definition ipTurn (f : vec -> res vec) : M unit :=
  r <- getR ;; d <- lift (f (r_delta r)) ;; modR (set_r_delta d).
Definition ipReflect : M unit := ipTurn vrev.
Definition ipLeft : M unit := ipTurn vleft.
Definition ipRight : M unit := ipTurn vright.
(** InstructionPointer::stop, src/InstructionPointer.cpp:116-118. *)
Definition ipStop : M unit := modR (set_r_stopped true).

(** ** The stacks of the executing runner *)

(** An operation on [stack.at(x)] for [x] given by [at_]: [stack.top()] or
    [stack.second()] (src/StackStack.cpp:34-44). *)
Definition onStack {A} (at_ : sstk -> nat) (f : stk -> A * stk) : M A :=
  fun s =>
    match ss_at (r_ss (s_r s)) (at_ (r_ss (s_r s))) with
    | Ok k => Ok (fst (f k),
                  {| s_w := s_w s;
                     s_r := set_r_ss (ss_set (r_ss (s_r s)) (at_ (r_ss (s_r s))) (snd (f k)))
                                     (s_r s) |})
    | Bad b => Bad b
    end.
Definition TOP : sstk -> nat := ss_sel.
Definition SECOND : sstk -> nat := fun s => S (ss_sel s).

Definition popAt (at_ : sstk -> nat) : M Z := onStack at_ stk_pop.
Definition pushAt (at_ : sstk -> nat) (x : Z) : M unit :=
  onStack at_ (fun k => (tt, stk_push x k)).
(** [stack.top().pop()] and [stack.top().push(x)]. *)
Definition popS : M Z := popAt TOP.
Definition pushS (x : Z) : M unit := pushAt TOP x.

(** The idiom [trans[i] = pop()] for [i = 0 .. n-1]: the values in the order
    they were popped.  Simplification: the C stack is unlimited, so a large
    variable-length array does not crash; a negative length is undefined and
    the callers check it. *)
Fixpoint popNAt (at_ : sstk -> nat) (n : nat) : M (list Z) :=
  match n with
  | O => ret []
  | S n' => x <- popAt at_ ;; t <- popNAt at_ n' ;; ret (x :: t)
  end.
(** Push every element of a list, first one first. *)
Fixpoint pushLAt (at_ : sstk -> nat) (l : list Z) : M unit :=
  match l with
  | [] => ret tt
  | x :: t => pushAt at_ x ;;; pushLAt at_ t
  end.

(** pushVector, src/util/FungeUtilities.cpp:14-23: returns the number of
    pushes. *)
Definition pushVecAt (at_ : sstk -> nat) (v : vec) : M Z :=
  c <- getC ;;
  onStack at_ (fun k => (tt, stk_push_vec_loop (c_dims c) 0 (vget v) k)) ;;;
  ret (Z.of_nat (c_dims c)).
Definition pushVec (v : vec) : M unit := pushVecAt TOP v ;;; ret tt.

(** The loop of popVector, src/util/FungeUtilities.cpp:31-33, 42-44. *)
Fixpoint popVecLoop (at_ : sstk -> nat) (n : nat) (v : vec) : M vec :=
  match n with
  | O => ret v
  | S i => x <- popAt at_ ;; popVecLoop at_ i (vset v i x)
  end.
(** popVector, src/util/FungeUtilities.cpp:25-35. *)
Definition popVecAt (at_ : sstk -> nat) : M vec :=
  c <- getC ;; popVecLoop at_ (c_dims c) [].
Definition popVec : M vec := popVecAt TOP.
(** popVector with a size, src/util/FungeUtilities.cpp:37-46. *)
Definition popVecN (n : nat) : M vec := popVecLoop TOP n [].

(** pushString and popString on [stack.top()],
    src/util/FungeUtilities.cpp:48-63. *)
Definition pushString (b : bytes) : M unit :=
  onStack TOP (fun k => (tt, stk_push_string b k)).
Definition popString : M bytes := onStack TOP stk_pop_string.

(** [stack.top().size()], [get(p)], [clear()], [age()]. *)
Definition sizeS : M Z := onStack TOP (fun k => (stk_size k, k)).
Definition getS (p : Z) : M Z := onStack TOP (fun k => (stk_get p k, k)).
Definition ageS : M Z := onStack TOP (fun k => (stk_age k, k)).
Definition clearS : M unit := onStack TOP (fun k => (tt, stk_clear k)).
(** An assignment to the whole StackStack. *)
Definition modSS (f : sstk -> res sstk) : M unit :=
  r <- getR ;; x <- lift (f (r_ss r)) ;; modR (set_r_ss x).

(** FungeRunner::push, src/FungeRunner.cpp:166-172: the first strategy accepts
    every push (FungeStrategy::push, src/FungeStrategy.cpp:28-31); without any
    strategy nothing happens. *)
Definition runnerPush (x : Z) : M unit :=
  r <- getR ;;
  match r_strats r with
  | [] => ret tt
  | _ => pushS x
  end.

(** ** Modes *)

(** FungeRunner::isMode, src/FungeRunner.cpp:211-213. *)
Definition isMode (b : Z) : M bool := u <- getU ;; ret (testmode b u).
(** FungeRunner::setMode, src/FungeRunner.cpp:215-217. *)
Definition run_setmode (m : Z) (r : runner) : runner := set_r_ss (ss_setmode m (r_ss r)) r.
Definition upd_mode (f : Z -> Z) (u : universe) : universe :=
  set_u_cfg (set_c_mode (f (c_mode (u_cfg u))) (u_cfg u)) u.
(** FungeUniverse::setMode, clearMode, toggleMode and updateMode,
    src/FungeUniverse.cpp:235-262. *)
Definition changeMode (f : Z -> Z) : M unit :=
  modU (upd_mode f) ;;;
  u <- getU ;;
  on_runners (u_queue u) (run_setmode (c_mode (u_cfg u))).
Definition toggleMode (b : Z) : M unit := changeMode (fun m => Z.lxor m (2 ^ b)).
Definition setMode (b : Z) : M unit := changeMode (fun m => Z.lor m (2 ^ b)).
Definition clearMode (b : Z) : M unit := changeMode (fun m => Z.ldiff m (2 ^ b)).

(** FungeUniverse::killAll, src/FungeUniverse.cpp:160-169. *)
Definition killAll (code : Z) : M unit :=
  modU (set_u_exit code) ;;;
  u <- getU ;;
  on_runners (u_queue u) (set_r_stopped true) ;;;
  modU (set_u_running false).
