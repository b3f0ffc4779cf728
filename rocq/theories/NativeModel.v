(** * A universe with -fthreads=native: every IP has its own thread.
    src/FungeUniverse.cpp:95-177 (the THREAD_NATIVE branches) as a transition system.

    One universe, any number of IP threads, the universe thread that joins them, and
    the main thread.  Simplified: the semaphore's acquire and release are single steps
    (ThreadModel.v has them in full); an IP's ticks are left open, they may add IPs,
    kill the universe and end (FungeRunner::operator(), src/FungeRunner.cpp). *)

From Coq Require Import List Bool Arith.
Import ListNotations.

(** The universe thread, the main thread, the thread of IP [r]. *)
Inductive who := WU | WM | WI (r : nat).
Definition who_eqb (a b : who) : bool :=
  match a, b with WU, WU | WM, WM => true | WI r, WI q => r =? q | _, _ => false end.

(** FungeUniverse::operator(), src/FungeUniverse.cpp:106-122. *)
Inductive nphase :=
| NTop                (* while(running) *)
| NAcq                (* semaphore.acquire() *)
| NLock               (* mutex.lock() *)
| NLoop               (* while(threads.size() > 0) *)
| NJoin (r : nat)     (* mutex.unlock() was done; thread->join() *)
| NBack (r : nat)     (* mutex.lock() *)
| NPop (r : nat)      (* threads.pop(); delete thread *)
| NUnl                (* mutex.unlock() *)
| NEnd.
(** addRunner :95-104, killAll :160-169 and wait :151-154. *)
Inductive npc :=
| NIdle
| NAdd0 (r : nat)     (* lock the mutex *)
| NAdd1 (r : nat)     (* new std::thread: the IP runs *)
| NAdd2 (r : nat)     (* threads.push, semaphore.release, unlock *)
| NKill0              (* lock the mutex *)
| NKill1              (* running = false; semaphore.release *)
| NKill2              (* cv.notify_all; unlock *)
| NW0                 (* lock the mutex *)
| NW1                 (* while(isRunning()) *)
| NWS                 (* asleep, or woken and waiting for the mutex *)
| NWU.                (* unlock the mutex; wait returns *)

Record nst := {
  n_run : bool; n_threads : list nat; n_value : bool; n_mutex : option who;
  n_phase : nphase; n_pc : who -> npc; n_born : nat -> bool; n_alive : nat -> bool;
  n_asleep : bool (* the main thread sleeps on the universe *) }.
Definition n_running (y : nst) : bool := n_run y && match n_threads y with [] => false | _ => true end.

Definition nset_run x y := {| n_run := x; n_threads := n_threads y; n_value := n_value y; n_mutex := n_mutex y; n_phase := n_phase y; n_pc := n_pc y; n_born := n_born y; n_alive := n_alive y; n_asleep := n_asleep y |}.
Definition nset_threads x y := {| n_run := n_run y; n_threads := x; n_value := n_value y; n_mutex := n_mutex y; n_phase := n_phase y; n_pc := n_pc y; n_born := n_born y; n_alive := n_alive y; n_asleep := n_asleep y |}.
Definition nset_value x y := {| n_run := n_run y; n_threads := n_threads y; n_value := x; n_mutex := n_mutex y; n_phase := n_phase y; n_pc := n_pc y; n_born := n_born y; n_alive := n_alive y; n_asleep := n_asleep y |}.
Definition nset_mutex x y := {| n_run := n_run y; n_threads := n_threads y; n_value := n_value y; n_mutex := x; n_phase := n_phase y; n_pc := n_pc y; n_born := n_born y; n_alive := n_alive y; n_asleep := n_asleep y |}.
Definition nset_phase x y := {| n_run := n_run y; n_threads := n_threads y; n_value := n_value y; n_mutex := n_mutex y; n_phase := x; n_pc := n_pc y; n_born := n_born y; n_alive := n_alive y; n_asleep := n_asleep y |}.
Definition nset_pc w x y := {| n_run := n_run y; n_threads := n_threads y; n_value := n_value y; n_mutex := n_mutex y; n_phase := n_phase y; n_pc := fun w' => if who_eqb w' w then x else n_pc y w'; n_born := n_born y; n_alive := n_alive y; n_asleep := n_asleep y |}.
Definition nset_born r y := {| n_run := n_run y; n_threads := n_threads y; n_value := n_value y; n_mutex := n_mutex y; n_phase := n_phase y; n_pc := n_pc y; n_born := fun q => if q =? r then true else n_born y q; n_alive := n_alive y; n_asleep := n_asleep y |}.
Definition nset_alive r x y := {| n_run := n_run y; n_threads := n_threads y; n_value := n_value y; n_mutex := n_mutex y; n_phase := n_phase y; n_pc := n_pc y; n_born := n_born y; n_alive := fun q => if q =? r then x else n_alive y q; n_asleep := n_asleep y |}.
Definition nset_asleep x y := {| n_run := n_run y; n_threads := n_threads y; n_value := n_value y; n_mutex := n_mutex y; n_phase := n_phase y; n_pc := n_pc y; n_born := n_born y; n_alive := n_alive y; n_asleep := x |}.

Definition nlock (w : who) (f : nst -> nst) (y : nst) : option nst :=
  match n_mutex y with None => Some (f (nset_mutex (Some w) y)) | Some _ => None end.

(** One step of the universe thread. *)
Definition nustep (y : nst) : option nst :=
  match n_phase y with
  | NTop => Some (nset_phase (if n_run y then NAcq else NEnd) y)
  | NAcq => if n_value y then Some (nset_phase NLock (nset_value false y)) else None
  | NLock => nlock WU (nset_phase NLoop) y
  | NLoop => match n_threads y with
             | [] => Some (nset_phase NUnl y)
             | r :: _ => Some (nset_phase (NJoin r) (nset_mutex None y))
             end
  | NJoin r => if n_alive y r then None else Some (nset_phase (NBack r) y)
  | NBack r => nlock WU (nset_phase (NPop r)) y
  | NPop r => Some (nset_phase NLoop (nset_threads (tl (n_threads y)) y))
  | NUnl => Some (nset_phase NTop (nset_mutex None y))
  | NEnd => None
  end.
(** One step of the operation thread [w] is in. *)
Definition nstep (w : who) (y : nst) : option nst :=
  match n_pc y w with
  | NIdle => None
  | NAdd0 r => nlock w (nset_pc w (NAdd1 r)) y
  | NAdd1 r => Some (nset_pc w (NAdd2 r) (nset_alive r true y))
  | NAdd2 r => Some (nset_pc w NIdle (nset_mutex None (nset_value true (nset_threads (n_threads y ++ [r]) y))))
  | NKill0 => nlock w (nset_pc w NKill1) y
  | NKill1 => Some (nset_pc w NKill2 (nset_value true (nset_run false y)))
  | NKill2 => Some (nset_pc w NIdle (nset_mutex None (nset_asleep false y)))
  | NW0 => nlock w (nset_pc w NW1) y
  | NW1 => if n_running y then Some (nset_pc w NWS (nset_mutex None (nset_asleep true y)))
           else Some (nset_pc w NWU y)
  | NWS => if n_asleep y then None else nlock w (nset_pc w NW1) y
  | NWU => Some (nset_pc w NIdle (nset_mutex None y))
  end.

(** Labels: a thread goes on; it begins to add a new IP, to kill, to wait (the main
    thread); the IP [r] ends; the main thread wakes up spuriously. *)
Inductive nlabel := NGo (w : who) | NBegAdd (w : who) (r : nat) | NBegKill (w : who) | NBegWait | NDone (r : nat) | NSpurious.
(** The main thread and running IPs can begin something. *)
Definition nmay (w : who) (y : nst) : bool :=
  match n_pc y w, w with
  | NIdle, WM => true
  | NIdle, WI r => n_alive y r
  | _, _ => false
  end.
Definition nfire (x : nlabel) (y : nst) : option nst :=
  match x with
  | NGo WU => nustep y
  | NGo w => nstep w y
  | NBegAdd w r => if nmay w y && negb (n_born y r) then Some (nset_pc w (NAdd0 r) (nset_born r y)) else None
  | NBegKill w => if nmay w y then Some (nset_pc w NKill0 y) else None
  | NBegWait => if nmay WM y then Some (nset_pc WM NW0 y) else None
  | NDone r => if nmay (WI r) y then Some (nset_alive r false y) else None
  | NSpurious => Some (nset_asleep false y)
  end.
Definition ninit : nst :=
  {| n_run := true; n_threads := []; n_value := false; n_mutex := None; n_phase := NTop;
     n_pc := fun _ => NIdle; n_born := fun _ => false; n_alive := fun _ => false; n_asleep := false |}.
Fixpoint nfires (ls : list nlabel) (y : nst) : option nst :=
  match ls with
  | [] => Some y
  | x :: t => match nfire x y with Some y' => nfires t y' | None => None end
  end.
Definition nreachable (y : nst) : Prop := exists ls, nfires ls ninit = Some y.

(** FungeUniverse::~FungeUniverse, src/FungeUniverse.cpp:53-62, after killAll and the join
    of the universe thread: while(threads.size() > 0){ thread = threads.front();
    thread->join(); delete thread; }.  [gone] says which thread objects were deleted; a
    join of a deleted one is undefined. *)
Inductive ncleared := NClean | NFreed (r : nat) | NMore.
Fixpoint nclear (fuel : nat) (threads : list nat) (gone : nat -> bool) : ncleared :=
  match fuel with
  | 0 => NMore
  | S f => match threads with
           | [] => NClean
           | r :: _ => if gone r then NFreed r else nclear f threads (fun q => if q =? r then true else gone q)
           end
  end.
