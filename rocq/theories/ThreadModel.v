(** * The threads of the multiverse: src/FungeUniverse.cpp, src/util/include/FungeSem.h
    and FungeMultiverse::waitAll, as a transition system whose steps are the single
    operations on mutexes, condition variables and shared fields.

    Any number of universes, each with its own thread (THREAD_NONE: the universe
    thread runs the IPs in turn), and any number of other threads.  Operations on a
    mutex, a condition variable or a field are taken to be atomic and sequentially
    consistent; unsynchronised reads of [running] and of the queue are single steps
    (in C++ they are data races).  What an instruction does is left open: a tick of
    an IP may stop it and may run any of the operations below.  Native threading is in
    NativeModel.v. *)

From Coq Require Import List Bool Arith.
Import ListNotations.

(** Threads: the thread of universe [n], or another one. *)
Inductive tid := U (n : nat) | C (k : nat).
Definition tid_eqb (a b : tid) : bool :=
  match a, b with U n, U m | C n, C m => n =? m | _, _ => false end.

(** Where a universe thread is in FungeUniverse::operator(),
    src/FungeUniverse.cpp:106-149, and FungeSem::acquire,
    src/util/include/FungeSem.h:26-32. *)
Inductive uphase :=
| UTop                  (* while(running) *)
| UAcq                  (* acquire: lock the semaphore's mutex *)
| UAcqT                 (* while(!value) *)
| UAcqS                 (* cv.wait: asleep, or woken and waiting for the mutex *)
| UAcqU                 (* value was set to 0; unlock the semaphore's mutex *)
| ULock                 (* mutex.lock() *)
| ULoop                 (* while(runners.size() > 0) *)
| UPick (r : nat)       (* thread = runners.front(); mutex.unlock() *)
| UTest (r : nat)       (* if(thread->isRunning()) *)
| UTick (r : nat)       (* thread->tick() *)
| UBack (r : nat)       (* mutex.lock() *)
| UPop (r : nat)        (* runners.pop_front() *)
| UPlace (r : nat)      (* is it still here and running? *)
| UNote                 (* cv.notify_all() *)
| UUnl                  (* the queue is empty: mutex.unlock() *)
| UEnd.                 (* the thread has ended *)

(** What a thread does after FungeUniverse::wait: it is done, or it goes on with
    FungeMultiverse::waitAll, src/FungeMultiverse.cpp:63-80: the universes left in
    this pass, whether one was running, the universes of the next pass. *)
Inductive kont := KDone | KScan (rest : list nat) (running : bool) (all : list nat).
(** After FungeSem::release: addRunner or killAll goes on. *)
Inductive rel := RAdd | RKill.

(** Where a thread is in an operation on universe [n]. *)
Inductive cpc :=
| Idle
(* addRunner and transferRunner, src/FungeUniverse.cpp:85-104 *)
| Add0 (n r : nat)      (* lock the mutex *)
| Add1 (n r : nat)      (* setUniverse; runners.push_back *)
(* FungeSem::release, src/util/include/FungeSem.h:20-24 *)
| Rel0 (n : nat) (k : rel)  (* lock the semaphore's mutex *)
| Rel1 (n : nat) (k : rel)  (* value = 1 *)
| Rel2 (n : nat) (k : rel)  (* cv.notify_all() *)
| Rel3 (n : nat) (k : rel)  (* unlock the semaphore's mutex *)
| Unl (n : nat)         (* unlock the mutex *)
(* killAll, src/FungeUniverse.cpp:160-169 *)
| Kill0 (n : nat)       (* lock the mutex *)
| Kill1 (n : nat)       (* stop every IP *)
| Kill2 (n : nat)       (* running = false *)
| Kill3 (n : nat)       (* cv.notify_all() *)
(* wait, src/FungeUniverse.cpp:151-154 *)
| Wait0 (n : nat) (k : kont)  (* lock the mutex *)
| Wait1 (n : nat) (k : kont)  (* while(isRunning()) *)
| WaitS (n : nat) (k : kont)  (* asleep, or woken and waiting for the mutex *)
| WaitU (n : nat) (k : kont)  (* unlock the mutex *)
(* waitAll *)
| Scan (k : kont).

(** A universe: the fields of FungeUniverse, src/include/FungeUniverse.h:124-136,
    and of its semaphore; [u_wait]: its thread sleeps on the semaphore. *)
Record ust := {
  u_run : bool; u_runners : list nat; u_value : bool;
  u_mutex : option tid; u_smutex : option tid;
  u_phase : uphase; u_wait : bool }.
(** The system: universes; for each IP its universe, whether it was created, has
    stopped, was deleted; for each thread its operation and whether it sleeps on a
    universe; and whether memory was used after it was freed. *)
Record sys := {
  y_uni : nat -> ust; y_home : nat -> nat;
  y_born : nat -> bool; y_stopped : nat -> bool; y_freed : nat -> bool;
  y_pc : tid -> cpc; y_asleep : tid -> bool; y_bad : bool }.

Definition set_run x u := {| u_run := x; u_runners := u_runners u; u_value := u_value u; u_mutex := u_mutex u; u_smutex := u_smutex u; u_phase := u_phase u; u_wait := u_wait u |}.
Definition set_runners x u := {| u_run := u_run u; u_runners := x; u_value := u_value u; u_mutex := u_mutex u; u_smutex := u_smutex u; u_phase := u_phase u; u_wait := u_wait u |}.
Definition set_value x u := {| u_run := u_run u; u_runners := u_runners u; u_value := x; u_mutex := u_mutex u; u_smutex := u_smutex u; u_phase := u_phase u; u_wait := u_wait u |}.
Definition set_mutex x u := {| u_run := u_run u; u_runners := u_runners u; u_value := u_value u; u_mutex := x; u_smutex := u_smutex u; u_phase := u_phase u; u_wait := u_wait u |}.
Definition set_smutex x u := {| u_run := u_run u; u_runners := u_runners u; u_value := u_value u; u_mutex := u_mutex u; u_smutex := x; u_phase := u_phase u; u_wait := u_wait u |}.
Definition set_phase x u := {| u_run := u_run u; u_runners := u_runners u; u_value := u_value u; u_mutex := u_mutex u; u_smutex := u_smutex u; u_phase := x; u_wait := u_wait u |}.
Definition set_wait x u := {| u_run := u_run u; u_runners := u_runners u; u_value := u_value u; u_mutex := u_mutex u; u_smutex := u_smutex u; u_phase := u_phase u; u_wait := x |}.

Definition upd {A} (f : nat -> A) (n : nat) (x : A) : nat -> A := fun m => if m =? n then x else f m.
Definition updt {A} (f : tid -> A) (t : tid) (x : A) : tid -> A := fun t' => if tid_eqb t' t then x else f t'.

Definition on_uni (n : nat) (f : ust -> ust) (y : sys) : sys :=
  {| y_uni := upd (y_uni y) n (f (y_uni y n)); y_home := y_home y; y_born := y_born y; y_stopped := y_stopped y; y_freed := y_freed y; y_pc := y_pc y; y_asleep := y_asleep y; y_bad := y_bad y |}.
Definition set_pc (t : tid) (x : cpc) (y : sys) : sys :=
  {| y_uni := y_uni y; y_home := y_home y; y_born := y_born y; y_stopped := y_stopped y; y_freed := y_freed y; y_pc := updt (y_pc y) t x; y_asleep := y_asleep y; y_bad := y_bad y |}.
Definition set_asleep (x : tid -> bool) (y : sys) : sys :=
  {| y_uni := y_uni y; y_home := y_home y; y_born := y_born y; y_stopped := y_stopped y; y_freed := y_freed y; y_pc := y_pc y; y_asleep := x; y_bad := y_bad y |}.
Definition set_home (r n : nat) (y : sys) : sys :=
  {| y_uni := y_uni y; y_home := upd (y_home y) r n; y_born := y_born y; y_stopped := y_stopped y; y_freed := y_freed y; y_pc := y_pc y; y_asleep := y_asleep y; y_bad := y_bad y |}.
Definition set_born (r : nat) (y : sys) : sys :=
  {| y_uni := y_uni y; y_home := y_home y; y_born := upd (y_born y) r true; y_stopped := y_stopped y; y_freed := y_freed y; y_pc := y_pc y; y_asleep := y_asleep y; y_bad := y_bad y |}.
Definition set_stopped (f : nat -> bool) (y : sys) : sys :=
  {| y_uni := y_uni y; y_home := y_home y; y_born := y_born y; y_stopped := f; y_freed := y_freed y; y_pc := y_pc y; y_asleep := y_asleep y; y_bad := y_bad y |}.
Definition set_freed (r : nat) (y : sys) : sys :=
  {| y_uni := y_uni y; y_home := y_home y; y_born := y_born y; y_stopped := y_stopped y; y_freed := upd (y_freed y) r true; y_pc := y_pc y; y_asleep := y_asleep y; y_bad := y_bad y |}.
(** IP [r] is accessed. *)
Definition use (r : nat) (y : sys) : sys :=
  {| y_uni := y_uni y; y_home := y_home y; y_born := y_born y; y_stopped := y_stopped y; y_freed := y_freed y; y_pc := y_pc y; y_asleep := y_asleep y; y_bad := y_bad y || y_freed y r |}.

Definition phase_to (n : nat) (p : uphase) (y : sys) : sys := on_uni n (set_phase p) y.

(** FungeUniverse::isRunning, src/FungeUniverse.cpp:171-177. *)
Definition is_running (u : ust) : bool := u_run u && match u_runners u with [] => false | _ => true end.

(** [mutex.lock()] by thread [t] of universe [n], and then [f]; the same for the
    semaphore's mutex. *)
Definition lock (n : nat) (t : tid) (f : sys -> sys) (y : sys) : option sys :=
  match u_mutex (y_uni y n) with
  | None => Some (f (on_uni n (set_mutex (Some t)) y))
  | Some _ => None
  end.
Definition unlock (n : nat) (y : sys) : sys := on_uni n (set_mutex None) y.
Definition slock (n : nat) (t : tid) (f : sys -> sys) (y : sys) : option sys :=
  match u_smutex (y_uni y n) with
  | None => Some (f (on_uni n (set_smutex (Some t)) y))
  | Some _ => None
  end.
Definition sunlock (n : nat) (y : sys) : sys := on_uni n (set_smutex None) y.
(** [cv.notify_all()] on universe [n]. *)
Definition sleeps_on (n : nat) (p : cpc) : bool := match p with WaitS m _ => m =? n | _ => false end.
Definition notify (n : nat) (y : sys) : sys :=
  set_asleep (fun t => if sleeps_on n (y_pc y t) then false else y_asleep y t) y.

(** One step of the thread of universe [n] outside the operations of a tick;
    [None]: it has to wait (or has ended). *)
Definition ustep (n : nat) (y : sys) : option sys :=
  let u := y_uni y n in
  match u_phase u with
  | UTop => Some (phase_to n (if u_run u then UAcq else UEnd) y)
  | UAcq => slock n (U n) (phase_to n UAcqT) y
  | UAcqT => if u_value u
             then Some (phase_to n UAcqU (on_uni n (set_value false) y))
             else Some (phase_to n UAcqS (on_uni n (set_wait true) (sunlock n y)))
  | UAcqS => if u_wait u then None else slock n (U n) (phase_to n UAcqT) y
  | UAcqU => Some (phase_to n ULock (sunlock n y))
  | ULock => lock n (U n) (phase_to n ULoop) y
  | ULoop => Some (phase_to n (match u_runners u with [] => UUnl | r :: _ => UPick r end) y)
  | UPick r => Some (phase_to n (UTest r) (unlock n y))
  | UTest r => Some (phase_to n (if y_stopped y r then UBack r else UTick r) (use r y))
  | UTick r => Some (phase_to n (UBack r) (use r y))
  | UBack r => lock n (U n) (phase_to n (UPop r)) y
  | UPop r => Some (phase_to n (UPlace r) (on_uni n (fun u => set_runners (tl (u_runners u)) u) y))
  | UPlace r =>
      let y' := use r y in
      Some (if y_home y r =? n
            then if y_stopped y r
                 then phase_to n UNote (set_freed r y')
                 else phase_to n ULoop (on_uni n (fun u => set_runners (u_runners u ++ [r]) u) y')
            else phase_to n UNote y')
  | UNote => Some (phase_to n ULoop (notify n y))
  | UUnl => Some (phase_to n UTop (unlock n y))
  | UEnd => None
  end.

(** All IPs of a list are stopped; each is accessed. *)
Fixpoint stop_all (l : list nat) (y : sys) : sys :=
  match l with
  | [] => y
  | r :: t => stop_all t (set_stopped (upd (y_stopped y) r true) (use r y))
  end.

(** One step of the operation thread [t] is in. *)
Definition cstep (t : tid) (y : sys) : option sys :=
  match y_pc y t with
  | Idle => None
  | Add0 n r => lock n t (set_pc t (Add1 n r)) y
  | Add1 n r => Some (set_pc t (Rel0 n RAdd)
                        (set_home r n (on_uni n (fun u => set_runners (u_runners u ++ [r]) u) y)))
  | Rel0 n k => slock n t (set_pc t (Rel1 n k)) y
  | Rel1 n k => Some (set_pc t (Rel2 n k) (on_uni n (set_value true) y))
  | Rel2 n k => Some (set_pc t (Rel3 n k) (on_uni n (set_wait false) y))
  | Rel3 n k => Some (set_pc t (match k with RAdd => Unl n | RKill => Kill3 n end) (sunlock n y))
  | Unl n => Some (set_pc t Idle (unlock n y))
  | Kill0 n => lock n t (set_pc t (Kill1 n)) y
  | Kill1 n => Some (set_pc t (Kill2 n) (stop_all (u_runners (y_uni y n)) y))
  | Kill2 n => Some (set_pc t (Rel0 n RKill) (on_uni n (set_run false) y))
  | Kill3 n => Some (set_pc t (Unl n) (notify n y))
  | Wait0 n k => lock n t (set_pc t (Wait1 n k)) y
  | Wait1 n k => if is_running (y_uni y n)
                 then Some (set_pc t (WaitS n k) (unlock n (set_asleep (updt (y_asleep y) t true) y)))
                 else Some (set_pc t (WaitU n k) y)
  | WaitS n k => if y_asleep y t then None else lock n t (set_pc t (Wait1 n k)) y
  | WaitU n k => Some (set_pc t (match k with KDone => Idle | _ => Scan k end) (unlock n y))
  | Scan KDone => Some (set_pc t Idle y)
  | Scan (KScan (n :: rest) b all) =>
      Some (set_pc t (Wait0 n (KScan rest (b || is_running (y_uni y n)) all)) y)
  | Scan (KScan [] b all) =>
      Some (set_pc t (if b then Scan (KScan all false all) else Idle) y)
  end.

(** Operations a thread can begin: create an IP in a universe, move IP [r] to a
    universe (only while it is being ticked), kill a universe, wait for one or for
    all. *)
Inductive op := OAdd (n r : nat) | OMove (m r : nat) | OKill (n : nat) | OWait (n : nat) | OScan (all : list nat).
Definition may_begin (t : tid) (y : sys) : bool :=
  match y_pc y t, t with
  | Idle, C _ => true
  | Idle, U n => match u_phase (y_uni y n) with UTick _ => true | _ => false end
  | _, _ => false
  end.
Definition begin (t : tid) (o : op) (y : sys) : option sys :=
  if may_begin t y then
    match o, t with
    | OAdd n r, _ => if y_born y r then None else Some (set_pc t (Add0 n r) (set_born r (set_home r n y)))
    | OMove m r, U n =>
        match u_phase (y_uni y n) with
        | UTick r' => if (r =? r') && negb (y_home y r =? m) then Some (set_pc t (Add0 m r) (use r y)) else None
        | _ => None
        end
    | OMove _ _, C _ => None
    | OKill n, _ => Some (set_pc t (Kill0 n) y)
    | OWait n, C _ => Some (set_pc t (Wait0 n KDone) y)
    | OScan all, C _ => Some (set_pc t (Scan (KScan all false all)) y)
    | _, _ => None
    end
  else None.

(** Labels: thread [t] goes on; it begins an operation; the IP being ticked by
    universe [n] stops; a sleeping thread wakes up spuriously. *)
Inductive label := Go (t : tid) | Begin (t : tid) (o : op) | Stop (n : nat) | Spurious (t : tid).

Definition go (t : tid) (y : sys) : option sys :=
  match y_pc y t, t with
  | Idle, U n => ustep n y
  | _, _ => cstep t y
  end.
Definition fire (l : label) (y : sys) : option sys :=
  match l with
  | Go t => go t y
  | Begin t o => begin t o y
  | Stop n => match u_phase (y_uni y n), y_pc y (U n) with
              | UTick r, Idle => Some (set_stopped (upd (y_stopped y) r true) (use r y))
              | _, _ => None
              end
  | Spurious (U n) => Some (on_uni n (set_wait false) y)
  | Spurious t => Some (set_asleep (updt (y_asleep y) t false) y)
  end.

(** Before anything happened: every universe is running and empty. *)
Definition init : sys :=
  {| y_uni := fun _ => {| u_run := true; u_runners := []; u_value := false; u_mutex := None;
                          u_smutex := None; u_phase := UTop; u_wait := false |};
     y_home := fun _ => 0; y_born := fun _ => false; y_stopped := fun _ => false;
     y_freed := fun _ => false; y_pc := fun _ => Idle; y_asleep := fun _ => false; y_bad := false |}.
Fixpoint fires (ls : list label) (y : sys) : option sys :=
  match ls with
  | [] => Some y
  | l :: t => match fire l y with Some y' => fires t y' | None => None end
  end.
Definition reachable (y : sys) : Prop := exists ls, fires ls init = Some y.
