(** * The debugger: src/FungeDebugger.cpp and the prompt of src/Defunge.cpp.

    Modelled: breakpoints and watchpoints as sets, the table of IPs with their
    backtraces and states, when the prompt appears, the prompt's loop and its
    commands.  Not modelled are the locks (the prompt is one critical section of
    Defunge's mutex), the introduction that is printed once, numbers with a sign or
    of more than 64 bits, and the selection of another universe
    ([BadUnmodelled]). *)

From Coq Require Import ZArith String Ascii List Bool.
From Verif Require Import Base VectorModel TextModel StackModel FieldModel World IpModel
  LoadModel FingModel CoreModel OptModel.
Import ListNotations.
Open Scope Z_scope.

(** FungeDebugger::State, src/include/FungeDebugger.h:30-36. *)
Inductive dstate := DStart | DRun | DStep | DBreak | DEnd.
(** FungeDebugger::Thread, src/include/FungeDebugger.h:42-46: [th_runner] is the ID
    of the IP pointed to; [None] is the null pointer of an entry made by
    [threads[id]]. *)
Record thread := { th_runner : option Z; th_bt : list vec; th_state : dstate }.
Definition thread_new : thread := {| th_runner := None; th_bt := []; th_state := DStart |}.
(** Class FungeDebugger, src/include/FungeDebugger.h:51-57; sets and the map in
    the order of their keys. *)
Record dbg := {
  d_break : list vec; d_watch : list vec; d_threads : list (Z * thread); d_last : Z }.
Definition dbg_new : dbg := {| d_break := []; d_watch := []; d_threads := []; d_last := 0 |}.

Definition set_d_break (x : list vec) (d : dbg) : dbg :=
  {| d_break := x; d_watch := d_watch d; d_threads := d_threads d; d_last := d_last d |}.
Definition set_d_watch (x : list vec) (d : dbg) : dbg :=
  {| d_break := d_break d; d_watch := x; d_threads := d_threads d; d_last := d_last d |}.
Definition set_d_threads (x : list (Z * thread)) (d : dbg) : dbg :=
  {| d_break := d_break d; d_watch := d_watch d; d_threads := x; d_last := d_last d |}.
Definition set_d_last (x : Z) (d : dbg) : dbg :=
  {| d_break := d_break d; d_watch := d_watch d; d_threads := d_threads d; d_last := x |}.
Definition set_th_bt (x : list vec) (t : thread) : thread :=
  {| th_runner := th_runner t; th_bt := x; th_state := th_state t |}.
Definition set_th_state (x : dstate) (t : thread) : thread :=
  {| th_runner := th_runner t; th_bt := th_bt t; th_state := x |}.

(** [std::set<Vector>]: members in the order of operator<; an element is present
    when neither compares less. *)
Definition set_contains (v : vec) (s : list vec) : bool :=
  existsb (fun x => negb (vltb x v) && negb (vltb v x)) s.
Fixpoint set_insert (v : vec) (s : list vec) : list vec :=
  match s with
  | [] => [v]
  | x :: t => if vltb v x then v :: s else if vltb x v then x :: set_insert v t else s
  end.

(** [std::map<size_t, Thread>]: find, and [threads[id]], which makes an entry. *)
Fixpoint th_find (id : Z) (l : list (Z * thread)) : option thread :=
  match l with
  | [] => None
  | (i, t) :: r => if i =? id then Some t else th_find id r
  end.
Fixpoint th_put (id : Z) (x : thread) (l : list (Z * thread)) : list (Z * thread) :=
  match l with
  | [] => [(id, x)]
  | (i, t) :: r => if id <? i then (id, x) :: l
                   else if i =? id then (id, x) :: r else (i, t) :: th_put id x r
  end.
Definition th_at (id : Z) (d : dbg) : thread :=
  match th_find id (d_threads d) with Some t => t | None => thread_new end.
Definition th_upd (id : Z) (f : thread -> thread) (d : dbg) : dbg :=
  set_d_threads (th_put id (f (th_at id d)) (d_threads d)) d.

(** FungeDebugger::addBreakpoint and addWatchpoint,
    src/FungeDebugger.cpp:83-98; the observer registration is not modelled. *)
Definition addBreakpoint (v : vec) (d : dbg) : dbg :=
  match v with [] => d | _ => set_d_break (set_insert v (d_break d)) d end.
Definition addWatchpoint (v : vec) (d : dbg) : dbg :=
  match v with [] => d | _ => set_d_watch (set_insert v (d_watch d)) d end.
(** FungeDebugger::endThread, src/FungeDebugger.cpp:100-102. *)
Definition endThread (id : Z) (d : dbg) : dbg := th_upd id (set_th_state DEnd) d.

(** MAX_BACKTRACE, src/include/FungeDebugger.h:38-40. *)
Definition MAX_BACKTRACE : nat := 10.
(** [list.pop_back()]. *)
Definition pop_back (l : list vec) : list vec := removelast l.

(** The part of FungeDebugger::tick before the prompt,
    src/FungeDebugger.cpp:30-51, for the IP [id] at [pos]: the new state of the
    debugger and what is printed. *)
Definition note_tick (id : Z) (pos : vec) (d : dbg) : dbg * bytes :=
  let '(d1, o1) :=
    match th_find id (d_threads d) with
    | Some _ => (d, [])
    | None => (set_d_threads
                 (th_put id {| th_runner := Some id; th_bt := []; th_state := DStart |}
                    (d_threads d)) d,
               lit "New IP " ++ dec id ++ [10])
    end in
  let d2 := set_d_last id d1 in
  let '(d3, o3) :=
    if set_contains pos (d_break d2)
    then (th_upd id (set_th_state DBreak) d2, lit "Breakpoint " ++ vprint pos ++ [10])
    else (d2, []) in
  let d4 := if Nat.leb MAX_BACKTRACE (length (th_bt (th_at id d3)))
            then th_upd id (fun t => set_th_bt (pop_back (th_bt t)) t) d3 else d3 in
  (th_upd id (fun t => set_th_bt (pos :: th_bt t) t) d4, o1 ++ o3).

(** ** The prompt *)

(** [std::getline(std::cin, line)]: at the end of the input the line is empty. *)
Fixpoint split_line (l : bytes) : bytes * bytes :=
  match l with
  | [] => ([], [])
  | c :: t => if c =? 10 then ([], t) else let '(a, b) := split_line t in (c :: a, b)
  end.
Definition getline : M bytes :=
  fun s => let '(a, b) := split_line (w_in (s_w s)) in
           Ok (a, {| s_w := set_w_in b (s_w s); s_r := s_r s |}).
(** [iss >> cmd] on a string: the word and the rest of the stream. *)
Fixpoint take_word (l : bytes) : bytes * bytes :=
  match l with
  | [] => ([], [])
  | c :: t => if isspace c then ([], l) else let '(a, b) := take_word t in (c :: a, b)
  end.
Definition word (l : bytes) : bytes * istr :=
  let '(a, b) := take_word (skipws l) in
  (a, {| is_rest := b; is_fail := match a with [] => true | _ => false end |}).

(** Defunge::printIP, src/Defunge.cpp:127-130: the ID is that of the argument, but
    position and cell are those of the selected IP [sel]. *)
Definition print_ip (id sel : Z) : M unit :=
  r <- find_runner sel ;;
  c <- fget (r_uni r) (r_pos r) ;;
  out (dec id ++ [58; 32] ++ vprint (r_pos r) ++ [32; 34; to_u8 c; 34; 10]).

(** Commands, src/Defunge.cpp:26-78. *)
Inductive command :=
| CRun | CQuit | CStep | CPeek | CDelta | CStorage | CPosition | CThread | CBacktrace
| CSetdelta | CSetpos | CGet | CList | CBreak | CWatch | CRead | CUniverse.
Definition commands : list (string * command) :=
  [("run", CRun); ("r", CRun); ("continue", CRun); ("con", CRun); ("c", CRun);
   ("quit", CQuit); ("q", CQuit); ("step", CStep); ("stp", CStep); ("s", CStep);
   ("peek", CPeek); ("p", CPeek); ("delta", CDelta); ("dir", CDelta); ("d", CDelta);
   ("storage", CStorage); ("position", CPosition); ("pos", CPosition);
   ("thread", CThread); ("t", CThread); ("backtrace", CBacktrace); ("bt", CBacktrace);
   ("setdelta", CSetdelta); ("setpos", CSetpos); ("get", CGet); ("g", CGet);
   ("list", CList); ("l", CList); ("break", CBreak); ("bp", CBreak);
   ("watch", CWatch); ("wp", CWatch); ("read", CRead);
   ("universe", CUniverse); ("u", CUniverse)]%string.

(** Set the delta of the IP [sel]: InstructionPointer::setDelta,
    src/InstructionPointer.cpp:85-102. *)
Definition setDeltaOf (sel : Z) (v : vec) : M unit :=
  r <- find_runner sel ;; w <- getW ;;
  d <- (if testmode MODE_HOVER (w_uni w (r_uni r)) then lift (hover_add (r_delta r) v) else ret v) ;;
  on_runner sel (fun r => observe_delta d (set_r_delta d r)).

(** The lines of the backtrace, src/Defunge.cpp:291-293. *)
Fixpoint bt_lines (n : nat) (i : Z) (l : list vec) : M unit :=
  match l with
  | [] => ret tt
  | b :: t =>
      c <- fget n b ;;
      out (35 :: dec i ++ [32; 32] ++ vprint b ++ [32; 34; to_u8 c; 34; 10]) ;;;
      bt_lines n (i + 1) t
  end.
Fixpoint lines_of (title : string) (l : list vec) : M unit :=
  match l with
  | [] => ret tt
  | b :: t => out (lit title ++ vprint b ++ [10]) ;;; lines_of title t
  end.
(** The table printed by the thread command, src/Defunge.cpp:263-274. *)
Fixpoint thread_lines (sel : Z) (l : list (Z * thread)) : M unit :=
  match l with
  | [] => ret tt
  | (i, t) :: r =>
      (match th_state t with
       | DEnd => out ([32; 32] ++ dec i ++ lit ": end" ++ [10])
       | _ =>
           match th_runner t with
           | None => fail BadNull
           | Some q => out (if q =? sel then [42; 32] else [32; 32]) ;;; print_ip q sel
           end
       end) ;;; thread_lines sel r
  end.
(** [iss >> thread] on a number: only nothing or decimal digits are modelled. *)
Fixpoint digits (l : bytes) (n : Z) : option Z :=
  match l with
  | [] => Some n
  | c :: t => if isdigit c then digits t (n * 10 + (c - 48)) else None
  end.

(** [iss >> n] on a size_t: the number and the rest; no digit gives 0.  Signs and
    numbers of more than 64 bits are not modelled. *)
Fixpoint take_digits (l : bytes) (n : Z) : Z * bytes :=
  match l with
  | [] => (n, [])
  | c :: t => if isdigit c then take_digits t (n * 10 + (c - 48)) else (n, l)
  end.
Definition read_num (l : bytes) : option (Z * bytes) :=
  match skipws l with
  | [] => Some (0, [])
  | c :: t =>
      if (c =? 43) || (c =? 45) then None
      else let '(n, r) := take_digits (c :: t) 0 in
           if n <? 2 ^ 64 then Some (n, r) else None
  end.

(** Defunge::peekCommand without an element, src/Defunge.cpp:214-221. *)
Fixpoint peek_cells (n : nat) (k : stk) : bytes :=
  match n with
  | O => []
  | S i => dec (stk_get (Z.of_nat n) k) ++ [32] ++ peek_cells i k
  end.
Fixpoint peek_all (l : list stk) : M unit :=
  match l with
  | [] => ret tt
  | k :: t => out (lit "[0] " ++ peek_cells (Z.to_nat (stk_size k)) k ++ [10]) ;;; peek_all t
  end.

(** Defunge::printField, src/Defunge.cpp:132-175.  Is one of the listed IPs here? *)
Fixpoint any_ip (p : vec) (l : list (Z * thread)) : M bool :=
  match l with
  | [] => ret false
  | (_, t) :: r =>
      match th_runner t with
      | None => fail BadNull
      | Some q => x <- find_runner q ;; if veqb (r_pos x) p then ret true else any_ip p r
      end
  end.
(** An escape sequence. *)
Definition esc (b : bool) (code : string) : bytes := if b then 27 :: lit code else [].
(** One cell, src/Defunge.cpp:137-166; [n] is the universe, [here] the position of
    the IP. *)
Definition field_cell (d : dbg) (n : nat) (center here p : vec) : M unit :=
  i <- fget n p ;;
  t <- any_ip p (d_threads d) ;;
  let marks := esc t "[43;1m" ++ esc (set_contains p (d_break d)) "[41;1m" ++
    esc (set_contains p (d_watch d)) "[34;1m" ++ esc (veqb p center) "[4m" ++
    esc (veqb p here) "[42;1m" in
  out (marks ++ [to_u8 i] ++ match marks with [] => [] | _ => 27 :: lit "[0m" end).
(** [v[dim[k]]] and [v.set(dim[k], x)]: the index is converted to size_t. *)
Definition vgetZ (v : vec) (n : Z) : Z := if 0 <=? n then vget v (Z.to_nat n) else 0.
(** One turn of the loop, src/Defunge.cpp:136-173. *)
Definition field_step (d : dbg) (n : nat) (center here start stop dim : vec) (p : vec)
  : M (vec + unit) :=
  if vleb p stop then
    field_cell d n center here p ;;;
    x <- lift (add64 (vgetZ p (vget dim 0)) 1) ;;
    p1 <- lift (vsetZ p (vget dim 0) x) ;;
    if vgetZ stop (vget dim 0) <? vgetZ p1 (vget dim 0) then
      y <- lift (add64 (vgetZ p1 (vget dim 1)) 1) ;;
      p2 <- lift (vsetZ p1 (vget dim 1) y) ;;
      p3 <- lift (vsetZ p2 (vget dim 0) (vgetZ start (vget dim 0))) ;;
      out [10] ;;; ret (inl p3)
    else ret (inl p1)
  else ret (inr tt).
Definition print_field (F : positive) (d : dbg) (n : nat) (center size dim here : vec) : M unit :=
  start <- lift (vsub center size) ;;
  stop <- lift (vadd center size) ;;
  loopM F (field_step d n center here start stop dim) start.
(** An optional Vector argument; [Vector::size] 0 is the empty one. *)
Definition or_vec (v dflt : vec) : vec := match v with [] => dflt | _ => v end.

(** FungeMultiverse::killAll, src/FungeMultiverse.cpp:83-87, with
    FungeUniverse::killAll, src/FungeUniverse.cpp:160-169, for each universe. *)
Definition kill_uni (code : Z) (n : nat) : M unit :=
  modW (upd_uni n (set_u_exit code)) ;;;
  w <- getW ;;
  on_runners (u_queue (w_uni w n)) (set_r_stopped true) ;;;
  modW (upd_uni n (set_u_running false)).
Fixpoint kill_unis (code : Z) (l : list nat) : M unit :=
  match l with
  | [] => ret tt
  | n :: t => kill_uni code n ;;; kill_unis code t
  end.
Definition multi_killAll (code : Z) : M unit :=
  w <- getW ;; kill_unis code (seq 0 (w_nuni w)).

(** The list of universes, src/Defunge.cpp:446-453; the order of the
    unordered map, which is unspecified, is taken to be that of creation. *)
Fixpoint uni_lines (current : bytes) (l : list bytes) : M unit :=
  match l with
  | [] => ret tt
  | x :: t => out ((if streq current x then [42; 32] else [32; 32]) ++ x ++ [10]) ;;; uni_lines current t
  end.

(** One command, src/Defunge.cpp:183-455: [sel] is the selected IP; the outcome is
    the debugger, the selected IP and whether the prompt ends. *)
Definition command_run (F : positive) (d : dbg) (sel : Z) (c : command) (is : istr)
  : M (dbg * Z * bool) :=
  match c with
  | CRun => ret (th_upd sel (set_th_state DRun) d, sel, true)
  | CStep => ret (th_upd sel (set_th_state DStep) d, sel, true)
  | CQuit => multi_killAll 1 ;;; ret (d, sel, true)
  | CDelta =>
      r <- find_runner sel ;;
      out (lit "Delta " ++ vprint (r_delta r) ++ [10]) ;;; ret (d, sel, false)
  | CStorage =>
      r <- find_runner sel ;;
      out (lit "Storage " ++ vprint (r_storage r) ++ [10]) ;;; ret (d, sel, false)
  | CPosition => print_ip sel sel ;;; ret (d, sel, false)
  | CThread =>
      match skipws (is_rest is) with
      | [] => thread_lines sel (d_threads d) ;;; ret (d, sel, false)
      | l =>
          match digits l 0 with
          | None => fail BadUnmodelled
          | Some n =>
              match th_find n (d_threads d) with
              | None => thread_lines sel (d_threads d) ;;; ret (d, sel, false)
              | Some t =>
                  match th_runner t with
                  | None => fail BadUnmodelled (* no IP is selected then *)
                  | Some q => thread_lines q (d_threads d) ;;; ret (d, q, false)
                  end
              end
          end
      end
  | CBacktrace =>
      out (lit "Backtrace" ++ [10]) ;;;
      r <- find_runner sel ;;
      bt_lines (r_uni r) 0 (th_bt (th_at sel d)) ;;;
      ret (d, sel, false)
  | CSetdelta =>
      v <- lift (vread F is) ;;
      setDeltaOf sel (fst v) ;;;
      r <- find_runner sel ;;
      out (lit "Delta " ++ vprint (r_delta r) ++ [10]) ;;; ret (d, sel, false)
  | CSetpos =>
      v <- lift (vread F is) ;;
      on_runner sel (set_r_pos (fst v)) ;;; print_ip sel sel ;;; ret (d, sel, false)
  | CBreak =>
      v <- lift (vread F is) ;;
      let d' := addBreakpoint (fst v) d in
      lines_of "Breakpoint " (d_break d') ;;; ret (d', sel, false)
  | CWatch =>
      v <- lift (vread F is) ;;
      let d' := addWatchpoint (fst v) d in
      lines_of "Watchpoint " (d_watch d') ;;; ret (d', sel, false)
  | CRead =>
      v <- lift (vread F is) ;; r <- find_runner sel ;;
      c <- fget (r_uni r) (fst v) ;;
      out (lit "Value = (" ++ dec c ++ [41; 32; 34; to_u8 c; 34; 10]) ;;; ret (d, sel, false)
  | CPeek =>
      match read_num (is_rest is) with
      | None => fail BadUnmodelled
      | Some (c, rest) =>
          r <- find_runner sel ;;
          if c =? 0 then peek_all (ss_list (r_ss r)) ;;; ret (d, sel, false)
          else
            match read_num rest with
            | None => fail BadUnmodelled
            | Some (n, _) =>
                if n <? Z.of_nat (ss_size (r_ss r)) then
                  k <- lift (ss_at (r_ss r) (Z.to_nat n)) ;;
                  out (dec (stk_get c k) ++ [10]) ;;; ret (d, sel, false)
                else fail BadOob
            end
      end
  | CGet =>
      r <- find_runner sel ;;
      v <- lift (vread F is) ;;
      s <- lift (vread F (snd v)) ;;
      m <- lift (vread F (snd s)) ;;
      print_field F d (r_uni r) (or_vec (fst v) (r_pos r)) (or_vec (fst s) [3; 3])
        (or_vec (fst m) [0; 1]) (r_pos r) ;;;
      ret (d, sel, false)
  | CList =>
      r <- find_runner sel ;;
      s <- lift (vread F is) ;;
      m <- lift (vread F (snd s)) ;;
      print_field F d (r_uni r) (r_pos r) (or_vec (fst s) [3; 3])
        (or_vec (fst m) [0; 1]) (r_pos r) ;;;
      ret (d, sel, false)
  | CUniverse =>
      r <- find_runner sel ;; w <- getW ;;
      let name := fst (word (is_rest is)) in
      sel' <- match match name with [] => None | _ => multi_find name w end with
              | None => ret sel
              | Some n =>
                  if Nat.eqb n (r_uni r) then
                    match th_runner (th_at (d_last d) d) with
                    | Some q => ret q
                    | None => fail BadUnmodelled (* no IP is selected then *)
                    end
                  else fail BadUnmodelled
              end ;;
      uni_lines (c_name (u_cfg (w_uni w (r_uni r))))
        (map (fun i => c_name (u_cfg (w_uni w i))) (seq 0 (w_nuni w))) ;;;
      ret (d, sel', false)
  end.

(** One turn of the prompt's loop, src/Defunge.cpp:97-124. *)
Definition prompt_step (F : positive) (x : dbg * Z) : M (dbg * Z + dbg) :=
  out ([27] ++ lit "[33m(defunge)" ++ [27] ++ lit "[0m ") ;;;
  line <- getline ;;
  let '(cmd, is) := word line in
  match lookup cmd commands with
  | None => ret (inl x)
  | Some c =>
      y <- command_run F (fst x) (snd x) c is ;;
      let '(d, sel, stop) := y in
      if stop : bool then ret (inr d) else ret (inl (d, sel))
  end.

(** Defunge::debug, src/Defunge.cpp:80-125, for the current IP. *)
Definition debug (F : positive) (d : dbg) : M dbg :=
  match th_state (th_at (d_last d) d) with
  | DRun => ret d
  | _ =>
      r <- getR ;;
      print_ip (r_id r) (r_id r) ;;;
      loopM F (prompt_step F) (d, r_id r)
  end.

(** FungeDebugger::tick, src/FungeDebugger.cpp:27-54. *)
Definition dbg_tick (F : positive) (d : dbg) : M dbg :=
  on <- isMode MODE_DEBUG ;;
  if on : bool then
    r <- getR ;;
    let '(d', o) := note_tick (r_id r) (r_pos r) d in
    out o ;;; debug F d'
  else ret d.

(** FungeDebugger::swbreak and trap, src/FungeDebugger.cpp:55-71. *)
Definition dbg_stop (title : string) (F : positive) (d : dbg) : M dbg :=
  on <- isMode MODE_DEBUG ;;
  if on : bool then
    r <- getR ;;
    out (lit title ++ vprint (r_pos r) ++ [10]) ;;;
    debug F (th_upd (d_last d) (set_th_state DBreak) d)
  else ret d.
Definition swbreak : positive -> dbg -> M dbg := dbg_stop "Software Breakpoint ".
Definition trap : positive -> dbg -> M dbg := dbg_stop "Exception Trapped ".

(** One iteration of FungeRunner::tick with the debugger,
    src/FungeRunner.cpp:134-159. *)
Definition dtick_step (F : positive) (D : nat) (d : dbg) : M (dbg + dbg) :=
  d1 <- dbg_tick F d ;;
  i <- ipGet ;;
  e <- execute F D i ;;
  match e with
  | ENone => ipNext ;;; ret (inr d1)
  | ESkip => ipNext ;;; ret (inl d1)
  | EBlock => ret (inr d1)
  | EUnimp | ENotAvail | EUnspec =>
      d2 <- trap F d1 ;;
      r <- getR ;;
      e' <- (if r_handler r then errorHandler e else ipNext ;;; ret e) ;;
      ret (inr d2)
  end.
Definition dtick (F : positive) (D : nat) (d : dbg) : M dbg := loopM F (dtick_step F D) d.
