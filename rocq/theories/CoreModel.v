(** * The core instructions, string mode, ticks and the round-robin scheduler:
    src/Unefunge93Strategy.cpp, src/Unefunge98Strategy.cpp,
    src/Befunge93Strategy.cpp, src/Befunge98Strategy.cpp,
    src/Trefunge98Strategy.cpp, src/FungeStateNormal.cpp,
    src/FungeStateString.cpp, src/FungeRunner.cpp, src/FungeUniverse.cpp.

    [F] bounds the loops that walk through Funge-space until they find a
    character; running out of it is the error value [BadFuel]. *)

From Coq Require Import ZArith List Bool.
From Verif Require Import Base VectorModel TextModel StackModel FieldModel
  World IpModel LoadModel FingModel.
Import ListNotations.
Open Scope Z_scope.

(** ** Input *)

(** The first while loop of instructionNumIn, src/Unefunge93Strategy.cpp:202-207:
    drops everything before the first digit. *)
Fixpoint skip_nondigits (l : bytes) : bytes :=
  match l with
  | [] => []
  | c :: t => if isdigit c then l else skip_nondigits t
  end.
(** The second one, 208-214: reads digits; [None] if the input ends while it
    does, otherwise the value and the rest, starting with the non-digit that was
    put back by [ungetc]. *)
Fixpoint read_digits (l : bytes) (num : Z) : res (option (Z * bytes)) :=
  match l with
  | [] => Ok None
  | c :: t =>
      if isdigit c then
        m <-- mul64 num 10 ;; n <-- add64 m (c - 48) ;; read_digits t n
      else Ok (Some (num, l))
  end.
(** Unefunge93Strategy::instructionNumIn, src/Unefunge93Strategy.cpp:195-218. *)
Definition numIn : M err :=
  w <- getW ;;
  r <- lift (read_digits (skip_nondigits (w_in w)) 0) ;;
  match r with
  | None => modW (set_w_in []) ;;; reterr EUnspec
  | Some (n, rest) => modW (set_w_in rest) ;;; pushS n ;;; ok
  end.
(** Unefunge93Strategy::instructionCharIn, src/Unefunge93Strategy.cpp:220-234. *)
Definition charIn : M err :=
  q <- getchar ;;
  match q with
  | None => reterr EUnspec
  | Some c =>
      if c =? 13 then
        q2 <- getchar ;;
        match q2 with
        | None => reterr EUnspec
        | Some d => pushS d ;;; ok
        end
      else pushS c ;;; ok
  end.

(** ** Loops over Funge-space *)

(** [do ip.next(); while(ip.get() != ';')],
    src/Unefunge98Strategy.cpp:82-84. *)
Definition jump_over_step (_ : unit) : M (unit + unit) :=
  ipNext ;;; c <- ipGet ;; if c =? 59 then ret (inr tt) else ret (inl tt).
Definition jumpOver (F : positive) : M unit := loopM F jump_over_step tt.

(** The inner do-while loop of instructionIterate,
    src/Unefunge98Strategy.cpp:119-122: [c] is a char. *)
Definition iter_semi_step (_ : unit) : M (unit + unit) :=
  ipNext ;;; c <- ipGet ;; if to_i8 c =? 59 then ret (inr tt) else ret (inl tt).
(** The while loop of instructionIterate, src/Unefunge98Strategy.cpp:117-129:
    from character [c] to the instruction to repeat. *)
Definition iter_step (F : positive) (c : Z) : M (Z + Z) :=
  if (c =? 32) || (c =? 59) then
    (if c =? 59 then loopM F iter_semi_step tt else ret tt) ;;;
    ipNext ;;; i <- ipGet ;; ret (inl (to_i8 i))
  else ret (inr c).

(** ** sysinfo *)

Definition OP_SYSTEM : Z := 1.             (* src/include/funge_types.h *)
Definition HANDPRINT : Z := 1179527979.    (* 0x464e2b2b, src/include/Unefunge98Strategy.h *)
(** Flags, src/Unefunge98Strategy.cpp:422-431. *)
Definition env_flags (c : cfg) : Z :=
  16 + (if c_conc c then 1 else 0) + (if c_exec c then 8 else 0)
  + (if c_fs c then 6 else 0).

(** localtime fields: hour, min, sec, year, mon, mday. *)
Definition localtime : M (list Z) :=
  fun s => Ok (w_tm (s_w s) (w_nclock (s_w s)),
               {| s_w := set_w_nclock (S (w_nclock (s_w s))) (s_w s); s_r := s_r s |}).
Definition tm_time (t : list Z) : Z :=
  nth 0 t 0 * 65536 + nth 1 t 0 * 256 + nth 2 t 0.
Definition tm_date (t : list Z) : Z :=
  nth 3 t 0 * 65536 + (nth 4 t 0 + 1) * 256 + nth 5 t 0.

Fixpoint pushStrings (l : list bytes) : M Z :=
  match l with
  | [] => ret 0
  | b :: t => pushString b ;;; n <- pushStrings t ;;
              ret (Z.of_nat (length b) + 1 + n)
  end.
(** The loop over the stack sizes, src/Unefunge98Strategy.cpp:379-381: for
    [i = size .. 2] push the size of [at(i-1)]; [k] is [i - 1]. *)
Fixpoint push_sizes (k : nat) : M Z :=
  match k with
  | O => ret 0
  | S k' =>
      r <- getR ;; s <- lift (ss_at (r_ss r) k) ;;
      pushS (stk_size s) ;;; n <- push_sizes k' ;; ret (n + 1)
  end.
Definition pushAll (l : list Z) : M Z := pushL l ;;; ret (Z.of_nat (length l)).
Fixpoint field_extents (dims i : nat) (f : field) : res (list Z) :=
  match dims with
  | O => Ok []
  | S n => x <-- sub64 (f_max f i) (f_min f i) ;;
           t <-- field_extents n (S i) f ;; Ok (x :: t)
  end.
Definition field_mins (dims : nat) (f : field) : list Z :=
  map (f_min f) (seq 0 dims).

(** Unefunge98Strategy::pushSysInfo, src/Unefunge98Strategy.cpp:356-440. *)
Definition sysInfo (num : Z) : M unit :=
  c <- getC ;;
  r <- getR ;;
  tsize <- sizeS ;;
  n1 <- pushAll [0; 0] ;;
  n2 <- pushStrings (rev (c_env c)) ;;
  n3 <- pushAll [0; 0] ;;
  n4 <- pushStrings (rev (c_args c)) ;;
  n5 <- push_sizes (ss_size (r_ss r) - 1) ;;
  n6 <- pushAll [tsize; Z.of_nat (ss_size (r_ss r))] ;;
  tm <- localtime ;;
  n7 <- pushAll [tm_time tm; tm_date tm] ;;
  w <- getW ;;
  let f := u_field (w_uni w (r_fld r)) in
  ext <- lift (field_extents (c_dims c) 0 f) ;;
  n8 <- pushAll ext ;;
  n9 <- pushAll (field_mins (c_dims c) f) ;;
  n10 <- pushVecAt TOP (r_storage r) ;;
  n11 <- pushVecAt TOP (r_delta r) ;;
  n12 <- pushVecAt TOP (r_pos r) ;;
  n13 <- pushAll [0; r_id r; Z.of_nat (c_dims c); 47; OP_SYSTEM; 1; HANDPRINT; 8;
                  env_flags c] ;;
  let pushes := n1 + n2 + n3 + n4 + n5 + n6 + n7 + n8 + n9 + n10 + n11 + n12 + n13 in
  if num >? 0 then
    v <- getS num ;;
    repM (Z.to_nat pushes) (popS ;;; ret tt) ;;;
    pushS v
  else ret tt.

(** ** Fingerprint loading *)

(** The number assembled by instructionLoad and instructionUnload,
    src/Unefunge98Strategy.cpp:312-316, 337-341, in uint64_t. *)
Fixpoint popFing (n : nat) (acc : Z) : M Z :=
  match n with
  | O => ret acc
  | S n' => x <- popS ;; popFing n' (to_u64 (acc * 256 + x))
  end.
(** [if(runner.isMode(FUNGE_MODE_SWITCH)) ip.put(i)]. *)
Definition switchPut (i : Z) : M unit :=
  b <- isMode MODE_SWITCH ;; if b then ipPut i else ret tt.

(** ** The core methods *)

(** Vector constants. *)
Definition VWEST : vec := mkvec [-1].
Definition VEAST : vec := mkvec [1].
Definition VNORTH : vec := mkvec [0; -1].
Definition VSOUTH : vec := mkvec [0; 1].
Definition VHIGH : vec := mkvec [0; 0; 1].
Definition VLOW : vec := mkvec [0; 0; -1].

(** [execute] is FungeRunner::execute, needed by [k] only. *)
Section Methods.
  Variable F : positive.
  Variable execute : Z -> M err.

  (** [for(i = 0; i < k; i++) runner.execute(c)]: errors are ignored,
      src/Unefunge98Strategy.cpp:132-134. *)
  Definition exec_again (c : Z) : M unit := execute c ;;; ret tt.

  (** Unefunge98Strategy::instructionIterate,
      src/Unefunge98Strategy.cpp:113-139. *)
  Definition iterate : M err :=
    v <- getPos ;;
    ipNext ;;;
    r <- getR ;; c0 <- fget (r_fld r) (r_pos r) ;;
    c <- loopM F (iter_step F) (to_i8 c0) ;;
    ipSetPos v ;;;
    k0 <- popS ;; let k := to_i32 k0 in
    repM (Z.to_nat k) (exec_again c) ;;;
    (if k =? 0 then ipNext else ret tt) ;;; ok.

  (** Unefunge98Strategy::instructionUnder, src/Unefunge98Strategy.cpp:163-182. *)
  Definition under : M err :=
    r <- getR ;;
    if Nat.ltb 1 (ss_size (r_ss r)) then
      n <- popS ;;
      (if n >? 0
       then repM (Z.to_nat n) (x <- popAt SECOND ;; pushS x)
       else m <- lift (neg64 n) ;; repM (Z.to_nat m) (x <- popS ;; pushAt SECOND x)) ;;;
      ok
    else reterr EUnspec.

  (** Unefunge98Strategy::instructionBegin, src/Unefunge98Strategy.cpp:184-208. *)
  Definition begin_ : M err :=
    n <- popS ;;
    modSS (fun s => Ok (ss_push s)) ;;;
    (if n >? 0
     then l <- popNAt SECOND (Z.to_nat n) ;; pushLAt TOP (rev l)
     else m <- lift (chk64 (Z.abs n)) ;; repM (Z.to_nat m) (pushAt SECOND 0)) ;;;
    st <- getStorage ;;
    pushVecAt SECOND st ;;;
    p <- getPos ;; d <- getDelta ;; v <- lift (vadd p d) ;;
    ipSetStorage v ;;;
    switchPut 125 ;;; ok.

  (** Unefunge98Strategy::instructionEnd, src/Unefunge98Strategy.cpp:210-238. *)
  Definition end_ : M err :=
    r <- getR ;;
    e <- (if Nat.ltb 1 (ss_size (r_ss r)) then
            n <- popS ;;
            v <- popVecAt SECOND ;;
            ipSetStorage v ;;;
            (if n >? 0
             then l <- popNAt TOP (Z.to_nat n) ;; pushLAt SECOND (rev l)
             else m <- lift (chk64 (Z.abs n)) ;;
                  repM (Z.to_nat m) (popAt SECOND ;;; ret tt)) ;;;
            modSS ss_pop ;;; ok
          else reterr EUnspec) ;;
    switchPut 123 ;;; ret e.

  (** Unefunge98Strategy::instructionFileIn, src/Unefunge98Strategy.cpp:240-260. *)
  Definition fileIn : M err :=
    c <- getC ;;
    if c_fs c then
      path <- popString ;; flags <- popS ;; va0 <- popVec ;;
      st <- getStorage ;; va <- lift (vadd va0 st) ;;
      w <- getW ;;
      match w_fs w path with
      | Some data =>
          log (EvRead path) ;;;
          r <- getR ;;
          df <- lift (f_parse va data (Z.odd flags) (u_field (w_uni w (r_fld r)))) ;;
          modW (upd_uni (r_fld r) (set_u_field (snd df))) ;;;
          pushVec (fst df) ;;; pushVec va ;;; ok
      | None => reterr EUnspec
      end
    else reterr ENotAvail.

  (** Unefunge98Strategy::instructionFileOut, src/Unefunge98Strategy.cpp:262-282. *)
  Definition fileOut : M err :=
    c <- getC ;;
    if c_fs c then
      path <- popString ;; flags <- popS ;; va0 <- popVec ;;
      st <- getStorage ;; va <- lift (vadd va0 st) ;;
      vb <- popVec ;;
      w <- getW ;;
      if w_wr w path then
        r <- getR ;;
        data <- lift (f_dump F va vb (negb (Z.odd flags)) (u_field (w_uni w (r_fld r)))) ;;
        log (EvWrite path data) ;;;
        modW (fun w => set_w_fs (fun p => if bytes_eqb p path then Some data
                                          else w_fs w p) w) ;;; ok
      else reterr EUnspec
    else reterr ENotAvail.

  (** Unefunge98Strategy::instructionLoad, src/Unefunge98Strategy.cpp:309-332. *)
  Definition load_ : M err :=
    c <- getC ;;
    e <- (if c_fing c then
            count <- popS ;; n <- popFing (Z.to_nat count) 0 ;;
            r <- getR ;; w <- getW ;;
            br <- lift (fp_load (w_fl w) n r) ;;
            modR (fun _ => snd br) ;;;
            if fst br then pushS (to_i64 n) ;;; pushS 1 ;;; ok
            else reterr EUnspec
          else reterr ENotAvail) ;;
    switchPut 41 ;;; ret e.

  (** Unefunge98Strategy::instructionUnload, src/Unefunge98Strategy.cpp:334-354. *)
  Definition unload_ : M err :=
    c <- getC ;;
    e <- (if c_fing c then
            count <- popS ;; n <- popFing (Z.to_nat count) 0 ;;
            r <- getR ;;
            modR (fun _ => snd (fp_unload n r)) ;;;
            if fst (fp_unload n r) then ok else reterr EUnspec
          else reterr ENotAvail) ;;
    switchPut 40 ;;; ret e.

  (** [setDelta(a)] if the popped value is 0, else [setDelta(b)]. *)
  Definition ifDelta (a b : vec) : M err :=
    x <- popS ;; ipSetDelta (if x =? 0 then a else b) ;;; ok.

  Definition run_meth (m : meth) : M err :=
    match m with
    (* src/Unefunge93Strategy.cpp:65-114 *)
    | MSkip => reterr ESkip
    | MPush n => pushS n ;;; ok
    | MWest => ipSetDelta VWEST ;;; ok
    | MEast => ipSetDelta VEAST ;;; ok
    | MStop => ipStop ;;; ok
    | MTramp => ipNext ;;; ok
    | MIf => ifDelta VEAST VWEST
    | MGoAway =>
        c <- getC ;;
        r <- uniform 0 (Z.of_nat (c_dims c) * 2 - 1) ;;
        ipSetDelta (axis_dir r) ;;; ok
    (* src/Unefunge93Strategy.cpp:116-193 *)
    | MNot => unop (pure1 (fun a => bz (a =? 0)))
    | MRem => binop (fun b a => if a =? 0 then Ok 0 else rem64 b a)
    | MMul => binop mul64
    | MAdd => binop add64
    | MSub => binop sub64
    | MDiv => binop (fun b a => if a =? 0 then Ok 0 else div64 b a)
    | MGt => binop (pure2 (fun b a => bz (b >? a)))
    | MPop => popS ;;; ok
    | MDup => x <- popS ;; pushS x ;;; pushS x ;;; ok
    | MSwap => a <- popS ;; b <- popS ;; pushS a ;;; pushS b ;;; ok
    | MNumIn => numIn
    | MCharIn => charIn
    (* src/Unefunge93Strategy.cpp:236-239, src/FungeRunner.cpp:182-185 *)
    | MString => modR (fun r => set_r_string true (set_r_end 34 r)) ;;; ok
    (* src/Unefunge93Strategy.cpp:241-269 *)
    | MCharOut => x <- popS ;; out (if x =? 10 then [10] else [to_u8 x]) ;;; ok
    | MNumOut => x <- popS ;; out (dec (to_i32 x) ++ [32]) ;;; ok
    | MGet =>
        v <- popVec ;; st <- getStorage ;; p <- lift (vadd v st) ;;
        r <- getR ;; x <- fget (r_fld r) p ;; pushS x ;;; ok
    | MPut =>
        v <- popVec ;; st <- getStorage ;; p <- lift (vadd v st) ;;
        x <- popS ;; r <- getR ;; fput (r_fld r) p x ;;; ok
    (* src/Unefunge98Strategy.cpp:72-111 *)
    | MSysInfo => n <- popS ;; sysInfo (to_i32 n) ;;; ok
    | MNoop => ok
    | MJumpOver => jumpOver F ;;; reterr ESkip
    | MJumpFwd =>
        j0 <- popS ;; let j := to_i32 j0 in
        (if j <? 0 then ipReflect else ret tt) ;;;
        (* std::abs(INT_MIN) is undefined *)
        a <- lift (if j =? -2147483648 then Bad BadOverflow else Ok (Z.abs j)) ;;
        repM (Z.to_nat a) ipNext ;;;
        (if j <? 0 then ipReflect else ret tt) ;;; ok
    | MReflect => ipReflect ;;; ok
    | MAbsolute => v <- popVec ;; ipSetDelta v ;;; ok
    | MIterate => iterate
    (* src/Unefunge98Strategy.cpp:141-161 *)
    | MQuit => x <- popS ;; killAll (to_i32 x) ;;; ok
    | MThread =>
        c <- getC ;; if c_conc c then cloneRunner ;;; ok else reterr ENotAvail
    | MClear => clearS ;;; ok
    | MUnder => under
    | MBegin => begin_
    | MEnd => end_
    | MFileIn => fileIn
    | MFileOut => fileOut
    (* src/Unefunge98Strategy.cpp:284-307 *)
    | MExec =>
        c <- getC ;;
        if c_exec c then
          cmd <- popString ;; x <- system cmd ;; pushS (to_i32 x) ;;; ok
        else reterr ENotAvail
    | MFetch => ipNext ;;; i <- ipGet ;; pushS (to_i32 i) ;;; ok
    | MStore => ipNext ;;; x <- popS ;; ipPut (to_i8 (to_i32 x)) ;;; ok
    | MLoad => load_
    | MUnload => unload_
    (* src/Befunge93Strategy.cpp:21-38 *)
    | MNorth => ipSetDelta VNORTH ;;; ok
    | MSouth => ipSetDelta VSOUTH ;;; ok
    | MIfV => ifDelta VSOUTH VNORTH
    (* src/Befunge98Strategy.cpp:21-46 *)
    | MLeft => ipLeft ;;; switchPut 93 ;;; ok
    | MRight => ipRight ;;; switchPut 91 ;;; ok
    | MCompare =>
        b <- popS ;; a <- popS ;;
        (if a <? b then ipLeft else if a >? b then ipRight else ret tt) ;;; ok
    (* src/Trefunge98Strategy.cpp:22-47 *)
    | MHigh => c <- getC ;; ipSetDelta (if c_inverthl c then VLOW else VHIGH) ;;; ok
    | MLow => c <- getC ;; ipSetDelta (if c_inverthl c then VHIGH else VLOW) ;;; ok
    | MIfH => ifDelta VHIGH VLOW
    end.

  (** FungeSemantic::operator(), src/include/FungeSemantic.h:31-33. *)
  Definition run_act (a : act) : M err :=
    match a with
    | ABase m => run_meth m
    | AFing n fld c => fp_exec F n fld c
    | AReflect => ipReflect ;;; ok
    end.
End Methods.

(** ** States *)

(** FungeStateString::escape, src/FungeStateString.cpp:21-56: the code pushed. *)
Definition escape_code (i : Z) : Z :=
  if i =? 48 then 0 else if i =? 97 then 7 else if i =? 98 then 8
  else if i =? 116 then 9 else if i =? 110 then 10 else if i =? 118 then 11
  else if i =? 102 then 12 else if i =? 114 then 13 else if i =? 101 then 27
  else i.

(** FungeStateString::execute, src/FungeStateString.cpp:58-88. *)
Definition exec_string (i : Z) : M err :=
  r <- getR ;;
  if i =? r_end r then
    modR (fun r => set_r_string false (set_r_prev 0 r)) ;;; ok
  else
    c <- getC ;;
    match c_str c with
    | StrMultispace => runnerPush i ;;; ok
    | StrSgml =>
        s1 <- lift (isspace_ub i) ;;
        keep <- (if s1 then s2 <- lift (isspace_ub (r_prev r)) ;; ret (negb s2)
                 else ret true) ;;
        if keep : bool then runnerPush i ;;; modR (set_r_prev i) ;;; ok
        else reterr ESkip
    | StrC =>
        if i =? 92 then ipNext ;;; j <- ipGet ;; runnerPush (escape_code j) ;;; ok
        else runnerPush i ;;; ok
    end.

(** FungeStateNormal::execute, src/FungeStateNormal.cpp:46-58. *)
Definition exec_normal (F : positive) (rec : Z -> M err) (i : Z) : M err :=
  r <- getR ;;
  match sem_top i (r_sem r) with
  | None => reterr EUnimp
  | Some x =>
      dive <- isMode MODE_DIVE ;;
      if dive && negb (sm_move x) then reterr ESkip else run_act F rec (sm_act x)
  end.

(** FungeRunner::execute, src/FungeRunner.cpp:162-164.  [D] bounds the nesting
    of [k] within [k]. *)
Fixpoint execute (F : positive) (D : nat) (i : Z) : M err :=
  match D with
  | O => fail BadFuel
  | S D' =>
      r <- getR ;;
      if r_string r then exec_string i else exec_normal F (execute F D') i
  end.

(** Unefunge93Strategy::errorHandler, src/Unefunge93Strategy.cpp:271-289,
    without its message. *)
Definition errorHandler (e : err) : M err :=
  match e with
  | ENone | ESkip | EBlock => ret e
  | EUnimp | ENotAvail | EUnspec => ipReflect ;;; ipNext ;;; ret e
  end.

Definition MODE_DEBUG : Z := 10.

(** One iteration of the do-while loop of FungeRunner::tick,
    src/FungeRunner.cpp:134-159.  The debugger is not modelled here. *)
Definition tick_step (F : positive) (D : nat) (_ : unit) : M (unit + unit) :=
  dbg <- isMode MODE_DEBUG ;;
  if dbg then fail BadUnmodelled
  else
    i <- ipGet ;;
    e <- execute F D i ;;
    r <- getR ;;
    e' <- match e with
          | ENone | ESkip | EBlock => ret e
          | EUnimp | ENotAvail | EUnspec =>
              if r_handler r then errorHandler e else ipNext ;;; ret e
          end ;;
    match e' with
    | ENone => ipNext ;;; ret (inr tt)
    | ESkip => ipNext ;;; ret (inl tt)
    | _ => ret (inr tt)
    end.
(** FungeRunner::tick, src/FungeRunner.cpp:132-160. *)
Definition tick (F : positive) (D : nat) : M unit := loopM F (tick_step F D) tt.

(** Run a computation as the runner with ID [id]. *)
Definition as_runner (id : Z) (m : M unit) (w : world) : res world :=
  match w_run w id with
  | None => Bad BadFreed
  | Some r =>
      match m {| s_w := w; s_r := r |} with
      | Ok (_, s) => Ok (upd_run id (Some (s_r s)) (s_w s))
      | Bad b => Bad b
      end
  end.

(** One iteration of the inner while loop of FungeUniverse::operator() for
    Funge threads, src/FungeUniverse.cpp:124-145, in universe [n]. *)
Definition uni_step (F : positive) (D : nat) (n : nat) (w : world) : res world :=
  match u_queue (w_uni w n) with
  | [] => Ok w
  | id :: _ =>
      match w_run w id with
      | None => Bad BadFreed
      | Some r =>
          w1 <-- (if r_stopped r then Ok w else as_runner id (tick F D) w) ;;
          let w2 := upd_uni n (fun u => set_u_queue (tl (u_queue u)) u) w1 in
          match w_run w2 id with
          | None => Bad BadFreed
          | Some r2 =>
              if Nat.eqb (r_uni r2) n then
                if r_stopped r2 then Ok (upd_run id None w2)
                else Ok (upd_uni n (fun u => set_u_queue (u_queue u ++ [id]) u) w2)
              else Ok w2
          end
      end
  end.

(** An execution: the universes in the order in which their threads complete
    iterations.  Simplification: a tick is one atomic step. *)
Fixpoint uni_run (F : positive) (D : nat) (sched : list nat) (w : world) : res world :=
  match sched with
  | [] => Ok w
  | n :: t => w' <-- uni_step F D n w ;; uni_run F D t w'
  end.
