(** * ><> and *><>: src/FishStrategy.cpp, src/StarfishStrategy.cpp and the parts
    of FungeRunner and FungeStateString seen through them.

    The cells of the stacks are the bit patterns of doubles (DblModel).  A value
    that is popped and pushed again without arithmetic keeps its bit pattern, so
    moves are modelled on the cells themselves. *)

From Coq Require Import ZArith List Bool SpecFloat.
From Verif Require Import Base VectorModel TextModel StackModel FieldModel
  World IpModel LoadModel FingModel CoreModel UniModel DblModel.
Import ListNotations.
Open Scope Z_scope.

(** The private members of FishStrategy (src/include/FishStrategy.h:26-100):
    [regs] with its top first, [file] with the bytes left to read (an ifstream
    that could not be opened is an empty one), [filepath].  [selected] is 0 and
    never changes.  fisherstate and fishercache of StarfishStrategy are
    [r_fish], which has the same observer (src/StarfishStrategy.cpp:158-162,
    src/fingerprint/FingerprintFISH.cpp:146-150). *)
Record fx := { fx_regs : list (bool * Z); fx_file : option bytes; fx_path : bytes }.
Definition set_regs (l : list (bool * Z)) (x : fx) : fx :=
  {| fx_regs := l; fx_file := fx_file x; fx_path := fx_path x |}.
Definition set_file (f : option bytes) (x : fx) : fx :=
  {| fx_regs := fx_regs x; fx_file := f; fx_path := fx_path x |}.
(** The end of FishStrategy::FishStrategy, src/FishStrategy.cpp:17-23, 93. *)
Definition fx0 : fx := {| fx_regs := [(false, 0)]; fx_file := None; fx_path := [] |}.

(** ** Cells *)

(** FishStrategy::push(TOP, n) for a double and for an integer converted to one,
    src/FishStrategy.cpp:478-489. *)
Definition pushD (d : spec_float) : M unit := pushS (bits_of_dbl d).
Definition pushIAt (at_ : sstk -> nat) (n : Z) : M unit :=
  pushAt at_ (bits_of_dbl (dbl_of_int n)).
Definition pushI (n : Z) : M unit := pushIAt TOP n.
(** FishStrategy::pop(index), src/FishStrategy.cpp:454-466, used as a double and
    converted to stack_t. *)
Definition popD : M spec_float := c <- popS ;; ret (dbl_of_bits c).
Definition popIAt (at_ : sstk -> nat) : M Z :=
  c <- popAt at_ ;; lift (dbl_to_i64 (dbl_of_bits c)).
Definition popI : M Z := popIAt TOP.

(** FishStrategy::popVector, src/FishStrategy.cpp:468-476. *)
Fixpoint fishPopVecLoop (at_ : sstk -> nat) (n : nat) (v : vec) : M vec :=
  match n with
  | O => ret v
  | S i => x <- popIAt at_ ;; fishPopVecLoop at_ i (vset v i x)
  end.
Definition fishPopVec (at_ : sstk -> nat) : M vec :=
  c <- getC ;; fishPopVecLoop at_ (c_dims c) [].
(** FishStrategy::pushVector, src/FishStrategy.cpp:491-496. *)
Fixpoint fishPushVecLoop (at_ : sstk -> nat) (n i : nat) (v : vec) : M unit :=
  match n with
  | O => ret tt
  | S n' => pushIAt at_ (vget v i) ;;; fishPushVecLoop at_ n' (S i) v
  end.
Definition fishPushVec (at_ : sstk -> nat) (v : vec) : M unit :=
  c <- getC ;; fishPushVecLoop at_ (c_dims c) 0 v.

(** check_selected and check_stack, src/util/include/FishUtil.h:14, 23: [k] runs
    if the check succeeds. *)
Definition sizeAt (at_ : sstk -> nat) : M Z := onStack at_ (fun k => (stk_size k, k)).
Definition check_selected (x : nat) (k : M err) : M err :=
  r <- getR ;;
  if Nat.leb (ss_size (r_ss r)) x then reterr EUnspec else k.
Definition check_stack (at_ : sstk -> nat) (n : Z) (k : M err) : M err :=
  sz <- sizeAt at_ ;; if sz <? n then reterr EUnspec else k.

(** ** Instructions without private state *)

Definition dims : M Z := c <- getC ;; ret (Z.of_nat (c_dims c)).

(** Add, Sub, Mult and the comparisons, src/FishStrategy.cpp:199-221, 245-267. *)
Definition arith (f : spec_float -> spec_float -> spec_float) : M err :=
  check_stack TOP 2 (x <- popD ;; y <- popD ;; pushD (f y x) ;;; ok).
Definition compare (f : spec_float -> spec_float -> bool) : M err :=
  check_stack TOP 2 (x <- popD ;; y <- popD ;; pushI (bz (f y x)) ;;; ok).

(** instructionDiv and instructionModu, src/FishStrategy.cpp:223-243. *)
Definition fishDiv : M err :=
  check_stack TOP 2
    (x <- popD ;; y <- popD ;;
     if deq x (S754_zero false) then reterr EUnspec else pushD (ddiv y x) ;;; ok).
Definition fishMod : M err :=
  check_stack TOP 2
    (x <- popI ;; y <- popI ;;
     if x =? 0 then reterr EUnspec else z <- lift (rem64 y x) ;; pushI z ;;; ok).

(** instructionDuplicate, Remove, Swap2, Swap3 and Length,
    src/FishStrategy.cpp:274-312. *)
Definition fishDup : M err := check_stack TOP 1 (x <- popS ;; pushS x ;;; pushS x ;;; ok).
Definition fishRemove : M err := check_stack TOP 1 (popS ;;; ok).
Definition fishSwap2 : M err :=
  check_stack TOP 2 (x <- popS ;; y <- popS ;; pushS x ;;; pushS y ;;; ok).
Definition fishSwap3 : M err :=
  check_stack TOP 3
    (x <- popS ;; y <- popS ;; z <- popS ;; pushS x ;;; pushS z ;;; pushS y ;;; ok).
Definition fishLength : M err :=
  check_selected 0 (n <- sizeS ;; pushI n ;;; ok).

(** instructionShiftLeft, ShiftRight and Reverse, src/FishStrategy.cpp:314-353:
    [temp] is the list of popped values, [temp[0]] first.  The accesses
    [temp[len-1]] and [temp[0]] are outside the array if the stack is empty. *)
Definition fishShiftLeft : M err :=
  check_selected 0
    (len <- sizeS ;; temp <- popL (Z.to_nat len) ;;
     match rev temp with
     | [] => fail BadOob
     | x :: t => pushL t ;;; pushS x ;;; ok
     end).
Definition fishShiftRight : M err :=
  check_selected 0
    (len <- sizeS ;; temp <- popL (Z.to_nat len) ;;
     match temp with
     | [] => fail BadOob
     | x :: t => pushS x ;;; pushL (rev t) ;;; ok
     end).
Definition fishReverse : M err :=
  check_selected 0 (len <- sizeS ;; temp <- popL (Z.to_nat len) ;; pushL temp ;;; ok).

(** instructionOutChar and OutInt, src/FishStrategy.cpp:379-396.  A double that is
    not a whole number is printed by [std::cout << x]. *)
Definition fishOutChar : M err :=
  check_stack TOP 1 (x <- popI ;; out [to_u8 x] ;;; ok).
Definition fishOutInt : M err :=
  check_stack TOP 1
    (x <- popD ;; i <- lift (dbl_to_i64 x) ;;
     if deq x (dbl_of_int i) then out (dec i) ;;; ok
     else t <- lift (print_general x) ;; out t ;;; ok).

(** instructionGet and Put, src/FishStrategy.cpp:415-429; the second operand of
    [put] is evaluated after the vector was popped. *)
Definition fishGet : M err :=
  d <- dims ;;
  check_stack TOP d
    (v <- fishPopVec TOP ;; st <- getStorage ;; p <- lift (vadd v st) ;;
     r <- getR ;; x <- fget (r_fld r) p ;; pushI x ;;; ok).
Definition fishPut : M err :=
  d <- dims ;;
  check_stack TOP (d + 1)
    (v <- fishPopVec TOP ;; st <- getStorage ;; p <- lift (vadd v st) ;;
     x <- popI ;; r <- getR ;; fput (r_fld r) p x ;;; ok).

(** The mirrors, src/FishStrategy.cpp:126-164. *)
Definition mirror1 : M err :=
  d <- getDelta ;; ipSetDelta (vset (vset d 1 (vget d 0)) 0 (vget d 1)) ;;; ok.
Definition mirror2 : M err :=
  d <- getDelta ;; x <- lift (neg64 (vget d 0)) ;; y <- lift (neg64 (vget d 1)) ;;
  ipSetDelta (vset (vset d 1 x) 0 y) ;;; ok.
Definition mirrorVert : M err :=
  d <- getDelta ;; x <- lift (neg64 (vget d 0)) ;; ipSetDelta (vset d 0 x) ;;; ok.
Definition mirrorHori : M err :=
  d <- getDelta ;; y <- lift (neg64 (vget d 1)) ;; ipSetDelta (vset d 1 y) ;;; ok.
Definition mirrorAll : M err :=
  d <- getDelta ;; x <- lift (neg64 (vget d 0)) ;; y <- lift (neg64 (vget d 1)) ;;
  ipSetDelta (vset (vset d 0 x) 1 y) ;;; ok.

(** instructionRandom, src/FishStrategy.cpp:166-177. *)
Definition fishRandom : M err :=
  d <- dims ;; r <- uniform 0 (d * 2 - 1) ;;
  ipSetDelta (vset [] (Z.to_nat (Z.shiftr r 1)) (if Z.odd r then -1 else 1)) ;;; ok.
(** instructionConditional and Jump, src/FishStrategy.cpp:184-197. *)
Definition fishCond : M err :=
  check_stack TOP 1
    (x <- popD ;; (if deq x (S754_zero false) then ipNext else ret tt) ;;; ok).
Definition fishJump : M err :=
  d <- dims ;; check_stack TOP d (v <- fishPopVec TOP ;; ipSetPos v ;;; ok).

(** instructionCall and Return, src/StarfishStrategy.cpp:56-72. *)
Definition fishCall : M err :=
  modSS (ss_insert 1) ;;;
  p <- getPos ;; fishPushVec SECOND p ;;;
  d <- dims ;;
  check_stack TOP d (v <- fishPopVec TOP ;; ipSetPos v ;;; ok).
Definition fishReturn : M err :=
  d <- dims ;;
  check_stack SECOND d
    (v <- fishPopVec SECOND ;; ipSetPos v ;;; modSS (ss_remove 1) ;;; ok).

(** instructionFisherman, src/StarfishStrategy.cpp:41-54. *)
Definition fisherman : M err :=
  d <- getDelta ;;
  (if vget d 1 =? 0 then
     sc <- fish_state ;;
     if fst sc then ipSetDelta (mkvec [0; -1]) ;;; set_fisher false
     else ipSetDelta (mkvec [0; 1]) ;;; set_fisher true
   else sc <- fish_state ;; ipSetDelta (snd sc)) ;;; ok.

(** instructionSleep, src/StarfishStrategy.cpp:124-129: the conversion to
    unsigned int is undefined out of its range; the delay is not modelled. *)
Definition fishSleep : M err :=
  check_stack TOP 1
    (x <- popD ;;
     t <- lift (dbl_trunc (dmul (dbl_of_int 1000) (dmul x (dbl_of_int 100)))) ;;
     if (0 <=? t) && (t <? 2 ^ 32) then ok else fail BadOverflow).
(** instructionHour, Minute and Second, src/StarfishStrategy.cpp:131-156. *)
Definition fishTime (i : nat) : M err :=
  tm <- localtime ;; check_selected 0 (pushI (nth i tm 0) ;;; ok).

(** ** Instructions with private state *)

Definition FM : Type := fx -> M (err * fx).
Definition pure (m : M err) : FM := fun x => e <- m ;; ret (e, x).

(** instructionCreateStack, src/FishStrategy.cpp:355-366: [x] is a size_t.  The
    new stack is there before the second check. *)
Fixpoint move_cells (n : nat) (from to : sstk -> nat) : M unit :=
  match n with
  | O => ret tt
  | S n' => c <- popAt from ;; pushAt to c ;;; move_cells n' from to
  end.
Definition fishCreate : FM := fun x =>
  e <- check_stack TOP 1
         (c <- popS ;; n <- lift (dbl_to_u64 (dbl_of_bits c)) ;;
          modSS (ss_insert 0) ;;;
          check_stack SECOND n (move_cells (Z.to_nat n) SECOND TOP ;;; ok)) ;;
  ret (e, match e with ENone => set_regs ((false, 0) :: fx_regs x) x | _ => x end).

(** instructionRemoveStack, src/FishStrategy.cpp:368-377: [stack.pop()] removes
    the topmost stack, whichever is selected; [regs.pop()] of an empty
    std::stack is undefined. *)
Definition fishDestroy : FM := fun x =>
  e <- check_selected 0
         (check_selected 1
            (n <- sizeS ;; move_cells (Z.to_nat n) TOP SECOND ;;;
             modSS ss_pop ;;; ok)) ;;
  match e with
  | ENone => match fx_regs x with
             | [] => fail BadOob
             | _ :: t => ret (e, set_regs t x)
             end
  | _ => ret (e, x)
  end.

(** instructionRegister, src/FishStrategy.cpp:436-452. *)
Definition fishRegister : FM := fun x =>
  match fx_regs x with
  | [] => fail BadOob
  | (true, _) :: t => ret (ENone, set_regs ((false, 0) :: t) x)
  | (false, v0) :: t =>
      sz <- sizeAt TOP ;;
      if sz <? 1 then ret (EUnspec, x)
      else v <- popI ;; ret (ENone, set_regs ((true, v) :: t) x)
  end.

(** instructionIn, src/FishStrategy.cpp:398-413.  The terminal mode is not
    modelled. *)
Definition fishIn : FM := fun x =>
  match fx_file x with
  | None =>
      q <- getchar ;;
      e <- check_selected 0 (pushI (match q with Some c => c | None => -1 end) ;;; ok) ;;
      ret (e, x)
  | Some [] => e <- check_selected 0 (pushI (-1) ;;; ok) ;; ret (e, x)
  | Some (c :: t) =>
      e <- check_selected 0 (pushI c ;;; ok) ;; ret (e, set_file (Some t) x)
  end.

(** instructionFile, src/StarfishStrategy.cpp:92-122: [str += pop(TOP)] converts a
    double to char.  Simplification: paths are compared as byte strings; a
    file that cannot be written is left alone. *)
Fixpoint popChars (n : nat) : M bytes :=
  match n with
  | O => ret []
  | S n' =>
      d <- popD ;; c <- lift (dbl_to_i8 d) ;; t <- popChars n' ;; ret (c :: t)
  end.
Definition fishFile : FM := fun x =>
  c <- getC ;;
  if c_fs c then
    sz <- sizeAt TOP ;;
    if sz <? 1 then ret (EUnspec, x)
    else
      d <- popD ;; n <- lift (dbl_to_u64 d) ;;
      sz <- sizeAt TOP ;;
      if sz <? n then ret (EUnspec, x)
      else
        cs <- popChars (Z.to_nat n) ;;
        match fx_file x with
        | None =>
            let path := rev cs in
            w <- getW ;;
            log (EvRead path) ;;;
            ret (ENone, {| fx_regs := fx_regs x;
                           fx_file := Some (match w_fs w path with Some b => b | None => [] end);
                           fx_path := path |})
        | Some _ =>
            let data := map to_u8 cs in
            w <- getW ;;
            (if w_wr w (fx_path x) then
               log (EvWrite (fx_path x) data) ;;;
               modW (fun w => set_w_fs (fun p => if bytes_eqb p (fx_path x) then Some data
                                                 else w_fs w p) w)
             else ret tt) ;;;
            ret (ENone, set_file None x)
        end
  else ret (ENotAvail, x).

(** ** The instruction table *)

(** The letters bound by FishStrategy (src/FishStrategy.cpp:24-89), [None] if
    there is none: is it a MOVEMENT, and what does it do? *)
Definition fish_sem (c : Z) : option (bool * FM) :=
  let inst m := Some (false, pure m) in
  let move m := Some (true, pure m) in
  if c =? 32 then inst (reterr ESkip)                                  (* ' ' *)
  else if (48 <=? c) && (c <=? 57) then
    inst (check_selected 0 (pushI (c - 48) ;;; ok))                    (* 0-9 *)
  else if (97 <=? c) && (c <=? 102) then
    inst (check_selected 0 (pushI (c - 87) ;;; ok))                    (* a-f *)
  else if c =? 62 then move (ipSetDelta (mkvec [1; 0]) ;;; ok)         (* > *)
  else if c =? 60 then move (ipSetDelta (mkvec [-1; 0]) ;;; ok)        (* < *)
  else if c =? 118 then move (ipSetDelta (mkvec [0; 1]) ;;; ok)        (* v *)
  else if c =? 94 then move (ipSetDelta (mkvec [0; -1]) ;;; ok)        (* ^ *)
  else if c =? 92 then move mirror1                                    (* \ *)
  else if c =? 47 then move mirror2                                    (* / *)
  else if c =? 124 then move mirrorVert                                (* | *)
  else if c =? 95 then move mirrorHori                                 (* _ *)
  else if c =? 35 then move mirrorAll                                  (* # *)
  else if c =? 120 then inst fishRandom                                (* x *)
  else if c =? 33 then inst (ipNext ;;; ok)                            (* ! *)
  else if c =? 63 then inst fishCond                                   (* ? *)
  else if c =? 46 then inst fishJump                                   (* . *)
  else if c =? 43 then inst (arith dadd)                               (* + *)
  else if c =? 45 then inst (arith dsub)                               (* - *)
  else if c =? 42 then inst (arith dmul)                               (* * *)
  else if c =? 44 then inst fishDiv                                    (* , *)
  else if c =? 37 then inst fishMod                                    (* % *)
  else if c =? 61 then inst (compare deq)                              (* = *)
  else if c =? 41 then inst (compare (fun y x => dlt x y))             (* ) *)
  else if c =? 40 then inst (compare dlt)                              (* ( *)
  else if (c =? 39) || (c =? 34) then                                  (* quotes *)
    inst (modR (fun r => set_r_string true (set_r_end c r)) ;;; ok)
  else if c =? 58 then inst fishDup                                    (* : *)
  else if c =? 126 then inst fishRemove                                (* ~ *)
  else if c =? 36 then inst fishSwap2                                  (* $ *)
  else if c =? 64 then inst fishSwap3                                  (* @ *)
  else if c =? 108 then inst fishLength                                (* l *)
  else if c =? 123 then inst fishShiftLeft                             (* { *)
  else if c =? 125 then inst fishShiftRight                            (* } *)
  else if c =? 114 then inst fishReverse                               (* r *)
  else if c =? 91 then Some (false, fishCreate)                        (* [ *)
  else if c =? 93 then Some (false, fishDestroy)                       (* ] *)
  else if c =? 111 then inst fishOutChar                               (* o *)
  else if c =? 110 then inst fishOutInt                                (* n *)
  else if c =? 105 then Some (false, fishIn)                           (* i *)
  else if c =? 38 then Some (false, fishRegister)                      (* & *)
  else if c =? 103 then inst fishGet                                   (* g *)
  else if c =? 112 then inst fishPut                                   (* p *)
  else if c =? 59 then inst (ipStop ;;; ok)                            (* ; *)
  else None.

(** The letters StarfishStrategy adds, src/StarfishStrategy.cpp:22-36. *)
Definition star_sem (c : Z) : option (bool * FM) :=
  let inst m := Some (false, pure m) in
  let move m := Some (true, pure m) in
  if c =? 96 then move fisherman                                       (* ` *)
  else if c =? 67 then inst fishCall                                   (* C *)
  else if c =? 82 then inst fishReturn                                 (* R *)
  else if c =? 117 then move (setMode MODE_DIVE ;;; ok)                (* u *)
  else if c =? 79 then move (clearMode MODE_DIVE ;;; ok)               (* O *)
  else if c =? 73 then inst (modSel ss_increment)                      (* I *)
  else if c =? 68 then inst (modSel ss_decrement)                      (* D *)
  else if c =? 70 then Some (false, fishFile)                          (* F *)
  else if c =? 83 then inst fishSleep                                  (* S *)
  else if c =? 104 then inst (fishTime 0)                              (* h *)
  else if c =? 109 then inst (fishTime 1)                              (* m *)
  else if c =? 115 then inst (fishTime 2)                              (* s *)
  else fish_sem c.
Definition sem_of (star : bool) (c : Z) : option (bool * FM) :=
  if star then star_sem c else fish_sem c.

(** ** States *)

(** FungeStateNormal::execute, src/FungeStateNormal.cpp:46-58. *)
Definition fish_normal (star : bool) (i : Z) : FM := fun x =>
  match sem_of star i with
  | None => ret (EUnimp, x)
  | Some (mv, f) =>
      dive <- isMode MODE_DIVE ;;
      if dive && negb mv then ret (ESkip, x) else f x
  end.

(** FungeStateString::execute, src/FungeStateString.cpp:58-88; runner.push calls
    FishStrategy::push(stack_t), src/FishStrategy.cpp:498-501, which converts the
    character to a double. *)
Definition fish_string (i : Z) : M err :=
  r <- getR ;;
  if i =? r_end r then
    modR (fun r => set_r_string false (set_r_prev 0 r)) ;;; ok
  else
    c <- getC ;;
    match c_str c with
    | StrMultispace => pushI i ;;; ok
    | StrSgml =>
        s1 <- lift (isspace_ub i) ;;
        keep <- (if s1 then s2 <- lift (isspace_ub (r_prev r)) ;; ret (negb s2)
                 else ret true) ;;
        if keep : bool then pushI i ;;; modR (set_r_prev i) ;;; ok
        else reterr ESkip
    | StrC =>
        if i =? 92 then ipNext ;;; j <- ipGet ;; pushI (escape_code j) ;;; ok
        else pushI i ;;; ok
    end.

(** FungeRunner::execute, src/FungeRunner.cpp:162-164. *)
Definition fish_execute (star : bool) (i : Z) : FM := fun x =>
  r <- getR ;;
  if r_string r then e <- fish_string i ;; ret (e, x) else fish_normal star i x.

(** FishStrategy::errorHandler, src/FishStrategy.cpp:503-523, without its
    message. *)
Definition fishError (e : err) : M err :=
  match e with
  | ENone | ESkip | EBlock => ret e
  | EUnimp =>
      dive <- isMode MODE_DIVE ;;
      if dive : bool then ok else killAll 1 ;;; ret e
  | ENotAvail | EUnspec => killAll 1 ;;; ret e
  end.

(** One iteration of the do-while loop of FungeRunner::tick,
    src/FungeRunner.cpp:134-159.  The debugger is not modelled here. *)
Definition fish_tick_step (star : bool) (x : fx) : M (fx + fx) :=
  dbg <- isMode MODE_DEBUG ;;
  if dbg then fail BadUnmodelled
  else
    i <- ipGet ;;
    ex <- fish_execute star i x ;;
    let '(e, x') := ex in
    e' <- fishError e ;;
    match e' with
    | ENone => ipNext ;;; ret (inr x')
    | ESkip => ipNext ;;; ret (inl x')
    | _ => ret (inr x')
    end.
(** FungeRunner::tick, src/FungeRunner.cpp:132-160. *)
Definition fish_tick (star : bool) (F : positive) (x : fx) : M fx :=
  loopM F (fish_tick_step star) x.

(** The scheduler loop of FungeUniverse::operator(),
    src/FungeUniverse.cpp:115-147, for the only IP a ><> program has: tick until
    it is stopped. *)
Definition fish_run_step (star : bool) (F : positive) (x : fx) : M (fx + fx) :=
  r <- getR ;;
  if r_stopped r then ret (inr x) else x' <- fish_tick star F x ;; ret (inl x').
Definition fish_run (star : bool) (F : positive) (x : fx) : M fx :=
  loopM F (fish_run_step star F) x.

(** ** Starting a program *)

(** FungeRunner::FungeRunner(uni, pos, delta) with loadStrategies,
    src/FungeRunner.cpp:22-38, 85-92, and the constructors of the strategies. *)
Definition fish_runner (star : bool) (id : Z) (n : nat) (u : universe) (pos delta : vec)
  : res runner :=
  let r := set_r_handler true (runner_blank id n ss_new []) in
  let r := if star then set_r_fish (Some (false, mkvec [1; 0])) r else r in
  d <-- (if testmode MODE_HOVER u then hover_add (r_delta r) delta else Ok delta) ;;
  Ok (run_setmode (c_mode (u_cfg u)) (observe_delta d (set_r_delta d (set_r_pos pos r)))).
(** createUniverse, src/Funge.cpp:58-101, for a ><> or *><> program. *)
Definition fish_boot (star : bool) (F : positive) (data : bytes) (c : cfg) (w : world)
  : res st :=
  w1 <-- multi_create_file F data c w ;;
  r <-- fish_runner star (w_nrun w1) (w_nuni w) (w_uni w1 (w_nuni w)) (mkvec [0]) (mkvec [1]) ;;
  let w2 := add_runner (w_nuni w) r (set_w_nrun (w_nrun w1 + 1) w1) in
  Ok {| s_w := w2; s_r := run_setmode (c_mode (u_cfg (w_uni w2 (w_nuni w)))) r |}.

(** Run program [data]: what it printed and the exit code.  The configuration is
    that of a .fish or .sf file, src/Funge.cpp:79-86: two dimensions. *)
Definition fish_cfg (star : bool) : cfg :=
  set_c_str StrMultispace
    (set_c_dims 2 (set_c_std (if star then STD_STARFISH else STD_FISH) cfg_default)).
Definition fish_program (star : bool) (F : positive) (data input : bytes)
  : res (bytes * Z) :=
  s <-- fish_boot star F data (fish_cfg star) (world0 input (fun _ => None) (fun _ => 0)) ;;
  match fish_run star F fx0 s with
  | Ok (_, s') => Ok (w_out (s_w s'), u_exit (w_uni (s_w s') (r_uni (s_r s'))))
  | Bad b => Bad b
  end.
