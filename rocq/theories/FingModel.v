(** * Fingerprint instructions: the [execute] functions of
    src/fingerprint/Fingerprint*.cpp.

    [fld] is the universe in which the fingerprint object was constructed: its
    [field] member refers to that universe's Field.  [F] bounds the loops whose
    length depends on contents of Funge-space or on random numbers; running out
    of it is the error value [BadFuel]. *)

From Coq Require Import ZArith List Bool.
From Verif Require Import Base VectorModel TextModel RangeModel StackModel FieldModel
  World IpModel LoadModel DblModel.
Import ListNotations.
Open Scope Z_scope.

(** [b.c_str()] as a C string: what precedes the first NUL. *)
Fixpoint cstr (b : bytes) : bytes :=
  match b with
  | [] => []
  | c :: t => if c =? 0 then [] else c :: cstr t
  end.

Definition ok : M err := ret ENone.
Definition reterr (e : err) : M err := ret e.

(** [Vector::set(n, x)] with an index taken from the stack: an index too large
    to allocate throws.  Simplification: the limit is put at 2^32. *)
Definition vsetZ (v : vec) (n x : Z) : res vec :=
  if (0 <=? n) && (n <? 2 ^ 32) then Ok (vset v (Z.to_nat n) x) else Bad BadThrow.

(** A variable-length array of [n] elements: undefined for negative [n]. *)
Definition vla (n : Z) : M nat :=
  if n <? 0 then fail BadOob else ret (Z.to_nat n).
Definition popL (n : nat) : M (list Z) := popNAt TOP n.
Definition pushL (l : list Z) : M unit := pushLAt TOP l.
(** [for(; i > 0; --i) push(pops[i-1])]: puts popped values back. *)
Definition pushBack (l : list Z) : M unit := pushL (rev l).

(** [for( ; *range != range.end(); ++range) body]. *)
Definition rangeM (F : positive) (a b : vec) (body : vec -> M unit) : M unit :=
  fun s =>
    match range_fold (fun p s => match body p s with
                                 | Ok (_, s') => Ok s'
                                 | Bad e => Bad e
                                 end) F a b s with
    | Ok s' => Ok (tt, s')
    | Bad e => Bad e
    end.

(** Two operands, [a] popped first; push [f b a]. *)
Definition binop (f : Z -> Z -> res Z) : M err :=
  a <- popS ;; b <- popS ;; x <- lift (f b a) ;; pushS x ;;; ok.
Definition unop (f : Z -> res Z) : M err :=
  a <- popS ;; x <- lift (f a) ;; pushS x ;;; ok.
Definition pure2 (f : Z -> Z -> Z) : Z -> Z -> res Z := fun b a => Ok (f b a).
Definition pure1 (f : Z -> Z) : Z -> res Z := fun a => Ok (f a).

(** ** BITW, BOOL *)

(** FingerprintBITW::execute, src/fingerprint/FingerprintBITW.cpp:15-50. *)
Definition bitw_exec (c : Z) : M err :=
  if c =? 65 then binop (pure2 Z.land)
  else if c =? 76 then binop shl64
  else if c =? 78 then unop (pure1 Z.lnot)
  else if c =? 79 then binop (pure2 Z.lor)
  else if c =? 82 then binop shr64
  else if c =? 88 then binop (pure2 Z.lxor)
  else reterr EUnimp.

(** FingerprintBOOL::execute, src/fingerprint/FingerprintBOOL.cpp:15-40: the
    same bitwise operators. *)
Definition bool_exec (c : Z) : M err :=
  if c =? 65 then binop (pure2 Z.land)
  else if c =? 78 then unop (pure1 Z.lnot)
  else if c =? 79 then binop (pure2 Z.lor)
  else if c =? 88 then binop (pure2 Z.lxor)
  else reterr EUnimp.

(** ** BASE *)

(** The digit tables, src/fingerprint/FingerprintBASE.cpp:13-53. *)
Fixpoint zrange (n : nat) (a : Z) : list Z :=
  match n with O => [] | S n' => a :: zrange n' (a + 1) end.
Definition digit_map : list Z :=
  zrange 10 48 ++ zrange 8 65 ++ [74; 75; 77; 78; 80; 81; 82; 83; 84; 86; 87; 88; 89; 90].
Definition base36 : list Z := zrange 10 48 ++ zrange 26 65.
Definition base58 : list Z :=
  zrange 9 49 ++ zrange 8 65 ++ zrange 5 74 ++ zrange 11 80 ++ zrange 11 97 ++ zrange 14 109.
(** Only 54 of the 64 characters have an initialiser, the others are zero. *)
Definition base64 : list Z := zrange 26 65 ++ zrange 26 97 ++ [43; 47] ++ repeat 0 10.
Definition base85 : list Z :=
  zrange 10 48 ++ zrange 26 65 ++ zrange 26 97 ++
  [33; 35; 36; 37; 38; 40; 41; 42; 43; 45; 59; 60; 61; 62; 63; 64; 94; 95; 96;
   123; 124; 123; 126].
(** [base_map], src/fingerprint/FingerprintBASE.cpp:59-62. *)
Definition base_map : list (Z * list Z) :=
  [(36, base36); (58, base58); (64, base64); (85, base85)].

Definition tab_get (t : list Z) (i : Z) : res Z :=
  if (0 <=? i) && (i <? Z.of_nat (length t)) then Ok (nth (Z.to_nat i) t 0)
  else Bad BadOob.

(** FingerprintBASE::printBase, src/fingerprint/FingerprintBASE.cpp:108-127:
    the characters printed; [base] is at least 2, so 64 levels suffice. *)
Fixpoint print_base (fuel : nat) (num base : Z) (low : bool) : res bytes :=
  match fuel with
  | O => Bad BadFuel
  | S f =>
      let digit := Z.rem num base in
      let next := Z.quot num base in
      pre <-- (if next >? 0 then print_base f next base false else Ok []) ;;
      if base <=? 32 then d <-- tab_get digit_map digit ;; Ok (pre ++ [d])
      else match assoc base base_map with
           | Some t => d <-- tab_get t digit ;; Ok (pre ++ [d])
           | None => Ok (pre ++ dec digit ++ if low then [] else [44])
           end
  end.
(** FingerprintBASE::printNum, src/fingerprint/FingerprintBASE.cpp:97-106; the
    base parameter is an unsigned int. *)
Definition print_num (num base0 : Z) : res bytes :=
  let base := to_u32 base0 in
  d <-- (if base >? 1 then print_base 65 num base true
         else Ok (repeat 48 (Z.to_nat num))) ;;
  Ok (d ++ [32]).

(** [std::cin >> str]: skip white space, then take everything up to the next
    white space, which stays. *)
Fixpoint take_word (l : bytes) : bytes * bytes :=
  match l with
  | [] => ([], [])
  | c :: t => if isspace c then ([], l)
              else let (a, b) := take_word t in (c :: a, b)
  end.
Definition cin_word : M bytes :=
  w <- getW ;;
  let (a, b) := take_word (skipws (w_in w)) in
  modW (set_w_in b) ;;; ret (map to_i8 a).

Definition toupper (c : Z) : Z := if (97 <=? c) && (c <=? 122) then c - 32 else c.

(** The for loop of FingerprintBASE::readBase,
    src/fingerprint/FingerprintBASE.cpp:147-153, [n] iterations from index [i]:
    the index found. *)
Fixpoint digit_find (n : nat) (i : Z) (digit : Z) : res (option Z) :=
  match n with
  | O => Ok None
  | S n' => d <-- tab_get digit_map i ;;
            if d =? digit then Ok (Some i) else digit_find n' (i + 1) digit
  end.
(** FingerprintBASE::readBase, src/fingerprint/FingerprintBASE.cpp:141-159: the
    first character is looked up before the string is converted to upper case.
    [num*base] is signed, [+ i] is unsigned 64-bit arithmetic. *)
Fixpoint read_base (fuel : nat) (str : bytes) (num base : Z) : res Z :=
  match fuel with
  | O => Bad BadFuel
  | S f =>
      let digit := nth 0 str 0 in
      let str' := if base <=? 36 then map toupper str else str in
      found <-- digit_find (S (Z.to_nat base)) 0 digit ;;
      match found with
      | None => Ok num
      | Some i =>
          m <-- mul64 num base ;;
          let num' := to_i64 (m + i) in
          match str' with
          | _ :: (_ :: _) as t => read_base f (tl str') num' base
          | _ => Ok num'
          end
      end
  end.
(** FingerprintBASE::readNum, src/fingerprint/FingerprintBASE.cpp:129-139. *)
Definition read_num (str : bytes) (base0 : Z) : res Z :=
  let base := to_u32 base0 in
  if base <=? 1 then Ok (Z.of_nat (length str))
  else if base <=? 32 then read_base (S (length str)) str 0 base
  else Ok 0.

(** FingerprintBASE::execute, src/fingerprint/FingerprintBASE.cpp:65-95. *)
Definition base_exec (c : Z) : M err :=
  if c =? 66 then a <- popS ;; b <- lift (print_num a 2) ;; out b ;;; ok
  else if c =? 72 then a <- popS ;; b <- lift (print_num a 16) ;; out b ;;; ok
  else if c =? 73 then
    b <- popS ;; str <- cin_word ;; n <- lift (read_num str b) ;; pushS n ;;; ok
  else if c =? 78 then
    b <- popS ;; a <- popS ;; o <- lift (print_num a b) ;; out o ;;; ok
  else if c =? 79 then a <- popS ;; b <- lift (print_num a 8) ;; out b ;;; ok
  else reterr EUnimp.

(** ** CPLI *)

(** popComplex, pushComplex, src/fingerprint/FingerprintCPLI.cpp:64-74. *)
Definition popComplex : M (Z * Z) := i <- popS ;; r <- popS ;; ret (r, i).
Definition pushComplex (c : Z * Z) : M unit := pushS (fst c) ;;; pushS (snd c).
Definition cpli_op (f : Z * Z -> Z * Z -> res (Z * Z)) : M err :=
  b <- popComplex ;; a <- popComplex ;; x <- lift (f a b) ;; pushComplex x ;;; ok.
(** [std::complex<int64_t>] arithmetic (libstdc++). *)
Definition cpl_add (a b : Z * Z) : res (Z * Z) :=
  r <-- add64 (fst a) (fst b) ;; i <-- add64 (snd a) (snd b) ;; Ok (r, i).
Definition cpl_sub (a b : Z * Z) : res (Z * Z) :=
  r <-- sub64 (fst a) (fst b) ;; i <-- sub64 (snd a) (snd b) ;; Ok (r, i).
Definition cpl_mul (a b : Z * Z) : res (Z * Z) :=
  x <-- mul64 (fst a) (fst b) ;; y <-- mul64 (snd a) (snd b) ;; r <-- sub64 x y ;;
  u <-- mul64 (fst a) (snd b) ;; v <-- mul64 (snd a) (fst b) ;; i <-- add64 u v ;;
  Ok (r, i).
(** The text of CPLI O, src/fingerprint/FingerprintCPLI.cpp:34-47. *)
Definition cpl_text (a : Z * Z) : bytes :=
  let '(r, i) := a in
  if i =? 0 then dec r ++ [32]
  else if r =? 0 then dec i ++ [105; 32]
  else if i <? 0 then dec r ++ dec i ++ [105; 32]
  else dec r ++ [43] ++ dec i ++ [105; 32].
(** FingerprintCPLI::execute, src/fingerprint/FingerprintCPLI.cpp:15-62.
    D and V compute in floating point: not modelled. *)
Definition cpli_exec (c : Z) : M err :=
  if c =? 65 then cpli_op cpl_add
  else if c =? 68 then fail BadUnmodelled
  else if c =? 77 then cpli_op cpl_mul
  else if c =? 79 then a <- popComplex ;; out (cpl_text a) ;;; ok
  else if c =? 83 then cpli_op cpl_sub
  else if c =? 86 then fail BadUnmodelled
  else reterr EUnimp.

(** ** DIRF *)

(** FingerprintDIRF::execute, src/fingerprint/FingerprintDIRF.cpp:17-44.  The
    directory operations themselves are assumed to succeed and recorded. *)
Definition dirf_exec (c : Z) : M err :=
  if c =? 67 then
    d <- popString ;; w <- getW ;;
    if w_dir w d then log (EvChdir d) ;;; ok else reterr EUnspec
  else if c =? 77 then d <- popString ;; log (EvMkdir d) ;;; ok
  else if c =? 82 then
    d <- popString ;; w <- getW ;;
    if w_dir w d then log (EvRmdir d) ;;; ok else reterr EUnspec
  else reterr EUnimp.

(** ** FING *)

Definition fing_letter (a : Z) : Z := if (0 <=? a) && (a <=? 25) then a + 65 else a.
Definition is_letter (a : Z) : bool := (65 <=? a) && (a <=? 90).
Definition sem_reflect : sem := {| sm_act := AReflect; sm_move := false |}.
Definition or_reflect (x : option sem) : sem :=
  match x with Some s => s | None => sem_reflect end.
Definition modSem (f : (Z -> list sem) -> (Z -> list sem)) : M unit :=
  modR (fun r => set_r_sem (f (r_sem r)) r).

(** FingerprintFING::execute, src/fingerprint/FingerprintFING.cpp:15-84. *)
Definition fing_exec (c : Z) : M err :=
  if c =? 88 then
    a0 <- popS ;; let a := fing_letter a0 in
    if negb (is_letter a) then reterr EUnspec
    else
      b0 <- popS ;; let b := fing_letter b0 in
      if is_letter b then
        r <- getR ;;
        let sema := sem_top a (r_sem r) in
        modSem (sem_pop a) ;;;
        r1 <- getR ;;
        let semb := sem_top b (r_sem r1) in
        modSem (sem_pop b) ;;;
        modSem (sem_push a (or_reflect semb)) ;;;
        modSem (sem_push b (or_reflect sema)) ;;; ok
      else reterr EUnspec
  else if c =? 89 then
    a0 <- popS ;; let a := fing_letter a0 in
    if is_letter a then modSem (sem_pop a) ;;; ok else reterr EUnspec
  else if c =? 90 then
    d0 <- popS ;; let dst := fing_letter d0 in
    if negb (is_letter dst) then reterr EUnspec
    else
      s0 <- popS ;; let src := fing_letter s0 in
      if is_letter src then
        r <- getR ;;
        modSem (sem_push dst (or_reflect (sem_top src (r_sem r)))) ;;; ok
      else reterr EUnspec
  else reterr EUnimp.

(** ** FISH *)

(** FingerprintFISH::execute, src/fingerprint/FingerprintFISH.cpp:30-144. *)
Definition getDelta : M vec := r <- getR ;; ret (r_delta r).
Definition getPos : M vec := r <- getR ;; ret (r_pos r).
Definition getStorage : M vec := r <- getR ;; ret (r_storage r).

Definition fish_state : M (bool * vec) :=
  r <- getR ;;
  match r_fish r with Some x => ret x | None => fail BadNull end.
Definition set_fisher (down : bool) : M unit :=
  modR (fun r => match r_fish r with
                 | Some (_, c) => set_r_fish (Some (down, c)) r
                 | None => r
                 end).
Definition modSel (f : sstk -> option sstk) : M err :=
  r <- getR ;;
  match f (r_ss r) with
  | Some x => modR (set_r_ss x) ;;; ok
  | None => reterr EUnspec
  end.

Definition fish_exec (c : Z) : M err :=
  if c =? 67 then x <- popS ;; (if x =? 0 then ipNext else ret tt) ;;; ok
  else if c =? 68 then modSel ss_decrement
  else if c =? 70 then
    d <- getDelta ;;
    (if vget d 1 =? 0 then
       sc <- fish_state ;;
       if fst sc then ipSetDelta (mkvec [0; -1]) ;;; set_fisher false
       else ipSetDelta (mkvec [0; 1]) ;;; set_fisher true
     else sc <- fish_state ;; ipSetDelta (snd sc)) ;;; ok
  else if c =? 72 then
    d <- getDelta ;; y <- lift (neg64 (vget d 1)) ;; ipSetDelta (vset d 1 y) ;;; ok
  else if c =? 73 then modSel ss_increment
  else if c =? 76 then
    len <- sizeS ;; l <- popL (Z.to_nat len) ;;
    match rev l with
    | [] => fail BadOob
    | x :: t => pushL t ;;; pushS x ;;; ok
    end
  else if c =? 77 then
    d <- getDelta ;; x <- lift (neg64 (vget d 0)) ;; y <- lift (neg64 (vget d 1)) ;;
    ipSetDelta (vset (vset d 1 x) 0 y) ;;; ok
  else if c =? 78 then
    d <- getDelta ;; ipSetDelta (vset (vset d 1 (vget d 0)) 0 (vget d 1)) ;;; ok
  else if c =? 79 then clearMode MODE_DIVE ;;; ok
  else if c =? 82 then
    len <- sizeS ;; l <- popL (Z.to_nat len) ;;
    match l with
    | [] => fail BadOob
    | x :: t => pushS x ;;; pushL (rev t) ;;; ok
    end
  else if c =? 83 then
    len <- sizeS ;; l <- popL (Z.to_nat len) ;; pushL l ;;; ok
  else if c =? 84 then
    x <- popS ;; y <- popS ;; z <- popS ;; pushL [x; z; y] ;;; ok
  else if c =? 85 then setMode MODE_DIVE ;;; ok
  else if c =? 86 then
    d <- getDelta ;; x <- lift (neg64 (vget d 0)) ;; ipSetDelta (vset d 0 x) ;;; ok
  else reterr EUnimp.

(** ** FIXP *)

(** [std::uniform_int_distribution<>(lo, hi)]: the parameters are converted to
    int; an inverted range is undefined. *)
Definition uniform (lo hi : Z) : M Z :=
  x <- rnd ;;
  if to_i32 hi <? to_i32 lo then fail BadThrow
  else ret (to_i32 lo + x mod (to_i32 hi - to_i32 lo + 1)).

(** FingerprintFIXP::execute, src/fingerprint/FingerprintFIXP.cpp:19-109.  The
    trigonometric instructions use functions of the C library: not modelled.
    R ([std::pow]) is modelled where the double result is exact.  Q takes the
    square root of the operand as a double, P multiplies it by the double next to
    pi; both cut off the fraction, which is undefined if the result is no 64-bit
    number. *)
Definition fixp_sqrt (n : Z) : res Z := dbl_to_i64 (dsqrt (dbl_of_int n)).
(** [M_PI], 0x400921FB54442D18. *)
Definition dbl_pi := dbl_of_bits 4614256656552045848.
Definition fixp_pi (n : Z) : res Z := dbl_to_i64 (dmul (dbl_of_int n) dbl_pi).
Definition fixp_pow (a b : Z) : res Z :=
  if 0 <=? b then
    let p := Z.pow a b in
    if Z.abs p <=? 2 ^ 53 then Ok p else Bad BadUnmodelled
  else if a =? 0 then Bad BadOverflow
  else if a =? 1 then Ok 1
  else if a =? -1 then Ok (if Z.even b then 1 else -1)
  else Ok 0.
Definition fixp_exec (c : Z) : M err :=
  if c =? 65 then binop (pure2 Z.land)
  else if c =? 68 then
    n <- popS ;; x <- uniform 0 n ;; pushS x ;;; ok
  else if c =? 78 then unop neg64
  else if c =? 79 then binop (pure2 Z.lor)
  else if c =? 80 then unop fixp_pi
  else if c =? 81 then unop fixp_sqrt
  else if c =? 82 then b <- popS ;; a <- popS ;; x <- lift (fixp_pow a b) ;; pushS x ;;; ok
  else if c =? 83 then unop (pure1 Z.sgn)
  else if c =? 86 then unop (fun n => chk64 (Z.abs n))
  else if c =? 88 then binop (pure2 Z.lxor)
  else if existsb (Z.eqb c) [66; 67; 73; 74; 84; 85] then fail BadUnmodelled
  else reterr EUnimp.

(** ** FRTH *)

(** FingerprintFRTH::execute, src/fingerprint/FingerprintFRTH.cpp:15-72. *)
Definition frth_exec (c : Z) : M err :=
  if c =? 68 then n <- sizeS ;; pushS n ;;; ok
  else if c =? 76 then
    u <- popS ;;
    count <- (if u <? 0 then lift (neg64 u) else ret u) ;;
    len <- lift (add64 count 1) ;;
    n <- vla len ;;
    l <- popL n ;;
    (if u <? 0
     then pushL (firstn 1 l) ;;; pushL (rev (skipn 1 l))
     else pushL (rev (firstn (Z.to_nat count) l)) ;;; pushL (skipn (Z.to_nat count) l)) ;;;
    ok
  else if c =? 79 then
    b <- popS ;; a <- popS ;; pushL [a; b; a] ;;; ok
  else if c =? 80 then
    u <- popS ;;
    if u <? 0 then reterr EUnspec
    else p <- lift (add64 u 1) ;; x <- getS p ;; pushS x ;;; ok
  else if c =? 82 then
    x <- popS ;; b <- popS ;; a <- popS ;; pushL [b; x; a] ;;; ok
  else reterr EUnimp.

(** ** HRTI *)

(** One reading of a clock, in nanoseconds. *)
Definition clock : M Z :=
  fun s => Ok (w_clock (s_w s) (w_nclock (s_w s)),
               {| s_w := set_w_nclock (S (w_nclock (s_w s))) (s_w s); s_r := s_r s |}).
(** FingerprintHRTI::execute, src/fingerprint/FingerprintHRTI.cpp:17-46.  The
    clocks of libstdc++ count nanoseconds, so G gives ceil(0.001) = 1. *)
Definition hrti_exec (c : Z) : M err :=
  if c =? 69 then modR (set_r_mark 0) ;;; ok
  else if c =? 71 then pushS 1 ;;; ok
  else if c =? 77 then t <- clock ;; modR (set_r_mark t) ;;; ok
  else if c =? 83 then t <- clock ;; pushS (Z.rem (Z.quot t 1000) 1000000) ;;; ok
  else if c =? 84 then
    r <- getR ;;
    if r_mark r =? 0 then reterr EUnspec
    else t <- clock ;; d <- lift (sub64 t (r_mark r)) ;; pushS (Z.quot d 1000) ;;; ok
  else reterr EUnimp.

(** ** IIPC *)

(** An operation on [other->getStack().top()]. *)
Definition run_top {A} (f : stk -> A * stk) (r : runner) : res (A * runner) :=
  k <-- ss_top (r_ss r) ;;
  Ok (fst (f k), set_r_ss (ss_set (r_ss r) (ss_sel (r_ss r)) (snd (f k))) r).
Definition on_other_top {A} (id : Z) (f : stk -> A * stk) : M A :=
  r <- find_runner id ;;
  ar <- lift (run_top f r) ;;
  on_runner id (fun _ => snd ar) ;;; ret (fst ar).

(** FingerprintIIPC::execute, src/fingerprint/FingerprintIIPC.cpp:18-73. *)
Definition iipc_exec (c : Z) : M err :=
  if c =? 65 then
    r <- getR ;;
    match r_parent r with
    | None => fail BadNull
    | Some p => q <- find_runner p ;; pushS (r_id q) ;;; ok
    end
  else if c =? 68 then
    age <- ageS ;; r <- getR ;;
    if r_dormant r then
      (if age =? r_sage r then reterr EBlock
       else modR (set_r_dormant false) ;;; ok)
    else modR (fun r => set_r_dormant true (set_r_sage age r)) ;;; reterr EBlock
  else if c =? 71 then
    id <- popS ;; o <- getRunner (to_u64 id) ;;
    match o with
    | None => reterr EUnspec
    | Some i => x <- on_other_top i stk_pop ;; pushS x ;;; ok
    end
  else if c =? 73 then r <- getR ;; pushS (r_id r) ;;; ok
  else if c =? 76 then
    id <- popS ;; o <- getRunner (to_u64 id) ;;
    match o with
    | None => reterr EUnspec
    | Some i => x <- on_other_top i (fun k => (stk_peek k, k)) ;; pushS x ;;; ok
    end
  else if c =? 80 then
    id <- popS ;; v <- popS ;; o <- getRunner (to_u64 id) ;;
    match o with
    | None => reterr EUnspec
    | Some i => on_other_top i (fun k => (tt, stk_push v k)) ;;; ok
    end
  else reterr EUnimp.

(** ** JSTR *)

(** The loops of FingerprintJSTR::execute, src/fingerprint/FingerprintJSTR.cpp:24-27,
    34-37. *)
Fixpoint jstr_get (n : nat) (fld : nat) (pos vd : vec) : M unit :=
  match n with
  | O => ret tt
  | S n' => x <- fget fld pos ;; pushS x ;;;
            p <- lift (vadd pos vd) ;; jstr_get n' fld p vd
  end.
Fixpoint jstr_put (n : nat) (fld : nat) (pos vd : vec) : M unit :=
  match n with
  | O => ret tt
  | S n' => x <- popS ;; fput fld pos x ;;;
            p <- lift (vadd pos vd) ;; jstr_put n' fld p vd
  end.
(** FingerprintJSTR::execute, src/fingerprint/FingerprintJSTR.cpp:16-43. *)
Definition jstr_exec (fld : nat) (c : Z) : M err :=
  if c =? 71 then
    n <- popS ;; va <- popVec ;; vd <- popVec ;;
    st <- getStorage ;; pos <- lift (vadd va st) ;;
    pushS 0 ;;; jstr_get (Z.to_nat n) fld pos vd ;;; ok
  else if c =? 80 then
    n <- popS ;; va <- popVec ;; vd <- popVec ;;
    st <- getStorage ;; pos <- lift (vadd va st) ;;
    jstr_put (Z.to_nat n) fld pos vd ;;; ok
  else reterr EUnimp.

(** ** LONG

    third_party/bigint, which defines [bigint<uint64_t>], is an empty submodule
    in this checkout.  It is modelled as a signed two's-complement 128-bit
    integer whose operations wrap around; [(h, l)] is [h * 2^64 + l]. *)
Definition long_of (h l : Z) : Z := to_i64 h * 2 ^ 64 + to_u64 l.
Definition long_hi (n : Z) : Z := to_i64 (n / 2 ^ 64).
Definition long_lo (n : Z) : Z := to_i64 n.
Definition to_i128 (n : Z) : Z := wrap 128 n.
(** popLong, pushLong, src/fingerprint/FingerprintLONG.cpp:107-116. *)
Definition popLong : M Z := l <- popS ;; h <- popS ;; ret (long_of h l).
Definition pushLong (n : Z) : M unit := pushS (long_hi n) ;;; pushS (long_lo n).
Definition long_op (f : Z -> Z -> res Z) : M err :=
  b <- popLong ;; a <- popLong ;; x <- lift (f a b) ;; pushLong x ;;; ok.
Definition long_shift (a n : Z) (left : bool) : res Z :=
  if (0 <=? n) && (n <? 128)
  then Ok (to_i128 (if left then Z.shiftl a n else Z.shiftr a n))
  else Bad BadShift.
(** FingerprintLONG::execute, src/fingerprint/FingerprintLONG.cpp:16-105. *)
Definition long_exec (c : Z) : M err :=
  if c =? 65 then long_op (fun a b => Ok (to_i128 (a + b)))
  else if c =? 66 then a <- popLong ;; pushLong (to_i128 (Z.abs a)) ;;; ok
  else if c =? 68 then
    long_op (fun a b => Ok (if b =? 0 then 0 else to_i128 (Z.quot a b)))
  else if c =? 69 then
    n <- popS ;; pushLong (long_of (if n <? 0 then -1 else 0) n) ;;; ok
  else if c =? 76 then
    n <- popS ;; a <- popLong ;; x <- lift (long_shift a n true) ;; pushLong x ;;; ok
  else if c =? 77 then long_op (fun a b => Ok (to_i128 (a * b)))
  else if c =? 78 then a <- popLong ;; pushLong (to_i128 (- a)) ;;; ok
  else if c =? 79 then
    long_op (fun a b => Ok (if b =? 0 then 0 else to_i128 (Z.rem a b)))
  else if c =? 80 then a <- popLong ;; out (dec a ++ [32]) ;;; ok
  else if c =? 82 then
    n <- popS ;; a <- popLong ;; x <- lift (long_shift a n false) ;; pushLong x ;;; ok
  else if c =? 83 then long_op (fun a b => Ok (to_i128 (a + b)))
  else if c =? 90 then
    str <- popString ;;
    pushLong (fold_left (fun l a => to_i128 (to_i128 (l * 10) + (a - 48))) str 0) ;;; ok
  else reterr EUnimp.

(** ** MODE *)

(** FingerprintMODE::execute, src/fingerprint/FingerprintMODE.cpp:16-34. *)
Definition mode_exec (c : Z) : M err :=
  if c =? 72 then toggleMode MODE_HOVER ;;; ok
  else if c =? 73 then toggleMode MODE_INVERT ;;; ok
  else if c =? 81 then toggleMode MODE_QUEUE ;;; ok
  else if c =? 83 then toggleMode MODE_SWITCH ;;; ok
  else reterr EUnimp.

(** ** MVRS *)

(** FingerprintMVRS::copySpace, src/fingerprint/FingerprintMVRS.cpp:119-125,
    from the Field of universe [us] to that of [ud]. *)
Definition mvrs_copy (F : positive) (us : nat) (src sz : vec) (ud : nat) (dest : vec)
  : M unit :=
  rangeM F (mkvec [0]) sz (fun p =>
    a <- lift (vadd src p) ;; i <- fget us a ;;
    b <- lift (vadd dest p) ;; fput ud b i).

(** The configuration MVRS B gives to a new universe,
    src/fingerprint/FingerprintMVRS.cpp:53-57. *)
Definition mvrs_cfg (name : bytes) (dim : nat) (std mode : Z) : cfg :=
  set_c_mode mode (set_c_std std (set_c_dims dim (set_c_name name cfg_default))).

(** FingerprintMVRS::execute, src/fingerprint/FingerprintMVRS.cpp:18-117. *)
Definition mvrs_exec (F : positive) (c : Z) : M err :=
  if c =? 66 then
    dim0 <- popS ;; lng <- popS ;; fl0 <- popS ;; name <- popString ;;
    cf <- getC ;;
    let dim := if dim0 =? 0 then Z.of_nat (c_dims cf) else dim0 in
    let fl := to_u32 fl0 in
    let mode := if fl =? 0 then c_mode cf else fl in
    if negb (fl =? 0) && negb (Z.land fl 511 =? 0) then reterr EUnspec
    else
      let go std :=
        if (dim <? 0) || (2 ^ 32 <=? dim) then fail BadThrow
        else
          w <- getW ;;
          w' <- lift (multi_create F (mvrs_cfg name (Z.to_nat dim) std mode) w) ;;
          modW (fun _ => w') ;;; ok in
      if lng =? 0 then go (c_std cf)
      else if lng =? 1 then go STD_93
      else if lng =? 2 then go STD_98
      else reterr EUnspec
  else if c =? 67 then w <- getW ;; pushS (Z.of_nat (w_nuni w)) ;;; ok
  else if c =? 70 then
    size <- popVec ;; src <- popVecN 3 ;; dest <- popVec ;; name <- popString ;;
    w <- getW ;; r <- getR ;;
    match multi_find name w with
    | None => reterr EUnspec
    | Some n => mvrs_copy F n src size (r_uni r) dest ;;; ok
    end
  else if c =? 71 then
    delta <- popVecN 3 ;; pos <- popVecN 3 ;; name <- popString ;;
    w <- getW ;;
    match multi_find name w with
    | None => reterr EUnspec
    | Some n => transferRunner n ;;; ipSetPos pos ;;; ipSetDelta delta ;;; ok
    end
  else if c =? 74 then
    name <- popString ;; w <- getW ;;
    match multi_find name w with
    | None => reterr EUnspec
    | Some n => transferRunner n ;;; ok
    end
  else if c =? 78 then cf <- getC ;; pushString (c_name cf) ;;; ok
  else if c =? 80 then
    size <- popVec ;; src <- popVec ;; dest <- popVecN 3 ;; name <- popString ;;
    w <- getW ;; r <- getR ;;
    match multi_find name w with
    | None => reterr EUnspec
    | Some n => mvrs_copy F (r_uni r) src size n dest ;;; ok
    end
  else reterr EUnimp.

(** ** NFUN *)

(** [getUniverse().dimensions(dim)] when it grows,
    src/fingerprint/FingerprintNFUN.cpp:104-106. *)
Definition grow_dims (dim : nat) : M unit :=
  modU (fun u => if Nat.ltb (c_dims (u_cfg u)) dim
                 then set_u_cfg (set_c_dims dim (u_cfg u)) u else u).
Definition nfun_go (v : vec) (dim : nat) : M err := ipSetDelta v ;;; grow_dims dim ;;; ok.
Definition nfun_if (d : nat) : M err :=
  x <- popS ;; nfun_go (mkvec (repeat 0 d ++ [if x =? 0 then 1 else -1])) (S d).
Definition nfun_inv (a : Z) : M err :=
  c <- getC ;; nfun_go (mkvec [0; 0; 0; 0; if c_inverthl c then - a else a]) 5.
Definition nfun_axis (n x : Z) : M err :=
  v <- lift (vsetZ [] n x) ;; nfun_go v (Z.to_nat n).
(** FingerprintNFUN::execute, src/fingerprint/FingerprintNFUN.cpp:17-108.  [B]
    is announced but has no case. *)
Definition nfun_exec (c : Z) : M err :=
  if c =? 65 then nfun_go (mkvec [0; 0; 0; -1]) 4
  else if c =? 67 then nfun_go (mkvec [0; 0; 0; 0; 0; -1]) 6
  else if c =? 68 then nfun_go (mkvec [0; 0; 0; 0; 0; 1]) 6
  else if c =? 72 then nfun_inv 1
  else if c =? 73 then nfun_if 3
  else if c =? 76 then nfun_inv (-1)
  else if c =? 77 then nfun_if 4
  else if c =? 82 then nfun_if 5
  else if c =? 86 then nfun_go (mkvec [0; 0; 0; 1]) 4
  else if c =? 88 then
    n <- popS ;; x <- popS ;; nfun_axis n (if x =? 0 then 1 else -1)
  else if c =? 89 then n <- popS ;; nfun_axis n (-1)
  else if c =? 90 then n <- popS ;; nfun_axis n 1
  else reterr EUnimp.

(** ** ORTH *)

(** FingerprintORTH::execute, src/fingerprint/FingerprintORTH.cpp:16-84. *)
Definition orth_exec (fld : nat) (c : Z) : M err :=
  if c =? 65 then binop (pure2 Z.land)
  else if c =? 69 then binop (pure2 Z.lxor)
  else if c =? 71 then
    x <- popS ;; y <- popS ;; i <- fget fld (mkvec [x; y]) ;; pushS i ;;; ok
  else if c =? 79 then binop (pure2 Z.lor)
  else if c =? 80 then
    x <- popS ;; y <- popS ;; i <- popS ;; fput fld (mkvec [x; y]) i ;;; ok
  else if c =? 83 then str <- popString ;; out (map to_u8 str ++ [10]) ;;; ok
  else if c =? 86 then dx <- popS ;; d <- getDelta ;; ipSetDelta (vset d 0 dx) ;;; ok
  else if c =? 87 then dy <- popS ;; d <- getDelta ;; ipSetDelta (vset d 1 dy) ;;; ok
  else if c =? 88 then x <- popS ;; p <- getPos ;; ipSetPos (vset p 0 x) ;;; ok
  else if c =? 89 then y <- popS ;; p <- getPos ;; ipSetPos (vset p 1 y) ;;; ok
  else if c =? 90 then z <- popS ;; (if z =? 0 then ipNext else ret tt) ;;; ok
  else reterr EUnimp.

(** ** PERL *)

(** [system(cmd.c_str())]. *)
Definition system (cmd : bytes) : M Z :=
  log (EvSystem (cstr cmd)) ;;;
  fun s => Ok (w_sys (s_w s) (w_nsys (s_w s)),
               {| s_w := set_w_nsys (S (w_nsys (s_w s))) (s_w s); s_r := s_r s |}).
(** [std::quoted]. *)
Definition quoted (b : bytes) : bytes :=
  [34] ++ flat_map (fun c => if (c =? 34) || (c =? 92) then [92; c] else [c]) b ++ [34].
(** "exit(eval{", "})" and "perl -e ". *)
Definition str_exit : bytes := [101; 120; 105; 116; 40; 101; 118; 97; 108; 123].
Definition str_close : bytes := [125; 41].
Definition str_perl : bytes := [112; 101; 114; 108; 32; 45; 101; 32].
(** FingerprintPERL::perl, src/fingerprint/FingerprintPERL.cpp:46-52. *)
Definition perl (code : bytes) : M Z :=
  x <- system (str_perl ++ quoted (str_exit ++ code ++ str_close)) ;;
  ret (Z.shiftr (to_i32 x) 8).
(** FingerprintPERL::execute, src/fingerprint/FingerprintPERL.cpp:18-44. *)
Definition perl_exec (c : Z) : M err :=
  if c =? 69 then
    cf <- getC ;;
    if c_exec cf then code <- popString ;; e <- perl code ;; pushString (dec e) ;;; ok
    else reterr EUnspec
  else if c =? 73 then
    cf <- getC ;;
    if c_exec cf then code <- popString ;; e <- perl code ;; pushS e ;;; ok
    else reterr EUnspec
  else if c =? 83 then pushS 1 ;;; ok
  else reterr EUnimp.

(** ** REFC *)

(** One iteration of the search for an unused reference,
    src/fingerprint/FingerprintREFC.cpp:22-27: [random()] gives a value below
    2^31. *)
Definition refc_try (_ : unit) : M (unit + Z) :=
  x <- rnd ;; w <- getW ;;
  let r := x mod 2 ^ 31 in
  match assoc r (w_refs w) with
  | Some _ => ret (inl tt)
  | None => ret (inr r)
  end.
(** FingerprintREFC::execute, src/fingerprint/FingerprintREFC.cpp:18-43. *)
Definition refc_exec (F : positive) (c : Z) : M err :=
  if c =? 82 then
    v <- popVec ;; r <- loopM F refc_try tt ;;
    modW (fun w => set_w_refs ((r, v) :: w_refs w) w) ;;; pushS r ;;; ok
  else if c =? 68 then
    r <- popS ;; w <- getW ;;
    match assoc r (w_refs w) with
    | Some v => pushVec v ;;; ok
    | None => ok
    end
  else reterr EUnimp.

(** ** STRN *)

(** [std::string::compare]: the sign follows from comparing as unsigned char;
    glibc's memcmp returns the difference of the first differing bytes. *)
Fixpoint str_compare (a b : bytes) : Z :=
  match a, b with
  | [], [] => 0
  | [], _ => - Z.of_nat (length b)
  | _, [] => Z.of_nat (length a)
  | x :: a', y :: b' =>
      if to_u8 x =? to_u8 y then str_compare a' b' else to_u8 x - to_u8 y
  end.
Fixpoint is_prefix (p s : bytes) : bool :=
  match p, s with
  | [], _ => true
  | _, [] => false
  | x :: p', y :: s' => (x =? y) && is_prefix p' s'
  end.
(** [upper.substr(upper.find(bottom))]. *)
Fixpoint str_find (p s : bytes) : option bytes :=
  if is_prefix p s then Some s
  else match s with
       | [] => None
       | _ :: t => str_find p t
       end.
(** [std::getline(std::cin, str)]. *)
Fixpoint take_line (l : bytes) : bytes * bytes :=
  match l with
  | [] => ([], [])
  | c :: t => if c =? 10 then ([], t)
              else let (a, b) := take_line t in (c :: a, b)
  end.
(** [std::stoi]: white space, optional sign, at least one digit; other input
    or a value outside int throws. *)
Fixpoint stoi_digits (l : bytes) (acc : Z) : Z :=
  match l with
  | c :: t => if isdigit c then stoi_digits t (acc * 10 + (c - 48)) else acc
  | [] => acc
  end.
Definition stoi (s : bytes) : res Z :=
  let s1 := skipws s in
  let '(neg, s2) := match s1 with
                    | c :: t => if c =? 45 then (true, t)
                                else if c =? 43 then (false, t) else (false, s1)
                    | [] => (false, [])
                    end in
  match s2 with
  | c :: _ =>
      if isdigit c then
        let v := stoi_digits s2 0 in
        let v := if neg then - v else v in
        if (-2147483648 <=? v) && (v <=? 2147483647) then Ok v else Bad BadThrow
      else Bad BadThrow
  | [] => Bad BadThrow
  end.
(** The loop of STRN G, src/fingerprint/FingerprintSTRN.cpp:47-49. *)
Definition strn_get_step (fld : nat) (vs : vec * bytes) : M ((vec * bytes) + bytes) :=
  i <- fget fld (fst vs) ;;
  if i =? 0 then ret (inr (snd vs))
  else p <- lift (vadd (fst vs) (mkvec [1])) ;; ret (inl (p, snd vs ++ [to_i8 i])).
(** The loop of STRN P, src/fingerprint/FingerprintSTRN.cpp:89-93. *)
Fixpoint strn_put (fld : nat) (va : vec) (str : bytes) : M unit :=
  match str with
  | [] => fput fld va 0
  | c :: t => fput fld va c ;;; p <- lift (vadd va (mkvec [1])) ;; strn_put fld p t
  end.
(** FingerprintSTRN::execute, src/fingerprint/FingerprintSTRN.cpp:16-119. *)
Definition strn_exec (F : positive) (fld : nat) (c : Z) : M err :=
  if c =? 65 then
    up <- popString ;; bot <- popString ;; pushString (up ++ bot) ;;; ok
  else if c =? 67 then
    up <- popString ;; bot <- popString ;; pushS (str_compare up bot) ;;; ok
  else if c =? 68 then str <- popString ;; out (map to_u8 str) ;;; ok
  else if c =? 70 then
    up <- popString ;; bot <- popString ;;
    match str_find bot up with
    | Some s => pushString s ;;; ok
    | None => pushS 0 ;;; ok
    end
  else if c =? 71 then
    va0 <- popVec ;; st <- getStorage ;; va <- lift (vadd va0 st) ;;
    str <- loopM F (strn_get_step fld) (va, []) ;; pushString str ;;; ok
  else if c =? 73 then
    w <- getW ;;
    let (a, b) := take_line (w_in w) in
    modW (set_w_in b) ;;; pushString (map to_i8 a) ;;; ok
  else if c =? 76 then
    n <- popS ;;
    if n <? 0 then reterr EUnspec
    else str <- popString ;; pushString (firstn (Z.to_nat n) str) ;;; ok
  else if c =? 77 then
    n <- popS ;; s <- popS ;;
    if (n <? 0) || (s <? 0) then reterr EUnspec
    else
      str <- popString ;;
      if s >? Z.of_nat (length str) then reterr EUnspec
      else pushString (firstn (Z.to_nat n) (skipn (Z.to_nat s) str)) ;;; ok
  else if c =? 78 then
    str <- popString ;; pushString str ;;; pushS (Z.of_nat (length str)) ;;; ok
  else if c =? 80 then
    va0 <- popVec ;; st <- getStorage ;; va <- lift (vadd va0 st) ;;
    str <- popString ;; strn_put fld va str ;;; ok
  else if c =? 82 then
    n <- popS ;;
    if n <? 0 then reterr EUnspec
    else
      str <- popString ;;
      let len := Z.of_nat (length str) in
      let n' := if n >? len then len else n in
      pushString (skipn (Z.to_nat (len - n')) str) ;;; ok
  else if c =? 83 then n <- popS ;; pushString (dec n) ;;; ok
  else if c =? 86 then str <- popString ;; n <- lift (stoi str) ;; pushS n ;;; ok
  else reterr EUnimp.

(** ** SUBR *)

(** FingerprintSUBR::execute, src/fingerprint/FingerprintSUBR.cpp:17-69. *)
Definition subr_offset (va : vec) : M vec :=
  r <- getR ;; if r_offset r then lift (vadd va (r_pos r)) else ret va.
Definition subr_exec (c : Z) : M err :=
  if c =? 65 then modR (set_r_offset false) ;;; ok
  else if c =? 67 then
    n0 <- popS ;; va <- popVec ;; n <- vla n0 ;; l <- popL n ;;
    p <- getPos ;; pushVec p ;;; d <- getDelta ;; pushVec d ;;; pushBack l ;;;
    va' <- subr_offset va ;;
    t <- lift (vsub va' (mkvec [1])) ;;
    ipSetPos t ;;; ipSetDelta (mkvec [1]) ;;; ok
  else if c =? 74 then
    va <- popVec ;; va' <- subr_offset va ;; ipSetPos va' ;;; ipSetDelta (mkvec [1]) ;;; ok
  else if c =? 79 then modR (set_r_offset true) ;;; ok
  else if c =? 82 then
    n0 <- popS ;; n <- vla n0 ;; l <- popL n ;;
    vd <- popVec ;; va <- popVec ;; pushBack l ;;;
    ipSetPos va ;;; ipSetDelta vd ;;; ok
  else reterr EUnimp.

(** ** TOYS *)

(** FingerprintTOYS::sizeToRange, src/fingerprint/FingerprintTOYS.cpp:279-291:
    the loop over [size.size()], which is re-read because [set] may shrink the
    vector; [None] is [false]. *)
Fixpoint size_to_range_loop (fuel d : nat) (size : vec) : option vec :=
  match fuel with
  | O => Some size
  | S f =>
      if Nat.ltb d (vsize size) then
        let s := vget size d in
        if s >? 0 then size_to_range_loop f (S d) (vset size d (s - 1))
        else if s <? 0 then size_to_range_loop f (S d) (vset size d (s + 1))
        else None
      else Some size
  end.
Definition size_to_range (size : vec) : option vec :=
  size_to_range_loop (S (vsize size)) 0 size.

(** FingerprintTOYS::copySpace, src/fingerprint/FingerprintTOYS.cpp:256-277. *)
Definition toys_copy (F : positive) (fld : nat) (src sz dest : vec) (low move : bool)
  : M unit :=
  match size_to_range sz with
  | None => ret tt
  | Some bound =>
      let '(a, b) := if low then (mkvec [0], bound) else (bound, mkvec [0]) in
      rangeM F a b (fun p =>
        s <- lift (vadd src p) ;; i <- fget fld s ;;
        d <- lift (vadd dest p) ;; fput fld d i ;;;
        if move then fput fld s 32 else ret tt)
  end.
Definition toys_copy_instr (F : positive) (fld : nat) (low move : bool) : M err :=
  dest <- popVec ;; size <- popVec ;; src <- popVec ;;
  toys_copy F fld src size dest low move ;;; ok.

(** [while(size() > 0) acc = f(acc, pop())]. *)
Fixpoint toys_fold (n : nat) (f : Z -> Z -> res Z) (acc : Z) : M Z :=
  match n with
  | O => ret acc
  | S n' => x <- popS ;; a <- lift (f acc x) ;; toys_fold n' f a
  end.

(** The cell beside the IP read by L and R,
    src/fingerprint/FingerprintTOYS.cpp:105-111, 144-150. *)
Definition toys_side (fld : nat) (turn : vec -> res vec) : M err :=
  d0 <- getDelta ;; d <- lift (turn d0) ;; p <- getPos ;; v <- lift (vadd p d) ;;
  a <- fget fld v ;; pushS a ;;; ok.
(** X, Y, Z, src/fingerprint/FingerprintTOYS.cpp:227-249. *)
Definition toys_inc (d : nat) : M err :=
  p <- getPos ;; x <- lift (add64 (vget p d) 1) ;; ipSetPos (vset p d x) ;;; ok.
Definition toys_arrow (r : Z) : Z :=
  nth (Z.to_nat r) [62; 60; 118; 94; 104; 108] 63.
Definition axis_dir (r : Z) : vec :=
  vset [] (Z.to_nat (Z.shiftr r 1)) (if Z.testbit r 0 then -1 else 1).

(** FingerprintTOYS::execute, src/fingerprint/FingerprintTOYS.cpp:25-254. *)
Definition toys_exec (F : positive) (fld : nat) (c : Z) : M err :=
  if c =? 65 then
    n <- popS ;; a <- popS ;; repM (Z.to_nat n) (pushS a) ;;; ok
  else if c =? 66 then
    b <- popS ;; a <- popS ;; x <- lift (add64 a b) ;; pushS x ;;;
    y <- lift (sub64 a b) ;; pushS y ;;; ok
  else if c =? 67 then toys_copy_instr F fld true false
  else if c =? 68 then unop (fun a => sub64 a 1)
  else if c =? 69 then
    n <- sizeS ;; x <- toys_fold (Z.to_nat n) add64 0 ;; pushS x ;;; ok
  else if c =? 70 then
    dest <- popVec ;; size <- popVec ;;
    match size_to_range size with
    | None => ok
    | Some b => rangeM F (mkvec [0]) b (fun p =>
                  d <- lift (vadd dest p) ;; x <- popS ;; fput fld d x) ;;; ok
    end
  else if c =? 71 then
    src <- popVec ;; size <- popVec ;;
    match size_to_range size with
    | None => ok
    | Some b => rangeM F b (mkvec [0]) (fun p =>
                  s <- lift (vadd src p) ;; x <- fget fld s ;; pushS x) ;;; ok
    end
  else if c =? 72 then
    b <- popS ;; a <- popS ;;
    x <- (if b >? 0 then lift (shl64 a b)
          else nb <- lift (neg64 b) ;; lift (shr64 a nb)) ;;
    pushS x ;;; ok
  else if c =? 73 then unop (fun a => add64 a 1)
  else if c =? 74 then
    n <- popS ;;
    if n =? 0 then ok
    else
      w <- getW ;; p <- getPos ;;
      let f := u_field (w_uni w fld) in
      let lo := f_min f 1 in let hi := f_max f 1 in let x := vget p 0 in
      h0 <- lift (sub64 hi lo) ;; h <- lift (add64 h0 1) ;; t <- lift (add64 lo n) ;;
      toys_copy F fld (mkvec [x; lo]) (mkvec [1; h]) (mkvec [x; t]) (n <? 0) true ;;; ok
  else if c =? 75 then toys_copy_instr F fld false false
  else if c =? 76 then toys_side fld vleft
  else if c =? 77 then toys_copy_instr F fld true true
  else if c =? 78 then unop (pure1 (fun a => bz (a =? 0)))
  else if c =? 79 then
    n <- popS ;;
    if n =? 0 then ok
    else
      w <- getW ;; p <- getPos ;;
      let f := u_field (w_uni w fld) in
      let lo := f_min f 0 in let hi := f_max f 0 in let y := vget p 1 in
      h0 <- lift (sub64 hi lo) ;; h <- lift (add64 h0 1) ;; t <- lift (add64 lo n) ;;
      toys_copy F fld (mkvec [lo; y]) (mkvec [h; 1]) (mkvec [t; y]) (n <? 0) true ;;; ok
  else if c =? 80 then
    n <- sizeS ;; x <- toys_fold (Z.to_nat n) mul64 1 ;; pushS x ;;; ok
  else if c =? 81 then
    d0 <- getDelta ;; d <- lift (vrev d0) ;; p <- getPos ;; v <- lift (vadd p d) ;;
    a <- popS ;; fput fld v a ;;; ok
  else if c =? 82 then toys_side fld vright
  else if c =? 83 then
    dest <- popVec ;; size <- popVec ;; i <- popS ;;
    match size_to_range size with
    | None => ok
    | Some b => rangeM F (mkvec [0]) b (fun p =>
                  d <- lift (vadd dest p) ;; fput fld d i) ;;; ok
    end
  else if c =? 84 then
    n <- popS ;; x <- popS ;;
    v <- lift (vsetZ [] (to_u64 n) (if x =? 0 then 1 else -1)) ;;
    cf <- getC ;;
    if Z.of_nat (c_dims cf) >? to_u64 n then ipSetDelta v ;;; ok
    else reterr EUnspec
  else if c =? 85 then
    x <- rnd ;; cf <- getC ;;
    let d := Z.of_nat (Nat.min (c_dims cf) 3) * 2 in
    if d =? 0 then fail BadDiv
    else
      let r := (x mod 2 ^ 63) mod d in
      ipPut (toys_arrow r) ;;; ipSetDelta (axis_dir r) ;;; ok
  else if c =? 86 then toys_copy_instr F fld false true
  else if c =? 87 then
    v <- popVec ;; value <- popS ;; cell <- fget fld v ;;
    if cell <? value then pushS value ;;; pushVec v ;;; reterr EBlock
    else if cell >? value then ipReflect ;;; ok
    else ok
  else if c =? 88 then toys_inc 0
  else if c =? 89 then
    cf <- getC ;; if Nat.ltb 1 (c_dims cf) then toys_inc 1 else reterr EUnspec
  else if c =? 90 then
    cf <- getC ;; if Nat.ltb 2 (c_dims cf) then toys_inc 2 else reterr EUnspec
  else reterr EUnimp.

(** ** FPDP and FPSP *)

(** FingerprintFloat<double>::execute,
    src/fingerprint/include/FingerprintFloat.h:26-140, with the casts of lines
    143-149.  The casts read the bytes of one type as another; that the language
    forbids this between types of equal size is not modelled.  B C E G H K L T X Y call functions of the C library: not modelled. *)
Definition fpdp_exec (c : Z) : M err :=
  let two f := b <- popS ;; a <- popS ;;
               pushS (bits_of_dbl (f (dbl_of_bits a) (dbl_of_bits b))) ;;; ok in
  let one f := n <- popS ;; pushS (bits_of_dbl (f (dbl_of_bits n))) ;;; ok in
  if c =? 65 then two dadd
  else if c =? 68 then two ddiv
  else if c =? 70 then n <- popS ;; pushS (bits_of_dbl (dbl_of_int n)) ;;; ok
  else if c =? 73 then n <- popS ;; x <- lift (dbl_to_i64 (dbl_of_bits n)) ;; pushS x ;;; ok
  else if c =? 77 then two dmul
  else if c =? 78 then one dneg
  else if c =? 80 then
    n <- popS ;; t <- lift (print_fixed (dbl_of_bits n)) ;; out (t ++ [32]) ;;; ok
  else if c =? 81 then one dsqrt
  else if c =? 82 then
    s <- popString ;; d <- lift (stod s) ;; pushS (bits_of_dbl d) ;;; ok
  else if c =? 83 then two dsub
  else if c =? 86 then one dabs
  else if existsb (Z.eqb c) [66; 67; 69; 71; 72; 75; 76; 84; 88; 89] then fail BadUnmodelled
  else reterr EUnimp.

(** FingerprintFloat<float>::execute: as above with [float].  Pushing a [float]
    (line 148) reads eight bytes from an object of four, outside of it, so that all
    instructions but I and P are undefined. *)
Definition fpsp_exec (c : Z) : M err :=
  if c =? 73 then n <- popS ;; x <- lift (dbl_to_i64 (flt_of_bits n)) ;; pushS x ;;; ok
  else if c =? 80 then
    n <- popS ;; t <- lift (print_fixed (flt_of_bits n)) ;; out (t ++ [32]) ;;; ok
  else if c =? 82 then s <- popString ;; d <- lift (stod s) ;; fail BadOob
  else if existsb (Z.eqb c) [65; 68; 77; 83; 89] then a <- popS ;; b <- popS ;; fail BadOob
  else if existsb (Z.eqb c) [66; 67; 69; 70; 71; 72; 75; 76; 78; 81; 84; 86; 88]
       then n <- popS ;; fail BadOob
  else reterr EUnimp.

(** ** FPRT *)

(** What [snprintf] is given beside the format: a double, a 64-bit integer or a
    string. *)
Inductive arg := ADbl (d : SpecFloat.spec_float) | ALong (n : Z) | AStr (s : bytes).

(** The digits of an unsigned number in base [b], as [%lu], [%lo], [%lx] and [%lX]
    write it; [h] is added to the digits from 10 up. *)
Fixpoint radix_loop (b h : Z) (fuel : nat) (n : Z) (acc : bytes) : bytes :=
  match fuel with
  | O => acc
  | S f =>
      let d := n mod b in
      let acc' := (if d <? 10 then 48 + d else h + d) :: acc in
      if n / b =? 0 then acc' else radix_loop b h f (n / b) acc'
  end.
Definition radix_text (b h n : Z) : bytes := radix_loop b h (S (Z.to_nat (Z.log2 n))) n [].

(** The flags - 0 + and space, the width and the precision of a conversion, as
    [snprintf] reads them, src/fingerprint/FingerprintFPRT.cpp:24,36,47,60,71; [None] for
    a character that is none of them.  Flags come before the width, and the precision
    after a point. *)
Record fspec := { fs_left : bool; fs_zero : bool; fs_plus : bool; fs_space : bool;
                  fs_width : option Z; fs_prec : option Z }.
Definition no_spec : fspec :=
  {| fs_left := false; fs_zero := false; fs_plus := false; fs_space := false; fs_width := None; fs_prec := None |}.
Definition set_width (p : fspec) (w : Z) : fspec :=
  {| fs_left := fs_left p; fs_zero := fs_zero p; fs_plus := fs_plus p; fs_space := fs_space p;
     fs_width := Some w; fs_prec := fs_prec p |}.
Definition set_prec (p : fspec) (q : Z) : fspec :=
  {| fs_left := fs_left p; fs_zero := fs_zero p; fs_plus := fs_plus p; fs_space := fs_space p;
     fs_width := fs_width p; fs_prec := Some q |}.
Definition set_flags (p : fspec) (l z pl sp : bool) : fspec :=
  {| fs_left := fs_left p || l; fs_zero := fs_zero p || z; fs_plus := fs_plus p || pl; fs_space := fs_space p || sp;
     fs_width := fs_width p; fs_prec := fs_prec p |}.
Definition spec_step (p : fspec) (k : Z) : option fspec :=
  match fs_prec p with
  | Some q => if isdigit k then Some (set_prec p (q * 10 + (k - 48))) else None
  | None =>
      if k =? 46 then Some (set_prec p 0)
      else match fs_width p with
           | Some w => if isdigit k then Some (set_width p (w * 10 + (k - 48))) else None
           | None =>
               if k =? 45 then Some (set_flags p true false false false)
               else if k =? 48 then Some (set_flags p false true false false)
               else if k =? 43 then Some (set_flags p false false true false)
               else if k =? 32 then Some (set_flags p false false false true)
               else if isdigit k then Some (set_width p (k - 48))
               else None
           end
  end.
(** At least as many digits of [n] as the precision says (same lines). *)
Definition min_digits (p : fspec) (n : Z) (t : bytes) : bytes :=
  match fs_prec p with
  | None => t
  | Some q => if (n =? 0) && (q =? 0) then [] else repeat 48 (Z.to_nat q - length t) ++ t
  end.
Definition no_prec (p : fspec) : bool := match fs_prec p with None => true | Some _ => false end.
(** The sign of a number, as [snprintf] writes it (same lines). *)
Definition sign_text (p : fspec) (neg : bool) : bytes :=
  if neg then [45] else if fs_plus p then [43] else if fs_space p then [32] else [].
(** Does the flag 0 apply to the double, and is it negative? *)
Definition finite_double (d : SpecFloat.spec_float) : bool :=
  match d with SpecFloat.S754_zero _ | SpecFloat.S754_finite _ _ _ => true | _ => false end.
Definition negative_double (d : SpecFloat.spec_float) : bool :=
  match d with
  | SpecFloat.S754_zero s | SpecFloat.S754_infinity s | SpecFloat.S754_finite s _ _ => s
  | SpecFloat.S754_nan => false
  end.
(** A sign and what follows it, made as long as the width says (same
    lines); [z]: the flag 0 applies. *)
Definition pad (p : fspec) (z : bool) (sg body : bytes) : bytes :=
  let gap := (Z.to_nat (match fs_width p with Some w => w | None => 0 end) - length (sg ++ body))%nat in
  if fs_left p then sg ++ body ++ repeat 32 gap
  else if fs_zero p && z then sg ++ repeat 48 gap ++ body
  else repeat 32 gap ++ sg ++ body.

(** The text [snprintf] makes.  A conversion without an argument of its type left
    reads something that was not passed, so that it is undefined: d, i, u, o, x, X
    and c (integers of 32 bits, never passed), f e g a (doubles), s, p and n
    (pointers) and l with an integer conversion.  Simplification: the flag #, flags
    other than - with s, widths and precisions from 2^20 up, precisions with g, and
    e a p for an argument of their type are not modelled. *)
Fixpoint fprt_text (f : bytes) (a : option arg) : res bytes :=
  match f with
  | [] => Ok []
  | c :: t =>
      if c =? 37 then
        match t with
        | [] => Bad BadUnmodelled
        | k :: u =>
            if k =? 37 then r <-- fprt_text u a ;; Ok (37 :: r)
            else if k =? 102 then
              match a with
              | Some (ADbl d) => x <-- print_fixed d ;; r <-- fprt_text u None ;; Ok (x ++ r)
              | _ => Bad BadOob
              end
            else if k =? 115 then
              match a with
              | Some (AStr s) => r <-- fprt_text u None ;; Ok (s ++ r)
              | _ => Bad BadOob
              end
            else if k =? 108 then
              match u with
              | e :: v =>
                  if (e =? 100) || (e =? 105) then
                    match a with
                    | Some (ALong n) => r <-- fprt_text v None ;; Ok (dec n ++ r)
                    | _ => Bad BadOob
                    end
                  else if existsb (Z.eqb e) [117; 111; 120; 88] then
                    match a with
                    | Some (ALong n) =>
                        r <-- fprt_text v None ;;
                        Ok (radix_text (if e =? 117 then 10 else if e =? 111 then 8 else 16)
                              (if e =? 88 then 55 else 87) (to_u64 n) ++ r)
                    | _ => Bad BadOob
                    end
                  else Bad BadUnmodelled
              | [] => Bad BadUnmodelled
              end
            else if k =? 112 then
              match a with Some (AStr _) => Bad BadUnmodelled | _ => Bad BadOob end
            else if existsb (Z.eqb k) [100; 105; 117; 111; 120; 88; 99; 110] then Bad BadOob
            else if k =? 103 then
              match a with
              | Some (ADbl d) => x <-- print_general d ;; r <-- fprt_text u None ;; Ok (x ++ r)
              | _ => Bad BadOob
              end
            else if existsb (Z.eqb k) [101; 69; 71; 97; 65] then
              match a with Some (ADbl _) => Bad BadUnmodelled | _ => Bad BadOob end
            else
              (fix wide (p : fspec) (g : bytes) {struct g} : res bytes :=
                 match g with
                 | [] => Bad BadUnmodelled
                 | k :: u =>
                     match spec_step p k with
                     | Some p' => wide p' u
                     | None =>
                         if 2 ^ 20 <=? match fs_width p with Some w => w | None => 0 end then Bad BadUnmodelled
                         else if 2 ^ 20 <=? match fs_prec p with Some q => q | None => 0 end then Bad BadUnmodelled
                         else if k =? 102 then
                           match a with
                           | Some (ADbl d) =>
                               x <-- match fs_prec p with None => print_fixed d | Some q => print_decimals (Z.to_nat q) d end ;;
                               r <-- fprt_text u None ;;
                               Ok (pad p (finite_double d) (sign_text p (negative_double d))
                                     (if negative_double d then tl x else x) ++ r)
                           | _ => Bad BadOob
                           end
                         else if k =? 115 then
                           match a with
                           | Some (AStr s) =>
                               if fs_zero p || fs_plus p || fs_space p then Bad BadUnmodelled
                               else
                                 r <-- fprt_text u None ;;
                                 Ok (pad p false [] (match fs_prec p with None => s | Some q => firstn (Z.to_nat q) s end) ++ r)
                           | _ => Bad BadOob
                           end
                         else if k =? 103 then
                           match a with
                           | Some (ADbl d) =>
                               if no_prec p then
                                 x <-- print_general d ;; r <-- fprt_text u None ;;
                                 Ok (pad p (finite_double d) (sign_text p (negative_double d))
                                       (if negative_double d then tl x else x) ++ r)
                               else Bad BadUnmodelled
                           | _ => Bad BadOob
                           end
                         else if k =? 108 then
                           match u with
                           | e :: v =>
                               if (e =? 100) || (e =? 105) then
                                 match a with
                                 | Some (ALong n) =>
                                     r <-- fprt_text v None ;;
                                     Ok (pad p (no_prec p) (sign_text p (n <? 0)) (min_digits p n (dec (Z.abs n))) ++ r)
                                 | _ => Bad BadOob
                                 end
                               else if existsb (Z.eqb e) [117; 111; 120; 88] then
                                 match a with
                                 | Some (ALong n) =>
                                     r <-- fprt_text v None ;;
                                     Ok (pad p (no_prec p) [] (min_digits p n
                                           (radix_text (if e =? 117 then 10 else if e =? 111 then 8 else 16)
                                              (if e =? 88 then 55 else 87) (to_u64 n))) ++ r)
                                 | _ => Bad BadOob
                                 end
                               else Bad BadUnmodelled
                           | [] => Bad BadUnmodelled
                           end
                         else Bad BadUnmodelled
                     end
                 end) no_spec t
        end
      else r <-- fprt_text t a ;; Ok (c :: r)
  end.
(** [snprintf(str, sizeof(str), ...)] and [std::string(str)]: at most 1023 bytes. *)
Definition fprt_format (f : bytes) (a : arg) : res bytes :=
  r <-- fprt_text (cstr f) (Some a) ;; Ok (firstn 1023 r).

(** FingerprintFPRT::execute, src/fingerprint/FingerprintFPRT.cpp:15-79. *)
Definition fprt_exec (c : Z) : M err :=
  let put f a := t <- lift (fprt_format f a) ;; pushString t ;;; ok in
  if c =? 68 then n <- popS ;; f <- popString ;; put f (ADbl (dbl_of_bits n))
  else if c =? 70 then n <- popS ;; f <- popString ;; put f (ADbl (flt_of_bits n))
  else if c =? 73 then n <- popS ;; f <- popString ;; put f (ALong n)
  else if c =? 76 then
    l <- popS ;; h <- popS ;; f <- popString ;;
    put f (ALong (to_i64 (h * 2 ^ 32 + l mod 2 ^ 32)))
  else if c =? 83 then s <- popString ;; f <- popString ;; put f (AStr (cstr s))
  else reterr EUnimp.

(** ** Dispatch on the fingerprint object

    DBUG binds no instruction, so it is never called. *)
Definition fp_exec (F : positive) (n : Z) (fld : nat) (c : Z) : M err :=
  if n =? FP_BASE then base_exec c
  else if n =? FP_BITW then bitw_exec c
  else if n =? FP_BOOL then bool_exec c
  else if n =? FP_CPLI then cpli_exec c
  else if n =? FP_DIRF then dirf_exec c
  else if n =? FP_FING then fing_exec c
  else if n =? FP_FISH then fish_exec c
  else if n =? FP_FIXP then fixp_exec c
  else if n =? FP_FPDP then fpdp_exec c
  else if n =? FP_FPRT then fprt_exec c
  else if n =? FP_FPSP then fpsp_exec c
  else if n =? FP_FRTH then frth_exec c
  else if n =? FP_HRTI then hrti_exec c
  else if n =? FP_IIPC then iipc_exec c
  else if n =? FP_JSTR then jstr_exec fld c
  else if n =? FP_LONG then long_exec c
  else if n =? FP_MODE then mode_exec c
  else if n =? FP_MVRS then mvrs_exec F c
  else if n =? FP_NFUN then nfun_exec c
  else if n =? FP_ORTH then orth_exec fld c
  else if n =? FP_PERL then perl_exec c
  else if n =? FP_REFC then refc_exec F c
  else if n =? FP_STRN then strn_exec F fld c
  else if n =? FP_SUBR then subr_exec c
  else if n =? FP_TOYS then toys_exec F fld c
  else fail BadUnmodelled.
