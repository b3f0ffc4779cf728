(** * The doubles of ><> and *><>: FishStrategy keeps every value as the bit
    pattern of an IEEE 754 [double] in a 64-bit cell
    (src/FishStrategy.cpp:454-466, 478-489).

    The arithmetic is the specification of binary64 in Coq's standard library
    (Coq.Floats.SpecFloat, plain definitions, no primitive floats): on the
    modelled platform g++ compiles [double] arithmetic to the SSE2 instructions,
    which round to nearest, ties to even. *)

From Coq Require Import ZArith List Bool SpecFloat.
From Verif Require Import Base TextModel.
Import ListNotations.
Open Scope Z_scope.

Definition PREC : Z := 53.
Definition EMAX : Z := 1024.

(** [*reinterpret_cast<double*>(&n)], src/FishStrategy.cpp:465: the layout of a
    binary64, sign in bit 63, biased exponent in bits 52 to 62, fraction below. *)
Definition dbl_of_bits (n : Z) : spec_float :=
  let u := to_u64 n in
  let s := Z.testbit u 63 in
  let e := (u / 2 ^ 52) mod 2 ^ 11 in
  let m := u mod 2 ^ 52 in
  if e =? 0 then
    match m with Zpos p => S754_finite s p (-1074) | _ => S754_zero s end
  else if e =? 2047 then
    if m =? 0 then S754_infinity s else S754_nan
  else
    match m + 2 ^ 52 with Zpos p => S754_finite s p (e - 1075) | _ => S754_nan end.

(** The three fields put together as a signed cell. *)
Definition dbl_pack (s : bool) (e m : Z) : Z :=
  to_i64 (bz s * 2 ^ 63 + e * 2 ^ 52 + m).

(** [*reinterpret_cast<stack_t*>(&n)], src/FishStrategy.cpp:479.
    Simplification: every NaN that arithmetic makes is the same quiet NaN; its
    sign and payload, which the hardware chooses, are not modelled. *)
Definition bits_of_dbl (d : spec_float) : Z :=
  match d with
  | S754_zero s => dbl_pack s 0 0
  | S754_infinity s => dbl_pack s 2047 0
  | S754_nan => dbl_pack false 2047 (2 ^ 51)
  | S754_finite s m e =>
      if Zpos m <? 2 ^ 52 then dbl_pack s 0 (Zpos m)
      else dbl_pack s (e + 1075) (Zpos m - 2 ^ 52)
  end.

(** The implicit conversion of an integer to [double], as in [push(TOP, n)]
    (src/FishStrategy.cpp:102). *)
Definition dbl_of_int (n : Z) : spec_float := binary_normalize PREC EMAX n 0 false.

(** The fraction dropped: the whole part of a finite double. *)
Definition dbl_trunc (d : spec_float) : res Z :=
  match d with
  | S754_zero _ => Ok 0
  | S754_finite s m e =>
      let a := if 0 <=? e then Zpos m * 2 ^ e else Zpos m / 2 ^ (- e) in
      Ok (if s then - a else a)
  | _ => Bad BadOverflow
  end.
(** Conversions of a [double] to an integer type: undefined if the whole part
    does not fit ([stack_t x = pop(TOP)], src/FishStrategy.cpp:236; [size_t x =
    pop(TOP)], 357; [str += pop(TOP)], src/StarfishStrategy.cpp:101). *)
Definition dbl_to_i64 (d : spec_float) : res Z := x <-- dbl_trunc d ;; chk64 x.
Definition dbl_to_u64 (d : spec_float) : res Z :=
  x <-- dbl_trunc d ;;
  if (0 <=? x) && (x <? 2 ^ 64) then Ok x else Bad BadOverflow.
Definition dbl_to_i8 (d : spec_float) : res Z :=
  x <-- dbl_trunc d ;;
  if (-128 <=? x) && (x <=? 127) then Ok x else Bad BadOverflow.

(** [y + x], [y - x], [y * x] and [y / x] on doubles. *)
Definition dadd (y x : spec_float) : spec_float := SFadd PREC EMAX y x.
Definition dsub (y x : spec_float) : spec_float := SFsub PREC EMAX y x.
Definition dmul (y x : spec_float) : spec_float := SFmul PREC EMAX y x.
Definition ddiv (y x : spec_float) : spec_float := SFdiv PREC EMAX y x.
(** [y == x], [y < x] on doubles. *)
Definition deq (y x : spec_float) : bool := SFeqb y x.
Definition dlt (y x : spec_float) : bool := SFltb y x.

(** ** The rest of the arithmetic, for FPDP and FIXP *)

(** [-n], [std::abs(n)] and [std::sqrt(n)]
    (src/fingerprint/include/FingerprintFloat.h:89-93, 98-102, 120-124).  On the
    modelled platform [std::sqrt] is the instruction sqrtsd, which rounds
    correctly.  The other functions of the C library (sin, log, pow, ...) are not
    correctly rounded and not modelled. *)
Definition dneg (x : spec_float) : spec_float := SFopp x.
Definition dabs (x : spec_float) : spec_float := SFabs x.
Definition dsqrt (x : spec_float) : spec_float := SFsqrt PREC EMAX x.

(** [*reinterpret_cast<float*>(&n)] (FingerprintFloat.h:144): the low 32 bits of the
    cell, since the platform is little-endian, as a binary32. *)
Definition flt_of_bits (n : Z) : spec_float :=
  let u := to_u64 n mod 2 ^ 32 in
  let s := Z.testbit u 31 in
  let e := (u / 2 ^ 23) mod 2 ^ 8 in
  let m := u mod 2 ^ 23 in
  if e =? 0 then
    match m with Zpos p => S754_finite s p (-149) | _ => S754_zero s end
  else if e =? 255 then
    if m =? 0 then S754_infinity s else S754_nan
  else
    match m + 2 ^ 23 with Zpos p => S754_finite s p (e - 150) | _ => S754_nan end.

(** ** Doubles as text *)

(** The quotient of two integers, [d > 0], rounded to nearest, ties to even: glibc's
    printf computes decimal digits exactly and rounds so. *)
Definition div_even (n d : Z) : Z :=
  let q := n / d in
  let r := n mod d in
  if 2 * r <? d then q
  else if d <? 2 * r then q + 1
  else if Z.even q then q else q + 1.

(** A positive finite double as a fraction of two positive integers. *)
Definition dbl_num (m : positive) (e : Z) : Z := Zpos m * 2 ^ Z.max 0 e.
Definition dbl_den (e : Z) : Z := 2 ^ Z.max 0 (- e).

(** The last [k] decimal digits of [n]. *)
Fixpoint last_digits (k : nat) (n : Z) : bytes :=
  match k with
  | O => []
  | S k' => last_digits k' (n / 10) ++ [48 + n mod 10]
  end.

Definition minus (s : bool) : bytes := if s then [45] else [].

(** [std::cout << std::fixed << std::setprecision(6) << n], FingerprintFloat.h:96:
    printf's %.6f.  The sign of a NaN is not modelled, so printing one is not. *)
Definition print_fixed (d : spec_float) : res bytes :=
  match d with
  | S754_zero s => Ok (minus s ++ [48; 46; 48; 48; 48; 48; 48; 48])
  | S754_infinity s => Ok (minus s ++ [105; 110; 102])
  | S754_nan => Bad BadUnmodelled
  | S754_finite s m e =>
      let q := div_even (dbl_num m e * 10 ^ 6) (dbl_den e) in
      Ok (minus s ++ dec (q / 10 ^ 6) ++ [46] ++ last_digits 6 q)
  end.

(** The same with [k] decimals, printf's %.*f, FingerprintFPRT.cpp:24,36. *)
Definition print_decimals (k : nat) (d : spec_float) : res bytes :=
  let point l := match k with O => [] | _ => 46 :: l end in
  match d with
  | S754_zero s => Ok (minus s ++ 48 :: point (repeat 48 k))
  | S754_infinity s => Ok (minus s ++ [105; 110; 102])
  | S754_nan => Bad BadUnmodelled
  | S754_finite s m e =>
      let q := div_even (dbl_num m e * 10 ^ Z.of_nat k) (dbl_den e) in
      Ok (minus s ++ dec (q / 10 ^ Z.of_nat k) ++ point (last_digits k q))
  end.

(** [while(back == '0') drop it], as %g does with the digits of a fraction. *)
Fixpoint strip_zeros (l : bytes) : bytes :=
  match l with
  | [] => []
  | c :: t => match strip_zeros t with
              | [] => if c =? 48 then [] else [c]
              | t' => c :: t'
              end
  end.
Definition fraction (l : bytes) : bytes :=
  match strip_zeros l with [] => [] | l' => 46 :: l' end.

(** The decimal exponent of [n / d]: the [x] with 10^x <= n/d < 10^(x+1). *)
Definition dec_exp (n d : Z) : Z :=
  if d <=? n then Z.of_nat (length (dec (n / d))) - 1
  else - Z.of_nat (length (dec ((d - 1) / n))).

(** Six significant digits [q] of [n / d] and the exponent of the first: the digits
    printf's %.5e shows. *)
Definition six_digits (n d : Z) : Z * Z :=
  let x := dec_exp n d in
  let q := if x <=? 5 then div_even (n * 10 ^ (5 - x)) d
           else div_even n (d * 10 ^ (x - 5)) in
  if q =? 10 ^ 6 then (10 ^ 5, x + 1) else (q, x).

(** [std::cout << x] (src/FishStrategy.cpp:393) with the stream's initial settings:
    printf's %.6g.  Simplification: FPDP's P, which changes the settings of
    [std::cout] for the whole process, is not available to a ><> program. *)
Definition print_general (d : spec_float) : res bytes :=
  match d with
  | S754_zero s => Ok (minus s ++ [48])
  | S754_infinity s => Ok (minus s ++ [105; 110; 102])
  | S754_nan => Bad BadUnmodelled
  | S754_finite s m e =>
      let '(q, x) := six_digits (dbl_num m e) (dbl_den e) in
      Ok (minus s ++
        if (x <? -4) || (6 <=? x) then
          (* scientific: d.ddddde-xx, at least two digits of exponent *)
          dec (q / 10 ^ 5) ++ fraction (last_digits 5 q) ++
          [101; if x <? 0 then 45 else 43] ++
          (if Z.abs x <? 10 then [48] else []) ++ dec (Z.abs x)
        else if 0 <=? x then
          dec (q / 10 ^ (5 - x)) ++ fraction (last_digits (Z.to_nat (5 - x)) q)
        else
          [48] ++ fraction (repeat 48 (Z.to_nat (- x - 1)) ++ last_digits 6 q))
  end.

(** ** Text as doubles *)

(** The decimal digits at the front: their value, their number, and the rest. *)
Fixpoint take_digits (l : bytes) (acc : Z) (n : nat) : Z * nat * bytes :=
  match l with
  | c :: t => if isdigit c then take_digits t (acc * 10 + (c - 48)) (S n) else (acc, n, l)
  | [] => (acc, n, [])
  end.
Definition take_sign (l : bytes) : bool * bytes :=
  match l with
  | c :: t => if c =? 45 then (true, t) else if c =? 43 then (false, t) else (false, l)
  | [] => (false, [])
  end.
(** The optional exponent: ignored if no digit follows the e. *)
Definition take_exp (l : bytes) : Z :=
  match l with
  | c :: t =>
      if (c =? 101) || (c =? 69) then
        let '(neg, t1) := take_sign t in
        let '(v, _, _) := take_digits t1 0 0 in
        if neg then - v else v
      else 0
  | [] => 0
  end.

(** [v * 10 ^ k], [v > 0], correctly rounded to a double. *)
Definition dbl_of_decimal (s : bool) (v : positive) (k : Z) : spec_float :=
  if 0 <=? k then binary_round PREC EMAX s (v * Z.to_pos (10 ^ k)) 0
  else
    let '(m, e, l) := SFdiv_core_binary PREC EMAX (Zpos v) 0 (10 ^ (- k)) 0 in
    binary_round_aux PREC EMAX s m e l.

(** glibc's [strtod] reports a result as out of range, and [std::stod] throws, if it is
    infinite, or below the smallest normal double and not exactly the number
    [num / den] that was read (a result of 0 included).  Simplification: numbers less
    than 2^-1075 below the smallest normal double are taken to be in range. *)
Definition in_range (num den : Z) (d : spec_float) : res spec_float :=
  match d with
  | S754_finite s m e =>
      if (Zpos m <? 2 ^ 52) && negb (num * 2 ^ Z.max 0 (- e) =? Zpos m * den * 2 ^ Z.max 0 e)
      then Bad BadThrow else Ok (S754_finite s m e)
  | _ => Bad BadThrow
  end.

(** Hexadecimal digits, as [take_digits]. *)
Definition hex_value (c : Z) : option Z :=
  if isdigit c then Some (c - 48)
  else if (97 <=? c) && (c <=? 102) then Some (c - 87)
  else if (65 <=? c) && (c <=? 70) then Some (c - 55)
  else None.
Fixpoint take_hex (l : bytes) (acc : Z) (n : nat) : Z * nat * bytes :=
  match l with
  | c :: t => match hex_value c with
              | Some x => take_hex t (acc * 16 + x) (S n)
              | None => (acc, n, l)
              end
  | [] => (acc, n, [])
  end.
(** The exponent after a p. *)
Definition take_pexp (l : bytes) : Z :=
  match l with
  | c :: t =>
      if (c =? 112) || (c =? 80) then
        let '(neg, t1) := take_sign t in
        let '(v, _, _) := take_digits t1 0 0 in
        if neg then - v else v
      else 0
  | [] => 0
  end.
(** The part of [strtod] after 0x: if no hexadecimal digit follows, the number is the
    0 before the x. *)
Definition stod_hex (neg : bool) (s : bytes) : res spec_float :=
  let '(v1, n1, s2) := take_hex s 0 0 in
  let '(v2, n2, s3) := match s2 with
                       | c :: t => if c =? 46 then take_hex t v1 0 else (v1, O, s2)
                       | [] => (v1, O, [])
                       end in
  match (n1 + n2)%nat with
  | O => Ok (S754_zero neg)
  | _ =>
      let k := take_pexp s3 - 4 * Z.of_nat n2 in
      match v2 with
      | Zpos v => in_range (Zpos v * 2 ^ Z.max 0 k) (2 ^ Z.max 0 (- k)) (binary_round PREC EMAX neg v k)
      | _ => Ok (S754_zero neg)
      end
  end.

(** Does the text begin with the lower-case word, in any case? *)
Fixpoint begins (w l : bytes) : bool :=
  match w, l with
  | [], _ => true
  | a :: w', c :: l' => ((c =? a) || (c =? a - 32)) && begins w' l'
  | _, [] => false
  end.

(** [std::stod(s)], FingerprintFloat.h:105: white space, optional sign, digits with
    an optional point, optional exponent, or 0x and hexadecimal digits, or inf, or nan;
    the rest is ignored; text that does not begin so, and numbers too large or too small
    for a double, throw.  Simplification: all NaNs are one NaN. *)
Definition stod (s : bytes) : res spec_float :=
  let '(neg, s1) := take_sign (skipws s) in
  let '(v1, n1, s2) := take_digits s1 0 0 in
  let '(v2, n2, s3) := match s2 with
                       | c :: t => if c =? 46 then take_digits t v1 0 else (v1, O, s2)
                       | [] => (v1, O, [])
                       end in
  match (n1 + n2)%nat with
  | O => if begins [105; 110; 102] s1 then Ok (S754_infinity neg)
         else if begins [110; 97; 110] s1 then Ok S754_nan
         else Bad BadThrow
  | _ =>
      match n1, v1, s2 with
      | 1%nat, 0, 120 :: t | 1%nat, 0, 88 :: t => stod_hex neg t
      | _, _, _ =>
          match v2 with
          | Zpos v =>
              let k := take_exp s3 - Z.of_nat n2 in
              in_range (Zpos v * 10 ^ Z.max 0 k) (10 ^ Z.max 0 (- k)) (dbl_of_decimal neg v k)
          | _ => Ok (S754_zero neg)
          end
      end
  end.
