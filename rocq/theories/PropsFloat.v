(** * Properties C115-C120: floating point (FPDP, FPSP)

    The specification is FloatSpec: what a cell means as a double and which double is
    nearest to a real number.  These theorems rest on the axioms of the standard
    library's real numbers. *)

From Coq Require Import String ZArith List Bool Lia Reals Lra SpecFloat.
From Flocq Require Import Core IEEE754.BinarySingleNaN.
From Verif Require Import Base BaseProofs VectorModel VectorProofs TextModel TextProofs
  StackModel StackProofs FieldModel FieldProofs World IpModel LoadModel FingModel CoreModel
  UniModel ExecProofs FlowProofs States PropsStack PropsBlocks Effects SchedProofs PropsIO PropsLoad PropsFing
  PropsMath DblModel DblProofs FloatSpec FloatProofs OptModel.
Import ListNotations.
Open Scope Z_scope.
Local Notation length := List.length.

(** ** C115 The four operations round correctly *)

(** The exact result: A adds, S subtracts, M multiplies, D divides. *)
Definition real_op (c : Z) (x y : R) : option R :=
  (if c =? 65 (* A *) then Some (x + y)
   else if c =? 83 (* S *) then Some (x - y)
   else if c =? 77 (* M *) then Some (x * y)
   else if c =? 68 (* D *) then Some (x / y)
   else None)%R.

Definition op2 (c : Z) : spec_float -> spec_float -> spec_float :=
  if c =? 65 then dadd else if c =? 83 then dsub else if c =? 77 then dmul else ddiv.

Lemma run_two F D s c l : Ready s FP_FPDP c l -> In c [65; 83; 77; 68] ->
  exists s', execute F (S D) c s = Ok (ENone, s') /\
    Only_stack s s' (bits_of_dbl (op2 c (dbl_of_bits (at_top l 1)) (dbl_of_bits (at_top l 0))) :: skipn 2 l).
Proof.
  intros ((fld & L) & H) I. rewrite (execute_letter F D _ _ _ _ L).
  change (fp_exec F FP_FPDP fld c) with (fpdp_exec c).
  destruct I as [<-|[<-|[<-|[<-|[]]]]]; unfold fpdp_exec; cbn [Z.eqb Pos.eqb]; cbv zeta;
    xpop; xpop; rewrite hd_tl_nth, hd_nth, tl_tl_skip in *; xpush; eexists; (split; [reflexivity|os_finish]).
Qed.

Lemma op_in c x y z : real_op c x y = Some z -> In c [65; 83; 77; 68].
Proof.
  unfold real_op. destruct (Z.eqb_spec c 65) as [->|]; [cbn; auto|].
  destruct (Z.eqb_spec c 83) as [->|]; [cbn; auto|]. destruct (Z.eqb_spec c 77) as [->|]; [cbn; auto|].
  destruct (Z.eqb_spec c 68) as [->|]; [cbn; auto|]. discriminate.
Qed.

(** On numbers, with the divisor not zero: the number nearest to the exact result, or
    an infinity if that is too large. *)
Theorem C115_arith : forall F D s c l x,
  Ready s FP_FPDP c l -> let a := at_top l 1 in let b := at_top l 0 in
  number a -> number b -> (c = 68 -> value b <> 0%R) ->
  real_op c (value a) (value b) = Some x ->
  exists s' r, execute F (S D) c s = Ok (ENone, s') /\ Only_stack s s' (r :: skipn 2 l) /\ rounded x r.
Proof.
  intros F D s c l x Rd a b Na Nb Nz E. pose proof (op_in _ _ _ _ E) as I.
  destruct (run_two F D s c l Rd I) as (s' & X & O). eexists s', _. split; [exact X|]. split; [exact O|].
  apply sround_rounded. fold a b. rewrite !value_sval in E by assumption. rewrite value_sval in Nz by assumption.
  pose proof (bits_valid a) as Va. pose proof (bits_valid b) as Vb.
  apply number_finite in Na. apply number_finite in Nb. unfold real_op in E. unfold op2.
  destruct I as [<-|[<-|[<-|[<-|[]]]]]; cbn [Z.eqb Pos.eqb] in *; injection E as <-.
  - now apply dadd_round.
  - now apply dsub_round.
  - now apply dmul_round.
  - apply ddiv_round; auto.
Qed.

Lemma kind c : (number c /\ is_finite_SF (dbl_of_bits c) = true)
  \/ (infinite (sign_field c) c /\ dbl_of_bits c = S754_infinity (sign_field c))
  \/ (not_a_number c /\ dbl_of_bits c = S754_nan).
Proof.
  destruct (Z.eq_dec (exponent_field c) 2047) as [E|E]; [|left; split; [exact E|now apply number_finite]].
  right. unfold infinite, not_a_number. rewrite E.
  unfold dbl_of_bits. rewrite fields_of. cbv zeta. fold (exponent_field c). unfold to_u64. fold (exponent_field c) (sign_field c).
  rewrite E. cbn [Z.eqb Pos.eqb]. destruct (Z.eqb_spec (fraction_field c) 0); auto.
Qed.

Lemma nan_bits : not_a_number (bits_of_dbl S754_nan).
Proof. split; [reflexivity|discriminate]. Qed.

(** What is no number stays none. *)
Theorem C115_nan : forall F D s c l,
  Ready s FP_FPDP c l -> In c [65; 83; 77; 68] ->
  not_a_number (at_top l 1) \/ not_a_number (at_top l 0) ->
  exists s' r, execute F (S D) c s = Ok (ENone, s') /\ Only_stack s s' (r :: skipn 2 l) /\ not_a_number r.
Proof.
  intros F D s c l Rd I N. destruct (run_two F D s c l Rd I) as (s' & X & O).
  eexists s', _. split; [exact X|]. split; [exact O|].
  assert (E : op2 c (dbl_of_bits (at_top l 1)) (dbl_of_bits (at_top l 0)) = S754_nan).
  { assert (K : forall z, not_a_number z -> dbl_of_bits z = S754_nan).
    { intros z [Z1 Z2]. destruct (kind z) as [[Q _]|[[Q _]|[_ Q]]]; [now elim Q| |exact Q]. destruct Q as (_ & Q & _). contradiction. }
    unfold op2. destruct I as [<-|[<-|[<-|[<-|[]]]]]; cbn [Z.eqb Pos.eqb];
      (destruct N as [N|N]; rewrite (K _ N); [destruct (dbl_of_bits (at_top l 0))|destruct (dbl_of_bits (at_top l 1))]; reflexivity). }
  rewrite E. exact nan_bits.
Qed.

(** Division by zero gives an infinity with the sign of the quotient; zero by zero is no number. *)
Theorem C115_zero : forall F D s l,
  Ready s FP_FPDP 68 l -> let a := at_top l 1 in let b := at_top l 0 in
  number a -> number b -> value b = 0%R ->
  exists s' r, execute F (S D) 68 s = Ok (ENone, s') /\ Only_stack s s' (r :: skipn 2 l) /\
    (value a <> 0%R -> infinite (xorb (sign_field a) (sign_field b)) r) /\
    (value a = 0%R -> not_a_number r).
Proof.
  intros F D s l Rd a b Na Nb Z. destruct (run_two F D s 68 l Rd ltac:(cbn; auto)) as (s' & X & O).
  eexists s', _. split; [exact X|]. split; [exact O|]. fold a b. rewrite !value_sval in * by assumption.
  assert (SG : forall z, number z -> sign_SF (dbl_of_bits z) = sign_field z).
  { clear. intros z N. unfold dbl_of_bits, number, sign_field, exponent_field in *. fold (to_u64 z) in *. cbv zeta.
    pose proof (Z.mod_pos_bound (to_u64 z) (2 ^ 52) ltac:(reflexivity)).
    destruct (Z.eqb_spec ((to_u64 z / 2 ^ 52) mod 2 ^ 11) 0).
    - destruct (to_u64 z mod 2 ^ 52); reflexivity.
    - destruct (Z.eqb_spec ((to_u64 z / 2 ^ 52) mod 2 ^ 11) 2047); [contradiction|].
      destruct (to_u64 z mod 2 ^ 52 + 2 ^ 52) eqn:E; [lia|reflexivity|lia]. }
  rewrite <- (SG a Na), <- (SG b Nb).
  assert (NZ : forall t q e, F2R (Float radix2 (cond_Zopp t (Zpos q)) e) <> 0%R).
  { intros t q e K. apply eq_0_F2R in K. destruct t; discriminate. }
  apply number_finite in Na. apply number_finite in Nb. clear SG X O.
  change (op2 68) with ddiv.
  destruct (dbl_of_bits b) as [sb|sb| |sb mb eb]; try discriminate; [|elim (NZ _ _ _ Z)].
  destruct (dbl_of_bits a) as [sa|sa| |sa ma ea]; try discriminate; cbn [SF2R sign_SF].
  - split; [intros K; now elim K|intros _; exact nan_bits].
  - split; [intros _; exact (infinite_bits (xorb sa sb))|intros K; elim (NZ _ _ _ K)].
Qed.

(** 0.1 + 0.2 is the double next to 0.3, and the bit patterns are numbers. *)
Example C115_ex : let l := [4596373779694328218; 4591870180066957722] in
  Ready (loaded [FP_FPDP] l) FP_FPDP 65 l /\ number 4596373779694328218 /\ number 4591870180066957722 /\
  run_stack (execute 1 1 65) (loaded [FP_FPDP] l) = Ok (ENone, [4599075939470750516]).
Proof.
  split; [demo|]. split; [vm_compute; discriminate|]. split; [vm_compute; discriminate|]. vm_compute. reflexivity.
Qed.
Example C115_zero_ex : let l := [bits_of_dbl (S754_zero false); bits_of_dbl (dbl_of_int (-3))] in
  Ready (loaded [FP_FPDP] l) FP_FPDP 68 l /\ number (at_top l 1) /\ number (at_top l 0) /\ value (at_top l 0) = 0%R.
Proof.
  split; [demo|]. split; [vm_compute; discriminate|]. split; [vm_compute; discriminate|].
  rewrite value_sval by (vm_compute; discriminate). reflexivity.
Qed.
Print Assumptions C115_arith.
Print Assumptions C115_nan.
Print Assumptions C115_zero.

(** ** C116 Conversions *)

Lemma run_F F D s l : Ready s FP_FPDP 70 l ->
  exists s', execute F (S D) 70 s = Ok (ENone, s') /\
    Only_stack s s' (bits_of_dbl (dbl_of_int (at_top l 0)) :: skipn 1 l).
Proof.
  intros ((fld & L) & H). rewrite (execute_letter F D _ _ _ _ L).
  change (fp_exec F FP_FPDP fld 70) with (fpdp_exec 70). unfold fpdp_exec. cbn [Z.eqb Pos.eqb]. cbv zeta.
  xpop. rewrite hd_nth, tl_skip in *. xpush. eexists. split; [reflexivity|os_finish].
Qed.

(** F: the number nearest to the integer. *)
Theorem C116_F : forall F D s l,
  Ready s FP_FPDP 70 l -> in64 (at_top l 0) ->
  exists s' r, execute F (S D) 70 s = Ok (ENone, s') /\ Only_stack s s' (r :: skipn 1 l) /\
    nearest (IZR (at_top l 0)) r.
Proof.
  intros F D s l Rd I. destruct (run_F F D s l Rd) as (s' & X & O). eexists s', _. split; [exact X|]. split; [exact O|].
  apply (sround_rounded _ _ (of_int_round (at_top l 0))).
  rewrite <- abs_IZR. apply Rle_lt_trans with (IZR (2 ^ 63)).
  - apply IZR_le. unfold in64, INT64_MIN, INT64_MAX in I. lia.
  - destruct powers as (P0 & P1 & P2 & P3 & P4). change (IZR (2 ^ 63)) with (bpow radix2 63).
    assert (bpow radix2 63 < bpow radix2 970)%R by (apply bpow_lt; reflexivity). lra.
Qed.

(** [t] is the whole part of [x]: [x] without its fraction. *)
Definition whole_part (x : R) (t : Z) : Prop :=
  ((0 <= x -> IZR t <= x < IZR t + 1) /\ (x <= 0 -> IZR t - 1 < x <= IZR t))%R.

Lemma trunc_whole_part x : whole_part x (Ztrunc x).
Proof.
  split; intros L.
  - rewrite Ztrunc_floor by exact L. split; [apply Zfloor_lb|apply Zfloor_ub].
  - rewrite Ztrunc_ceil by exact L. split; [|apply Zceil_ub]. unfold Zceil. rewrite opp_IZR.
    pose proof (Zfloor_ub (- x)). lra.
Qed.

Lemma run_I F D s l : Ready s FP_FPDP 73 l ->
  match dbl_to_i64 (dbl_of_bits (at_top l 0)) with
  | Ok t => exists s', execute F (S D) 73 s = Ok (ENone, s') /\ Only_stack s s' (t :: skipn 1 l)
  | Bad b => execute F (S D) 73 s = Bad b
  end.
Proof.
  intros ((fld & L) & H). rewrite (execute_letter F D _ _ _ _ L).
  change (fp_exec F FP_FPDP fld 73) with (fpdp_exec 73). unfold fpdp_exec. cbn [Z.eqb Pos.eqb]. cbv zeta.
  xpop. rewrite hd_nth, tl_skip in *. destruct (dbl_to_i64 (dbl_of_bits (nth 0 l 0))) as [t|b] eqn:Q.
  - rewrite (run_bind (lift (Ok t)) _ s0 t s0) by reflexivity. xpush. eexists. split; [reflexivity|os_finish].
  - reflexivity.
Qed.

(** I: the whole part, if it is a 64-bit number; otherwise the conversion is undefined. *)
Theorem C116_I : forall F D s l t,
  Ready s FP_FPDP 73 l -> let c := at_top l 0 in
  number c -> whole_part (value c) t -> in64 t ->
  exists s', execute F (S D) 73 s = Ok (ENone, s') /\ Only_stack s s' (t :: skipn 1 l).
Proof.
  intros F D s l t Rd c N W I. pose proof (run_I F D s l Rd) as X. fold c in X.
  unfold dbl_to_i64 in X. rewrite trunc_sval in X by (now apply number_finite). rewrite <- value_sval in X by exact N.
  assert (T : Ztrunc (value c) = t).
  { destruct (trunc_whole_part (value c)) as [A B], W as [A' B'].
    destruct (Rle_or_lt 0 (value c)) as [P|P].
    - specialize (A P). specialize (A' P). apply Z.le_antisymm; apply Z.lt_succ_r; apply lt_IZR; unfold Z.succ; rewrite plus_IZR; lra.
    - specialize (B ltac:(lra)). specialize (B' ltac:(lra)). apply Z.le_antisymm; apply Z.lt_succ_r; apply lt_IZR; unfold Z.succ; rewrite plus_IZR; lra. }
  rewrite T in X. cbn [bind] in X. rewrite chk64_ok in X by exact I. exact X.
Qed.
Theorem C116_I_undefined : forall F D s l,
  Ready s FP_FPDP 73 l -> let c := at_top l 0 in
  not_a_number c \/ (exists g, infinite g c) \/ (number c /\ exists t, whole_part (value c) t /\ ~ in64 t) ->
  execute F (S D) 73 s = Bad BadOverflow.
Proof.
  intros F D s l Rd c K. pose proof (run_I F D s l Rd) as X. fold c in X. unfold dbl_to_i64 in X.
  destruct (kind c) as [[N Fn]|[[N E]|[N E]]].
  - destruct K as [K|[[g K]|[_ [t [W I]]]]]; [elim N; apply K|elim N; apply K|].
    rewrite trunc_sval in X by exact Fn. rewrite <- value_sval in X by exact N.
    assert (T : Ztrunc (value c) = t).
    { destruct (trunc_whole_part (value c)) as [A B], W as [A' B'].
      destruct (Rle_or_lt 0 (value c)) as [P|P].
      - specialize (A P). specialize (A' P). apply Z.le_antisymm; apply Z.lt_succ_r; apply lt_IZR; unfold Z.succ; rewrite plus_IZR; lra.
      - specialize (B ltac:(lra)). specialize (B' ltac:(lra)). apply Z.le_antisymm; apply Z.lt_succ_r; apply lt_IZR; unfold Z.succ; rewrite plus_IZR; lra. }
    rewrite T in X. cbn [bind] in X. unfold chk64 in X. apply in64b_false in I. rewrite I in X. exact X.
  - rewrite E in X. exact X.
  - rewrite E in X. exact X.
Qed.

(** F and then I give the integer back, up to 2^53. *)
Theorem C116_roundtrip_partial : forall F D s l,
  Ready s FP_FPDP 70 l -> (exists fld, Letter s FP_FPDP fld 73) -> - 2 ^ 53 < at_top l 0 < 2 ^ 53 ->
  exists s1 s2, execute F (S D) 70 s = Ok (ENone, s1) /\ execute F (S D) 73 s1 = Ok (ENone, s2) /\
    Only_stack s s2 (at_top l 0 :: skipn 1 l).
Proof.
  intros F D s l Rd [fld L] B. set (n := at_top l 0) in *. destruct (run_F F D s l Rd) as (s1 & X1 & O1). fold n in O1.
  assert (Rd1 : Ready s1 FP_FPDP 73 (bits_of_dbl (dbl_of_int n) :: skipn 1 l)).
  { destruct Rd as [_ H]. split; [|exact (Only_stack_holds _ _ _ _ H O1)]. exists fld. exact (letter_only _ _ _ _ _ _ O1 L). }
  pose proof (run_I F D s1 _ Rd1) as X. cbn [nth] in X.
  destruct (of_int_format n ltac:(lia)) as [V Fi]. assert (Va : valid (dbl_of_int n)) by apply of_int_round.
  rewrite bits_round_trip in X by (try exact Va; intros E; rewrite E in Fi; discriminate).
  unfold dbl_to_i64 in X. rewrite trunc_sval, V, Ztrunc_IZR in X by exact Fi. cbn [bind] in X.
  rewrite chk64_ok in X by (unfold in64, INT64_MIN, INT64_MAX; lia). destruct X as (s2 & X2 & O2).
  exists s1, s2. split; [exact X1|]. split; [exact X2|]. cbn [skipn] in O2. os_finish.
Qed.
(** Beyond that the integer is rounded: 2^53 + 1 comes back as 2^53. *)
Theorem C116_roundtrip_refuted : let s := loaded [FP_FPDP] [2 ^ 53 + 1] in
  Ready s FP_FPDP 70 [2 ^ 53 + 1] /\ (exists fld, Letter s FP_FPDP fld 73) /\
  run_stack (execute 1 1 70 ;;; execute 1 1 73) s = Ok (ENone, [2 ^ 53]).
Proof.
  cbv zeta. split; [demo|]. split.
  { assert (K : Ready (loaded [FP_FPDP] [2 ^ 53 + 1]) FP_FPDP 73 [2 ^ 53 + 1]) by demo. exact (proj1 K). }
  vm_compute. reflexivity.
Qed.

(** ** C117 Negation, absolute value, square root *)

Definition op1 (c : Z) : spec_float -> spec_float :=
  if c =? 78 then dneg else if c =? 86 then dabs else dsqrt.
Lemma run_one F D s c l : Ready s FP_FPDP c l -> In c [78; 86; 81] ->
  exists s', execute F (S D) c s = Ok (ENone, s') /\
    Only_stack s s' (bits_of_dbl (op1 c (dbl_of_bits (at_top l 0))) :: skipn 1 l).
Proof.
  intros ((fld & L) & H) I. rewrite (execute_letter F D _ _ _ _ L).
  change (fp_exec F FP_FPDP fld c) with (fpdp_exec c).
  destruct I as [<-|[<-|[<-|[]]]]; unfold fpdp_exec; cbn [Z.eqb Pos.eqb]; cbv zeta;
    xpop; rewrite hd_nth, tl_skip in *; xpush; eexists; (split; [reflexivity|os_finish]).
Qed.

(** N and V are exact. *)
Theorem C117_exact : forall F D s c l,
  Ready s FP_FPDP c l -> c = 78 \/ c = 86 -> number (at_top l 0) ->
  exists s' r, execute F (S D) c s = Ok (ENone, s') /\ Only_stack s s' (r :: skipn 1 l) /\ number r /\
    value r = (if c =? 78 then - value (at_top l 0) else Rabs (value (at_top l 0)))%R.
Proof.
  intros F D s c l Rd C N. destruct (run_one F D s c l Rd) as (s' & X & O); [destruct C; subst; cbn; auto|].
  eexists s', _. split; [exact X|]. split; [exact O|]. set (a := at_top l 0) in *.
  rewrite (value_sval a N). pose proof (bits_valid a) as V. apply number_finite in N.
  assert (K : valid (op1 c (dbl_of_bits a)) /\ is_finite_SF (op1 c (dbl_of_bits a)) = true /\
    sval (op1 c (dbl_of_bits a)) = (if c =? 78 then - sval (dbl_of_bits a) else Rabs (sval (dbl_of_bits a)))%R).
  { destruct C as [-> | ->]; unfold op1; cbn [Z.eqb Pos.eqb].
    - destruct (dbl_of_bits a) as [g|g| |g m e]; try discriminate; cbn [dneg SFopp SF2R].
      + repeat split; ring.
      + split; [exact V|]. split; [reflexivity|]. unfold dneg, SFopp. cbn [SF2R]. unfold F2R. cbn [Fnum Fexp]. destruct g; cbn [negb cond_Zopp Z.opp]; [rewrite <- Ropp_mult_distr_l_reverse, <- opp_IZR|rewrite <- Ropp_mult_distr_l_reverse, <- opp_IZR]; reflexivity.
    - destruct (dbl_of_bits a) as [g|g| |g m e]; try discriminate; unfold dabs, SFabs; cbn [SF2R].
      + repeat split. symmetry. apply Rabs_R0.
      + split; [exact V|]. split; [reflexivity|]. rewrite <- F2R_Zabs. destruct g; reflexivity. }
  destruct K as (K1 & K2 & K3). destruct (bits_number _ K1 K2) as [B1 B2]. split; [exact B1|]. rewrite B2. exact K3.
Qed.

(** Q: the number nearest to the square root; no number for negative operands. *)
Theorem C117_sqrt : forall F D s l,
  Ready s FP_FPDP 81 l -> number (at_top l 0) ->
  exists s' r, execute F (S D) 81 s = Ok (ENone, s') /\ Only_stack s s' (r :: skipn 1 l) /\
    ((0 <= value (at_top l 0))%R -> nearest (sqrt (value (at_top l 0))) r) /\
    ((value (at_top l 0) < 0)%R -> not_a_number r).
Proof.
  intros F D s l Rd N. destruct (run_one F D s 81 l Rd) as (s' & X & O); [cbn; auto|].
  eexists s', _. split; [exact X|]. split; [exact O|]. set (a := at_top l 0) in *.
  rewrite (value_sval a N). pose proof (bits_valid a) as V. apply number_finite in N. change (op1 81) with dsqrt. split.
  - intros P. pose proof (dsqrt_round _ V N P) as [V1 Q].
    destruct (valid_lift _ V) as [b Eb]. rewrite <- Eb in Q, V1, N, P |- *. rewrite SF2R_B2SF in *.
    rewrite is_finite_SF_B2SF in N. rewrite <- sqrt_equiv in *.
    destruct (Bsqrt_correct PREC EMAX Hprec Hmax mode_NE b) as (C1 & C2 & _). cbn [round_mode] in C1.
    apply RN_nearest.
    + exact V1.
    + rewrite is_finite_SF_B2SF, C2. destruct b as [g|g| |g m e H]; try discriminate; [reflexivity|].
      destruct g; [|reflexivity]. exfalso. cbn in P.
      pose proof (F2R_lt_0 radix2 (Float radix2 (Zneg m) e) ltac:(cbn; lia)). lra.
    + rewrite SF2R_B2SF. exact C1.
  - intros P. destruct (dbl_of_bits a) as [g|g| |g m e]; try discriminate; cbn [SF2R] in P; [lra|].
    destruct g; [exact nan_bits|]. exfalso.
    pose proof (F2R_gt_0 radix2 (Float radix2 (Zpos m) e) ltac:(cbn; lia)). cbn [cond_Zopp] in P. lra.
Qed.

Example C116_ex : Ready (loaded [FP_FPDP] [-5; 7]) FP_FPDP 70 [-5; 7] /\ in64 (-5) /\
  Ready (loaded [FP_FPDP] [bits_of_dbl (dbl_of_int (-5))]) FP_FPDP 73 [bits_of_dbl (dbl_of_int (-5))] /\
  number (bits_of_dbl (dbl_of_int (-5))) /\ whole_part (value (bits_of_dbl (dbl_of_int (-5)))) (-5) /\
  not_a_number (bits_of_dbl S754_nan).
Proof.
  assert (E : value (bits_of_dbl (dbl_of_int (-5))) = (-5)%R).
  { destruct (of_int_format (-5) ltac:(lia)) as [V Fi]. rewrite <- V. apply bits_number; [apply of_int_round|exact Fi]. }
  split; [demo|]. split; [unfold in64, INT64_MIN, INT64_MAX; lia|]. split; [demo|].
  split; [vm_compute; discriminate|]. split; [rewrite E; split; lra|exact nan_bits].
Qed.
Example C117_ex : let l := [bits_of_dbl (dbl_of_int 2)] in
  Ready (loaded [FP_FPDP] l) FP_FPDP 81 l /\ Ready (loaded [FP_FPDP] l) FP_FPDP 78 l /\ number (at_top l 0) /\
  run_stack (execute 1 1 81) (loaded [FP_FPDP] l) = Ok (ENone, [4609047870845172685]).
Proof. split; [demo|]. split; [demo|]. split; [vm_compute; discriminate|]. vm_compute. reflexivity. Qed.
Print Assumptions C116_F.
Print Assumptions C116_I.
Print Assumptions C116_I_undefined.
Print Assumptions C116_roundtrip_partial.
Print Assumptions C116_roundtrip_refuted.
Print Assumptions C117_exact.
Print Assumptions C117_sqrt.

(** ** C118 P prints the number with six decimals *)

(** [q] is the whole number closest to [x]; of two equally close ones, the even one. *)
Definition closest (x : R) (q : Z) : Prop :=
  (Rabs (IZR q - x) <= / 2 /\ (Rabs (IZR q - x) = / 2 -> Z.even q = true))%R.

Lemma div_even_closest n d : 0 < d -> closest (IZR n / IZR d) (div_even n d).
Proof.
  intros P. unfold div_even. cbv zeta. pose proof (Z.div_mod n d ltac:(lia)) as E.
  pose proof (Z.mod_pos_bound n d P) as B. set (q := n / d) in *. set (r := n mod d) in *.
  assert (Pd : (0 < IZR d)%R) by (apply IZR_lt; exact P).
  assert (X : (IZR n / IZR d = IZR q + IZR r / IZR d)%R).
  { rewrite E, plus_IZR, mult_IZR. field. lra. }
  assert (Y : forall z, (IZR z / IZR d * IZR d = IZR z)%R) by (intros; field; lra).
  set (f := (IZR r / IZR d)%R) in *.
  assert (Yr : (f * IZR d = IZR r)%R) by apply Y.
  assert (B1 : (0 <= IZR r)%R) by (apply IZR_le; lia).
  assert (B2 : (IZR r < IZR d)%R) by (apply IZR_lt; lia).
  rewrite X. destruct (Z.ltb_spec (2 * r) d) as [L|L]; [|destruct (Z.ltb_spec d (2 * r)) as [G|G]].
  - apply IZR_lt in L. rewrite mult_IZR in L. assert (F0 : (0 <= f < / 2)%R) by (split; nra).
    split; [rewrite Rabs_left1 by lra; lra|]. rewrite Rabs_left1 by lra. intros; lra.
  - apply IZR_lt in G. rewrite mult_IZR in G. assert (F0 : (/ 2 < f < 1)%R) by (split; nra).
    unfold closest. rewrite plus_IZR. split; [rewrite Rabs_right by lra; lra|]. rewrite Rabs_right by lra. intros; lra.
  - assert (M : 2 * r = d) by lia. apply (f_equal IZR) in M. rewrite mult_IZR in M. assert (F0 : (f = / 2)%R) by nra.
    destruct (Z.even q) eqn:Eq.
    + split; [rewrite Rabs_left1 by lra; lra|]. auto.
    + unfold closest. rewrite plus_IZR. split; [rewrite Rabs_right by lra; lra|]. intros _. rewrite Z.even_add, Eq. reflexivity.
Qed.

(** The text of [q] millionths: minus sign, whole part, point, six digits. *)
Definition fixed_text (neg : bool) (q : Z) (t : bytes) : Prop :=
  exists w f, t = (if neg then [45] else []) ++ w ++ 46 :: f /\
    decimal (q / 10 ^ 6) w /\ length f = 6%nat /\ Forall is_digit f /\ digits_value 0 f = q mod 10 ^ 6.

Lemma digits_value_app a l c : digits_value a (l ++ [c]) = digits_value a l * 10 + (c - 48).
Proof. revert a. induction l as [|x l IH]; intros; cbn; auto. Qed.
Lemma last_digits_spec k : forall n, 0 <= n ->
  length (last_digits k n) = k /\ Forall is_digit (last_digits k n) /\
  digits_value 0 (last_digits k n) = n mod 10 ^ Z.of_nat k.
Proof.
  induction k as [|k IH]; intros n N; cbn [last_digits].
  - split; [reflexivity|]. split; [constructor|]. symmetry. apply Z.mod_1_r.
  - destruct (IH (n / 10) ltac:(apply Z.div_pos; lia)) as (A & B & C).
    pose proof (Z.mod_pos_bound n 10 ltac:(lia)). rewrite app_length, A. split; [cbn; lia|]. split.
    + apply Forall_app. split; [exact B|]. constructor; [unfold is_digit; lia|constructor].
    + rewrite digits_value_app, C. rewrite Nat2Z.inj_succ, Z.pow_succ_r by lia.
      rewrite (Z.rem_mul_r n 10) by (try apply Z.pow_pos_nonneg; lia). lia.
Qed.

Lemma fraction_value s m e : Rabs (sval (S754_finite s m e)) = (IZR (dbl_num m e) / IZR (dbl_den e))%R.
Proof.
  cbn [SF2R]. rewrite <- F2R_Zabs. rewrite abs_cond_Zopp. unfold F2R. cbn [Fnum Fexp Z.abs].
  unfold dbl_num, dbl_den. rewrite mult_IZR. destruct (Z_le_gt_dec 0 e) as [E|E].
  - rewrite Z.max_r, Z.max_l by lia. change (2 ^ 0) with 1. rewrite <- (IZR_Zpower radix2 e E). unfold Rdiv. rewrite Rinv_1, Rmult_1_r. reflexivity.
  - rewrite Z.max_l, Z.max_r by lia. change (2 ^ 0) with 1.
    rewrite <- (Z.opp_involutive e) at 1. rewrite bpow_opp, <- (IZR_Zpower radix2 (- e)) by lia.
    change (IZR (radix2 ^ - e)) with (IZR (2 ^ - e)). field.
    apply IZR_neq. apply Z.pow_nonzero; lia.
Qed.
Lemma den_pos e : 0 < dbl_den e.
Proof. apply Z.pow_pos_nonneg; lia. Qed.
Lemma num_pos m e : 0 < dbl_num m e.
Proof. unfold dbl_num. assert (0 < 2 ^ Z.max 0 e) by (apply Z.pow_pos_nonneg; lia). lia. Qed.
Lemma div_even_nonneg n d : 0 <= n -> 0 < d -> 0 <= div_even n d.
Proof.
  intros N P. unfold div_even. cbv zeta. pose proof (Z.div_pos n d N P).
  destruct (2 * (n mod d) <? d); [lia|]. destruct (d <? 2 * (n mod d)); [lia|]. destruct (Z.even (n / d)); lia.
Qed.

Lemma sign_bits z : number z -> sign_SF (dbl_of_bits z) = sign_field z.
Proof.
  intros N. unfold dbl_of_bits, number, sign_field, exponent_field in *. fold (to_u64 z) in *. cbv zeta.
  pose proof (Z.mod_pos_bound (to_u64 z) (2 ^ 52) ltac:(reflexivity)).
  destruct (Z.eqb_spec ((to_u64 z / 2 ^ 52) mod 2 ^ 11) 0).
  - destruct (to_u64 z mod 2 ^ 52); reflexivity.
  - destruct (Z.eqb_spec ((to_u64 z / 2 ^ 52) mod 2 ^ 11) 2047); [contradiction|].
    destruct (to_u64 z mod 2 ^ 52 + 2 ^ 52) eqn:E; [lia|reflexivity|lia].
Qed.

Lemma print_fixed_spec d : is_finite_SF d = true ->
  exists q t, print_fixed d = Ok t /\ 0 <= q /\ closest (Rabs (sval d) * 10 ^ 6)%R q /\ fixed_text (sign_SF d) q t.
Proof.
  destruct d as [s|s| |s m e]; try discriminate; intros _; cbn [print_fixed sign_SF].
  - exists 0, (minus s ++ [48; 46; 48; 48; 48; 48; 48; 48]). split; [reflexivity|]. split; [lia|]. split.
    + cbn [SF2R]. rewrite Rabs_R0, Rmult_0_l. unfold closest. rewrite Rminus_0_r, Rabs_R0. split; [lra|auto].
    + exists [48], [48; 48; 48; 48; 48; 48]. split; [reflexivity|]. split; [exact (dec_decimal 0)|].
      split; [reflexivity|]. split; [repeat constructor; discriminate|reflexivity].
  - set (q := div_even (dbl_num m e * 10 ^ 6) (dbl_den e)).
    assert (Q : 0 <= q) by (apply div_even_nonneg; [pose proof (num_pos m e); lia|apply den_pos]).
    exists q, (minus s ++ dec (q / 10 ^ 6) ++ [46] ++ last_digits 6 q). split; [reflexivity|]. split; [exact Q|]. split.
    + rewrite fraction_value. pose proof (div_even_closest (dbl_num m e * 10 ^ 6) (dbl_den e) (den_pos e)) as C. fold q in C.
      rewrite mult_IZR in C.
      replace (IZR (dbl_num m e) / IZR (dbl_den e) * 10 ^ 6)%R with (IZR (dbl_num m e) * IZR (10 ^ 6) / IZR (dbl_den e))%R; [exact C|].
      change (10 ^ 6) with (10 ^ Z.of_nat 6). rewrite <- (pow_IZR 10 6). field. pose proof (den_pos e). apply IZR_neq. lia.
    + destruct (last_digits_spec 6 q Q) as (A & B & C). exists (dec (q / 10 ^ 6)), (last_digits 6 q).
      split; [reflexivity|]. split; [apply dec_decimal|]. auto.
Qed.

Theorem C118_print : forall F D s l,
  Ready s FP_FPDP 80 l -> number (at_top l 0) ->
  exists s' q t, execute F (S D) 80 s = Ok (ENone, s') /\
    World_and_stack s s' (set_w_out (w_out (s_w s) ++ t ++ [32]) (s_w s)) (skipn 1 l) /\
    0 <= q /\ closest (Rabs (value (at_top l 0)) * 10 ^ 6)%R q /\ fixed_text (sign_field (at_top l 0)) q t.
Proof.
  intros F D s l ((fld & L) & H) N. rewrite (execute_letter F D _ _ _ _ L).
  change (fp_exec F FP_FPDP fld 80) with (fpdp_exec 80). unfold fpdp_exec. cbn [Z.eqb Pos.eqb]. cbv zeta.
  xpop. rewrite hd_nth, tl_skip in *. rewrite (value_sval _ N), <- (sign_bits _ N).
  destruct (print_fixed_spec (dbl_of_bits (at_top l 0)) (proj1 (number_finite _) N)) as (q & t & Et & Q & K1 & K2).
  pose proof (Only_stack_w _ _ _ C) as W.
  exists {| s_w := set_w_out (w_out (s_w s) ++ t ++ [32]) (s_w s); s_r := s_r s0 |}, q, t.
  split; [rewrite Et; rewrite (run_bind (lift (Ok t)) _ s0 t s0) by reflexivity; unfold out, modW, mbind; rewrite W; reflexivity|].
  split; [split; [reflexivity|]; exists s0; auto|]. auto.
Qed.
(** -1.5 is printed as -1.500000. *)
Example C118_ex : let l := [bits_of_dbl (S754_finite true (3 * 2 ^ 51) (-52))] in
  Ready (loaded [FP_FPDP] l) FP_FPDP 80 l /\ number (at_top l 0) /\
  fixed_text true 1500000 [45; 49; 46; 53; 48; 48; 48; 48; 48] /\
  match execute 1 1 80 (loaded [FP_FPDP] l) with
  | Ok (_, s') => w_out (s_w s') = [45; 49; 46; 53; 48; 48; 48; 48; 48; 32] | Bad _ => False end.
Proof.
  split; [demo|]. split; [vm_compute; discriminate|]. split; [|vm_compute; reflexivity].
  exists [49], [53; 48; 48; 48; 48; 48]. split; [reflexivity|]. split; [exact (dec_decimal 1)|].
  split; [reflexivity|]. split; [repeat constructor; discriminate|reflexivity].
Qed.
Print Assumptions C118_print.

(** ** C119 R reads a decimal number *)

(** An optional sign [sg] before a non-negative number [a] makes [n]. *)
Definition signed (sg : bytes) (a n : Z) : Prop :=
  (sg = [] \/ sg = [43]) /\ n = a \/ sg = [45] /\ n = - a.

(** [t] is a decimal number: sign, digits with or without a point, exponent.  Its
    value is [v * 10 ^ k], negative if [neg]. *)
Definition numeral (t : bytes) (neg : bool) (v k : Z) : Prop :=
  exists sg w pt f ex n, t = sg ++ w ++ pt ++ ex /\
    (if neg then sg = [45] else sg = [] \/ sg = [43]) /\
    Forall is_digit (w ++ f) /\ w ++ f <> [] /\ (pt = [] /\ f = [] \/ pt = 46 :: f) /\
    (ex = [] /\ n = 0 \/
     exists e sg' ds, ex = e :: sg' ++ ds /\ (e = 101 \/ e = 69) /\ Forall is_digit ds /\ ds <> [] /\
       signed sg' (digits_value 0 ds) n) /\
    v = digits_value 0 (w ++ f) /\ k = n - Z.of_nat (length f).

(** The end of the text, or a space. *)
Definition ends (r : bytes) : Prop := r = [] \/ exists r', r = 32 :: r'.

Definition no_digit (r : bytes) : Prop := match r with [] => True | c :: _ => isdigit c = false end.
Lemma take_digits_run w : forall r a n, Forall is_digit w -> no_digit r ->
  take_digits (w ++ r) a n = (digits_value a w, (length w + n)%nat, r).
Proof.
  induction w as [|c w IH]; intros r a n D N; cbn [app length plus digits_value].
  - destruct r as [|c r]; [reflexivity|]. cbn in *. rewrite N. reflexivity.
  - inversion_clear D as [|? ? Dc Dw]. cbn [take_digits]. rewrite (isdigit_true c Dc), IH by assumption. now rewrite <- plus_n_Sm.
Qed.
Lemma digits_value_append a w f : digits_value a (w ++ f) = digits_value (digits_value a w) f.
Proof. revert a. induction w; intros; cbn; auto. Qed.
Lemma take_exp_run ex n rest :
  ex = [] /\ n = 0 \/
     (exists e sg' ds, ex = e :: sg' ++ ds /\ (e = 101 \/ e = 69) /\ Forall is_digit ds /\ ds <> [] /\
       signed sg' (digits_value 0 ds) n) ->
  ends rest -> take_exp (ex ++ rest) = n /\ no_digit (ex ++ rest) /\ hd 0 (ex ++ rest) <> 46 /\
  In (hd 0 (ex ++ rest)) [0; 32; 101; 69] .
Proof.
  intros [[-> ->] | (e & sg & ds & -> & He & Dd & Nd & Sg)] En.
  - destruct En as [-> | [r ->]]; cbn; repeat split; auto; discriminate.
  - assert (E : take_exp (e :: sg ++ ds ++ rest) = n).
    { cbn [take_exp]. replace ((e =? 101) || (e =? 69)) with true by (destruct He; subst; reflexivity).
      assert (Nr : no_digit rest) by (destruct En as [-> | [r ->]]; [exact I|reflexivity]).
      assert (K : take_digits (ds ++ rest) 0 0 = (digits_value 0 ds, (length ds + 0)%nat, rest)) by (apply take_digits_run; assumption).
      destruct Sg as [[[-> | ->] ->] | [-> ->]].
      - destruct ds as [|d ds]; [contradiction|]. inversion_clear Dd as [|? ? D1 D2]. unfold is_digit in D1.
        cbn [app take_sign] in K |- *. destruct (Z.eqb_spec d 45); [lia|]. destruct (Z.eqb_spec d 43); [lia|]. rewrite K. reflexivity.
      - cbn [app take_sign Z.eqb Pos.eqb]. rewrite K. reflexivity.
      - cbn [app take_sign Z.eqb Pos.eqb]. rewrite K. reflexivity. }
    cbn [app]. rewrite <- app_assoc. split; [exact E|]. destruct He; subst; cbn; repeat split; auto; discriminate.
Qed.
Lemma skipws_run ws x : Forall (fun c => isspace c = true) ws -> skipws (ws ++ x) = skipws x.
Proof. induction 1 as [|c ws C W IH]; [reflexivity|]. cbn [app skipws]. now rewrite C. Qed.

(** What becomes of a value. *)
Definition of_value (neg : bool) (v k : Z) : res spec_float :=
  match v with
  | Zpos p => in_range (Zpos p * 10 ^ Z.max 0 k) (10 ^ Z.max 0 (- k)) (dbl_of_decimal neg p k)
  | _ => Ok (S754_zero neg)
  end.
Lemma stod_numeral ws t rest neg v k : Forall (fun c => isspace c = true) ws -> numeral t neg v k -> ends rest ->
  stod (ws ++ t ++ rest) = of_value neg v k.
Proof.
  intros W (sg & w & pt & f & ex & n & -> & Sg & Df & Nf & Pt & Ex & -> & ->) En.
  destruct (take_exp_run ex n rest Ex En) as (X1 & X2 & X3 & X4). set (tl := ex ++ rest) in *.
  replace ((sg ++ w ++ pt ++ ex) ++ rest) with (sg ++ w ++ pt ++ tl) by (unfold tl; rewrite !app_assoc; reflexivity).
  unfold stod. rewrite skipws_run by exact W. apply Forall_app in Df. destruct Df as [Dw Df].
  assert (Hd : exists c u, w ++ pt ++ tl = c :: u /\ 46 <= c <= 57).
  { destruct w as [|c w].
    - destruct Pt as [[_ ->] | ->]; [contradiction|]. eexists _, _. split; [reflexivity|lia].
    - inversion_clear Dw as [|? ? D1 D2]. unfold is_digit in D1. eexists c, _. split; [reflexivity|lia]. }
  assert (Ts : take_sign (skipws (sg ++ w ++ pt ++ tl)) = (neg, w ++ pt ++ tl)).
  { destruct Hd as (c & u & -> & Hc).
    assert (Sp : isspace c = false).
    { unfold isspace. destruct (Z.eqb_spec c 32); [lia|]. cbn. apply andb_false_iff. right. apply Z.leb_gt. lia. }
    destruct neg; [subst sg; reflexivity|]. destruct Sg as [-> | ->]; [|reflexivity].
    cbn [app skipws]. rewrite Sp. cbn [take_sign]. destruct (Z.eqb_spec c 45); [lia|]. destruct (Z.eqb_spec c 43); [lia|]. reflexivity. }
  rewrite Ts. clear Ts.
  assert (Np : no_digit (pt ++ tl)) by (destruct Pt as [[-> _] | ->]; [exact X2|reflexivity]).
  rewrite (take_digits_run w _ 0 0 Dw Np). cbv beta iota.
  lazymatch goal with |- (let (_, _) := ?m in _) = _ =>
    assert (E2 : m = (digits_value 0 (w ++ f), length f, tl)) end.
  { destruct Pt as [[-> ->] | ->].
    - rewrite app_nil_r. cbn [app]. destruct tl as [|c tl']; [reflexivity|]. cbn in X3.
      destruct (Z.eqb_spec c 46); [contradiction|]. reflexivity.
    - cbn [app]. rewrite Z.eqb_refl. rewrite (take_digits_run f tl _ 0 Df X2), digits_value_append, Nat.add_0_r. reflexivity. }
  rewrite E2. cbv beta iota. rewrite Nat.add_0_r, X1.
  assert (Ln : exists j, (length w + length f)%nat = S j).
  { rewrite <- app_length. destruct (w ++ f) as [|a b]; [contradiction|]. eexists; reflexivity. }
  destruct Ln as [j Ln]. rewrite Ln. clear Ln E2.
  assert (Hx : exists h, h <> 120 /\ h <> 88 /\ (pt ++ tl = [] \/ exists u, pt ++ tl = h :: u)).
  { destruct Pt as [[-> _] | ->].
    - destruct tl as [|c u]; [exists 0; split; [discriminate|split; [discriminate|now left]]|].
      exists c. cbn in X4. split; [intros ->; intuition discriminate|]. split; [intros ->; intuition discriminate|]. right. now exists u.
    - exists 46. split; [discriminate|]. split; [discriminate|]. right. eexists; reflexivity. }
  destruct Hx as (h & H1 & H2 & Hx). fold (of_value neg (digits_value 0 (w ++ f)) (n - Z.of_nat (length f))).
  set (g := of_value _ _ _).
  destruct (length w) as [|[|q]]; [reflexivity| |reflexivity]. destruct (digits_value 0 w); [|reflexivity|reflexivity].
  destruct Hx as [-> | [u ->]]; [reflexivity|].
  destruct (Z.eq_dec h 120); [contradiction|]. destruct (Z.eq_dec h 88); [contradiction|].
  destruct h as [|p|p]; [reflexivity| |reflexivity].
  repeat (destruct p as [p|p|]; try reflexivity; try contradiction).
Qed.

Lemma normal_mantissa s m e : valid (S754_finite s m e) ->
  (bpow radix2 (-1022) <= Rabs (sval (S754_finite s m e)))%R -> (Zpos m <? 2 ^ 52) = false.
Proof.
  intros V B. apply Z.ltb_ge. destruct (Z_le_gt_dec (2 ^ 52) (Zpos m)) as [|G]; [assumption|exfalso].
  destruct (valid_split _ _ _ V) as [(_ & E) | ([M _] & _)]; [|lia].
  cbn [SF2R] in B. rewrite <- F2R_Zabs, abs_cond_Zopp in B. unfold F2R in B. cbn [Fnum Fexp Z.abs] in B. rewrite E in B.
  assert (K : bpow radix2 (-1022) = (IZR (2 ^ 52) * bpow radix2 (-1074))%R).
  { change (IZR (2 ^ 52)) with (IZR (radix2 ^ 52)). rewrite IZR_Zpower by lia. rewrite <- bpow_plus. reflexivity. }
  rewrite K in B. apply Rmult_le_reg_r in B; [|apply bpow_gt_0]. apply le_IZR in B. lia.
Qed.

(** A number that is neither too small nor too large is read as the nearest double. *)
Lemma of_value_nearest (neg : bool) (v k : Z) (x : R) :
  x = ((if neg then -1 else 1) * (IZR v * powerRZ 10 k))%R -> 0 < v ->
  (powerRZ 2 (-1022) <= Rabs x)%R -> (Rabs x < too_large)%R ->
  exists d, of_value neg v k = Ok d /\ nearest x (bits_of_dbl d).
Proof.
  intros X P Lo Hi. destruct v as [|v|v]; try lia. pose proof (decimal_round neg v k) as SR.
  change (if neg then - 1 else 1)%R with (if neg then -1 else 1)%R in SR. rewrite <- X in SR.
  pose proof (proj1 (sround_rounded _ _ SR) Hi) as Ne. destruct SR as [V SR].
  assert (B : (Rabs (RN x) < big)%R).
  { rewrite <- round_NE_abs by apply (fexp_correct PREC EMAX Hprec). apply RN_below, Hi. }
  rewrite (Rlt_bool_true _ _ B) in SR. destruct SR as [E Fi].
  assert (L : (bpow radix2 (-1022) <= Rabs (RN x))%R).
  { rewrite <- bpow_powerRZ in Lo. apply abs_round_ge_generic; [apply (fexp_correct PREC EMAX Hprec)|apply valid_rnd_N| |exact Lo].
    apply generic_format_bpow. vm_compute. discriminate. }
  assert (Nz : (0 < bpow radix2 (-1022))%R) by apply bpow_gt_0.
  cbn [of_value]. destruct (dbl_of_decimal neg v k) as [g|g| |g m e]; try discriminate.
  - exfalso. rewrite <- E in L. cbn in L. rewrite Rabs_R0 in L. lra.
  - rewrite <- E in L. cbn [in_range]. rewrite (normal_mantissa g m e V L). eexists. split; [reflexivity|exact Ne].
Qed.
Lemma of_value_large neg v k :
  0 < v -> (too_large <= IZR v * powerRZ 10 k)%R -> of_value neg v k = Bad BadThrow.
Proof.
  intros P Hi. destruct v as [|v|v]; try lia. pose proof (decimal_round neg v k) as [V SR].
  cbn [of_value]. rewrite Rlt_bool_false in SR; [rewrite SR; reflexivity|].
  rewrite <- round_NE_abs by apply (fexp_correct PREC EMAX Hprec). apply RN_above.
  pose proof powers as (P0 & P1 & P2 & P3 & P4).
  set (y := (IZR (Zpos v) * powerRZ 10 k)%R) in *. assert (0 < y)%R by lra.
  destruct neg; [rewrite Rabs_left|rewrite Rabs_right]; lra.
Qed.

Lemma run_R F D s fld b l : Letter s FP_FPDP fld 82 -> char_str b -> Holds s (b ++ 0 :: l) ->
  match stod b with
  | Ok d => exists s', execute F (S D) 82 s = Ok (ENone, s') /\ Only_stack s s' (bits_of_dbl d :: l)
  | Bad e => execute F (S D) 82 s = Bad e
  end.
Proof.
  intros L Ch H. rewrite (execute_letter F D _ _ _ _ L).
  change (fp_exec F FP_FPDP fld 82) with (fpdp_exec 82). unfold fpdp_exec. cbn [Z.eqb Pos.eqb]. cbv zeta.
  destruct (popString_plain s b l Ch H) as (s1 & E1 & C1). rewrite (run_bind _ _ _ _ _ E1).
  pose proof (Only_stack_holds _ _ _ _ H C1) as H1. destruct (stod b) as [d|e] eqn:Q.
  - rewrite (run_bind (lift (Ok d)) _ s1 d s1) by reflexivity. xpush. eexists. split; [reflexivity|os_finish].
  - reflexivity.
Qed.

Theorem C119_read_partial : forall F D s fld ws t rest (neg : bool) v k l x,
  Letter s FP_FPDP fld 82 -> char_str (ws ++ t ++ rest) -> Holds s ((ws ++ t ++ rest) ++ 0 :: l) ->
  Forall (fun c => isspace c = true) ws -> numeral t neg v k -> ends rest ->
  x = ((if neg then -1 else 1) * (IZR v * powerRZ 10 k))%R ->
  v = 0 \/ (powerRZ 2 (-1022) <= Rabs x < too_large)%R ->
  exists s' r, execute F (S D) 82 s = Ok (ENone, s') /\ Only_stack s s' (r :: l) /\ nearest x r.
Proof.
  intros F D s fld ws t rest neg v k l x L Ch H W Nu En X C.
  pose proof (run_R F D s fld _ l L Ch H) as R. rewrite (stod_numeral _ _ _ _ _ _ W Nu En) in R.
  assert (K : exists d, of_value neg v k = Ok d /\ nearest x (bits_of_dbl d)).
  { destruct (Z.eq_dec v 0) as [-> | Nz].
    - exists (S754_zero neg). split; [reflexivity|]. replace x with 0%R by (rewrite X; ring).
      apply RN_nearest; [reflexivity|reflexivity|]. symmetry. apply round_0. apply valid_rnd_N.
    - destruct C as [|[Lo Hi]]; [contradiction|]. apply of_value_nearest; auto.
      destruct Nu as (? & w & ? & f & ? & ? & ? & ? & Df & ? & ? & ? & -> & ?).
      assert (G : forall u a, Forall is_digit u -> 0 <= a -> 0 <= digits_value a u).
      { induction u as [|c u IH]; intros a Du Ha; cbn; [exact Ha|]. inversion_clear Du as [|? ? D1 D2]. unfold is_digit in D1. apply IH; [exact D2|lia]. }
      pose proof (G _ 0 Df ltac:(lia)). lia. }
  destruct K as (d & Ed & Nd). rewrite Ed in R. destruct R as (s' & E & O). exists s', (bits_of_dbl d). auto.
Qed.
(** A number too large for a double ends the whole interpreter. *)
Theorem C119_large : forall F D s fld ws t rest neg v k l,
  Letter s FP_FPDP fld 82 -> char_str (ws ++ t ++ rest) -> Holds s ((ws ++ t ++ rest) ++ 0 :: l) ->
  Forall (fun c => isspace c = true) ws -> numeral t neg v k -> ends rest ->
  0 < v -> (too_large <= IZR v * powerRZ 10 k)%R -> execute F (S D) 82 s = Bad BadThrow.
Proof.
  intros F D s fld ws t rest neg v k l L Ch H W Nu En P C.
  pose proof (run_R F D s fld _ l L Ch H) as R. rewrite (stod_numeral _ _ _ _ _ _ W Nu En), (of_value_large _ _ _ P C) in R. exact R.
Qed.
(** So does text that is no number: R does not leave every program running. *)
Theorem C119_running_refuted : forall F D s fld c b l,
  Letter s FP_FPDP fld 82 -> char_str (c :: b) -> Holds s ((c :: b) ++ 0 :: l) ->
  isspace c = false -> ~ is_digit c -> ~ In c [43; 45; 46; 105; 73; 110; 78] ->
  execute F (S D) 82 s = Bad BadThrow.
Proof.
  intros F D s fld c b l L Ch H Sp Nd Ni. pose proof (run_R F D s fld _ l L Ch H) as R.
  assert (E : stod (c :: b) = Bad BadThrow).
  { unfold stod. cbn [skipws]. rewrite Sp. unfold take_sign.
    assert (Q : forall z, In z [43; 45; 46; 105; 73; 110; 78] -> (c =? z) = false).
    { intros z I. apply Z.eqb_neq. intros ->. contradiction. }
    rewrite (Q 45), (Q 43) by (cbn; tauto).
    assert (Id : isdigit c = false).
    { unfold isdigit, is_digit in *. apply andb_false_iff. destruct (Z.leb_spec 48 c), (Z.leb_spec c 57); auto. exfalso. lia. }
    cbn [take_digits]. rewrite Id. rewrite (Q 46) by (cbn; tauto). cbn [plus begins].
    change (105 - 32) with 73. change (110 - 32) with 78.
    rewrite (Q 105), (Q 73), (Q 110), (Q 78) by (cbn; tauto). reflexivity. }
  rewrite E in R. exact R.
Qed.

(** The words inf and nan in any case, after an optional sign; what follows is ignored. *)
Definition word (w t : bytes) : Prop := Forall2 (fun a c => c = a \/ c = a - 32) w t.
Lemma begins_word w t r : word w t -> begins w (t ++ r) = true.
Proof.
  induction 1 as [|a c w t [->| ->] _ IH]; cbn [begins app]; [reflexivity| |]; rewrite IH, ?Z.eqb_refl, ?orb_true_r; reflexivity.
Qed.
Theorem C119_infinite : forall F D s fld ws sg t rest (neg : bool) l,
  Letter s FP_FPDP fld 82 -> char_str (ws ++ sg ++ t ++ rest) -> Holds s ((ws ++ sg ++ t ++ rest) ++ 0 :: l) ->
  Forall (fun c => isspace c = true) ws -> (if neg then sg = [45] else sg = [] \/ sg = [43]) -> word [105; 110; 102] t ->
  exists s' r, execute F (S D) 82 s = Ok (ENone, s') /\ Only_stack s s' (r :: l) /\ infinite neg r.
Proof.
  intros F D s fld ws sg t rest neg l L Ch H W Sg T. pose proof (run_R F D s fld _ l L Ch H) as R.
  assert (E : stod (ws ++ sg ++ t ++ rest) = Ok (S754_infinity neg)).
  { unfold stod. rewrite skipws_run by exact W. pose proof (begins_word _ _ rest T) as B.
    inversion T as [|a0 c0 w0 t0 Hc T0]; subst. clear T T0 H Ch R.
    assert (Ts : take_sign (skipws (sg ++ (c0 :: t0) ++ rest)) = (neg, (c0 :: t0) ++ rest)).
    { destruct neg; [subst sg; reflexivity|]. destruct Sg as [-> | ->]; [|reflexivity]. destruct Hc as [-> | ->]; reflexivity. }
    rewrite Ts. destruct Hc as [-> | ->]; cbn [app take_digits] in *; rewrite B; reflexivity. }
  rewrite E in R. destruct R as (s' & X & O). eexists s', _. split; [exact X|]. split; [exact O|].
  destruct neg; vm_compute; repeat split.
Qed.
Theorem C119_nan : forall F D s fld ws sg t rest l,
  Letter s FP_FPDP fld 82 -> char_str (ws ++ sg ++ t ++ rest) -> Holds s ((ws ++ sg ++ t ++ rest) ++ 0 :: l) ->
  Forall (fun c => isspace c = true) ws -> In sg [[]; [43]; [45]] -> word [110; 97; 110] t ->
  exists s' r, execute F (S D) 82 s = Ok (ENone, s') /\ Only_stack s s' (r :: l) /\ not_a_number r.
Proof.
  intros F D s fld ws sg t rest l L Ch H W Sg T. pose proof (run_R F D s fld _ l L Ch H) as R.
  assert (E : stod (ws ++ sg ++ t ++ rest) = Ok S754_nan).
  { unfold stod. rewrite skipws_run by exact W. pose proof (begins_word _ _ rest T) as B.
    inversion T as [|a0 c0 w0 t0 Hc T0]; subst. clear T T0 H Ch R.
    assert (Ts : exists neg, take_sign (skipws (sg ++ (c0 :: t0) ++ rest)) = (neg, (c0 :: t0) ++ rest)).
    { destruct Sg as [<-|[<-|[<-|[]]]]; [|eexists; reflexivity|eexists; reflexivity]. destruct Hc as [-> | ->]; eexists; reflexivity. }
    destruct Ts as (neg & Ts). rewrite Ts. destruct Hc as [-> | ->]; cbn [app take_digits] in *; rewrite B; reflexivity. }
  rewrite E in R. destruct R as (s' & X & O). eexists s', _. split; [exact X|]. split; [exact O|].
  vm_compute. split; [reflexivity|discriminate].
Qed.

(** A number smaller than every normal double that is not exactly a double ends the
    whole interpreter, too. *)
Lemma exact_value v k m e : Zpos v * 10 ^ Z.max 0 k * 2 ^ Z.max 0 (- e) = Zpos m * 10 ^ Z.max 0 (- k) * 2 ^ Z.max 0 e ->
  (IZR (Zpos v) * powerRZ 10 k = IZR (Zpos m) * powerRZ 2 e)%R.
Proof.
  assert (Up : forall b n, 0 < b -> 0 <= n -> powerRZ (IZR b) n = IZR (b ^ n)).
  { intros b n Hb Hn. rewrite <- (Z2Nat.id n) at 1 by lia. rewrite <- pow_powerRZ, pow_IZR, Z2Nat.id by lia. reflexivity. }
  assert (Sp : forall b n, 0 < b -> (powerRZ (IZR b) n * IZR (b ^ Z.max 0 (- n)) = IZR (b ^ Z.max 0 n))%R).
  { intros b n Hb. rewrite <- !Up by lia. rewrite <- powerRZ_add by (apply not_0_IZR; lia). f_equal. lia. }
  intros E. apply (f_equal IZR) in E. rewrite !mult_IZR in E.
  rewrite <- (Sp 10 k ltac:(lia)), <- (Sp 2 e ltac:(lia)) in E.
  assert (P1 : (0 < IZR (10 ^ Z.max 0 (- k)))%R) by (apply IZR_lt, Z.pow_pos_nonneg; lia).
  assert (P2 : (0 < IZR (2 ^ Z.max 0 (- e)))%R) by (apply IZR_lt, Z.pow_pos_nonneg; lia).
  apply (Rmult_eq_reg_r (IZR (10 ^ Z.max 0 (- k)) * IZR (2 ^ Z.max 0 (- e)))); [|apply Rmult_integral_contrapositive; lra].
  transitivity (IZR (Zpos v) * (powerRZ 10 k * IZR (10 ^ Z.max 0 (- k))) * IZR (2 ^ Z.max 0 (- e)))%R; [ring|].
  rewrite E. ring.
Qed.
Definition largest_subnormal : R := (powerRZ 2 (-1022) - powerRZ 2 (-1074))%R.
Lemma of_value_small (neg : bool) v k x : x = ((if neg then -1 else 1) * (IZR v * powerRZ 10 k))%R -> 0 < v ->
  (Rabs x <= largest_subnormal)%R -> (forall n, number n -> value n <> x) -> of_value neg v k = Bad BadThrow.
Proof.
  intros X P Hi Nx. destruct v as [|v|v]; try lia. pose proof (decimal_round neg v k) as SR.
  change (if neg then - 1 else 1)%R with (if neg then -1 else 1)%R in SR. rewrite <- X in SR. destruct SR as [V SR].
  assert (Fm : generic_format radix2 FE largest_subnormal).
  { replace largest_subnormal with (F2R (Float radix2 (2 ^ 52 - 1) (-1074))).
    - apply generic_format_canonical. exact (canonical_canonical_mantissa PREC EMAX false (2 ^ 52 - 1)%positive (-1074) eq_refl).
    - unfold largest_subnormal, F2R. cbn [Fnum Fexp]. rewrite <- !bpow_powerRZ, minus_IZR.
      replace (bpow radix2 (-1022)) with (IZR (2 ^ 52) * bpow radix2 (-1074))%R; [ring|].
      change (IZR (2 ^ 52)) with (IZR (radix2 ^ 52)). rewrite IZR_Zpower by lia. rewrite <- bpow_plus. reflexivity. }
  assert (L : (Rabs (RN x) <= largest_subnormal)%R).
  { apply abs_round_le_generic; [apply (fexp_correct PREC EMAX Hprec)|apply valid_rnd_N|exact Fm|exact Hi]. }
  assert (S1 : (largest_subnormal < bpow radix2 (-1022))%R).
  { unfold largest_subnormal. rewrite <- !bpow_powerRZ. pose proof (bpow_gt_0 radix2 (-1074)). lra. }
  assert (B : (Rabs (RN x) < big)%R).
  { apply Rle_lt_trans with (1 := L). apply Rlt_trans with (1 := S1). apply bpow_lt. reflexivity. }
  rewrite (Rlt_bool_true _ _ B) in SR. destruct SR as [E Fi].
  cbn [of_value]. destruct (dbl_of_decimal neg v k) as [g|g| |g m e] eqn:Q; try reflexivity. cbn [in_range].
  assert (M : (Zpos m <? 2 ^ 52) = true).
  { apply Z.ltb_lt. destruct (Z_lt_ge_dec (Zpos m) (2 ^ 52)) as [|G]; [assumption|exfalso].
    rewrite <- E in L. cbn [SF2R] in L. rewrite <- F2R_Zabs, abs_cond_Zopp in L. unfold F2R in L. cbn [Fnum Fexp Z.abs] in L.
    assert (Ee : -1074 <= e). { destruct (valid_split _ _ _ V) as [(_ & ->) | (_ & K)]; lia. }
    assert (bpow radix2 (-1022) <= IZR (Zpos m) * bpow radix2 e)%R.
    { replace (bpow radix2 (-1022)) with (IZR (2 ^ 52) * bpow radix2 (-1074))%R.
      - apply Rmult_le_compat; [apply IZR_le; lia|apply bpow_ge_0|apply IZR_le; lia|apply bpow_le; exact Ee].
      - change (IZR (2 ^ 52)) with (IZR (radix2 ^ 52)). rewrite IZR_Zpower by lia. rewrite <- bpow_plus. reflexivity. }
    lra. }
  rewrite M. cbn [andb]. destruct (Z.eqb_spec (Zpos v * 10 ^ Z.max 0 k * 2 ^ Z.max 0 (- e)) (Zpos m * 10 ^ Z.max 0 (- k) * 2 ^ Z.max 0 e)) as [Ex|]; [|reflexivity].
  exfalso. apply exact_value in Ex. destruct (bits_number _ V Fi) as [N W]. apply (Nx _ N). rewrite W, X, Ex.
  assert (Sg : g = neg).
  { assert (Sx : sval (S754_finite g m e) = RN x) by exact E. cbn [SF2R] in Sx. unfold F2R in Sx. cbn [Fnum Fexp] in Sx.
    assert (Pm : (0 < IZR (Zpos m) * bpow radix2 e)%R) by (apply Rmult_lt_0_compat; [apply IZR_lt; lia|apply bpow_gt_0]).
    assert (Px : (0 < IZR (Zpos v) * powerRZ 10 k)%R) by (apply Rmult_lt_0_compat; [apply IZR_lt; lia|apply powerRZ_lt; lra]).
    assert (Z0 : RN 0 = 0%R) by (apply round_0, valid_rnd_N).
    destruct g, neg; try reflexivity; exfalso; cbn [cond_Zopp] in Sx; rewrite ?opp_IZR in Sx.
    - assert (0 <= x)%R by (rewrite X; lra). apply RN_le in H. lra.
    - assert (x <= 0)%R by (rewrite X; lra). apply RN_le in H. lra. }
  subst g. cbn [SF2R]. unfold F2R. cbn [Fnum Fexp]. rewrite bpow_powerRZ.
  destruct neg; cbn [cond_Zopp]; [rewrite opp_IZR|]; ring.
Qed.
Theorem C119_small_refuted : forall F D s fld ws t rest (neg : bool) v k l x,
  Letter s FP_FPDP fld 82 -> char_str (ws ++ t ++ rest) -> Holds s ((ws ++ t ++ rest) ++ 0 :: l) ->
  Forall (fun c => isspace c = true) ws -> numeral t neg v k -> ends rest ->
  x = ((if neg then -1 else 1) * (IZR v * powerRZ 10 k))%R -> 0 < v ->
  (Rabs x <= largest_subnormal)%R -> (forall n, number n -> value n <> x) -> execute F (S D) 82 s = Bad BadThrow.
Proof.
  intros F D s fld ws t rest neg v k l x L Ch H W Nu En X P Hi Nx.
  pose proof (run_R F D s fld _ l L Ch H) as R. rewrite (stod_numeral _ _ _ _ _ _ W Nu En), (of_value_small _ _ _ x X P Hi Nx) in R. exact R.
Qed.

(** ** Hexadecimal numbers *)

Definition hex_digit (c x : Z) : Prop :=
  48 <= c <= 57 /\ x = c - 48 \/ 97 <= c <= 102 /\ x = c - 87 \/ 65 <= c <= 70 /\ x = c - 55.
(** [hex_digits ds a v]: reading the digits [ds] after a number [a] gives [v]. *)
Inductive hex_digits : bytes -> Z -> Z -> Prop :=
| hex_none a : hex_digits [] a a
| hex_some c x ds a v : hex_digit c x -> hex_digits ds (16 * a + x) v -> hex_digits (c :: ds) a v.
(** [t] is a hexadecimal number: sign, 0x, digits with or without a point, and an
    exponent of 2 after p.  Its value is [v * 2 ^ k]. *)
Definition hex_numeral (t : bytes) (neg : bool) (v k : Z) : Prop :=
  exists sg z w pt f ex n, t = sg ++ 48 :: z :: w ++ pt ++ ex /\ (z = 120 \/ z = 88) /\
    (if neg then sg = [45] else sg = [] \/ sg = [43]) /\
    hex_digits (w ++ f) 0 v /\ w ++ f <> [] /\ (pt = [] /\ f = [] \/ pt = 46 :: f) /\
    (ex = [] /\ n = 0 \/
     exists e sg' ds, ex = e :: sg' ++ ds /\ (e = 112 \/ e = 80) /\ Forall is_digit ds /\ ds <> [] /\
       signed sg' (digits_value 0 ds) n) /\
    k = n - 4 * Z.of_nat (length f).

Lemma hex_value_digit c x : hex_digit c x -> hex_value c = Some x.
Proof.
  unfold hex_digit, hex_value, isdigit. intros H.
  destruct (Z.leb_spec 48 c), (Z.leb_spec c 57); cbn [andb]; try (f_equal; lia);
  destruct (Z.leb_spec 97 c), (Z.leb_spec c 102); cbn [andb]; try (f_equal; lia); try lia;
  destruct (Z.leb_spec 65 c), (Z.leb_spec c 70); cbn [andb]; try (f_equal; lia); lia.
Qed.
Definition no_hex (r : bytes) : Prop := match r with [] => True | c :: _ => hex_value c = None end.
Lemma take_hex_run w a v : hex_digits w a v -> forall r n, no_hex r -> take_hex (w ++ r) a n = (v, (length w + n)%nat, r).
Proof.
  induction 1 as [a|c x ds a v Hc _ IH]; intros r n N; cbn [app length plus].
  - destruct r as [|c r]; [reflexivity|]. cbn in *. rewrite N. reflexivity.
  - cbn [take_hex]. rewrite (hex_value_digit _ _ Hc). replace (a * 16 + x) with (16 * a + x) by lia. rewrite IH by assumption.
    now rewrite <- plus_n_Sm.
Qed.
Lemma hex_digits_split w f a v : hex_digits (w ++ f) a v -> exists u, hex_digits w a u /\ hex_digits f u v.
Proof.
  revert a. induction w as [|c w IH]; intros a H; cbn [app] in H; [exists a; split; [constructor|exact H]|].
  inversion H; subst. destruct (IH _ H5) as (u & A & B). exists u. split; [econstructor; eauto|exact B].
Qed.
Lemma hex_digits_pos w a v : hex_digits w a v -> 0 <= a -> 0 <= v.
Proof. induction 1 as [|c x ds a v Hc _ IH]; intros P; [exact P|]. apply IH. unfold hex_digit in Hc. lia. Qed.
Lemma take_pexp_run ex n rest :
  ex = [] /\ n = 0 \/
     (exists e sg' ds, ex = e :: sg' ++ ds /\ (e = 112 \/ e = 80) /\ Forall is_digit ds /\ ds <> [] /\
       signed sg' (digits_value 0 ds) n) ->
  ends rest -> take_pexp (ex ++ rest) = n /\ no_hex (ex ++ rest) /\ hd 0 (ex ++ rest) <> 46.
Proof.
  intros [[-> ->] | (e & sg & ds & -> & He & Dd & Nd & Sg)] En.
  - destruct En as [-> | [r ->]]; cbn; repeat split; auto; discriminate.
  - assert (E : take_pexp (e :: sg ++ ds ++ rest) = n).
    { cbn [take_pexp]. replace ((e =? 112) || (e =? 80)) with true by (destruct He; subst; reflexivity).
      assert (Nr : no_digit rest) by (destruct En as [-> | [r ->]]; [exact I|reflexivity]).
      assert (K : take_digits (ds ++ rest) 0 0 = (digits_value 0 ds, (length ds + 0)%nat, rest)) by (apply take_digits_run; assumption).
      destruct Sg as [[[-> | ->] ->] | [-> ->]].
      - destruct ds as [|d ds]; [contradiction|]. inversion_clear Dd as [|? ? D1 D2]. unfold is_digit in D1.
        cbn [app take_sign] in K |- *. destruct (Z.eqb_spec d 45); [lia|]. destruct (Z.eqb_spec d 43); [lia|]. rewrite K. reflexivity.
      - cbn [app take_sign Z.eqb Pos.eqb]. rewrite K. reflexivity.
      - cbn [app take_sign Z.eqb Pos.eqb]. rewrite K. reflexivity. }
    cbn [app]. rewrite <- app_assoc. split; [exact E|]. destruct He; subst; cbn; repeat split; auto; discriminate.
Qed.
Definition of_hex (neg : bool) (v k : Z) : res spec_float :=
  match v with
  | Zpos p => in_range (Zpos p * 2 ^ Z.max 0 k) (2 ^ Z.max 0 (- k)) (SpecFloat.binary_round PREC EMAX neg p k)
  | _ => Ok (S754_zero neg)
  end.
Lemma stod_hex_numeral ws t rest neg v k : Forall (fun c => isspace c = true) ws -> hex_numeral t neg v k -> ends rest ->
  stod (ws ++ t ++ rest) = of_hex neg v k.
Proof.
  intros W (sg & z & w & pt & f & ex & n & -> & Hz & Sg & Df & Nf & Pt & Ex & ->) En.
  destruct (take_pexp_run ex n rest Ex En) as (X1 & X2 & X3). set (tl := ex ++ rest) in *.
  replace ((sg ++ 48 :: z :: w ++ pt ++ ex) ++ rest) with (sg ++ 48 :: z :: w ++ pt ++ tl)
    by (unfold tl; rewrite <- !app_assoc; cbn [app]; rewrite <- !app_assoc; reflexivity).
  unfold stod. rewrite skipws_run by exact W.
  assert (Ts : take_sign (skipws (sg ++ 48 :: z :: w ++ pt ++ tl)) = (neg, 48 :: z :: w ++ pt ++ tl)).
  { destruct neg; [subst sg; reflexivity|]. destruct Sg as [-> | ->]; reflexivity. }
  rewrite Ts. clear Ts.
  assert (H2 : stod_hex neg (w ++ pt ++ tl) = of_hex neg v (n - 4 * Z.of_nat (length f))).
  { destruct (hex_digits_split _ _ _ _ Df) as (u & Dw & Dg).
    assert (Np : no_hex (pt ++ tl)) by (destruct Pt as [[-> _] | ->]; [exact X2|reflexivity]).
    unfold stod_hex. rewrite (take_hex_run w _ _ Dw _ 0 Np). cbv beta iota.
    lazymatch goal with |- (let (_, _) := ?m in _) = _ => assert (E2 : m = (v, length f, tl)) end.
    { destruct Pt as [[-> ->] | ->].
      - inversion Dg; subst. cbn [app]. destruct tl as [|c tl']; [reflexivity|]. cbn in X3.
        destruct (Z.eqb_spec c 46); [contradiction|]. reflexivity.
      - cbn [app]. rewrite Z.eqb_refl. rewrite (take_hex_run f _ _ Dg tl 0 X2), Nat.add_0_r. reflexivity. }
    rewrite E2. cbv beta iota. rewrite Nat.add_0_r, X1.
    assert (Ln : exists j, (length w + length f)%nat = S j).
    { rewrite <- app_length. destruct (w ++ f) as [|a b]; [contradiction|]. eexists; reflexivity. }
    destruct Ln as [j Ln]. rewrite Ln. reflexivity. }
  destruct Hz as [-> | ->]; cbn [take_digits]; change (isdigit 48) with true;
    [change (isdigit 120) with false; change (120 =? 46) with false|change (isdigit 88) with false; change (88 =? 46) with false];
    cbv iota beta; exact H2.
Qed.
Lemma hex_round (s : bool) (v : positive) (k : Z) :
  sround ((if s then - 1 else 1) * (IZR (Zpos v) * powerRZ 2 k))%R (SpecFloat.binary_round PREC EMAX s v k).
Proof.
  assert (P : (0 < IZR (Zpos v) * powerRZ 2 k)%R).
  { apply Rmult_lt_0_compat; [apply IZR_lt; lia|apply powerRZ_lt; lra]. }
  replace ((if s then - 1 else 1) * (IZR (Zpos v) * powerRZ 2 k))%R
    with (if s then - (IZR (Zpos v) * powerRZ 2 k) else IZR (Zpos v) * powerRZ 2 k)%R by (destruct s; ring).
  rewrite round_equiv.
  pose proof (binary_round_correct PREC EMAX Hprec Hmax mode_NE s v k) as [V C].
  cbv zeta in C. cbn [round_mode] in C.
  replace (F2R (Float radix2 (cond_Zopp s (Zpos v)) k))
    with (if s then - (IZR (Zpos v) * powerRZ 2 k) else IZR (Zpos v) * powerRZ 2 k)%R in C.
  2:{ unfold F2R. cbn [Fnum Fexp]. rewrite bpow_powerRZ. destruct s; cbn [cond_Zopp]; [rewrite opp_IZR|]; ring. }
  split; [exact V|]. change (bpow radix2 EMAX) with big in C.
  destruct (Rlt_bool (Rabs _) big); [tauto|]. rewrite C, cond_sign by assumption. reflexivity.
Qed.
Theorem C119_hex_partial : forall F D s fld ws t rest (neg : bool) v k l x,
  Letter s FP_FPDP fld 82 -> char_str (ws ++ t ++ rest) -> Holds s ((ws ++ t ++ rest) ++ 0 :: l) ->
  Forall (fun c => isspace c = true) ws -> hex_numeral t neg v k -> ends rest ->
  x = ((if neg then -1 else 1) * (IZR v * powerRZ 2 k))%R ->
  v = 0 \/ (powerRZ 2 (-1022) <= Rabs x < too_large)%R ->
  exists s' r, execute F (S D) 82 s = Ok (ENone, s') /\ Only_stack s s' (r :: l) /\ nearest x r.
Proof.
  intros F D s fld ws t rest neg v k l x L Ch H W Nu En X C.
  pose proof (run_R F D s fld _ l L Ch H) as R. rewrite (stod_hex_numeral _ _ _ _ _ _ W Nu En) in R.
  assert (K : exists d, of_hex neg v k = Ok d /\ nearest x (bits_of_dbl d)).
  { destruct (Z.eq_dec v 0) as [-> | Nz].
    - exists (S754_zero neg). split; [reflexivity|]. replace x with 0%R by (rewrite X; ring).
      apply RN_nearest; [reflexivity|reflexivity|]. symmetry. apply round_0. apply valid_rnd_N.
    - destruct C as [|[Lo Hi]]; [contradiction|].
      assert (P : 0 < v).
      { destruct Nu as (? & ? & w & ? & f & ? & ? & ? & ? & ? & Df & _). pose proof (hex_digits_pos _ _ _ Df). lia. }
      destruct v as [|v|v]; try lia. pose proof (hex_round neg v k) as SR.
      change (if neg then - 1 else 1)%R with (if neg then -1 else 1)%R in SR. rewrite <- X in SR.
      pose proof (proj1 (sround_rounded _ _ SR) Hi) as Ne. destruct SR as [V SR].
      assert (B : (Rabs (RN x) < big)%R).
      { rewrite <- round_NE_abs by apply (fexp_correct PREC EMAX Hprec). apply RN_below, Hi. }
      rewrite (Rlt_bool_true _ _ B) in SR. destruct SR as [E Fi].
      assert (Lb : (bpow radix2 (-1022) <= Rabs (RN x))%R).
      { rewrite <- bpow_powerRZ in Lo. apply abs_round_ge_generic; [apply (fexp_correct PREC EMAX Hprec)|apply valid_rnd_N| |exact Lo].
        apply generic_format_bpow. vm_compute. discriminate. }
      assert (Nz0 : (0 < bpow radix2 (-1022))%R) by apply bpow_gt_0.
      cbn [of_hex]. destruct (SpecFloat.binary_round PREC EMAX neg v k) as [g|g| |g m e]; try discriminate.
      + exfalso. rewrite <- E in Lb. cbn in Lb. rewrite Rabs_R0 in Lb. lra.
      + rewrite <- E in Lb. cbn [in_range]. rewrite (normal_mantissa g m e V Lb). eexists. split; [reflexivity|exact Ne]. }
  destruct K as (d & Ed & Nd). rewrite Ed in R. destruct R as (s' & E & O). exists s', (bits_of_dbl d). auto.
Qed.
(** A number that is exactly a double is read as that double, however small it is. *)
Lemma pow_up b n : 0 < b -> 0 <= n -> powerRZ (IZR b) n = IZR (b ^ n).
Proof. intros Hb Hn. rewrite <- (Z2Nat.id n) at 1 by lia. rewrite <- pow_powerRZ, pow_IZR, Z2Nat.id by lia. reflexivity. Qed.
Lemma pow_split b n : 0 < b -> (powerRZ (IZR b) n * IZR (b ^ Z.max 0 (- n)) = IZR (b ^ Z.max 0 n))%R.
Proof. intros Hb. rewrite <- !pow_up by lia. rewrite <- powerRZ_add by (apply not_0_IZR; lia). f_equal. lia. Qed.
Lemma in_range_exact (neg : bool) (b v k : Z) (d : spec_float) : 0 < b -> is_finite_SF d = true -> 0 < v ->
  sval d = ((if neg then -1 else 1) * (IZR v * powerRZ (IZR b) k))%R ->
  in_range (v * b ^ Z.max 0 k) (b ^ Z.max 0 (- k)) d = Ok d.
Proof.
  intros Hb F Hv E.
  assert (Px : (0 < IZR v * powerRZ (IZR b) k)%R) by (apply Rmult_lt_0_compat; [apply IZR_lt; lia|apply powerRZ_lt, IZR_lt; lia]).
  destruct d as [g|g| |g m e]; try discriminate.
  - exfalso. cbn in E. destruct neg; lra.
  - cbn [in_range]. assert (Pm : (0 < IZR (Zpos m) * powerRZ 2 e)%R) by (apply Rmult_lt_0_compat; [apply IZR_lt; lia|apply powerRZ_lt; lra]).
    assert (E' : (IZR (Zpos m) * powerRZ 2 e = IZR v * powerRZ (IZR b) k)%R).
    { cbn [SF2R] in E. unfold F2R in E. cbn [Fnum Fexp] in E. rewrite bpow_powerRZ in E. change (IZR radix2) with 2%R in E.
      destruct g, neg; cbn [cond_Zopp] in E; rewrite ?opp_IZR in E; lra. }
    assert (X : v * b ^ Z.max 0 k * 2 ^ Z.max 0 (- e) = Zpos m * b ^ Z.max 0 (- k) * 2 ^ Z.max 0 e).
    { apply eq_IZR. rewrite !mult_IZR. rewrite <- (pow_split b k Hb), <- (pow_split 2 e ltac:(lia)).
      transitivity ((IZR v * powerRZ (IZR b) k) * IZR (b ^ Z.max 0 (- k)) * IZR (2 ^ Z.max 0 (- e)))%R; [ring|].
      rewrite <- E'. ring. }
    rewrite X, Z.eqb_refl. cbn [negb]. rewrite andb_false_r. reflexivity.
Qed.
Lemma sround_exact n d : number n -> sround (value n) d -> valid d /\ is_finite_SF d = true /\ sval d = value n.
Proof.
  intros N [V SR]. assert (E : RN (value n) = value n) by (apply round_generic; [apply valid_rnd_N|apply format_number, N]).
  rewrite E in SR. rewrite Rlt_bool_true in SR; [tauto|]. rewrite value_sval by exact N.
  apply number_finite in N. destruct (valid_lift _ (bits_valid n)) as [b <-]. rewrite SF2R_B2SF. apply abs_B2R_lt_emax.
Qed.
Theorem C119_exact : forall F D s fld ws t rest (neg : bool) v k l n,
  Letter s FP_FPDP fld 82 -> char_str (ws ++ t ++ rest) -> Holds s ((ws ++ t ++ rest) ++ 0 :: l) ->
  Forall (fun c => isspace c = true) ws -> ends rest -> number n ->
  numeral t neg v k /\ value n = ((if neg then -1 else 1) * (IZR v * powerRZ 10 k))%R \/
  hex_numeral t neg v k /\ value n = ((if neg then -1 else 1) * (IZR v * powerRZ 2 k))%R ->
  exists s' r, execute F (S D) 82 s = Ok (ENone, s') /\ Only_stack s s' (r :: l) /\ number r /\ value r = value n.
Proof.
  intros F D s fld ws t rest neg v k l n L Ch H W En Nn Nu. pose proof (run_R F D s fld _ l L Ch H) as R.
  assert (K : exists d, stod (ws ++ t ++ rest) = Ok d /\ valid d /\ is_finite_SF d = true /\ sval d = value n).
  { destruct (Z.eq_dec v 0) as [-> | Nz].
    - exists (S754_zero neg). split; [|split; [reflexivity|split; [reflexivity|]]].
      + destruct Nu as [[Nu _] | [Nu _]]; [rewrite (stod_numeral _ _ _ _ _ _ W Nu En)|rewrite (stod_hex_numeral _ _ _ _ _ _ W Nu En)]; reflexivity.
      + cbn [SF2R]. destruct Nu as [[_ ->] | [_ ->]]; ring.
    - destruct Nu as [[Nu X] | [Nu X]].
      + assert (P : 0 < v).
        { destruct Nu as (? & w & ? & f & ? & ? & ? & ? & Df & ? & ? & ? & -> & ?).
          assert (G : forall u a, Forall is_digit u -> 0 <= a -> 0 <= digits_value a u).
          { induction u as [|c u IH]; intros a Du Ha; cbn; [exact Ha|]. inversion_clear Du as [|? ? D1 D2]. unfold is_digit in D1. apply IH; [exact D2|lia]. }
          pose proof (G _ 0 Df ltac:(lia)). lia. }
        rewrite (stod_numeral _ _ _ _ _ _ W Nu En). destruct v as [|v|v]; try lia. pose proof (decimal_round neg v k) as SR.
        change (if neg then - 1 else 1)%R with (if neg then -1 else 1)%R in SR. rewrite <- X in SR.
        destruct (sround_exact _ _ Nn SR) as (V & Fi & E). exists (dbl_of_decimal neg v k). split; [|auto].
        cbn [of_value]. apply in_range_exact with (neg := neg) (b := 10); [lia|exact Fi|lia|]. rewrite E, X. reflexivity.
      + assert (P : 0 < v).
        { destruct Nu as (? & ? & w & ? & f & ? & ? & ? & ? & ? & Df & _). pose proof (hex_digits_pos _ _ _ Df). lia. }
        rewrite (stod_hex_numeral _ _ _ _ _ _ W Nu En). destruct v as [|v|v]; try lia. pose proof (hex_round neg v k) as SR.
        change (if neg then - 1 else 1)%R with (if neg then -1 else 1)%R in SR. rewrite <- X in SR.
        destruct (sround_exact _ _ Nn SR) as (V & Fi & E). exists (SpecFloat.binary_round PREC EMAX neg v k). split; [|auto].
        cbn [of_hex]. apply in_range_exact with (neg := neg) (b := 2); [lia|exact Fi|lia|]. rewrite E, X. reflexivity. }
  destruct K as (d & Ed & V & Fi & E). rewrite Ed in R. destruct R as (s' & X & O). exists s', (bits_of_dbl d).
  destruct (bits_number d V Fi) as [N1 N2]. rewrite N2. auto.
Qed.
(** 0x1p-1074 is the smallest double. *)
Example C119_exact_ex : hex_numeral (lit "0x1p-1074") false 1 (-1074) /\ number 1 /\ value 1 = (1 * (IZR 1 * powerRZ 2 (-1074)))%R /\
  run_stack (execute 1 1 82) (loaded [FP_FPDP] (lit "0x1p-1074" ++ [0; 7])) = Ok (ENone, [1; 7]).
Proof.
  split.
  { exists [], 120, [49], [], [], [112; 45; 49; 48; 55; 52], (-1074). split; [reflexivity|]. split; [auto|]. split; [now left|].
    split; [econstructor; [left; split; [|reflexivity]; lia|constructor]|].
    split; [discriminate|]. split; [now left|].
    split; [right; exists 112, [45], [49; 48; 55; 52]; repeat split; auto; [repeat constructor; discriminate|discriminate|right; auto]|]. reflexivity. }
  split; [vm_compute; discriminate|]. split; [|vm_compute; reflexivity].
  unfold value. change (sign_field 1) with false. change (exponent_field 1 =? 0) with true. change (fraction_field 1) with 1. reflexivity.
Qed.
Lemma value_multiple n : exists M, value n = (IZR M * powerRZ 2 (-1074))%R.
Proof.
  unfold value. destruct (Z.eqb_spec (exponent_field n) 0) as [E|E].
  - exists ((if sign_field n then -1 else 1) * fraction_field n). rewrite mult_IZR. destruct (sign_field n); ring.
  - assert (P : 0 <= exponent_field n) by (unfold exponent_field; apply Z.mod_pos_bound; reflexivity).
    exists ((if sign_field n then -1 else 1) * (2 ^ 52 + fraction_field n) * 2 ^ (exponent_field n - 1)).
    replace (exponent_field n - 1075) with ((exponent_field n - 1) + -1074) by lia. rewrite powerRZ_add by lra.
    replace (powerRZ 2 (exponent_field n - 1)) with (IZR (2 ^ (exponent_field n - 1))).
    + rewrite !mult_IZR. destruct (sign_field n); ring.
    + rewrite <- (Z2Nat.id (exponent_field n - 1)) by lia. rewrite <- pow_IZR, pow_powerRZ. reflexivity.
Qed.
Lemma tiny_no_double n : value n <> (IZR 1 * powerRZ 10 (-310))%R.
Proof.
  intros E. destruct (value_multiple n) as [M V]. rewrite V in E.
  change (-310) with (- (310)) in E. change (-1074) with (- (1074)) in E. rewrite !powerRZ_neg' in E.
  change 310 with (Z.of_nat 310) in E. change 1074 with (Z.of_nat 1074) in E. rewrite <- !pow_powerRZ, (pow_IZR 10), (pow_IZR 2) in E.
  assert (P : (0 < IZR (10 ^ Z.of_nat 310))%R) by (apply IZR_lt; reflexivity).
  assert (Q : (0 < IZR (2 ^ Z.of_nat 1074))%R) by (apply IZR_lt; reflexivity).
  apply (f_equal (fun r => (r * (IZR (10 ^ Z.of_nat 310) * IZR (2 ^ Z.of_nat 1074)))%R)) in E.
  replace (IZR M * / IZR (2 ^ Z.of_nat 1074) * (IZR (10 ^ Z.of_nat 310) * IZR (2 ^ Z.of_nat 1074)))%R
    with (IZR M * IZR (10 ^ Z.of_nat 310))%R in E by (field; lra).
  replace (1 * / IZR (10 ^ Z.of_nat 310) * (IZR (10 ^ Z.of_nat 310) * IZR (2 ^ Z.of_nat 1074)))%R
    with (IZR (2 ^ Z.of_nat 1074)) in E by (field; lra).
  rewrite <- mult_IZR in E. apply eq_IZR in E. apply (f_equal (fun z => z mod 5)) in E.
  rewrite Z.mul_mod in E by lia. replace (10 ^ Z.of_nat 310 mod 5) with 0 in E by (vm_compute; reflexivity).
  rewrite Z.mul_0_r in E. vm_compute in E. discriminate.
Qed.
(** -0x1.8p3 is -12; Infinity and NaN; 1e-310 is too small. *)
Example C119_more_ex : hex_numeral (lit "-0x1.8p3") true 24 (-1) /\ word [105; 110; 102] (lit "Inf") /\ word [110; 97; 110] (lit "NaN") /\
  numeral (lit "1e-310") false 1 (-310) /\ (Rabs (IZR 1 * powerRZ 10 (-310)) <= largest_subnormal)%R /\
  (forall n, number n -> value n <> (IZR 1 * powerRZ 10 (-310))%R) /\
  run_stack (execute 1 1 82) (loaded [FP_FPDP] (lit "-0x1.8p3" ++ [0; 7])) = Ok (ENone, [bits_of_dbl (dbl_of_int (-12)); 7]) /\
  run_stack (execute 1 1 82) (loaded [FP_FPDP] (lit "-Infinity" ++ [0; 7])) = Ok (ENone, [-4503599627370496; 7]) /\
  run_stack (execute 1 1 82) (loaded [FP_FPDP] (lit "nanny" ++ [0; 7])) = Ok (ENone, [9221120237041090560; 7]) /\
  run_stack (execute 1 1 82) (loaded [FP_FPDP] (lit "in" ++ [0; 7])) = Bad BadThrow /\
  run_stack (execute 1 1 82) (loaded [FP_FPDP] (lit "1e-310" ++ [0; 7])) = Bad BadThrow.
Proof.
  split.
  { exists [45], 120, [49], [46; 56], [56], [112; 51], 3. split; [reflexivity|]. split; [auto|]. split; [reflexivity|].
    split; [econstructor; [left; split; [|reflexivity]; lia|econstructor; [left; split; [|reflexivity]; lia|constructor]]|].
    split; [discriminate|]. split; [now right|].
    split; [right; exists 112, [], [51]; repeat split; auto; [repeat constructor; discriminate|discriminate|left; auto]|]. reflexivity. }
  split; [repeat (constructor; auto)|]. split; [repeat (constructor; auto)|].
  split.
  { exists [], [49], [], [], [101; 45; 51; 49; 48], (-310). split; [reflexivity|]. split; [now left|].
    split; [repeat constructor; discriminate|]. split; [discriminate|]. split; [now left|].
    split; [right; exists 101, [45], [51; 49; 48]; repeat split; auto; [repeat constructor; discriminate|discriminate|right; auto]|].
    split; reflexivity. }
  split; [|split; [intros n _; apply tiny_no_double|repeat split; vm_compute; reflexivity]].
  rewrite Rmult_1_l. rewrite Rabs_right by (apply Rle_ge, Rlt_le, powerRZ_lt; lra).
  unfold largest_subnormal. change (-310) with (- (310)). change (-1022) with (52 + -1074). rewrite powerRZ_add by lra.
  change (-1074) with (- (1074)). rewrite !powerRZ_neg'. change 310 with (Z.of_nat 310). change 52 with (Z.of_nat 52). change 1074 with (Z.of_nat 1074).
  rewrite <- !pow_powerRZ, (pow_IZR 10), !(pow_IZR 2).
  assert (P : (0 < IZR (10 ^ Z.of_nat 310))%R) by (apply IZR_lt; reflexivity).
  assert (Q : (0 < IZR (2 ^ Z.of_nat 1074))%R) by (apply IZR_lt; reflexivity).
  apply (Rmult_le_reg_r (IZR (10 ^ Z.of_nat 310) * IZR (2 ^ Z.of_nat 1074))); [apply Rmult_lt_0_compat; assumption|].
  replace (/ IZR (10 ^ Z.of_nat 310) * (IZR (10 ^ Z.of_nat 310) * IZR (2 ^ Z.of_nat 1074)))%R with (IZR (2 ^ Z.of_nat 1074)) by (field; lra).
  replace ((IZR (2 ^ Z.of_nat 52) * / IZR (2 ^ Z.of_nat 1074) - / IZR (2 ^ Z.of_nat 1074)) * (IZR (10 ^ Z.of_nat 310) * IZR (2 ^ Z.of_nat 1074)))%R
    with ((IZR (2 ^ Z.of_nat 52) - 1) * IZR (10 ^ Z.of_nat 310))%R by (field; lra).
  rewrite <- minus_IZR, <- mult_IZR. apply IZR_le. vm_compute. discriminate.
Qed.
(** The text -12.5e1 is the number -125. *)
Example C119_ex : let t := [45; 49; 50; 46; 53; 101; 49] in let l := t ++ [0; 7] in
  (exists fld, Letter (loaded [FP_FPDP] l) FP_FPDP fld 82) /\ Holds (loaded [FP_FPDP] l) l /\
  char_str ([] ++ t ++ []) /\ numeral t true 125 0 /\ ends [] /\
  run_stack (execute 1 1 82) (loaded [FP_FPDP] l) = Ok (ENone, [bits_of_dbl (dbl_of_int (-125)); 7]).
Proof.
  cbv zeta. assert (K : Ready (loaded [FP_FPDP] ([45; 49; 50; 46; 53; 101; 49] ++ [0; 7])) FP_FPDP 82 ([45; 49; 50; 46; 53; 101; 49] ++ [0; 7])) by demo.
  destruct K as [K1 K2]. split; [exact K1|]. split; [exact K2|].
  split; [repeat constructor; discriminate|]. split; [|split; [now left|vm_compute; reflexivity]].
  exists [45], [49; 50], [46; 53], [53], [101; 49], 1. split; [reflexivity|]. split; [reflexivity|].
  split; [repeat constructor; discriminate|]. split; [discriminate|]. split; [now right|].
  split; [right; exists 101, [], [49]; repeat split; auto; [repeat constructor; discriminate|discriminate|left; auto]|].
  split; reflexivity.
Qed.
(** 1e400 is too large, and the text abc is no number. *)
Example C119_large_ex : let t := [49; 101; 52; 48; 48] in
  numeral t false 1 400 /\ (too_large <= IZR 1 * powerRZ 10 400)%R /\
  run_stack (execute 1 1 82) (loaded [FP_FPDP] (t ++ [0; 7])) = Bad BadThrow /\
  run_stack (execute 1 1 82) (loaded [FP_FPDP] [97; 98; 99; 0; 7]) = Bad BadThrow.
Proof.
  split; [|split; [|split; vm_compute; reflexivity]].
  - exists [], [49], [], [], [101; 52; 48; 48], 400. split; [reflexivity|]. split; [now left|].
    split; [repeat constructor; discriminate|]. split; [discriminate|]. split; [now left|].
    split; [right; exists 101, [], [52; 48; 48]; repeat split; auto; [repeat constructor; discriminate|discriminate|left; auto]|].
    split; reflexivity.
  - unfold too_large. rewrite Rmult_1_l. change 1024 with (Z.of_nat 1024). change 970 with (Z.of_nat 970).
    change 400 with (Z.of_nat 400). rewrite <- !pow_powerRZ. 
    assert (0 < 2 ^ 970)%R by (apply pow_lt; lra).
    assert (IZR (2 ^ 1024) <= IZR (10 ^ 400))%R by (apply IZR_le; vm_compute; discriminate).
    rewrite (pow_IZR 2), (pow_IZR 10) in *. change (2 ^ Z.of_nat 1024) with (2 ^ 1024). change (10 ^ Z.of_nat 400) with (10 ^ 400). lra.
Qed.
Print Assumptions C119_read_partial.
Print Assumptions C119_large.
Print Assumptions C119_running_refuted.
Print Assumptions C119_infinite.
Print Assumptions C119_nan.
Print Assumptions C119_hex_partial.
Print Assumptions C119_exact.
Print Assumptions C119_small_refuted.

(** ** C120 FPSP *)

Lemma single_spec c : single_number c ->
  single_value c = sval (flt_of_bits c) /\ is_finite_SF (flt_of_bits c) = true /\ sign_SF (flt_of_bits c) = single_sign c.
Proof.
  unfold single_number, single_value, flt_of_bits, single_sign, single_exponent.
  assert (E1 : to_u64 c mod 2 ^ 32 = c mod 2 ^ 32).
  { unfold to_u64. change (2 ^ 64) with (2 ^ 32 * 2 ^ 32). rewrite Z.rem_mul_r by lia.
    rewrite Z.mul_comm, Z_mod_plus_full, Z.mod_mod by lia. reflexivity. }
  rewrite E1. assert (E2 : c mod 2 ^ 23 = c mod 2 ^ 32 mod 2 ^ 23).
  { change (2 ^ 32) with (2 ^ 23 * 2 ^ 9). rewrite Z.rem_mul_r by lia. rewrite Z.mul_comm, Z_mod_plus_full, Z.mod_mod by lia. reflexivity. }
  rewrite E2. cbv zeta. pose proof (Z.mod_pos_bound (c mod 2 ^ 32) (2 ^ 23) ltac:(reflexivity)) as M.
  set (e := (c mod 2 ^ 32 / 2 ^ 23) mod 2 ^ 8). set (m := c mod 2 ^ 32 mod 2 ^ 23) in *. intros N.
  set (s := Z.testbit (c mod 2 ^ 32) 31). destruct (Z.eqb_spec e 0).
  - destruct m as [|p|p] eqn:E; cbn [SF2R is_finite_SF sign_SF]; [| |lia].
    + split; [ring|]. split; reflexivity.
    + split; [|split; reflexivity].
      unfold F2R. cbn [Fnum Fexp]. rewrite bpow_powerRZ. destruct s; cbn [cond_Zopp]; [rewrite opp_IZR|]; ring.
  - destruct (Z.eqb_spec e 255); [contradiction|].
    rewrite (Z.add_comm (2 ^ 23) m). destruct (m + 2 ^ 23) as [|p|p] eqn:E; cbn [SF2R is_finite_SF sign_SF]; [lia| |lia].
    split; [|split; reflexivity].
    unfold F2R. cbn [Fnum Fexp]. rewrite bpow_powerRZ. destruct s; cbn [cond_Zopp]; [rewrite opp_IZR|]; ring.
Qed.

(** I takes the whole part and P prints, as in FPDP. *)
Theorem C120_I_partial : forall F D s l t,
  Ready s FP_FPSP 73 l -> let c := at_top l 0 in
  single_number c -> whole_part (single_value c) t -> in64 t ->
  exists s', execute F (S D) 73 s = Ok (ENone, s') /\ Only_stack s s' (t :: skipn 1 l).
Proof.
  intros F D s l t ((fld & L) & H) c N W I. rewrite (execute_letter F D _ _ _ _ L).
  change (fp_exec F FP_FPSP fld 73) with (fpsp_exec 73). unfold fpsp_exec. cbn [Z.eqb Pos.eqb]. cbv zeta.
  xpop. rewrite hd_nth, tl_skip in *. fold c. destruct (single_spec c N) as (V & Fi & _).
  assert (T : Ztrunc (single_value c) = t).
  { destruct (trunc_whole_part (single_value c)) as [A B], W as [A' B'].
    destruct (Rle_or_lt 0 (single_value c)) as [P|P].
    - specialize (A P). specialize (A' P). apply Z.le_antisymm; apply Z.lt_succ_r; apply lt_IZR; unfold Z.succ; rewrite plus_IZR; lra.
    - specialize (B ltac:(lra)). specialize (B' ltac:(lra)). apply Z.le_antisymm; apply Z.lt_succ_r; apply lt_IZR; unfold Z.succ; rewrite plus_IZR; lra. }
  assert (K : dbl_to_i64 (flt_of_bits c) = Ok t).
  { unfold dbl_to_i64. rewrite trunc_sval by exact Fi. rewrite <- V, T. cbn [bind]. apply chk64_ok, I. }
  rewrite K. rewrite (run_bind (lift (Ok t)) _ s0 t s0) by reflexivity. xpush. eexists. split; [reflexivity|os_finish].
Qed.
Theorem C120_P_partial : forall F D s l,
  Ready s FP_FPSP 80 l -> single_number (at_top l 0) ->
  exists s' q t, execute F (S D) 80 s = Ok (ENone, s') /\
    World_and_stack s s' (set_w_out (w_out (s_w s) ++ t ++ [32]) (s_w s)) (skipn 1 l) /\
    0 <= q /\ closest (Rabs (single_value (at_top l 0)) * 10 ^ 6)%R q /\ fixed_text (single_sign (at_top l 0)) q t.
Proof.
  intros F D s l ((fld & L) & H) N. rewrite (execute_letter F D _ _ _ _ L).
  change (fp_exec F FP_FPSP fld 80) with (fpsp_exec 80). unfold fpsp_exec. cbn [Z.eqb Pos.eqb]. cbv zeta.
  xpop. rewrite hd_nth, tl_skip in *. destruct (single_spec _ N) as (V & Fi & Sg). rewrite V, <- Sg.
  destruct (print_fixed_spec (flt_of_bits (at_top l 0)) Fi) as (q & t & Et & Q & K1 & K2).
  pose proof (Only_stack_w _ _ _ C) as W.
  exists {| s_w := set_w_out (w_out (s_w s) ++ t ++ [32]) (s_w s); s_r := s_r s0 |}, q, t.
  split; [rewrite Et; rewrite (run_bind (lift (Ok t)) _ s0 t s0) by reflexivity; unfold out, modW, mbind; rewrite W; reflexivity|].
  split; [split; [reflexivity|]; exists s0; auto|]. auto.
Qed.
(** Every other instruction reads outside of the number it pushes, whatever the
    operands. *)
Theorem C120_refuted : forall F D s c l,
  Ready s FP_FPSP c l -> In c [65; 66; 67; 68; 69; 70; 71; 72; 75; 76; 77; 78; 81; 83; 84; 86; 88; 89] ->
  execute F (S D) c s = Bad BadOob.
Proof.
  intros F D s c l ((fld & L) & H) I. rewrite (execute_letter F D _ _ _ _ L).
  change (fp_exec F FP_FPSP fld c) with (fpsp_exec c).
  repeat (destruct I as [<-|I]; [unfold fpsp_exec; cbn [Z.eqb Pos.eqb existsb orb]; xpop; try xpop; reflexivity|]). destruct I.
Qed.
(** So does R with a number. *)
Theorem C120_R_refuted : forall F D s fld ws t rest (neg : bool) v k l x,
  Letter s FP_FPSP fld 82 -> char_str (ws ++ t ++ rest) -> Holds s ((ws ++ t ++ rest) ++ 0 :: l) ->
  Forall (fun c => isspace c = true) ws -> numeral t neg v k -> ends rest ->
  x = ((if neg then -1 else 1) * (IZR v * powerRZ 10 k))%R ->
  (powerRZ 2 (-1022) <= Rabs x < too_large)%R -> 0 < v ->
  execute F (S D) 82 s = Bad BadOob.
Proof.
  intros F D s fld ws t rest neg v k l x L Ch H W Nu En X [Lo Hi] P. rewrite (execute_letter F D _ _ _ _ L).
  change (fp_exec F FP_FPSP fld 82) with (fpsp_exec 82). unfold fpsp_exec. cbn [Z.eqb Pos.eqb]. cbv zeta.
  destruct (popString_plain s _ l Ch H) as (s1 & E1 & C1). rewrite (run_bind _ _ _ _ _ E1).
  destruct (of_value_nearest neg v k x X P Lo Hi) as (d & Ed & _).
  rewrite (stod_numeral _ _ _ _ _ _ W Nu En), Ed. reflexivity.
Qed.
(** 1.5 as a binary32. *)
Example C120_ex : let l := [1069547520; 1069547520] in
  Ready (loaded [FP_FPSP] l) FP_FPSP 73 l /\ Ready (loaded [FP_FPSP] l) FP_FPSP 80 l /\ Ready (loaded [FP_FPSP] l) FP_FPSP 65 l /\
  single_number (at_top l 0) /\ whole_part (single_value (at_top l 0)) 1 /\ in64 1.
Proof.
  cbv zeta. split; [demo|]. split; [demo|]. split; [demo|]. split; [vm_compute; discriminate|].
  split; [|unfold in64, INT64_MIN, INT64_MAX; lia].
  assert (N : single_number (at_top [1069547520; 1069547520] 0)) by (vm_compute; discriminate).
  destruct (single_spec _ N) as (V & _ & _). rewrite V.
  assert (E : flt_of_bits (at_top [1069547520; 1069547520] 0) = S754_finite false 12582912 (-23)) by (vm_compute; reflexivity).
  rewrite E. cbn [SF2R cond_Zopp]. unfold F2R. cbn [Fnum Fexp]. rewrite bpow_powerRZ.
  change (-23) with (Z.opp 23). rewrite powerRZ_neg'. change 23 with (Z.of_nat 23). rewrite <- pow_powerRZ, pow_IZR.
  change (2 ^ Z.of_nat 23) with 8388608. split; intros; [|exfalso]; lra.
Qed.
Print Assumptions C120_I_partial.
Print Assumptions C120_P_partial.
Print Assumptions C120_refuted.
Print Assumptions C120_R_refuted.
