(** * The arithmetic of doubles rounds correctly

    SpecFloat's operations are those of Flocq's binary64, whose correctness is
    proved there over the real numbers; here the results are carried over to cells.
    The proofs rest on the axioms of the standard library's real numbers. *)

From Coq Require Import ZArith Reals Bool Lia Lra SpecFloat.
From Flocq Require Import Core IEEE754.BinarySingleNaN.
From Verif Require Import Base BaseProofs DblModel DblProofs FloatSpec.
Open Scope Z_scope.

#[local] Instance Hprec : FLX.Prec_gt_0 PREC := eq_refl _.
#[local] Instance Hmax : Prec_lt_emax PREC EMAX := eq_refl _.

Notation FE := (SpecFloat.fexp PREC EMAX).
Notation RN := (round radix2 FE ZnearestE).
Notation sval := (SF2R radix2).
Notation bfl := (binary_float PREC EMAX).

(** ** SpecFloat and Flocq *)

Lemma round_nearest_even_equiv s m l :
  round_nearest_even m l = choice_mode mode_NE s m l.
Proof.
  destruct l as [|[]]; try reflexivity.
  cbn. unfold Round.cond_incr. now destruct (Z.even m).
Qed.

Lemma round_aux_equiv sx mx ex lx :
  SpecFloat.binary_round_aux PREC EMAX sx mx ex lx
  = binary_round_aux PREC EMAX mode_NE sx mx ex lx.
Proof.
  unfold SpecFloat.binary_round_aux, binary_round_aux.
  set (mrse' := shr_fexp _ _ _). destruct mrse' as [mrs' e']. cbn -[shr_fexp].
  now rewrite (round_nearest_even_equiv sx).
Qed.

Lemma round_equiv s m e :
  SpecFloat.binary_round PREC EMAX s m e = binary_round PREC EMAX mode_NE s m e.
Proof.
  unfold SpecFloat.binary_round, binary_round, shl_align_fexp.
  set (mez := shl_align _ _ _). destruct mez as [mz ez]. apply round_aux_equiv.
Qed.

Lemma normalize_equiv m e szero :
  SpecFloat.binary_normalize PREC EMAX m e szero
  = B2SF (binary_normalize PREC EMAX Hprec Hmax mode_NE m e szero).
Proof.
  destruct m as [|p|p]; [reflexivity| |]; cbn -[binary_round]; rewrite B2SF_SF2B; apply round_equiv.
Qed.

Lemma add_equiv (x y : bfl) : B2SF (Bplus mode_NE x y) = dadd (B2SF x) (B2SF y).
Proof.
  destruct x as [sx|sx| |sx mx ex Bx], y as [sy|sy| |sy my ey By]; cbn;
    try destruct (Bool.eqb _ _); try reflexivity.
  symmetry. apply normalize_equiv.
Qed.

Lemma sub_equiv (x y : bfl) : B2SF (Bminus mode_NE x y) = dsub (B2SF x) (B2SF y).
Proof.
  destruct x as [sx|sx| |sx mx ex Bx], y as [sy|sy| |sy my ey By]; cbn;
    try destruct (Bool.eqb _ _); try reflexivity.
  unfold Zminus. rewrite <- cond_Zopp_negb. symmetry. apply normalize_equiv.
Qed.

Lemma mul_equiv (x y : bfl) : B2SF (Bmult mode_NE x y) = dmul (B2SF x) (B2SF y).
Proof.
  destruct x as [sx|sx| |sx mx ex Bx], y as [sy|sy| |sy my ey By]; try reflexivity.
  cbn -[binary_round_aux]. rewrite B2SF_SF2B. symmetry. apply round_aux_equiv.
Qed.

Lemma div_equiv (x y : bfl) : B2SF (Bdiv mode_NE x y) = ddiv (B2SF x) (B2SF y).
Proof.
  destruct x as [sx|sx| |sx mx ex Bx], y as [sy|sy| |sy my ey By]; try reflexivity.
  cbn -[binary_round_aux SFdiv_core_binary]. rewrite B2SF_SF2B.
  unfold ddiv, SFdiv. destruct (SFdiv_core_binary _ _ _ _ _ _) as [[mz ez] lz].
  symmetry. apply round_aux_equiv.
Qed.

Lemma sqrt_equiv (x : bfl) : B2SF (Bsqrt mode_NE x) = dsqrt (B2SF x).
Proof.
  destruct x as [sx|sx| |sx mx ex Bx]; [reflexivity|destruct sx; reflexivity|reflexivity|].
  destruct sx; [reflexivity|]. cbn -[binary_round_aux SFsqrt_core_binary]. rewrite B2SF_SF2B.
  unfold dsqrt, SFsqrt. destruct (SFsqrt_core_binary _ _ _ _) as [[mz ez] lz].
  symmetry. apply round_aux_equiv.
Qed.

(** ** Correct rounding, on the structure *)

Definition big : R := bpow radix2 1024.
Definition sround (x : R) (d : spec_float) : Prop :=
  valid d /\ if Rlt_bool (Rabs (RN x)) big
             then sval d = RN x /\ is_finite_SF d = true
             else d = S754_infinity (Rlt_bool x 0).

Lemma valid_lift d : valid d -> exists b : bfl, B2SF b = d.
Proof. intros V. exists (SF2B d V). apply B2SF_SF2B. Qed.

Lemma RN_0 : RN 0 = 0%R.
Proof. apply round_0. apply valid_rnd_N. Qed.
Lemma RN_le x y : (x <= y)%R -> (RN x <= RN y)%R.
Proof. apply round_le; [apply (fexp_correct PREC EMAX Hprec)|apply valid_rnd_N]. Qed.

Lemma overflow_sign x s : Rlt_bool (Rabs (RN x)) big = false ->
  (s = true -> (x <= 0)%R) -> (s = false -> (0 <= x)%R) -> s = Rlt_bool x 0.
Proof.
  intros O T F. assert (x <> 0)%R.
  { intros ->. rewrite RN_0, Rabs_R0 in O. rewrite Rlt_bool_true in O; [discriminate|apply bpow_gt_0]. }
  destruct s; [rewrite Rlt_bool_true; [reflexivity|specialize (T eq_refl); lra]|].
  rewrite Rlt_bool_false; [reflexivity|]. apply F. reflexivity.
Qed.

Lemma sign_le (b : bfl) : is_finite b = true -> Bsign b = true -> (B2R b <= 0)%R.
Proof.
  destruct b as [s|s| |s m e H]; cbn; try discriminate; intros _ S; [lra|]. subst s.
  apply F2R_le_0. cbn. lia.
Qed.
Lemma sign_ge (b : bfl) : is_finite b = true -> Bsign b = false -> (0 <= B2R b)%R.
Proof.
  destruct b as [s|s| |s m e H]; cbn; try discriminate; intros _ S; [lra|]. subst s.
  apply F2R_ge_0. cbn. lia.
Qed.

Lemma dadd_round x y : valid x -> valid y -> is_finite_SF x = true -> is_finite_SF y = true ->
  sround (sval x + sval y) (dadd x y).
Proof.
  intros Vx Vy Fx Fy. destruct (valid_lift x Vx) as [bx <-], (valid_lift y Vy) as [b' <-].
  rewrite is_finite_SF_B2SF in Fx, Fy. rewrite <- add_equiv, !SF2R_B2SF. split; [apply valid_binary_B2SF|].
  pose proof (Bplus_correct PREC EMAX Hprec Hmax mode_NE bx b' Fx Fy) as C. cbn [round_mode] in C.
  change (bpow radix2 EMAX) with big in C.
  destruct (Rlt_bool (Rabs (RN (B2R bx + B2R b'))) big) eqn:O.
  - destruct C as (C1 & C2 & _). rewrite SF2R_B2SF, is_finite_SF_B2SF. auto.
  - destruct C as [C1 C2]. rewrite C1. cbn. f_equal. apply (overflow_sign _ _ O); intros S.
    + pose proof (sign_le bx Fx S). rewrite S in C2. pose proof (sign_le b' Fy (eq_sym C2)). lra.
    + pose proof (sign_ge bx Fx S). rewrite S in C2. pose proof (sign_ge b' Fy (eq_sym C2)). lra.
Qed.

Lemma dsub_round x y : valid x -> valid y -> is_finite_SF x = true -> is_finite_SF y = true ->
  sround (sval x - sval y) (dsub x y).
Proof.
  intros Vx Vy Fx Fy. destruct (valid_lift x Vx) as [bx <-], (valid_lift y Vy) as [b' <-].
  rewrite is_finite_SF_B2SF in Fx, Fy. rewrite <- sub_equiv, !SF2R_B2SF. split; [apply valid_binary_B2SF|].
  pose proof (Bminus_correct PREC EMAX Hprec Hmax mode_NE bx b' Fx Fy) as C. cbn [round_mode] in C.
  change (bpow radix2 EMAX) with big in C.
  destruct (Rlt_bool (Rabs (RN (B2R bx - B2R b'))) big) eqn:O.
  - destruct C as (C1 & C2 & _). rewrite SF2R_B2SF, is_finite_SF_B2SF. auto.
  - destruct C as [C1 C2]. rewrite C1. cbn. f_equal. apply (overflow_sign _ _ O); intros S.
    + pose proof (sign_le bx Fx S). assert (S' : Bsign b' = false) by (rewrite S in C2; destruct (Bsign b'); [discriminate|reflexivity]).
      pose proof (sign_ge b' Fy S'). lra.
    + pose proof (sign_ge bx Fx S). assert (S' : Bsign b' = true) by (rewrite S in C2; destruct (Bsign b'); [reflexivity|discriminate]).
      pose proof (sign_le b' Fy S'). lra.
Qed.

Lemma dmul_round x y : valid x -> valid y -> is_finite_SF x = true -> is_finite_SF y = true ->
  sround (sval x * sval y) (dmul x y).
Proof.
  intros Vx Vy Fx Fy. destruct (valid_lift x Vx) as [bx <-], (valid_lift y Vy) as [b' <-].
  rewrite is_finite_SF_B2SF in Fx, Fy. rewrite <- mul_equiv, !SF2R_B2SF. split; [apply valid_binary_B2SF|].
  pose proof (Bmult_correct PREC EMAX Hprec Hmax mode_NE bx b') as C. cbn [round_mode] in C.
  change (bpow radix2 EMAX) with big in C.
  destruct (Rlt_bool (Rabs (RN (B2R bx * B2R b'))) big) eqn:O.
  - destruct C as (C1 & C2 & _). rewrite SF2R_B2SF, is_finite_SF_B2SF, C2, Fx, Fy. auto.
  - rewrite C. cbn. f_equal. apply (overflow_sign _ _ O); intros S;
    destruct (Bsign bx) eqn:S1, (Bsign b') eqn:S2; try discriminate;
      repeat match goal with
      | H : Bsign ?b = true, F : is_finite ?b = true |- _ => pose proof (sign_le b F H); clear H
      | H : Bsign ?b = false, F : is_finite ?b = true |- _ => pose proof (sign_ge b F H); clear H
      end; nra.
Qed.

Lemma ddiv_round x y : valid x -> valid y -> is_finite_SF x = true -> is_finite_SF y = true -> sval y <> 0%R ->
  sround (sval x / sval y) (ddiv x y).
Proof.
  intros Vx Vy Fx Fy. destruct (valid_lift x Vx) as [bx <-], (valid_lift y Vy) as [b' <-].
  rewrite is_finite_SF_B2SF in Fx, Fy. rewrite <- div_equiv, !SF2R_B2SF. intros NZ. split; [apply valid_binary_B2SF|].
  pose proof (Bdiv_correct PREC EMAX Hprec Hmax mode_NE bx b' NZ) as C. cbn [round_mode] in C.
  change (bpow radix2 EMAX) with big in C.
  destruct (Rlt_bool (Rabs (RN (B2R bx / B2R b'))) big) eqn:O.
  - destruct C as (C1 & C2 & _). rewrite SF2R_B2SF, is_finite_SF_B2SF, C2, Fx. auto.
  - rewrite C. cbn. f_equal.
    assert (P : forall z, (0 <= z -> z <> 0 -> 0 < / z)%R) by (intros z A B; apply Rinv_0_lt_compat; lra).
    assert (N : forall z, (z <= 0 -> z <> 0 -> / z < 0)%R) by (intros z A B; apply Rinv_lt_0_compat; lra).
    unfold Rdiv. apply (overflow_sign _ _ O); intros S;
    destruct (Bsign bx) eqn:S1, (Bsign b') eqn:S2; try discriminate;
      repeat match goal with
      | H : Bsign ?b = true, F : is_finite ?b = true |- _ => pose proof (sign_le b F H); clear H
      | H : Bsign ?b = false, F : is_finite ?b = true |- _ => pose proof (sign_ge b F H); clear H
      end;
      first [assert (0 < / B2R b')%R by (apply P; assumption)|assert (/ B2R b' < 0)%R by (apply N; assumption)]; nra.
Qed.

Lemma dsqrt_round x : valid x -> is_finite_SF x = true -> (0 <= sval x)%R ->
  sround (sqrt (sval x)) (dsqrt x).
Proof.
  intros Vx Fx. destruct (valid_lift x Vx) as [bx <-].
  rewrite is_finite_SF_B2SF in Fx. rewrite <- sqrt_equiv, !SF2R_B2SF. intros P.
  split; [apply valid_binary_B2SF|].
  destruct (Bsqrt_correct PREC EMAX Hprec Hmax mode_NE bx) as (C1 & C2 & _). cbn [round_mode] in C1.
  rewrite <- C1. rewrite Rlt_bool_true by apply abs_B2R_lt_emax.
  rewrite SF2R_B2SF, is_finite_SF_B2SF, C2. split; [reflexivity|].
  destruct bx as [s|s| |s m e H]; try discriminate; [reflexivity|]. destruct s; [|reflexivity].
  exfalso. cbn in P. pose proof (F2R_lt_0 radix2 (Float radix2 (Zneg m) e) ltac:(cbn; lia)). lra.
Qed.

Lemma normalize_round m e sz : sround (F2R (Float radix2 m e)) (SpecFloat.binary_normalize PREC EMAX m e sz).
Proof.
  rewrite normalize_equiv. split; [apply valid_binary_B2SF|].
  pose proof (binary_normalize_correct PREC EMAX Hprec Hmax mode_NE m e sz) as C. cbv zeta in C. cbn [round_mode] in C.
  change (bpow radix2 EMAX) with big in C.
  destruct (Rlt_bool _ _).
  - destruct C as (C1 & C2 & _). rewrite SF2R_B2SF, is_finite_SF_B2SF. auto.
  - rewrite C. reflexivity.
Qed.

Lemma of_int_round n : sround (IZR n) (dbl_of_int n).
Proof.
  replace (IZR n) with (F2R (Float radix2 n 0)) by (unfold F2R; cbn; lra). apply normalize_round.
Qed.

Lemma cond_sign s x : (0 < x)%R -> Rlt_bool (if s : bool then - x else x) 0 = s.
Proof. intros P. destruct s; [rewrite Rlt_bool_true by lra|rewrite Rlt_bool_false by lra]; reflexivity. Qed.

Lemma decimal_round (s : bool) (v : positive) (k : Z) :
  sround ((if s then - 1 else 1) * (IZR (Zpos v) * powerRZ 10 k))%R (dbl_of_decimal s v k).
Proof.
  assert (P : (0 < IZR (Zpos v) * powerRZ 10 k)%R).
  { apply Rmult_lt_0_compat; [apply IZR_lt; lia|apply powerRZ_lt; lra]. }
  replace ((if s then - 1 else 1) * (IZR (Zpos v) * powerRZ 10 k))%R
    with (if s then - (IZR (Zpos v) * powerRZ 10 k) else IZR (Zpos v) * powerRZ 10 k)%R by (destruct s; ring).
  unfold dbl_of_decimal. destruct (Z.leb_spec 0 k).
  - assert (K : 0 < 10 ^ k) by (apply Z.pow_pos_nonneg; lia).
    rewrite round_equiv.
    pose proof (binary_round_correct PREC EMAX Hprec Hmax mode_NE s (v * Z.to_pos (10 ^ k)) 0) as [V C].
    cbv zeta in C. cbn [round_mode] in C.
    replace (F2R (Float radix2 (cond_Zopp s (Zpos (v * Z.to_pos (10 ^ k)))) 0))
      with (if s then - (IZR (Zpos v) * powerRZ 10 k) else IZR (Zpos v) * powerRZ 10 k)%R in C.
    2:{ unfold F2R. cbn [Fnum Fexp]. change (bpow radix2 0) with 1%R. rewrite Rmult_1_r.
        replace (powerRZ 10 k) with (IZR (10 ^ k)).
        2:{ rewrite <- (Z2Nat.id k) by lia. rewrite <- pow_powerRZ, <- pow_IZR. reflexivity. }
        rewrite <- mult_IZR. rewrite Pos2Z.inj_mul, Z2Pos.id by lia.
        destruct s; cbn [cond_Zopp]; [rewrite opp_IZR|]; reflexivity. }
    split; [exact V|]. change (bpow radix2 EMAX) with big in C.
    destruct (Rlt_bool (Rabs _) big); [tauto|]. rewrite C, cond_sign by assumption. reflexivity.
  - assert (K : 0 < 10 ^ (- k)) by (apply Z.pow_pos_nonneg; lia).
    destruct (10 ^ (- k)) as [|p|p] eqn:E; [lia| |lia].
    pose proof (Bdiv_correct_aux PREC EMAX Hprec Hmax mode_NE s v 0 false p 0) as [V C].
    cbv zeta in C, V. rewrite xorb_false_r in C, V.
    destruct (SFdiv_core_binary PREC EMAX (Zpos v) 0 (Zpos p) 0) as [[mz ez] lz].
    rewrite round_aux_equiv. cbn [round_mode] in C.
    replace (F2R (Float radix2 (cond_Zopp s (Zpos v)) 0) / F2R (Float radix2 (cond_Zopp false (Zpos p)) 0))%R
      with (if s then - (IZR (Zpos v) * powerRZ 10 k) else IZR (Zpos v) * powerRZ 10 k)%R in C.
    2:{ unfold F2R. cbn [Fnum Fexp cond_Zopp]. change (bpow radix2 0) with 1%R. rewrite !Rmult_1_r.
        replace (powerRZ 10 k) with (/ IZR (Zpos p))%R.
        2:{ rewrite <- E. rewrite <- (Z.opp_involutive k) at 2. rewrite powerRZ_neg'.
            rewrite <- (Z2Nat.id (- k)) by lia. rewrite <- pow_powerRZ, <- pow_IZR. reflexivity. }
        unfold Rdiv. destruct s; cbn [cond_Zopp]; [change (Zneg v) with (- Zpos v); rewrite opp_IZR|]; ring. }
    split; [exact V|]. change (bpow radix2 EMAX) with big in C.
    destruct (Rlt_bool (Rabs _) big); [tauto|]. rewrite C, cond_sign by assumption. reflexivity.
Qed.

(** ** Cells *)

Lemma fields_of c : to_u64 c mod 2 ^ 52 = fraction_field c.
Proof.
  unfold to_u64, fraction_field. rewrite <- Znumtheory.Zmod_div_mod; try lia. exists (2 ^ 12). reflexivity.
Qed.

Lemma bpow_powerRZ e : bpow radix2 e = powerRZ 2 e.
Proof. rewrite bpow_powerRZ. reflexivity. Qed.

Lemma number_finite c : number c <-> is_finite_SF (dbl_of_bits c) = true.
Proof.
  unfold number, exponent_field, dbl_of_bits. fold (to_u64 c). cbv zeta.
  pose proof (Z.mod_pos_bound (to_u64 c) (2 ^ 52) ltac:(reflexivity)) as M.
  set (e := (to_u64 c / 2 ^ 52) mod 2 ^ 11). set (m := to_u64 c mod 2 ^ 52) in *.
  destruct (Z.eqb_spec e 0).
  - destruct m; cbn; split; intros; lia || reflexivity.
  - destruct (Z.eqb_spec e 2047).
    + destruct (m =? 0); cbn; split; intros; lia || discriminate.
    + destruct (m + 2 ^ 52) eqn:E; cbn; split; intros; lia || reflexivity.
Qed.

Lemma value_sval c : number c -> value c = sval (dbl_of_bits c).
Proof.
  unfold number, value. unfold dbl_of_bits, sign_field, exponent_field. fold (to_u64 c). rewrite <- fields_of. cbv zeta.
  pose proof (Z.mod_pos_bound (to_u64 c) (2 ^ 52) ltac:(reflexivity)) as M.
  set (e := (to_u64 c / 2 ^ 52) mod 2 ^ 11). set (m := to_u64 c mod 2 ^ 52) in *. intros N.
  set (s := Z.testbit (to_u64 c) 63).
  destruct (Z.eqb_spec e 0).
  - destruct m as [|p|p] eqn:E; cbn [SF2R]; [ring| |lia].
    unfold F2R. cbn [Fnum Fexp]. rewrite bpow_powerRZ. destruct s; cbn [cond_Zopp]; [rewrite opp_IZR|]; ring.
  - destruct (Z.eqb_spec e 2047); [contradiction|].
    rewrite (Z.add_comm (2 ^ 52) m). destruct (m + 2 ^ 52) as [|p|p] eqn:E; cbn [SF2R]; [lia| |lia].
    unfold F2R. cbn [Fnum Fexp]. rewrite bpow_powerRZ. destruct s; cbn [cond_Zopp]; [rewrite opp_IZR|]; ring.
Qed.

Lemma format_number c : number c -> generic_format radix2 FE (value c).
Proof.
  intros N. rewrite value_sval by assumption. destruct (valid_lift _ (bits_valid c)) as [b <-].
  rewrite SF2R_B2SF. apply generic_format_B2R.
Qed.

Lemma bits_number d : valid d -> is_finite_SF d = true ->
  number (bits_of_dbl d) /\ value (bits_of_dbl d) = sval d.
Proof.
  intros V F. assert (N : d <> S754_nan) by (intros ->; discriminate).
  assert (K : number (bits_of_dbl d)) by (apply number_finite; rewrite bits_round_trip; assumption).
  split; [exact K|]. rewrite value_sval, bits_round_trip by assumption. reflexivity.
Qed.

Lemma even_pack s e m : Z.even (dbl_pack s e m) = Z.even m.
Proof.
  unfold dbl_pack, to_i64, wrap. change (64 - 1) with 63.
  rewrite Z.even_sub. change (Z.even (2 ^ 63)) with true.
  set (x := bz s * 2 ^ 63 + e * 2 ^ 52 + m).
  assert (E : Z.even ((x + 2 ^ 63) mod 2 ^ 64) = Z.even x).
  { rewrite (Z.mod_eq (x + 2 ^ 63) (2 ^ 64)) by discriminate.
    rewrite Z.even_sub, Z.even_add, Z.even_mul. change (Z.even (2 ^ 63)) with true. change (Z.even (2 ^ 64)) with true.
    destruct (Z.even x); reflexivity. }
  rewrite E. unfold x. rewrite !Z.even_add, !Z.even_mul. change (Z.even (2 ^ 63)) with true. change (Z.even (2 ^ 52)) with true.
  rewrite !orb_true_r. destruct (Z.even m); reflexivity.
Qed.

Lemma even_bits s m e : Z.even (Zpos m) = true -> Z.even (bits_of_dbl (S754_finite s m e)) = true.
Proof.
  intros E. unfold bits_of_dbl. destruct (Z.ltb_spec (Zpos m) (2 ^ 52)); rewrite even_pack; [exact E|].
  rewrite Z.even_sub, E. reflexivity.
Qed.

#[local] Instance exists_NE : Exists_NE radix2 FE.
Proof. apply exists_NE_FLT. right. reflexivity. Qed.

Lemma RN_pt x : Rnd_NE_pt radix2 FE x (RN x).
Proof. apply round_NE_pt; [apply (fexp_correct PREC EMAX Hprec)|exact exists_NE]. Qed.

Lemma RN_nearest x d : valid d -> is_finite_SF d = true -> sval d = RN x -> nearest x (bits_of_dbl d).
Proof.
  intros V F E. destruct (bits_number d V F) as [N W]. split; [exact N|]. intros n Nn.
  rewrite W. rewrite E. pose proof (RN_pt x) as [[G1 G2] G3].
  split; [apply G2, format_number; exact Nn|]. intros T.
  destruct G3 as [(g & Eg & Cg & Pg) | U].
  - right. destruct d as [s|s| |s m e]; try discriminate.
    + unfold bits_of_dbl. rewrite even_pack. reflexivity.
    + apply even_bits. cbn [SF2R] in E.
      assert (C : canonical radix2 FE (Float radix2 (cond_Zopp s (Zpos m)) e)).
      { apply canonical_canonical_mantissa. cbn [valid_binary] in V. unfold bounded in V. apply andb_prop in V. tauto. }
      assert (Q : Float radix2 (cond_Zopp s (Zpos m)) e = g).
      { apply (canonical_unique radix2 FE); [exact C|exact Cg|]. rewrite E. exact Eg. }
      rewrite <- Q in Pg. cbn [Fnum] in Pg. destruct s; cbn [cond_Zopp] in Pg; [rewrite Z.even_opp in Pg|]; exact Pg.
  - left. apply U. split; [apply format_number; exact Nn|]. intros g Fg. rewrite <- T. apply G2. exact Fg.
Qed.

(** ** Overflow *)

Definition largest : R := (bpow radix2 1024 - bpow radix2 971)%R.

Lemma largest_float : largest = F2R (Float radix2 (2 ^ 53 - 1) 971).
Proof.
  unfold F2R, largest. cbn [Fnum Fexp]. rewrite minus_IZR.
  replace (bpow radix2 1024) with (bpow radix2 53 * bpow radix2 971)%R by (rewrite <- bpow_plus; reflexivity).
  change (bpow radix2 53) with (IZR (2 ^ 53)). ring.
Qed.
Lemma canonical_largest : canonical radix2 FE (Float radix2 (2 ^ 53 - 1) 971).
Proof. exact (canonical_canonical_mantissa PREC EMAX false (2 ^ 53 - 1)%positive 971 eq_refl). Qed.
Lemma format_largest : generic_format radix2 FE largest.
Proof. rewrite largest_float. apply generic_format_canonical, canonical_largest. Qed.
Lemma format_big : generic_format radix2 FE big.
Proof. apply generic_format_bpow. vm_compute. discriminate. Qed.

Lemma powers : (0 < bpow radix2 970 /\ bpow radix2 971 = 2 * bpow radix2 970 /\ bpow radix2 971 < big /\
  too_large = big - bpow radix2 970 /\ largest = big - 2 * bpow radix2 970)%R.
Proof.
  assert (E : bpow radix2 971 = (2 * bpow radix2 970)%R).
  { change 971 with (1 + 970). rewrite bpow_plus. reflexivity. }
  split; [apply bpow_gt_0|]. split; [exact E|]. split; [apply bpow_lt; reflexivity|]. split.
  - unfold too_large, big. rewrite !bpow_powerRZ. reflexivity.
  - unfold largest, big. rewrite E. reflexivity.
Qed.

(** The doubles without a limit to the exponent have nothing between [largest] and [big]. *)
Lemma below_big f : generic_format radix2 FE f -> (f < big)%R -> (f <= largest)%R.
Proof.
  intros G L. unfold largest. 
  assert (E : pred radix2 FE big = (bpow radix2 1024 - bpow radix2 971)%R).
  { unfold big. rewrite pred_bpow. reflexivity. }
  rewrite <- E. apply pred_ge_gt; [apply (fexp_correct PREC EMAX Hprec)|exact G|exact format_big|exact L].
Qed.

Lemma RN_below x : (x < too_large)%R -> (RN x < big)%R.
Proof.
  intros L. destruct powers as (P0 & P1 & P2 & P3 & P4).
  destruct (Rlt_or_le (RN x) big) as [|G]; [assumption|exfalso].
  pose proof (RN_pt x) as [[_ N] _]. specialize (N largest format_largest).
  assert (X : (largest < x)%R).
  { destruct (Rlt_or_le largest x) as [|K]; [assumption|exfalso].
    apply RN_le in K. rewrite (round_generic radix2 FE ZnearestE largest format_largest) in K. lra. }
  rewrite (Rabs_left (largest - x)) in N by lra. rewrite Rabs_right in N by lra. lra.
Qed.

Lemma RN_above x : (too_large <= x)%R -> (big <= RN x)%R.
Proof.
  intros L. destruct powers as (P0 & P1 & P2 & P3 & P4).
  destruct (Rle_or_lt big (RN x)) as [|G]; [assumption|exfalso].
  pose proof (RN_pt x) as [[F N] U]. pose proof (below_big _ F G) as K.
  assert (X : (x < big)%R).
  { destruct (Rlt_or_le x big) as [|Q]; [assumption|exfalso].
    apply RN_le in Q. rewrite (round_generic radix2 FE ZnearestE big format_big) in Q. lra. }
  pose proof (N big format_big) as N1. rewrite (Rabs_right (big - x)) in N1 by lra.
  rewrite Rabs_left in N1 by lra.
  assert (E : RN x = largest) by lra. assert (M : (x = too_large)%R) by lra.
  destruct U as [(g & Eg & Cg & Pg) | U].
  - rewrite E, largest_float in Eg. apply (canonical_unique radix2 FE) in Eg; [|exact canonical_largest|exact Cg].
    subst g. discriminate.
  - specialize (U big). rewrite U in G; [lra|]. split; [exact format_big|]. intros g Fg.
    specialize (N g Fg). rewrite E in N. rewrite (Rabs_left (largest - x)) in N by lra.
    rewrite Rabs_right by lra. lra.
Qed.

Lemma RN_opp x : RN (- x) = (- RN x)%R.
Proof. apply round_NE_opp. Qed.

Lemma infinite_bits s : infinite s (bits_of_dbl (S754_infinity s)).
Proof. destruct s; repeat split; reflexivity. Qed.

Theorem sround_rounded x d : sround x d -> rounded x (bits_of_dbl d).
Proof.
  intros [V R]. destruct powers as (P0 & P1 & P2 & P3 & P4). split; [|split].
  - intros L. assert (B : (Rabs (RN x) < big)%R).
    { destruct (Rle_or_lt 0 x) as [S|S].
      - rewrite Rabs_right in L by lra. pose proof (RN_le _ _ S). rewrite RN_0 in H.
        rewrite Rabs_right by lra. apply RN_below. exact L.
      - rewrite Rabs_left in L by lra. pose proof (RN_le x 0 ltac:(lra)). rewrite RN_0 in H.
        rewrite Rabs_left1 by lra. rewrite <- RN_opp. apply RN_below. exact L. }
    rewrite Rlt_bool_true in R by assumption. destruct R. apply RN_nearest; assumption.
  - intros L. pose proof (RN_above x L). rewrite Rlt_bool_false in R by (rewrite Rabs_right; lra).
    rewrite Rlt_bool_false in R by lra. subst d. apply infinite_bits.
  - intros L. pose proof (RN_above (- x) ltac:(lra)). rewrite RN_opp in H.
    rewrite Rlt_bool_false in R by (rewrite Rabs_left; lra).
    rewrite Rlt_bool_true in R by lra. subst d. apply infinite_bits.
Qed.

(** ** Whole numbers *)

Lemma format_scaled n e : Z.abs n < 2 ^ 53 -> -1074 <= e -> generic_format radix2 FE (F2R (Float radix2 n e)).
Proof.
  intros N E. apply generic_format_F2R. intros NZ. unfold cexp.
  assert (M : mag radix2 (F2R (Float radix2 n e)) <= 53 + e).
  { rewrite mag_F2R by assumption. enough (mag radix2 (IZR n) <= 53) by lia.
    apply mag_le_bpow; [apply IZR_neq; assumption|]. rewrite <- abs_IZR. change (bpow radix2 53) with (IZR (2 ^ 53)).
    apply IZR_lt. exact N. }
  rewrite fexp_eq. lia.
Qed.
Lemma format_int n : Z.abs n < 2 ^ 53 -> generic_format radix2 FE (IZR n).
Proof.
  intros N. replace (IZR n) with (F2R (Float radix2 n 0)) by (unfold F2R; cbn; lra). apply format_scaled; lia.
Qed.
Lemma RN_format x : generic_format radix2 FE x -> RN x = x.
Proof. apply round_generic. apply valid_rnd_N. Qed.

Lemma of_int_format n : Z.abs n < 2 ^ 53 -> sval (dbl_of_int n) = IZR n /\ is_finite_SF (dbl_of_int n) = true.
Proof.
  intros N. destruct (of_int_round n) as [_ R]. rewrite (RN_format _ (format_int n N)) in R.
  rewrite Rlt_bool_true in R; [exact R|]. rewrite <- abs_IZR. apply Rlt_trans with (IZR (2 ^ 53)); [apply IZR_lt; exact N|].
  change (IZR (2 ^ 53)) with (bpow radix2 53). apply bpow_lt. reflexivity.
Qed.

Lemma trunc_sval d : is_finite_SF d = true -> dbl_trunc d = Ok (Ztrunc (sval d)).
Proof.
  destruct d as [s|s| |s m e]; try discriminate; intros _; cbn [dbl_trunc SF2R].
  - f_equal. symmetry. apply (Ztrunc_IZR 0).
  - f_equal. unfold F2R. cbn [Fnum Fexp]. destruct (Z.leb_spec 0 e) as [E|E].
    + replace (bpow radix2 e) with (IZR (2 ^ e)).
      2:{ symmetry. rewrite <- (IZR_Zpower radix2 e E). reflexivity. }
      rewrite <- mult_IZR, Ztrunc_IZR. destruct s; cbn [cond_Zopp]; lia.
    + assert (B : bpow radix2 e = (/ IZR (2 ^ (- e)))%R).
      { rewrite <- (Z.opp_involutive e) at 1. rewrite bpow_opp. f_equal. rewrite <- (IZR_Zpower radix2 (- e)) by lia. reflexivity. }
      rewrite B. assert (P : 0 < 2 ^ (- e)) by (apply Z.pow_pos_nonneg; lia).
      assert (G : (0 <= IZR (Zpos m) * / IZR (2 ^ (- e)))%R).
      { apply Rmult_le_pos; [apply IZR_le; lia|]. apply Rlt_le, Rinv_0_lt_compat, IZR_lt. exact P. }
      assert (T : Ztrunc (IZR (Zpos m) * / IZR (2 ^ (- e))) = Zpos m / 2 ^ (- e)).
      { rewrite Ztrunc_floor by exact G. apply Zfloor_div. lia. }
      destruct s; cbn [cond_Zopp]; [|symmetry; exact T].
      change (Zneg m) with (- Zpos m). rewrite opp_IZR, Ropp_mult_distr_l_reverse, Ztrunc_opp, T. reflexivity.
Qed.

(** The square root of a whole number up to 2^52, as a double, cut off: exact. *)
Lemma sqrt_int n : 0 <= n <= 2 ^ 52 -> dbl_to_i64 (dsqrt (dbl_of_int n)) = Ok (Z.sqrt n).
Proof.
  intros N. destruct (of_int_format n ltac:(lia)) as [V F].
  assert (VD : valid (dbl_of_int n)) by apply of_int_round.
  pose proof (dsqrt_round _ VD F) as R. rewrite V in R. specialize (R ltac:(apply IZR_le; lia)).
  pose proof (Z.sqrt_spec n ltac:(lia)) as [S1 S2]. pose proof (Z.sqrt_nonneg n) as S0. set (k := Z.sqrt n) in *.
  assert (K : k <= 2 ^ 26) by nia.
  assert (L : (IZR k <= sqrt (IZR n))%R).
  { rewrite <- (sqrt_square (IZR k)) by (apply IZR_le; lia). apply sqrt_le_1_alt. rewrite <- mult_IZR. apply IZR_le. lia. }
  assert (Lr : (IZR k <= RN (sqrt (IZR n)))%R).
  { rewrite <- (RN_format (IZR k)) by (apply format_int; lia). apply RN_le. exact L. }
  assert (Ur : (RN (sqrt (IZR n)) < IZR (k + 1))%R).
  { destruct (Z.eq_dec k (2 ^ 26)) as [Ek|Ek].
    - assert (En : n = k * k) by nia. rewrite En, mult_IZR, sqrt_square by (apply IZR_le; lia).
      rewrite RN_format by (apply format_int; lia). apply IZR_lt. lia.
    - set (u := F2R (Float radix2 ((k + 1) * 2 ^ 27 - 1) (-27))).
      assert (Eu : u = (IZR (k + 1) - / IZR (2 ^ 27))%R).
      { unfold u, F2R. cbn [Fnum Fexp]. rewrite minus_IZR, mult_IZR. change (bpow radix2 (-27)) with (/ IZR (2 ^ 27))%R. field.
        apply IZR_neq. discriminate. }
      assert (P : (0 < / IZR (2 ^ 27))%R) by (apply Rinv_0_lt_compat, IZR_lt; reflexivity).
      assert (Q : (IZR (2 ^ 27) * / IZR (2 ^ 27) = 1)%R) by (apply Rinv_r, IZR_neq; discriminate).
      assert (A : (sqrt (IZR n) <= u)%R).
      { assert (U0 : (0 <= u)%R).
        { rewrite Eu. assert (1 <= IZR (k + 1))%R by (apply IZR_le; lia).
          assert (2 <= IZR (2 ^ 27))%R by (apply IZR_le; lia). nra. }
        rewrite <- (sqrt_square u U0). apply sqrt_le_1_alt.
        assert (N1 : (IZR n <= IZR ((k + 1) * (k + 1)) - 1)%R) by (rewrite <- minus_IZR; apply IZR_le; lia).
        rewrite mult_IZR in N1. set (w := IZR (k + 1)) in *.
        assert (W : (2 * w <= IZR (2 ^ 27))%R) by (unfold w; rewrite <- mult_IZR; apply IZR_le; lia).
        rewrite Eu. set (h := (/ IZR (2 ^ 27))%R) in *. nra. }
      apply RN_le in A. rewrite (RN_format u) in A by (apply format_scaled; nia).
      rewrite Eu in A. lra. }
  destruct R as [_ R]. rewrite Rlt_bool_true in R.
  - destruct R as [R Fr]. unfold dbl_to_i64. rewrite (trunc_sval _ Fr), R. cbn [bind].
    assert (T : Ztrunc (RN (sqrt (IZR n))) = k).
    { rewrite Ztrunc_floor; [apply Zfloor_imp; split; assumption|].
      apply Rle_trans with (IZR k); [apply IZR_le; lia|exact Lr]. }
    rewrite T. apply chk64_ok. unfold in64, INT64_MIN, INT64_MAX. lia.
  - rewrite Rabs_right by (apply Rle_ge, Rle_trans with (IZR k); [apply IZR_le; lia|exact Lr]).
    apply Rlt_trans with (1 := Ur). apply Rlt_le_trans with (IZR (2 ^ 53)); [apply IZR_lt; lia|].
    change (IZR (2 ^ 53)) with (bpow radix2 53). apply bpow_le. discriminate.
Qed.

Lemma sqrt_negative n : - 2 ^ 53 < n < 0 -> dsqrt (dbl_of_int n) = S754_nan.
Proof.
  intros N. destruct (of_int_format n ltac:(lia)) as [V F].
  assert (L : (IZR n < 0)%R) by (apply IZR_lt; lia). rewrite <- V in L.
  destruct (dbl_of_int n) as [s|s| |s m e]; try discriminate; cbn [SF2R] in L; [lra|].
  destruct s; [reflexivity|]. exfalso.
  pose proof (F2R_gt_0 radix2 (Float radix2 (Zpos m) e) ltac:(cbn; lia)). cbn [cond_Zopp] in L. lra.
Qed.
