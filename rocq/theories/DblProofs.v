(** * Doubles that are whole numbers: representation and exact arithmetic. *)

From Coq Require Import ZArith List Bool Lia SpecFloat.
From Verif Require Import Base BaseProofs DblModel.
Import ListNotations.
Open Scope Z_scope.

(** The double [d] is exactly the integer [n]: [(-1)^s * m * 2^e = n], with a
    negative power of two moved to the other side. *)
Definition whole (d : spec_float) (n : Z) : Prop :=
  match d with
  | S754_zero _ => n = 0
  | S754_finite s m e =>
      n * 2 ^ (Z.max 0 (- e)) = (if s then - Zpos m else Zpos m) * 2 ^ (Z.max 0 e)
  | _ => False
  end.

(** The integers that ><> computes with exactly. *)
Definition small (n : Z) : Prop := - 2 ^ 53 <= n <= 2 ^ 53.

Notation valid d := (valid_binary PREC EMAX d = true).

(** ** Binary digits *)

Lemma digits_log2 p : Zpos (digits2_pos p) = Z.log2 (Zpos p) + 1.
Proof.
  induction p as [p IH|p IH|]; [| |reflexivity]; cbn [digits2_pos]; rewrite Pos2Z.inj_succ, IH.
  - change (Zpos p~1) with (2 * Zpos p + 1). rewrite Z.log2_succ_double by lia. lia.
  - change (Zpos p~0) with (2 * Zpos p). rewrite Z.log2_double by lia. lia.
Qed.

Lemma log2_mul_pow2 m k : 0 < m -> 0 <= k -> Z.log2 (m * 2 ^ k) = Z.log2 m + k.
Proof. intros. rewrite Z.log2_mul_pow2 by lia. lia. Qed.

Lemma pow2_pos k : 0 <= k -> 0 < 2 ^ k.
Proof. intros. apply Z.pow_pos_nonneg; lia. Qed.

Lemma pow2_max j : 0 < 2 ^ Z.max 0 j.
Proof. apply pow2_pos. lia. Qed.

(** ** Exact rounding *)

Lemma shr_1_even p : shr_1 (Build_shr_record (Zpos (xO p)) false false) = Build_shr_record (Zpos p) false false.
Proof. reflexivity. Qed.

Lemma iter_shr n : forall m, 0 < m ->
  iter_pos shr_1 n (Build_shr_record (m * 2 ^ Zpos n) false false) = Build_shr_record m false false.
Proof.
  induction n as [n IH|n IH|]; intros m M; cbn [iter_pos].
  - replace (m * 2 ^ Zpos n~1) with (2 * (m * 2 ^ Zpos n * 2 ^ Zpos n)).
    2:{ change (Zpos n~1) with (2 * Zpos n + 1). rewrite Z.pow_add_r, Z.pow_1_r by lia.
        replace (2 * Zpos n) with (Zpos n + Zpos n) by lia. rewrite Z.pow_add_r by lia. ring. }
    pose proof (pow2_pos (Zpos n)).
    destruct (m * 2 ^ Zpos n * 2 ^ Zpos n) as [|q|q] eqn:E; [nia| |nia].
    change (2 * Zpos q) with (Zpos (xO q)). rewrite shr_1_even, <- E.
    rewrite (IH (m * 2 ^ Zpos n)) by nia. apply IH; assumption.
  - replace (m * 2 ^ Zpos n~0) with (m * 2 ^ Zpos n * 2 ^ Zpos n).
    2:{ change (Zpos n~0) with (2 * Zpos n).
        replace (2 * Zpos n) with (Zpos n + Zpos n) by lia. rewrite Z.pow_add_r by lia. ring. }
    pose proof (pow2_pos (Zpos n)).
    rewrite (IH (m * 2 ^ Zpos n)) by nia. apply IH; assumption.
  - rewrite Z.pow_1_r. destruct m as [|q|q]; [lia| |lia].
    replace (Zpos q * 2) with (Zpos (xO q)) by lia. apply shr_1_even.
Qed.

Definition mantissa (m : Z) : Prop := 2 ^ 52 <= m < 2 ^ 53.

Lemma mantissa_digits m : mantissa (Zpos m) -> Zpos (digits2_pos m) = 53.
Proof.
  intros [A B]. rewrite digits_log2.
  assert (Z.log2 (Zpos m) = 52) by (apply Z.log2_unique; [lia|split; [exact A|exact B]]). lia.
Qed.

Lemma fexp_eq x : fexp PREC EMAX x = Z.max (x - 53) (-1074).
Proof. reflexivity. Qed.

(** A value that needs no rounding is represented as it is. *)
Lemma round_aux_exact s m k e m' :
  0 <= k -> mantissa (Zpos m') -> Zpos m = Zpos m' * 2 ^ k -> -1074 <= e + k <= 971 ->
  binary_round_aux PREC EMAX s (Zpos m) e loc_Exact = S754_finite s m' (e + k).
Proof.
  intros K M E R.
  assert (D : Zdigits2 (Zpos m) = 53 + k).
  { cbn [Zdigits2]. rewrite digits_log2, E, log2_mul_pow2 by lia.
    pose proof (mantissa_digits m' M) as D. rewrite digits_log2 in D. lia. }
  assert (S1 : shr_fexp PREC EMAX (Zpos m) e loc_Exact
               = (Build_shr_record (Zpos m') false false, e + k)).
  { unfold shr_fexp. rewrite D, fexp_eq. cbn [shr_record_of_loc].
    replace (Z.max (53 + k + e - 53) (-1074) - e) with k by lia.
    destruct k as [|k|k]; [| |lia]; cbn [shr].
    - replace (Zpos m) with (Zpos m') by (rewrite E; cbn [Z.pow]; lia). f_equal. lia.
    - rewrite E, iter_shr by lia. reflexivity. }
  assert (S2 : shr_fexp PREC EMAX (Zpos m') (e + k) loc_Exact
               = (Build_shr_record (Zpos m') false false, e + k)).
  { unfold shr_fexp. cbn [Zdigits2]. rewrite (mantissa_digits m' M), fexp_eq. cbn [shr_record_of_loc].
    replace (Z.max (53 + (e + k) - 53) (-1074) - (e + k)) with 0 by lia. reflexivity. }
  unfold binary_round_aux. rewrite S1. cbn [shr_m loc_of_shr_record round_nearest_even].
  rewrite S2. cbn [shr_m].
  assert (X : (e + k <=? EMAX - PREC) = true) by (apply Z.leb_le; change (EMAX - PREC) with 971; lia).
  rewrite X. reflexivity.
Qed.

Lemma shift_pos_mul d m : Zpos (shift_pos d m) = Zpos m * 2 ^ Zpos d.
Proof.
  rewrite shift_pos_correct, Z.mul_comm. reflexivity.
Qed.

Lemma round_exact s m e m' f :
  mantissa (Zpos m') -> -1074 <= f <= 971 ->
  Zpos m * 2 ^ Z.max 0 (e - f) = Zpos m' * 2 ^ Z.max 0 (f - e) ->
  binary_round PREC EMAX s m e = S754_finite s m' f.
Proof.
  intros M F E.
  assert (D : Zpos (digits2_pos m) + e = 53 + f).
  { pose proof (f_equal Z.log2 E) as L. rewrite !log2_mul_pow2 in L by lia.
    pose proof (mantissa_digits m' M) as D. rewrite digits_log2 in D |- *. lia. }
  unfold binary_round. rewrite D, fexp_eq. replace (Z.max (53 + f - 53) (-1074)) with f by lia.
  unfold shl_align. destruct (f - e) as [|d|d] eqn:G.
  - replace e with f in * by lia. rewrite Z.sub_diag in E. cbn in E.
    rewrite (round_aux_exact s m 0 f m' ltac:(lia) M); [f_equal; lia| |lia]. cbn [Z.pow]. lia.
  - replace (Z.max 0 (e - f)) with 0 in E by lia. replace (Z.max 0 (Zpos d)) with (f - e) in E by lia.
    rewrite (round_aux_exact s m (f - e) e m' ltac:(lia) M); [f_equal; lia| |lia].
    rewrite <- E. cbn [Z.pow]. lia.
  - replace (Z.max 0 (e - f)) with (Zpos d) in E by lia. replace (Z.max 0 (Zneg d)) with 0 in E by lia.
    rewrite (round_aux_exact s (shift_pos d m) 0 f m' ltac:(lia) M); [f_equal; lia| |lia].
    rewrite shift_pos_mul, E. reflexivity.
Qed.

(** ** The representation of a small integer *)

Definition exponent (n : Z) : Z := Z.log2 (Z.abs n) - 52.
Definition significand (n : Z) : Z :=
  if Z.log2 (Z.abs n) <=? 52 then Z.abs n * 2 ^ (- exponent n) else 2 ^ 52.

Definition canon (n : Z) : spec_float :=
  if n =? 0 then S754_zero false
  else S754_finite (n <? 0) (Z.to_pos (significand n)) (exponent n).

Lemma small_log n : small n -> n <> 0 ->
  0 <= Z.log2 (Z.abs n) <= 52 \/ (Z.abs n = 2 ^ 53 /\ Z.log2 (Z.abs n) = 53).
Proof.
  intros S N. unfold small in S. destruct (Z.eq_dec (Z.abs n) (2 ^ 53)) as [E|E].
  - right. split; [exact E|]. rewrite E. reflexivity.
  - left. split; [apply Z.log2_nonneg|].
    assert (Z.log2 (Z.abs n) < 53) by (apply Z.log2_lt_pow2; lia). lia.
Qed.

Lemma significand_ok n : small n -> n <> 0 ->
  mantissa (significand n) /\
  significand n * 2 ^ Z.max 0 (exponent n) = Z.abs n * 2 ^ Z.max 0 (- exponent n).
Proof.
  intros S N. unfold significand, exponent, mantissa.
  destruct (small_log n S N) as [L|[A L]].
  - destruct (Z.leb_spec (Z.log2 (Z.abs n)) 52) as [_|X]; [|lia].
    pose proof (Z.log2_spec (Z.abs n) ltac:(lia)) as [P Q]. rewrite Z.pow_succ_r in Q by lia.
    replace (- (Z.log2 (Z.abs n) - 52)) with (52 - Z.log2 (Z.abs n)) by lia.
    pose proof (pow2_pos (52 - Z.log2 (Z.abs n)) ltac:(lia)) as R.
    assert (T : 2 ^ 52 = 2 ^ Z.log2 (Z.abs n) * 2 ^ (52 - Z.log2 (Z.abs n))).
    { rewrite <- Z.pow_add_r by lia. f_equal. lia. }
    split; [|].
    + split; [rewrite T; nia|]. change (2 ^ 53) with (2 * 2 ^ 52). rewrite T. nia.
    + replace (Z.max 0 (Z.log2 (Z.abs n) - 52)) with 0 by lia.
      replace (Z.max 0 (52 - Z.log2 (Z.abs n))) with (52 - Z.log2 (Z.abs n)) by lia.
      change (2 ^ 0) with 1. lia.
  - rewrite L. split; [split; reflexivity || discriminate|]. rewrite A. reflexivity.
Qed.

Lemma exponent_bound n : small n -> n <> 0 -> -52 <= exponent n <= 1.
Proof. intros S N. unfold exponent. destruct (small_log n S N); lia. Qed.

Lemma significand_pos n : small n -> n <> 0 -> Zpos (Z.to_pos (significand n)) = significand n.
Proof.
  intros S N. destruct (significand_ok n S N) as [[A _] _]. apply Z2Pos.id.
  assert (0 < 2 ^ 52) by reflexivity. lia.
Qed.

Lemma whole_canon n : small n -> whole (canon n) n.
Proof.
  intros S. unfold canon. destruct (Z.eqb_spec n 0) as [E|N]; [exact E|].
  destruct (significand_ok n S N) as [_ E]. cbn [whole]. rewrite (significand_pos n S N).
  destruct (Z.ltb_spec n 0).
  - replace n with (- Z.abs n) at 1 by lia. rewrite Z.mul_opp_l, Z.mul_opp_l. f_equal. symmetry. exact E.
  - replace n with (Z.abs n) at 1 by lia. symmetry. exact E.
Qed.

Lemma valid_finite s m e :
  mantissa (Zpos m) -> -1074 <= e <= 971 -> valid (S754_finite s m e).
Proof.
  intros M R. cbn [valid_binary]. unfold bounded, canonical_mantissa.
  rewrite (mantissa_digits m M), fexp_eq. apply andb_true_iff. split.
  - apply Zeq_is_eq_bool. lia.
  - change (EMAX - PREC) with 971. apply Z.leb_le. lia.
Qed.

Lemma valid_canon n : small n -> valid (canon n).
Proof.
  intros S. unfold canon. destruct (Z.eqb_spec n 0) as [E|N]; [reflexivity|].
  apply valid_finite; [|pose proof (exponent_bound n S N); lia].
  rewrite (significand_pos n S N). apply significand_ok; assumption.
Qed.

(** A valid double that is the integer [n] is the representation of [n]. *)
Lemma whole_unique d n : valid d -> whole d n -> small n ->
  (n = 0 /\ exists s, d = S754_zero s) \/ (n <> 0 /\ d = canon n).
Proof.
  intros V W S. destruct d as [s|s| |s m e]; cbn [whole] in W; try contradiction.
  { left. split; [exact W|]. exists s. reflexivity. }
  right.
  pose proof (pow2_pos (Z.max 0 e) ltac:(lia)) as P1. pose proof (pow2_pos (Z.max 0 (- e)) ltac:(lia)) as P2.
  assert (N : n <> 0) by (intros ->; destruct s; nia).
  split; [exact N|].
  assert (Sg : (n <? 0) = s).
  { destruct s; [apply Z.ltb_lt|apply Z.ltb_ge]; nia. }
  assert (A : Z.abs n * 2 ^ Z.max 0 (- e) = Zpos m * 2 ^ Z.max 0 e).
  { destruct s; [apply Z.ltb_lt in Sg|apply Z.ltb_ge in Sg].
    - rewrite Z.abs_neq by lia. rewrite Z.mul_opp_l, W, Z.mul_opp_l, Z.opp_involutive. reflexivity.
    - rewrite Z.abs_eq by lia. exact W. }
  pose proof (f_equal Z.log2 A) as L. rewrite !log2_mul_pow2 in L by lia.
  assert (X : e = exponent n).
  { cbn [valid_binary] in V. unfold bounded, canonical_mantissa in V.
    apply andb_true_iff in V. destruct V as [V _]. apply Zeq_is_eq_bool in V.
    rewrite digits_log2, fexp_eq in V. unfold exponent. destruct (small_log n S N); lia. }
  subst e. destruct (significand_ok n S N) as [_ B].
  unfold canon. destruct (Z.eqb_spec n 0) as [?|_]; [contradiction|]. rewrite Sg. f_equal.
  apply Pos2Z.inj. rewrite (significand_pos n S N). nia.
Qed.

(** ** Exact operations *)

Lemma same_sign n m a b : 0 < a -> 0 < b -> n * a = m * b -> (m < 0 -> n < 0) /\ (0 < m -> 0 < n) /\ (m = 0 -> n = 0).
Proof. intros. repeat split; intros; nia. Qed.
Lemma normalize_exact n m e sz :
  small n -> n <> 0 -> n * 2 ^ Z.max 0 (- e) = m * 2 ^ Z.max 0 e ->
  binary_normalize PREC EMAX m e sz = canon n.
Proof.
  intros S N E. destruct (significand_ok n S N) as [M B].
  pose proof (exponent_bound n S N) as X. pose proof (significand_pos n S N) as P.
  pose proof (pow2_pos (Z.max 0 e) ltac:(lia)) as P1. pose proof (pow2_pos (Z.max 0 (- e)) ltac:(lia)) as P2.
  assert (G : Z.abs m * 2 ^ Z.max 0 (e - exponent n) = significand n * 2 ^ Z.max 0 (exponent n - e)).
  { assert (A : Z.abs n * 2 ^ Z.max 0 (- e) = Z.abs m * 2 ^ Z.max 0 e).
    { rewrite <- (Z.abs_eq (2 ^ Z.max 0 (- e))) by lia. rewrite <- (Z.abs_eq (2 ^ Z.max 0 e)) by lia.
      rewrite <- !Z.abs_mul. f_equal. exact E. }
    (* multiply out the common powers *)
    set (x := exponent n) in *. clearbody x.
    apply (Z.mul_reg_r _ _ (2 ^ Z.max 0 (- x) * 2 ^ Z.max 0 e * 2 ^ Z.max 0 x * 2 ^ Z.max 0 (- e))).
    { clear. assert (H : forall k, 0 < 2 ^ Z.max 0 k) by (intros; apply pow2_pos; lia).
      assert (0 < 2 ^ Z.max 0 (- x) * 2 ^ Z.max 0 e * 2 ^ Z.max 0 x * 2 ^ Z.max 0 (- e))
        by (repeat apply Z.mul_pos_pos; apply H). lia. }
    assert (Q : 2 ^ Z.max 0 (e - x) * (2 ^ Z.max 0 (- e) * 2 ^ Z.max 0 x)
                = 2 ^ Z.max 0 (x - e) * (2 ^ Z.max 0 e * 2 ^ Z.max 0 (- x))).
    { clear. rewrite <- !Z.pow_add_r by lia. f_equal. lia. }
    transitivity ((Z.abs m * 2 ^ Z.max 0 e) * 2 ^ Z.max 0 (- x)
                  * (2 ^ Z.max 0 (e - x) * (2 ^ Z.max 0 (- e) * 2 ^ Z.max 0 x))); [ring|].
    transitivity ((significand n * 2 ^ Z.max 0 x) * 2 ^ Z.max 0 (- e)
                  * (2 ^ Z.max 0 (x - e) * (2 ^ Z.max 0 e * 2 ^ Z.max 0 (- x)))); [|ring].
    rewrite Q, <- A, B. ring. }
  rewrite <- P in G, M.
  unfold canon. destruct (Z.eqb_spec n 0) as [?|_]; [contradiction|].
  destruct (same_sign n m _ _ P2 P1 E) as (K1 & K2 & K3). clear E P1 P2.
  destruct m as [|m|m]; cbn [binary_normalize Z.abs] in *.
  - specialize (K3 eq_refl). contradiction.
  - specialize (K2 eq_refl). destruct (Z.ltb_spec n 0); [exfalso; clear - K2 H; lia|]. apply round_exact; [exact M|clear - X; lia|exact G].
  - specialize (K1 eq_refl). destruct (Z.ltb_spec n 0); [|exfalso; clear - K1 H; lia]. apply round_exact; [exact M|clear - X; lia|exact G].
Qed.

Lemma dbl_of_int_exact n : small n -> dbl_of_int n = canon n.
Proof.
  intros S. destruct (Z.eq_dec n 0) as [->|N]; [reflexivity|].
  apply normalize_exact; [exact S|exact N|]. cbn [Z.max Z.opp Z.compare Z.pow]. lia.
Qed.

Lemma shl_align_value m e z : z <= e -> Zpos (fst (shl_align m e z)) = Zpos m * 2 ^ (e - z).
Proof.
  intros H. unfold shl_align. destruct (z - e) as [|d|d] eqn:E; cbn [fst].
  - replace (e - z) with 0 by lia. cbn [Z.pow]. lia.
  - lia.
  - rewrite shift_pos_mul. f_equal. f_equal. lia.
Qed.

Lemma cond_opp_mul s a b : cond_Zopp s (a * b) = cond_Zopp s a * b.
Proof. destruct s; cbn [cond_Zopp]; ring. Qed.

(** The value of a double scaled to a smaller exponent. *)
Lemma whole_scaled s m e n z : whole (S754_finite s m e) n -> z <= e -> z <= 0 ->
  cond_Zopp s (Zpos (fst (shl_align m e z))) = n * 2 ^ (- z).
Proof.
  intros W H Z. rewrite shl_align_value, cond_opp_mul by exact H.
  cbn [whole] in W. replace (if s then - Zpos m else Zpos m) with (cond_Zopp s (Zpos m)) in W by (destruct s; reflexivity).
  apply (Z.mul_reg_r _ _ (2 ^ Z.max 0 (- e))).
  { pose proof (pow2_pos (Z.max 0 (- e))). lia. }
  transitivity (cond_Zopp s (Zpos m) * 2 ^ Z.max 0 e * 2 ^ (- z)).
  - rewrite <- !Z.mul_assoc, <- !Z.pow_add_r by lia. f_equal. f_equal. lia.
  - rewrite <- W. ring.
Qed.

Lemma canon_whole_fin n : small n -> n <> 0 ->
  canon n = S754_finite (n <? 0) (Z.to_pos (significand n)) (exponent n).
Proof. intros _ N. unfold canon. destruct (Z.eqb_spec n 0); [contradiction|reflexivity]. Qed.

Ltac wholes V W S N :=
  match type of S with
  | small ?n => destruct (whole_unique _ _ V W S) as [[-> [? ->]]|[N ->]]
  end.

Theorem dadd_whole x y a b :
  valid x -> valid y -> whole x a -> whole y b -> small a -> small b -> small (a + b) ->
  valid (dadd x y) /\ whole (dadd x y) (a + b).
Proof.
  intros VX VY WX WY A B C. unfold dadd.
  destruct (whole_unique x a VX WX A) as [[-> [s ->]]|[NA ->]].
  { destruct (whole_unique y b VY WY B) as [[-> [t ->]]|[NB ->]].
    - cbn [SFadd]. destruct (eqb s t); split; reflexivity.
    - rewrite canon_whole_fin by assumption. cbn [SFadd]. rewrite <- canon_whole_fin by assumption.
      rewrite Z.add_0_l. split; [apply valid_canon|apply whole_canon]; assumption. }
  destruct (whole_unique y b VY WY B) as [[-> [t ->]]|[NB ->]].
  { rewrite canon_whole_fin by assumption. cbn [SFadd]. rewrite <- canon_whole_fin by assumption.
    rewrite Z.add_0_r. split; [apply valid_canon|apply whole_canon]; assumption. }
  rewrite !canon_whole_fin by assumption. cbn [SFadd].
  pose proof (exponent_bound a A NA) as XA. pose proof (exponent_bound b B NB) as XB.
  pose proof (whole_canon a A) as Wa. rewrite canon_whole_fin in Wa by assumption.
  pose proof (whole_canon b B) as Wb. rewrite canon_whole_fin in Wb by assumption.
  set (z := Z.min (exponent a) (exponent b)).
  destruct (Z_le_gt_dec z 0) as [Zz|Zz].
  - rewrite (whole_scaled _ _ _ a z Wa) by lia. rewrite (whole_scaled _ _ _ b z Wb) by lia.
    rewrite <- Z.mul_add_distr_r. destruct (Z.eq_dec (a + b) 0) as [E|E].
    + rewrite E. cbn [Z.mul binary_normalize]. split; reflexivity.
    + rewrite (normalize_exact (a + b)); [split; [apply valid_canon|apply whole_canon]; exact C|exact C|exact E|].
      rewrite <- Z.mul_assoc, <- Z.pow_add_r by lia. f_equal. f_equal. lia.
  - (* both are 2^53 in absolute value *)
    assert (Ea : Z.abs a = 2 ^ 53) by (unfold exponent in *; destruct (small_log a A NA); lia).
    assert (Eb : Z.abs b = 2 ^ 53) by (unfold exponent in *; destruct (small_log b B NB); lia).
    assert (Z1 : z = 1) by lia.
    assert (Ha : a = 2 ^ 53 \/ a = - 2 ^ 53) by lia. assert (Hb : b = 2 ^ 53 \/ b = - 2 ^ 53) by lia.
    unfold small in C. subst z.
    destruct Ha as [-> | ->]; destruct Hb as [-> | ->]; try (exfalso; lia); vm_compute; split; reflexivity.
Qed.

Lemma SFsub_opp x y a b :
  valid x -> valid y -> whole x a -> whole y b -> small a -> small b ->
  dsub x y = dadd x (SFopp y).
Proof.
  intros VX VY WX WY A B. unfold dadd, dsub.
  destruct x as [s|s| |s m e]; cbn [whole] in WX; try contradiction;
  destruct y as [t|t| |t p f]; cbn [whole] in WY; try contradiction; cbn [SFopp SFadd SFsub]; try reflexivity.
  f_equal. destruct t; cbn [cond_Zopp negb]; lia.
Qed.

Lemma opp_whole y b : valid y -> whole y b -> valid (SFopp y) /\ whole (SFopp y) (- b).
Proof.
  intros V W. destruct y as [t|t| |t p f]; cbn [whole SFopp] in *; try contradiction.
  - split; [reflexivity|lia].
  - split; [exact V|]. rewrite Z.mul_opp_l, W. destruct t; cbn [negb]; ring.
Qed.

Theorem dsub_whole x y a b :
  valid x -> valid y -> whole x a -> whole y b -> small a -> small b -> small (a - b) ->
  valid (dsub x y) /\ whole (dsub x y) (a - b).
Proof.
  intros VX VY WX WY A B C. rewrite (SFsub_opp x y a b) by assumption.
  destruct (opp_whole y b VY WY) as [V W]. replace (a - b) with (a + - b) in * by lia.
  apply dadd_whole; try assumption. unfold small in *. lia.
Qed.

Lemma mul_sign a b : a <> 0 -> b <> 0 -> xorb (a <? 0) (b <? 0) = (a * b <? 0).
Proof.
  intros A B.
  destruct (Z.ltb_spec a 0); destruct (Z.ltb_spec b 0); destruct (Z.ltb_spec (a * b) 0);
    try reflexivity; exfalso; nia.
Qed.

Theorem dmul_whole x y a b :
  valid x -> valid y -> whole x a -> whole y b -> small a -> small b -> small (a * b) ->
  valid (dmul x y) /\ whole (dmul x y) (a * b).
Proof.
  intros VX VY WX WY A B C. unfold dmul.
  destruct (whole_unique x a VX WX A) as [[-> [s ->]]|[NA ->]].
  { destruct (whole_unique y b VY WY B) as [[-> [t ->]]|[NB ->]]; [|rewrite canon_whole_fin by assumption];
      cbn [SFmul]; split; reflexivity. }
  destruct (whole_unique y b VY WY B) as [[-> [t ->]]|[NB ->]].
  { rewrite canon_whole_fin by assumption. cbn [SFmul]. split; [reflexivity|]. cbn [whole]. lia. }
  rewrite !canon_whole_fin by assumption. cbn [SFmul].
  assert (NC : a * b <> 0) by nia.
  destruct (significand_ok a A NA) as [Ma Ea]. destruct (significand_ok b B NB) as [Mb Eb].
  destruct (significand_ok (a * b) C NC) as [Mc Ec].
  pose proof (exponent_bound a A NA). pose proof (exponent_bound b B NB). pose proof (exponent_bound _ C NC).
  pose proof (significand_pos a A NA) as Pa. pose proof (significand_pos b B NB) as Pb.
  pose proof (significand_pos _ C NC) as Pc.
  rewrite (mul_sign a b NA NB).
  set (k := exponent (a * b) - (exponent a + exponent b)).
  assert (LL : Z.log2 (Z.abs (a * b)) <= Z.log2 (Z.abs a) + Z.log2 (Z.abs b) + 1
               /\ Z.log2 (Z.abs a) + Z.log2 (Z.abs b) <= Z.log2 (Z.abs (a * b))).
  { rewrite Z.abs_mul. split;
      [exact (Z.log2_mul_above _ _ (Z.abs_nonneg a) (Z.abs_nonneg b))
      |exact (Z.log2_mul_below _ _ (proj2 (Z.abs_pos a) NA) (proj2 (Z.abs_pos b) NB))]. }
  assert (K : 0 <= k) by (unfold k, exponent; lia).
  rewrite (round_aux_exact (a * b <? 0) _ k _ (Z.to_pos (significand (a * b)))).
  - replace (exponent a + exponent b + k) with (exponent (a * b)) by (unfold k; lia).
    rewrite <- canon_whole_fin by assumption. split; [apply valid_canon|apply whole_canon]; exact C.
  - exact K.
  - rewrite Pc. exact Mc.
  - rewrite Pos2Z.inj_mul, Pa, Pb, Pc.
    rewrite Z.abs_mul in Ec.
    pose proof pow2_max as Pw.
    apply (Z.mul_reg_r _ _ (2 ^ Z.max 0 (exponent a) * 2 ^ Z.max 0 (exponent b) * 2 ^ Z.max 0 (- exponent (a * b)))).
    { apply Z.neq_sym, Z.lt_neq, Z.mul_pos_pos; [apply Z.mul_pos_pos|]; apply Pw. }
    transitivity ((significand a * 2 ^ Z.max 0 (exponent a)) * (significand b * 2 ^ Z.max 0 (exponent b))
                  * 2 ^ Z.max 0 (- exponent (a * b))); [ring|].
    rewrite Ea, Eb.
    assert (Q : 2 ^ Z.max 0 (- exponent a) * 2 ^ Z.max 0 (- exponent b) * 2 ^ Z.max 0 (exponent (a * b))
                = 2 ^ k * (2 ^ Z.max 0 (exponent a) * 2 ^ Z.max 0 (exponent b) * 2 ^ Z.max 0 (- exponent (a * b)))).
    { clear - K. rewrite <- !Z.pow_add_r by lia. f_equal. unfold k. lia. }
    apply (Z.mul_reg_r _ _ (2 ^ Z.max 0 (exponent (a * b)))); [apply Z.neq_sym, Z.lt_neq, Pw|].
    transitivity (Z.abs a * Z.abs b * 2 ^ Z.max 0 (- exponent (a * b)) *
      (2 ^ Z.max 0 (- exponent a) * 2 ^ Z.max 0 (- exponent b) * 2 ^ Z.max 0 (exponent (a * b)))); [ring|].
    rewrite Q, <- Ec. ring.
  - unfold k. lia.
Qed.

(** ** Exact quotients *)

Lemma sig52 n : small n -> n <> 0 ->
  significand n * 2 ^ Z.log2 (Z.abs n) = Z.abs n * 2 ^ 52.
Proof.
  intros S N. unfold significand, exponent. destruct (small_log n S N) as [L|[A L]].
  - destruct (Z.leb_spec (Z.log2 (Z.abs n)) 52) as [_|X]; [|lia].
    rewrite <- Z.mul_assoc, <- Z.pow_add_r by lia. do 2 f_equal. lia.
  - rewrite L, A. reflexivity.
Qed.
Lemma div_sign b k : b <> 0 -> k <> 0 -> xorb (b * k <? 0) (b <? 0) = (k <? 0).
Proof.
  intros B K. rewrite <- (mul_sign b k B K). destruct (b <? 0), (k <? 0); reflexivity.
Qed.
Theorem ddiv_whole x y b k :
  valid x -> valid y -> whole x (b * k) -> whole y b -> small (b * k) -> small b -> small k -> b <> 0 ->
  valid (ddiv x y) /\ whole (ddiv x y) k.
Proof.
  intros VX VY WX WY A B C NB. unfold ddiv.
  destruct (whole_unique y b VY WY B) as [[-> _]|[_ ->]]; [contradiction|].
  destruct (whole_unique x (b * k) VX WX A) as [[E [s ->]]|[NA ->]].
  { rewrite canon_whole_fin by assumption. cbn [SFdiv]. split; [reflexivity|]. cbn [whole].
    destruct (Z.mul_eq_0 b k) as [M _]. destruct (M E); [contradiction|assumption]. }
  assert (NK : k <> 0) by (intros ->; apply NA; ring).
  rewrite !canon_whole_fin by assumption. cbn [SFdiv]. rewrite (div_sign b k NB NK).
  pose proof (significand_pos (b * k) A NA) as Pa. pose proof (significand_pos b B NB) as Pb.
  pose proof (significand_pos k C NK) as Pc.
  destruct (significand_ok (b * k) A NA) as [Ma _]. destruct (significand_ok b B NB) as [Mb _].
  destruct (significand_ok k C NK) as [Mc _].
  assert (Da : Zdigits2 (Zpos (Z.to_pos (significand (b * k)))) = 53)
    by (cbn [Zdigits2]; apply mantissa_digits; rewrite Pa; exact Ma).
  assert (Db : Zdigits2 (Zpos (Z.to_pos (significand b))) = 53)
    by (cbn [Zdigits2]; apply mantissa_digits; rewrite Pb; exact Mb).
  pose proof (exponent_bound _ A NA) as Xa. pose proof (exponent_bound b B NB) as Xb.
  pose proof (exponent_bound k C NK) as Xc.
  set (ea := exponent (b * k)) in *. set (eb := exponent b) in *.
  assert (LL : Z.log2 (Z.abs (b * k)) <= Z.log2 (Z.abs b) + Z.log2 (Z.abs k) + 1
               /\ Z.log2 (Z.abs b) + Z.log2 (Z.abs k) <= Z.log2 (Z.abs (b * k))).
  { rewrite Z.abs_mul. split;
      [exact (Z.log2_mul_above _ _ (Z.abs_nonneg b) (Z.abs_nonneg k))
      |exact (Z.log2_mul_below _ _ (proj2 (Z.abs_pos b) NB) (proj2 (Z.abs_pos k) NK))]. }
  set (j := exponent k - (ea - eb - 53)).
  assert (J : 0 <= j) by (unfold j, ea, eb, exponent in *; lia).
  assert (Q : significand (b * k) * 2 ^ 53 = significand k * 2 ^ j * significand b).
  { pose proof (Z.log2_nonneg (Z.abs b)) as Lb. pose proof (Z.log2_nonneg (Z.abs k)) as Lk.
    pose proof (Z.log2_nonneg (Z.abs (b * k))) as La.
    apply (Z.mul_reg_r _ _ (2 ^ Z.log2 (Z.abs (b * k)) * (2 ^ Z.log2 (Z.abs b) * 2 ^ Z.log2 (Z.abs k)))).
    { apply Z.neq_sym, Z.lt_neq. apply Z.mul_pos_pos; [|apply Z.mul_pos_pos]; apply pow2_pos; assumption. }
    transitivity ((significand (b * k) * 2 ^ Z.log2 (Z.abs (b * k))) *
                  (2 ^ 53 * (2 ^ Z.log2 (Z.abs b) * 2 ^ Z.log2 (Z.abs k)))); [ring|].
    rewrite (sig52 _ A NA), Z.abs_mul.
    transitivity ((significand b * 2 ^ Z.log2 (Z.abs b)) * (significand k * 2 ^ Z.log2 (Z.abs k)) *
                  (2 ^ j * 2 ^ Z.log2 (Z.abs (b * k)))); [|rewrite Z.abs_mul; ring].
    rewrite (sig52 b B NB), (sig52 k C NK), Z.abs_mul.
    assert (P : 2 ^ 53 * (2 ^ Z.log2 (Z.abs b) * 2 ^ Z.log2 (Z.abs k))
              = 2 ^ 52 * (2 ^ j * 2 ^ Z.log2 (Z.abs b * Z.abs k))).
    { rewrite <- Z.abs_mul. rewrite <- !Z.pow_add_r by lia. f_equal. unfold j, ea, eb, exponent. lia. }
    transitivity (Z.abs b * Z.abs k * 2 ^ 52 * (2 ^ 53 * (2 ^ Z.log2 (Z.abs b) * 2 ^ Z.log2 (Z.abs k)))); [ring|].
    rewrite P. ring. }
  assert (Core : SFdiv_core_binary PREC EMAX (Zpos (Z.to_pos (significand (b * k)))) ea
                   (Zpos (Z.to_pos (significand b))) eb
                 = (significand k * 2 ^ j, ea - eb - 53, loc_Exact)).
  { unfold SFdiv_core_binary. rewrite Da, Db, fexp_eq.
    replace (Z.min (Z.max (53 + ea - (53 + eb) - 53) (-1074)) (ea - eb)) with (ea - eb - 53) by lia.
    replace (ea - eb - (ea - eb - 53)) with 53 by lia. cbv beta iota zeta.
    rewrite Z.shiftl_mul_pow2 by lia. rewrite Pa, Pb.
    assert (Sb : significand b <> 0) by (rewrite <- Pb; discriminate).
    assert (Dv : (significand (b * k) * 2 ^ 53) / significand b = significand k * 2 ^ j)
      by (rewrite Q; apply Z.div_mul; exact Sb).
    assert (Md : (significand (b * k) * 2 ^ 53) mod significand b = 0)
      by (rewrite Q; apply Z.mod_mul; exact Sb).
    unfold Z.div in Dv. unfold Z.modulo in Md.
    destruct (Z.div_eucl (significand (b * k) * 2 ^ 53) (significand b)) as [q r].
    subst q r. f_equal. unfold new_location. destruct (Z.even (significand b)); reflexivity. }
  rewrite Core.
  pose proof (pow2_pos j J) as Pj.
  assert (Pos : significand k * 2 ^ j = Zpos (Z.to_pos (significand k * 2 ^ j))).
  { symmetry. apply Z2Pos.id. apply Z.mul_pos_pos; [rewrite <- Pc; reflexivity|exact Pj]. }
  rewrite Pos.
  rewrite (round_aux_exact (k <? 0) _ j _ (Z.to_pos (significand k))).
  - replace (ea - eb - 53 + j) with (exponent k) by (unfold j; lia).
    rewrite <- canon_whole_fin by assumption. split; [apply valid_canon|apply whole_canon]; exact C.
  - exact J.
  - rewrite Pc. exact Mc.
  - rewrite <- Pos, Pc. reflexivity.
  - unfold j. lia.
Qed.

(** ** Comparisons *)

Lemma canon_compare a b : small a -> small b -> a <> 0 -> b <> 0 ->
  SFcompare (canon a) (canon b) = Some (Z.compare a b).
Proof.
  intros A B NA NB. rewrite !canon_whole_fin by assumption. cbn [SFcompare]. f_equal.
  destruct (significand_ok a A NA) as [Ma Ea]. destruct (significand_ok b B NB) as [Mb Eb].
  pose proof (significand_pos a A NA) as Pa. pose proof (significand_pos b B NB) as Pb.
  (* absolute values compare as exponents, then significands *)
  assert (Cmp : match Z.compare (exponent a) (exponent b) with
                | Lt => Lt | Gt => Gt
                | Eq => Z.compare (significand a) (significand b)
                end = Z.compare (Z.abs a) (Z.abs b)).
  { unfold exponent in *. destruct (Z.compare_spec (Z.log2 (Z.abs a) - 52) (Z.log2 (Z.abs b) - 52)) as [E|E|E].
    - rewrite E in Ea. set (f := Z.log2 (Z.abs b) - 52) in *. clearbody f.
      pose proof (pow2_pos (Z.max 0 f) ltac:(lia)). pose proof (pow2_pos (Z.max 0 (- f)) ltac:(lia)).
      destruct (Z.compare_spec (significand a) (significand b)) as [G|G|G];
        destruct (Z.compare_spec (Z.abs a) (Z.abs b)) as [K|K|K]; try reflexivity; exfalso; nia.
    - assert (L : Z.log2 (Z.abs a) < Z.log2 (Z.abs b)) by lia.
      apply Z.log2_lt_cancel in L. symmetry. apply Z.compare_lt_iff. exact L.
    - assert (L : Z.log2 (Z.abs b) < Z.log2 (Z.abs a)) by lia.
      apply Z.log2_lt_cancel in L. symmetry. apply Z.compare_gt_iff. lia. }
  rewrite <- Pa, <- Pb in Cmp.
  change (Z.compare (Zpos (Z.to_pos (significand a))) (Zpos (Z.to_pos (significand b))))
    with (Pos.compare_cont Eq (Z.to_pos (significand a)) (Z.to_pos (significand b))) in Cmp.
  destruct (Z.ltb_spec a 0) as [Ha|Ha]; destruct (Z.ltb_spec b 0) as [Hb|Hb].
  - transitivity (CompOpp (Z.compare (Z.abs a) (Z.abs b))).
    + rewrite <- Cmp. destruct (Z.compare (exponent a) (exponent b)); reflexivity.
    + rewrite !Z.abs_neq by lia. rewrite <- Z.compare_antisym. apply Z.compare_opp.
  - symmetry. apply Z.compare_lt_iff. lia.
  - symmetry. apply Z.compare_gt_iff. lia.
  - etransitivity; [exact Cmp|]. rewrite !Z.abs_eq by lia. reflexivity.
Qed.

Lemma compare_whole x y a b :
  valid x -> valid y -> whole x a -> whole y b -> small a -> small b ->
  SFcompare x y = Some (Z.compare a b).
Proof.
  intros VX VY WX WY A B.
  destruct (whole_unique x a VX WX A) as [[-> [s ->]]|[NA ->]];
  destruct (whole_unique y b VY WY B) as [[-> [t ->]]|[NB ->]].
  - reflexivity.
  - rewrite canon_whole_fin by assumption. cbn [SFcompare].
    destruct b as [|p|p]; [contradiction| |]; reflexivity.
  - rewrite canon_whole_fin by assumption. cbn [SFcompare].
    destruct a as [|p|p]; [contradiction| |]; reflexivity.
  - apply canon_compare; assumption.
Qed.

Theorem deq_whole x y a b :
  valid x -> valid y -> whole x a -> whole y b -> small a -> small b -> deq x y = (a =? b).
Proof.
  intros. unfold deq, SFeqb. rewrite (compare_whole x y a b) by assumption.
  destruct (Z.compare_spec a b); subst;
    first [rewrite Z.eqb_refl; reflexivity | symmetry; apply Z.eqb_neq; lia].
Qed.
Theorem dlt_whole x y a b :
  valid x -> valid y -> whole x a -> whole y b -> small a -> small b -> dlt x y = (a <? b).
Proof.
  intros. unfold dlt, SFltb. rewrite (compare_whole x y a b) by assumption.
  unfold Z.ltb. destruct (a ?= b); reflexivity.
Qed.

Theorem trunc_whole x a : valid x -> whole x a -> small a -> dbl_trunc x = Ok a.
Proof.
  intros V W S. destruct x as [s|s| |s m e]; cbn [whole dbl_trunc] in *; try contradiction.
  - subst. reflexivity.
  - f_equal. destruct (Z.leb_spec 0 e).
    + replace (Z.max 0 (- e)) with 0 in W by lia. replace (Z.max 0 e) with e in W by lia.
      change (2 ^ 0) with 1 in W. destruct s; lia.
    + replace (Z.max 0 (- e)) with (- e) in W by lia. replace (Z.max 0 e) with 0 in W by lia.
      change (2 ^ 0) with 1 in W. pose proof (pow2_pos (- e) ltac:(lia)).
      destruct s.
      * replace (Zpos m) with (- a * 2 ^ (- e)) by lia. rewrite Z.div_mul by lia. lia.
      * replace (Zpos m) with (a * 2 ^ (- e)) by lia. rewrite Z.div_mul by lia. lia.
Qed.

(** ** Bit patterns *)

Lemma valid_split s m e : valid (S754_finite s m e) ->
  (0 < Zpos m < 2 ^ 52 /\ e = -1074) \/ (mantissa (Zpos m) /\ -1074 <= e <= 971).
Proof.
  cbn [valid_binary]. unfold bounded, canonical_mantissa. intros V.
  apply andb_true_iff in V. destruct V as [V L]. apply Zeq_is_eq_bool in V. apply Z.leb_le in L.
  change (EMAX - PREC) with 971 in L. rewrite digits_log2, fexp_eq in V.
  pose proof (Z.log2_spec (Zpos m) ltac:(lia)) as [P Q].
  destruct (Z_lt_ge_dec (Z.log2 (Zpos m)) 52) as [C|C].
  - left. split; [|lia]. split; [lia|]. apply Z.log2_lt_pow2; lia.
  - right. assert (D : Z.log2 (Zpos m) = 52) by lia. rewrite D in P, Q. split; [split; assumption|lia].
Qed.

Lemma pack_fields s e m :
  0 <= e < 2 ^ 11 -> 0 <= m < 2 ^ 52 ->
  to_u64 (dbl_pack s e m) = bz s * 2 ^ 63 + e * 2 ^ 52 + m
  /\ Z.testbit (to_u64 (dbl_pack s e m)) 63 = s
  /\ (to_u64 (dbl_pack s e m) / 2 ^ 52) mod 2 ^ 11 = e
  /\ to_u64 (dbl_pack s e m) mod 2 ^ 52 = m.
Proof.
  intros E M. unfold dbl_pack.
  assert (R : 0 <= bz s * 2 ^ 63 + e * 2 ^ 52 + m < 2 ^ 64).
  { change (2 ^ 64) with (2 * (2 ^ 11 * 2 ^ 52)). change (2 ^ 63) with (2 ^ 11 * 2 ^ 52).
    destruct s; cbn [bz]; nia. }
  assert (U : to_u64 (to_i64 (bz s * 2 ^ 63 + e * 2 ^ 52 + m)) = bz s * 2 ^ 63 + e * 2 ^ 52 + m).
  { unfold to_u64, to_i64, wrap. rewrite Zminus_mod_idemp_l.
    rewrite Z.add_simpl_r. apply Z.mod_small. exact R. }
  rewrite U. split; [reflexivity|]. split; [|split].
  - rewrite Z.testbit_eqb by lia.
    replace (bz s * 2 ^ 63 + e * 2 ^ 52 + m) with (bz s * 2 ^ 63 + (e * 2 ^ 52 + m)) by ring.
    rewrite Z.div_add_l by discriminate.
    rewrite (Z.div_small (e * 2 ^ 52 + m)).
    2:{ change (2 ^ 63) with (2 ^ 11 * 2 ^ 52). nia. }
    destruct s; reflexivity.
  - replace (bz s * 2 ^ 63 + e * 2 ^ 52 + m) with ((bz s * 2 ^ 11 + e) * 2 ^ 52 + m).
    2:{ change (2 ^ 63) with (2 ^ 11 * 2 ^ 52). ring. }
    rewrite Z.div_add_l by discriminate. rewrite (Z.div_small m) by exact M. rewrite Z.add_0_r.
    rewrite Z.add_comm, Z.mod_add by discriminate. apply Z.mod_small. exact E.
  - replace (bz s * 2 ^ 63 + e * 2 ^ 52 + m) with (m + (bz s * 2 ^ 11 + e) * 2 ^ 52).
    2:{ change (2 ^ 63) with (2 ^ 11 * 2 ^ 52). ring. }
    rewrite Z.mod_add by discriminate. apply Z.mod_small. exact M.
Qed.

(** Storing a double in a cell and reading it back. *)
Theorem bits_round_trip d : valid d -> d <> S754_nan -> dbl_of_bits (bits_of_dbl d) = d.
Proof.
  intros V N. destruct d as [s|s| |s m e]; [| |contradiction|]; unfold bits_of_dbl.
  - destruct (pack_fields s 0 0 ltac:(lia) ltac:(lia)) as [_ [A [B C]]].
    unfold dbl_of_bits. cbv zeta. rewrite A, B, C. reflexivity.
  - destruct (pack_fields s 2047 0 ltac:(lia) ltac:(lia)) as [_ [A [B C]]].
    unfold dbl_of_bits. cbv zeta. rewrite A, B, C. reflexivity.
  - destruct (valid_split s m e V) as [[M E]|[M E]].
    + destruct (Z.ltb_spec (Zpos m) (2 ^ 52)); [|lia].
      destruct (pack_fields s 0 (Zpos m) ltac:(lia) ltac:(lia)) as [_ [A [B C]]].
      unfold dbl_of_bits. cbv zeta. rewrite A, B, C. rewrite E. reflexivity.
    + unfold mantissa in M. destruct (Z.ltb_spec (Zpos m) (2 ^ 52)); [lia|].
      change (2 ^ 53) with (2 * 2 ^ 52) in M.
      destruct (pack_fields s (e + 1075) (Zpos m - 2 ^ 52) ltac:(lia) ltac:(lia)) as [_ [A [B C]]].
      unfold dbl_of_bits. cbv zeta. rewrite A, B, C.
      destruct (Z.eqb_spec (e + 1075) 0); [lia|]. destruct (Z.eqb_spec (e + 1075) 2047); [lia|].
      replace (Zpos m - 2 ^ 52 + 2 ^ 52) with (Zpos m) by lia. f_equal. lia.
Qed.

Theorem bits_valid c : valid (dbl_of_bits c).
Proof.
  unfold dbl_of_bits. cbv zeta. set (u := to_u64 c).
  pose proof (Z.mod_pos_bound u (2 ^ 52) ltac:(reflexivity)) as M.
  pose proof (Z.mod_pos_bound (u / 2 ^ 52) (2 ^ 11) ltac:(reflexivity)) as E.
  set (m := u mod 2 ^ 52) in *. set (e := (u / 2 ^ 52) mod 2 ^ 11) in *.
  destruct (Z.eqb_spec e 0).
  - destruct m as [|p|p] eqn:Em; try reflexivity.
    cbn [valid_binary]. unfold bounded, canonical_mantissa. rewrite digits_log2, fexp_eq.
    assert (Z.log2 (Zpos p) < 52) by (apply Z.log2_lt_pow2; lia).
    apply andb_true_iff. split; [apply Zeq_is_eq_bool; lia|reflexivity].
  - destruct (Z.eqb_spec e 2047); [destruct (m =? 0); reflexivity|].
    destruct (m + 2 ^ 52) as [|p|p] eqn:Em; try reflexivity.
    apply valid_finite; [|change (2 ^ 11) with 2048 in E; lia].
    unfold mantissa. change (2 ^ 53) with (2 * 2 ^ 52). lia.
Qed.
