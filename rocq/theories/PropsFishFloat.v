(** * Properties C121 and C122: fractions in ><> and *><>

    The specification is FloatSpec; these theorems rest on the axioms of the standard
    library's real numbers. *)

From Coq Require Import String ZArith List Bool Lia Reals Lra SpecFloat.
From Flocq Require Import Core IEEE754.BinarySingleNaN.
From Verif Require Import Base BaseProofs VectorModel VectorProofs TextModel TextProofs
  StackModel StackProofs FieldModel FieldProofs World IpModel LoadModel FingModel CoreModel
  UniModel ExecProofs FlowProofs States PropsStack PropsBlocks Effects SchedProofs PropsSched PropsIO PropsLoad PropsFing
  DblModel DblProofs FloatSpec FloatProofs PropsFloat FishModel FishProofs PropsFish.
Import ListNotations.
Open Scope Z_scope.
Local Notation length := List.length.

(** ** C121 Arithmetic and comparison of all numbers *)

(** The exact result for [x] above [y]. *)
Definition fish_real (c : Z) (y x : R) : option R :=
  (if c =? 43 then Some (y + x)
   else if c =? 45 then Some (y - x)
   else if c =? 42 then Some (y * x)
   else if c =? 44 then Some (y / x)
   else None)%R.
Definition fish_relation (c : Z) (y x : R) : Prop :=
  (if c =? 61 then y = x else if c =? 40 then y < x else y > x)%R.

Lemma deq_real a b : valid a -> valid b -> is_finite_SF a = true -> is_finite_SF b = true ->
  deq a b = Req_bool (sval a) (sval b).
Proof.
  intros Va Vb Fa Fb. destruct (valid_lift _ Va) as [x <-], (valid_lift _ Vb) as [y <-].
  rewrite is_finite_SF_B2SF in *. rewrite !SF2R_B2SF. exact (Beqb_correct _ _ x y Fa Fb).
Qed.
Lemma dlt_real a b : valid a -> valid b -> is_finite_SF a = true -> is_finite_SF b = true ->
  dlt a b = Rlt_bool (sval a) (sval b).
Proof.
  intros Va Vb Fa Fb. destruct (valid_lift _ Va) as [x <-], (valid_lift _ Vb) as [y <-].
  rewrite is_finite_SF_B2SF in *. rewrite !SF2R_B2SF. exact (Bltb_correct _ _ x y Fa Fb).
Qed.

Theorem C121_arith : forall star c s X x y l z,
  Ready s -> Holds s (x :: y :: l) -> number x -> number y -> (c = 44 -> value x <> 0%R) ->
  fish_real c (value y) (value x) = Some z ->
  exists s' r, fish_execute star c X s = Ok ((ENone, X), s') /\ Only_stack s s' (r :: l) /\ rounded z r.
Proof.
  intros star c s X x y l z HR H Nx Ny Nz Op. rewrite !value_sval in * by assumption.
  pose proof (bits_valid x) as Vx. pose proof (bits_valid y) as Vy.
  apply number_finite in Nx. apply number_finite in Ny. unfold fish_real in Op.
  assert (Go : forall f, sem_of star c = Some (false, pure (arith f)) -> sround z (f (dbl_of_bits y) (dbl_of_bits x)) ->
    exists s' r, fish_execute star c X s = Ok ((ENone, X), s') /\ Only_stack s s' (r :: l) /\ rounded z r).
  { intros f S Rd. destruct (arith_run f s x y l H) as (s' & E & O). eexists s', _.
    rewrite (fish_letter_pure star c s X false _ HR S), E. split; [reflexivity|]. split; [exact O|].
    now apply sround_rounded. }
  destruct (Z.eqb_spec c 43) as [->|_]; [injection Op as <-; apply (Go dadd); [destruct star; reflexivity|now apply dadd_round]|].
  destruct (Z.eqb_spec c 45) as [->|_]; [injection Op as <-; apply (Go dsub); [destruct star; reflexivity|now apply dsub_round]|].
  destruct (Z.eqb_spec c 42) as [->|_]; [injection Op as <-; apply (Go dmul); [destruct star; reflexivity|now apply dmul_round]|].
  destruct (Z.eqb_spec c 44) as [->|_]; [|discriminate]. injection Op as <-. clear Go. specialize (Nz eq_refl).
  destruct (pop2_run s x y l H) as (s1 & s2 & E1 & E2 & O & H2).
  destruct (push_run s2 l (bits_of_dbl (ddiv (dbl_of_bits y) (dbl_of_bits x))) s H2 O) as (s3 & E3 & O3).
  eexists s3, _. split; [|split; [exact O3|apply sround_rounded; apply ddiv_round; auto]].
  rewrite (fish_letter_pure star 44 s X false fishDiv HR ltac:(destruct star; reflexivity)).
  unfold fishDiv. rewrite (check_stack_holds s _ 2 _ H), two_enough. unfold popD.
  rewrite (run_bind _ _ s (dbl_of_bits x) s1) by (rewrite (run_bind _ _ _ _ _ E1); reflexivity).
  rewrite (run_bind _ _ s1 (dbl_of_bits y) s2) by (rewrite (run_bind _ _ _ _ _ E2); reflexivity).
  rewrite (deq_real _ (S754_zero false) Vx eq_refl Nx eq_refl). cbn [SF2R].
  rewrite Req_bool_false by exact Nz. unfold pushD. rewrite (run_bind _ _ _ _ _ E3). reflexivity.
Qed.
(** Dividing by zero, positive or negative, is an error. *)
Theorem C121_zero : forall star s X x y l,
  Ready s -> Holds s (x :: y :: l) -> number x -> value x = 0%R ->
  exists s', fish_execute star 44 X s = Ok ((EUnspec, X), s') /\ Only_stack s s' l.
Proof.
  intros star s X x y l HR H Nx Zx. rewrite value_sval in Zx by assumption.
  pose proof (bits_valid x) as Vx. apply number_finite in Nx.
  destruct (pop2_run s x y l H) as (s1 & s2 & E1 & E2 & O & H2). exists s2. split; [|exact O].
  rewrite (fish_letter_pure star 44 s X false fishDiv HR ltac:(destruct star; reflexivity)).
  unfold fishDiv. rewrite (check_stack_holds s _ 2 _ H), two_enough. unfold popD.
  rewrite (run_bind _ _ s (dbl_of_bits x) s1) by (rewrite (run_bind _ _ _ _ _ E1); reflexivity).
  rewrite (run_bind _ _ s1 (dbl_of_bits y) s2) by (rewrite (run_bind _ _ _ _ _ E2); reflexivity).
  rewrite (deq_real _ (S754_zero false) Vx eq_refl Nx eq_refl). cbn [SF2R].
  rewrite Req_bool_true by exact Zx. reflexivity.
Qed.
Theorem C121_compare : forall star c s X x y l,
  c = 61 \/ c = 40 \/ c = 41 -> Ready s -> Holds s (x :: y :: l) -> number x -> number y ->
  exists s' r, fish_execute star c X s = Ok ((ENone, X), s') /\ Only_stack s s' (r :: l) /\ number r /\
    (fish_relation c (value y) (value x) -> value r = 1%R) /\
    (~ fish_relation c (value y) (value x) -> value r = 0%R).
Proof.
  intros star c s X x y l Hc HR H Nx Ny. rewrite !value_sval by assumption.
  pose proof (bits_valid x) as Vx. pose proof (bits_valid y) as Vy.
  apply number_finite in Nx. apply number_finite in Ny.
  assert (Go : forall f (P : Prop), sem_of star c = Some (false, pure (compare f)) ->
    (if f (dbl_of_bits y) (dbl_of_bits x) then P else ~ P) ->
    exists s' r, fish_execute star c X s = Ok ((ENone, X), s') /\ Only_stack s s' (r :: l) /\ number r /\
      (P -> value r = 1%R) /\ (~ P -> value r = 0%R)).
  { intros f P S T. destruct (compare_run f s x y l H) as (s' & E & O). eexists s', _.
    rewrite (fish_letter_pure star c s X false _ HR S), E. split; [reflexivity|]. split; [exact O|].
    set (n := bz (f (dbl_of_bits y) (dbl_of_bits x))). assert (Bn : Z.abs n < 2 ^ 53) by (subst n; destruct (f _ _); reflexivity).
    destruct (of_int_format n Bn) as [V Fi].
    destruct (bits_number (dbl_of_int n) ltac:(apply of_int_round) Fi) as [N1 N2]. split; [exact N1|]. rewrite N2, V. subst n.
    destruct (f (dbl_of_bits y) (dbl_of_bits x)); split; intros; try contradiction; reflexivity. }
  destruct Hc as [-> | [-> | ->]]; unfold fish_relation; cbn [Z.eqb Pos.eqb].
  - apply (Go deq); [destruct star; reflexivity|]. rewrite deq_real by assumption.
    destruct (Req_bool_spec (sval (dbl_of_bits y)) (sval (dbl_of_bits x))); assumption.
  - apply (Go dlt); [destruct star; reflexivity|]. rewrite dlt_real by assumption.
    destruct (Rlt_bool_spec (sval (dbl_of_bits y)) (sval (dbl_of_bits x))); lra.
  - apply (Go (fun a b => dlt b a)); [destruct star; reflexivity|]. rewrite dlt_real by assumption.
    destruct (Rlt_bool_spec (sval (dbl_of_bits x)) (sval (dbl_of_bits y))); lra.
Qed.
(** 1 divided by 3. *)
Example C121_ex : let s := fdemo false [[3; 1]] in
  Ready s /\ Holds s [cell 3; cell 1] /\ number (cell 3) /\ number (cell 1) /\ value (cell 3) <> 0%R /\
  match fish_execute false 44 fx0 s with
  | Ok (_, s') => run_stack (popS) s' = Ok (4599676419421066581, [])
  | Bad _ => False end.
Proof.
  assert (V : value (cell 3) = 3%R).
  { unfold cell. destruct (of_int_format 3 ltac:(reflexivity)) as [V Fi]. rewrite <- V. apply bits_number; [apply of_int_round|exact Fi]. }
  split; [apply fdemo_ready|]. split; [exact (stacks_holds (fdemo false [[3; 1]]) 0 [[cell 3; cell 1]] _ (stacks_with _ _) eq_refl)|]. split; [vm_compute; discriminate|]. split; [vm_compute; discriminate|].
  split; [lra|]. vm_compute. reflexivity.
Qed.
Print Assumptions C121_arith.
Print Assumptions C121_zero.
Print Assumptions C121_compare.

(** ** C122 Printing numbers *)

Lemma strip_zeros_spec l : exists j, l = strip_zeros l ++ repeat 48 j.
Proof.
  induction l as [|c l (j & E)]; [exists 0%nat; reflexivity|]. cbn [strip_zeros].
  destruct (strip_zeros l) as [|a t].
  - destruct (Z.eqb_spec c 48) as [->|].
    + exists (S j). cbn. now rewrite E at 1.
    + exists j. cbn. now rewrite E at 1.
  - exists j. cbn [app] in *. now rewrite E at 1.
Qed.
Lemma digits_value_zeros a j : digits_value a (repeat 48 j) = a * 10 ^ Z.of_nat j.
Proof.
  revert a. induction j as [|j IH]; intros a; [cbn; lia|].
  cbn [repeat digits_value]. rewrite IH, Nat2Z.inj_succ, Z.pow_succ_r by lia. ring.
Qed.
Lemma digits_value_shift l : forall a, digits_value a l = a * 10 ^ Z.of_nat (length l) + digits_value 0 l.
Proof.
  induction l as [|c l IH]; intros a; [cbn; lia|]. cbn [digits_value length].
  rewrite (IH (a * 10 + (c - 48))), (IH (0 * 10 + (c - 48))), Nat2Z.inj_succ, Z.pow_succ_r by lia. ring.
Qed.
Lemma powerRZ10_plus a b : powerRZ 10 (a + b) = (powerRZ 10 a * powerRZ 10 b)%R.
Proof. apply powerRZ_add. lra. Qed.
Lemma powerRZ10_Z k : 0 <= k -> powerRZ 10 k = IZR (10 ^ k).
Proof. intros K. rewrite <- (Z2Nat.id k K) at 1. rewrite <- pow_powerRZ, pow_IZR, Z2Nat.id by exact K. reflexivity. Qed.

(** Digits, of which the last [N] are a fraction whose trailing zeros are left out. *)
Lemma layout (neg : bool) w ll ex n q N :
  Forall is_digit (w ++ ll) -> w <> [] -> digits_value 0 (w ++ ll) = q -> length ll = N ->
  (ex = [] /\ n = 0 \/
     exists e sg' ds, ex = e :: sg' ++ ds /\ (e = 101 \/ e = 69) /\ Forall is_digit ds /\ ds <> [] /\
       signed sg' (digits_value 0 ds) n) ->
  exists v k, numeral (minus neg ++ w ++ fraction ll ++ ex) neg v k /\
    (IZR v * powerRZ 10 k = IZR q * powerRZ 10 (n - Z.of_nat N))%R.
Proof.
  intros D W Q L X. destruct (strip_zeros_spec ll) as [j E]. set (f := strip_zeros ll) in *.
  exists (digits_value 0 (w ++ f)), (n - Z.of_nat (length f)). split.
  - exists (minus neg), w, (fraction ll), f, ex, n. split; [reflexivity|].
    split; [destruct neg; cbn; auto|]. split.
    { rewrite E in D. rewrite !Forall_app in *. tauto. }
    split; [destruct w; [contradiction|discriminate]|]. split; [|split; [exact X|split; reflexivity]].
    unfold fraction. fold f. destruct f; [left|right]; auto.
  - clearbody f. subst ll. rewrite <- Q, app_assoc, (digits_value_append 0 (w ++ f)), digits_value_zeros, mult_IZR.
    rewrite <- (powerRZ10_Z (Z.of_nat j)) by lia. rewrite <- L, app_length, repeat_length, Rmult_assoc, <- powerRZ10_plus.
    f_equal. f_equal. lia.
Qed.

Lemma dec_length n : 0 < n ->
  (0 < length (dec n))%nat /\ 10 ^ (Z.of_nat (length (dec n)) - 1) <= n < 10 ^ Z.of_nat (length (dec n)).
Proof.
  intros P. unfold dec. destruct (Z.ltb_spec n 0); [lia|]. destruct (dec_nat_spec n ltac:(lia)) as (A & B & C & E).
  destruct (dec_nat n) as [|c l] eqn:Q; [contradiction|]. clear B Q. cbn [hd length] in *. split; [lia|].
  inversion_clear A as [|? ? Dc Dl].
  assert (Bd : forall u, Forall digit u -> 0 <= digits_value 0 u < 10 ^ Z.of_nat (length u)).
  { induction u as [|d u IH]; intros Du; [cbn; lia|]. inversion_clear Du as [|? ? D1 D2]. specialize (IH D2).
    cbn [digits_value length]. rewrite digits_value_shift, Nat2Z.inj_succ, Z.pow_succ_r by lia. unfold digit in D1. nia. }
  specialize (Bd l Dl). cbn [digits_value] in C. rewrite digits_value_shift in C.
  replace (Z.of_nat (S (length l)) - 1) with (Z.of_nat (length l)) by lia.
  rewrite Nat2Z.inj_succ, Z.pow_succ_r by lia. unfold digit in Dc.
  assert (c <> 48) by (intros ->; destruct (E eq_refl); lia). nia.
Qed.

(** [x] is the decimal exponent of [n / d]. *)
Lemma dec_exp_spec n d : 0 < n -> 0 < d ->
  (powerRZ 10 (dec_exp n d) <= IZR n / IZR d < powerRZ 10 (dec_exp n d + 1))%R.
Proof.
  intros Pn Pd. assert (Rd : (0 < IZR d)%R) by (apply IZR_lt; exact Pd). unfold dec_exp.
  assert (Le : forall a, (a * IZR d <= IZR n -> a <= IZR n / IZR d)%R).
  { intros a K. apply (Rmult_le_reg_r (IZR d)); [exact Rd|]. unfold Rdiv. rewrite Rmult_assoc, Rinv_l by lra. lra. }
  assert (Lt : forall a, (IZR n < a * IZR d -> IZR n / IZR d < a)%R).
  { intros a K. apply (Rmult_lt_reg_r (IZR d)); [exact Rd|]. unfold Rdiv. rewrite Rmult_assoc, Rinv_l by lra. lra. }
  destruct (Z.leb_spec d n) as [L|L].
  - assert (P : 0 < n / d) by (apply Z.div_str_pos; lia). destruct (dec_length _ P) as (K & A & B).
    set (z := Z.of_nat (length (dec (n / d)))) in *. pose proof (Z.div_mod n d ltac:(lia)). pose proof (Z.mod_pos_bound n d Pd).
    replace (z - 1 + 1) with z by lia. rewrite !powerRZ10_Z by lia. split.
    + apply Le. rewrite <- mult_IZR. apply IZR_le. nia.
    + apply Lt. rewrite <- mult_IZR. apply IZR_lt. nia.
  - assert (P : 0 < (d - 1) / n) by (apply Z.div_str_pos; lia). destruct (dec_length _ P) as (K & A & B).
    set (z := Z.of_nat (length (dec ((d - 1) / n)))) in *. pose proof (Z.div_mod (d - 1) n ltac:(lia)). pose proof (Z.mod_pos_bound (d - 1) n Pn).
    replace (- z + 1) with (- (z - 1)) by lia. rewrite !powerRZ_neg', !powerRZ10_Z by lia.
    assert (Q1 : (0 < IZR (10 ^ z))%R) by (apply IZR_lt, Z.pow_pos_nonneg; lia).
    assert (Q2 : (0 < IZR (10 ^ (z - 1)))%R) by (apply IZR_lt, Z.pow_pos_nonneg; lia).
    split.
    + apply Le. apply (Rmult_le_reg_l (IZR (10 ^ z))); [exact Q1|]. rewrite <- Rmult_assoc, Rinv_r, Rmult_1_l by lra.
      rewrite <- mult_IZR. apply IZR_le. nia.
    + apply Lt. apply (Rmult_lt_reg_l (IZR (10 ^ (z - 1)))); [exact Q2|]. rewrite <- Rmult_assoc, Rinv_r, Rmult_1_l by lra.
      rewrite <- mult_IZR. apply IZR_lt. nia.
Qed.

(** Six significant digits. *)
Lemma closest_bounds y q a b : closest y q -> (IZR a <= y)%R -> (y < IZR b)%R -> a <= q <= b.
Proof.
  intros [C _] A B. pose proof (Rabs_le_inv _ _ C) as [C1 C2].
  split; apply Z.lt_succ_r; apply lt_IZR; unfold Z.succ; rewrite plus_IZR; lra.
Qed.
Lemma six_digits_spec n d q x : 0 < n -> 0 < d -> six_digits n d = (q, x) ->
  10 ^ 5 <= q < 10 ^ 6 /\ closest (IZR n / IZR d * powerRZ 10 (5 - x)) q.
Proof.
  intros Pn Pd E. pose proof (dec_exp_spec n d Pn Pd) as [Lo Hi]. unfold six_digits in E. cbv zeta in E.
  set (y := dec_exp n d) in *. assert (Rd : (0 < IZR d)%R) by (apply IZR_lt; exact Pd).
  set (q0 := if y <=? 5 then div_even (n * 10 ^ (5 - y)) d else div_even n (d * 10 ^ (y - 5))) in *.
  assert (C : closest (IZR n / IZR d * powerRZ 10 (5 - y)) q0).
  { unfold q0. destruct (Z.leb_spec y 5).
    - replace (IZR n / IZR d * powerRZ 10 (5 - y))%R with (IZR (n * 10 ^ (5 - y)) / IZR d)%R; [now apply div_even_closest|].
      rewrite mult_IZR, powerRZ10_Z by lia. field. lra.
    - assert (P10 : 0 < 10 ^ (y - 5)) by (apply Z.pow_pos_nonneg; lia).
      replace (IZR n / IZR d * powerRZ 10 (5 - y))%R with (IZR n / IZR (d * 10 ^ (y - 5)))%R; [apply div_even_closest; lia|].
      replace (5 - y) with (- (y - 5)) by lia. rewrite powerRZ_neg', mult_IZR, powerRZ10_Z by lia. apply IZR_lt in P10. field. lra. }
  assert (Pp : (0 < powerRZ 10 (5 - y))%R) by (apply powerRZ_lt; lra).
  assert (Sc : (IZR (10 ^ 5) <= IZR n / IZR d * powerRZ 10 (5 - y) < IZR (10 ^ 6))%R).
  { rewrite <- !powerRZ10_Z by lia. replace 5 with (y + (5 - y)) at 1 by lia. replace 6 with (y + 1 + (5 - y)) by lia.
    rewrite !powerRZ10_plus in *. split.
    - apply Rmult_le_compat_r; lra.
    - apply Rmult_lt_compat_r; lra. }
  pose proof (closest_bounds _ _ _ _ C (proj1 Sc) (proj2 Sc)) as B.
  destruct (Z.eqb_spec q0 (10 ^ 6)) as [T|T]; injection E as <- <-; [|split; [lia|exact C]].
  split; [lia|]. replace (5 - (y + 1)) with (5 - y + (-1)) by lia. rewrite powerRZ10_plus, <- Rmult_assoc.
  set (u := (IZR n / IZR d * powerRZ 10 (5 - y))%R) in *. destruct C as [C _]. rewrite T in C.
  change (powerRZ 10 (-1)) with (/ (10 * 1))%R. pose proof (Rabs_le_inv _ _ C) as [C1 C2].
  change (IZR (10 ^ 6)) with 1000000%R in *. unfold closest. change (IZR (10 ^ 5)) with 100000%R.
  rewrite Rabs_right by lra. split; [lra|]. intros; reflexivity.
Qed.

(** The text printed for a finite number other than 0 is a decimal number with six
    significant digits, the closest to it. *)
Lemma div_digits N q : 0 <= q ->
  digits_value 0 (dec (q / 10 ^ Z.of_nat N) ++ last_digits N q) = q /\
  Forall is_digit (dec (q / 10 ^ Z.of_nat N) ++ last_digits N q) /\ dec (q / 10 ^ Z.of_nat N) <> [] /\
  length (last_digits N q) = N.
Proof.
  intros Q. assert (P : 0 < 10 ^ Z.of_nat N) by (apply Z.pow_pos_nonneg; lia).
  assert (P1 : 0 <= q / 10 ^ Z.of_nat N) by (apply Z.div_pos; lia).
  destruct (last_digits_spec N q Q) as (A & B & C).
  unfold dec. destruct (Z.ltb_spec (q / 10 ^ Z.of_nat N) 0); [lia|].
  destruct (dec_nat_spec _ P1) as (A1 & B1 & C1 & _). split; [|split; [|split; [exact B1|exact A]]].
  - rewrite digits_value_append, digits_value_shift, C1, A, C. pose proof (Z.div_mod q (10 ^ Z.of_nat N) ltac:(lia)). lia.
  - apply Forall_app. split; [exact A1|exact B].
Qed.
Lemma dec_digits n : 0 <= n -> Forall is_digit (dec n) /\ dec n <> [] /\ digits_value 0 (dec n) = n.
Proof.
  intros N. unfold dec. destruct (Z.ltb_spec n 0); [lia|]. destruct (dec_nat_spec n N) as (A & B & C & _). auto.
Qed.
Lemma print_general_spec s m e : exists t v k q x,
  print_general (S754_finite s m e) = Ok t /\ numeral t s v k /\
  (IZR v * powerRZ 10 k = IZR q * powerRZ 10 (x - 5))%R /\ 10 ^ 5 <= q < 10 ^ 6 /\
  closest (Rabs (sval (S754_finite s m e)) * powerRZ 10 (5 - x)) q.
Proof.
  cbn [print_general]. destruct (six_digits (dbl_num m e) (dbl_den e)) as [q x] eqn:E.
  destruct (six_digits_spec _ _ _ _ (num_pos m e) (den_pos e) E) as [B C]. rewrite <- (fraction_value s) in C.
  assert (G : forall w ll ex n N, Forall is_digit (w ++ ll) -> w <> [] -> digits_value 0 (w ++ ll) = q -> length ll = N ->
    (ex = [] /\ n = 0 \/
     exists e sg' ds, ex = e :: sg' ++ ds /\ (e = 101 \/ e = 69) /\ Forall is_digit ds /\ ds <> [] /\
       signed sg' (digits_value 0 ds) n) -> n - Z.of_nat N = x - 5 ->
    exists t v k q0 x0, Ok (minus s ++ w ++ fraction ll ++ ex) = Ok t /\ numeral t s v k /\
     (IZR v * powerRZ 10 k = IZR q0 * powerRZ 10 (x0 - 5))%R /\ 10 ^ 5 <= q0 < 10 ^ 6 /\
     closest (Rabs (sval (S754_finite s m e)) * powerRZ 10 (5 - x0)) q0).
  { intros w ll ex n N D W Q L X Nx. destruct (layout s w ll ex n q N D W Q L X) as (v & k & A1 & A2). rewrite Nx in A2.
    exists (minus s ++ w ++ fraction ll ++ ex), v, k, q, x. split; [reflexivity|]. auto. }
  destruct (Z.ltb_spec x (-4)) as [X1|X1]; [|destruct (Z.leb_spec 6 x) as [X2|X2]]; cbn [orb].
  1,2: destruct (div_digits 5 q ltac:(lia)) as (D1 & D2 & D3 & D4); change (10 ^ Z.of_nat 5) with (10 ^ 5) in *;
    apply (G _ _ _ x 5%nat D2 D3 D1 D4); [right|lia];
    destruct (dec_digits (Z.abs x) ltac:(lia)) as (T1 & T2 & T3);
    exists 101, [if x <? 0 then 45 else 43], ((if Z.abs x <? 10 then [48] else []) ++ dec (Z.abs x));
    split; [reflexivity|]; split; [now left|]; split;
    [apply Forall_app; split; [destruct (Z.abs x <? 10); repeat constructor; discriminate|exact T1]|]; split;
    [intros K; apply app_eq_nil in K; tauto|];
    replace (digits_value 0 ((if Z.abs x <? 10 then [48] else []) ++ dec (Z.abs x))) with (Z.abs x)
      by (rewrite digits_value_append; destruct (Z.abs x <? 10); symmetry; exact T3);
    unfold signed; destruct (Z.ltb_spec x 0); [right|left]; split; auto; lia.
  destruct (Z.leb_spec 0 x) as [X3|X3].
  - destruct (div_digits (Z.to_nat (5 - x)) q ltac:(lia)) as (D1 & D2 & D3 & D4). rewrite Z2Nat.id in * by lia.
    pose proof (G _ _ [] 0 (Z.to_nat (5 - x)) D2 D3 D1 D4 ltac:(now left) ltac:(lia)) as K. rewrite app_nil_r in K. exact K.
  - destruct (last_digits_spec 6 q ltac:(lia)) as (L1 & L2 & L3). change (10 ^ Z.of_nat 6) with (10 ^ 6) in L3.
    rewrite Z.mod_small in L3 by lia.
    pose proof (G [48] (repeat 48 (Z.to_nat (- x - 1)) ++ last_digits 6 q) [] 0 (Z.to_nat (5 - x))) as K. rewrite app_nil_r in K.
    apply K; clear K G.
    + constructor; [unfold is_digit; lia|]. apply Forall_app. split; [|exact L2]. apply Forall_forall. intros c I.
      apply repeat_spec in I. subst. unfold is_digit. lia.
    + discriminate.
    + rewrite !digits_value_append, digits_value_zeros. exact L3.
    + rewrite app_length, repeat_length, L1. lia.
    + now left.
    + lia.
Qed.

Lemma fraction_small d : valid d -> is_finite_SF d = true -> (forall z, sval d <> IZR z) -> Z.abs (Ztrunc (sval d)) < 2 ^ 53.
Proof.
  intros V F N. destruct d as [s|s| |s m e]; try discriminate; [elim (N 0); reflexivity|].
  assert (M : Zpos m < 2 ^ 53) by (destruct (valid_split _ _ _ V) as [[A _]|[[_ A] _]]; lia).
  assert (E : e < 0).
  { destruct (Z_lt_le_dec e 0) as [|E]; [assumption|exfalso]. apply (N (cond_Zopp s (Zpos m) * 2 ^ e)).
    cbn [SF2R]. unfold F2R. cbn [Fnum Fexp]. rewrite mult_IZR. change (IZR (2 ^ e)) with (IZR (radix2 ^ e)). now rewrite IZR_Zpower. }
  assert (L : (Rabs (sval (S754_finite s m e)) < IZR (2 ^ 53))%R).
  { rewrite fraction_value. unfold dbl_num, dbl_den. rewrite Z.max_l, Z.max_r by lia. change (2 ^ 0) with 1. rewrite Z.mul_1_r.
    assert (P : 1 <= 2 ^ (- e)) by (assert (0 < 2 ^ (- e)) by (apply Z.pow_pos_nonneg; lia); lia). apply IZR_le in P. apply IZR_lt in M.
    apply (Rmult_lt_reg_r (IZR (2 ^ - e))); [lra|]. unfold Rdiv. rewrite Rmult_assoc, Rinv_l by lra.
    assert (0 < IZR (2 ^ 53))%R by (apply IZR_lt; reflexivity). nra. }
  rewrite <- Ztrunc_abs. apply lt_IZR. eapply Rle_lt_trans; [|exact L]. rewrite Ztrunc_floor by apply Rabs_pos. apply Zfloor_lb.
Qed.

Lemma run_n star s X x l : Ready s -> Holds s (x :: l) ->
  exists s1, Only_stack s s1 l /\
    fish_execute star 110 X s =
    match dbl_to_i64 (dbl_of_bits x) with
    | Ok i => match (if deq (dbl_of_bits x) (dbl_of_int i) then Ok (dec i) else print_general (dbl_of_bits x)) with
              | Ok t => Ok ((ENone, X), {| s_w := set_w_out (w_out (s_w s) ++ t) (s_w s); s_r := s_r s1 |})
              | Bad e => Bad e
              end
    | Bad e => Bad e
    end.
Proof.
  intros HR H. destruct (popS_plain s _ H) as (s1 & E1 & O). cbn [hd tl] in *. exists s1. split; [exact O|].
  assert (W : s_w s1 = s_w s) by (eapply Only_stack_w; exact O).
  assert (G : (Z.of_nat (length (x :: l)) <? 1) = false) by (apply Z.ltb_ge; cbn [length]; lia).
  rewrite (fish_letter_pure star 110 s X false fishOutInt HR ltac:(destruct star; reflexivity)).
  unfold fishOutInt. rewrite (check_stack_holds s _ 1 _ H), G. unfold popD.
  rewrite (run_bind _ _ s (dbl_of_bits x) s1) by (rewrite (run_bind _ _ _ _ _ E1); reflexivity).
  destruct (dbl_to_i64 (dbl_of_bits x)) as [i|e]; [|reflexivity].
  rewrite (run_bind _ _ _ _ _ (run_lift (Ok i) _ s1 eq_refl)).
  destruct (deq (dbl_of_bits x) (dbl_of_int i)).
  - unfold out, mbind. cbn. unfold modW. rewrite W. reflexivity.
  - destruct (print_general (dbl_of_bits x)) as [t|e]; [|reflexivity].
    rewrite (run_bind _ _ _ _ _ (run_lift (Ok t) _ s1 eq_refl)). unfold out, mbind. cbn. unfold modW. rewrite W. reflexivity.
Qed.

(** A whole number is printed in full. *)
Theorem C122_whole : forall star s X x l a,
  Ready s -> Holds s (x :: l) -> number x -> value x = IZR a -> in64 a ->
  exists s1 t, Only_stack s s1 l /\ decimal a t /\
    fish_execute star 110 X s = Ok ((ENone, X), {| s_w := set_w_out (w_out (s_w s) ++ t) (s_w s); s_r := s_r s1 |}).
Proof.
  intros star s X x l a HR H N V I. destruct (run_n star s X x l HR H) as (s1 & O & E). exists s1, (dec a).
  split; [exact O|]. split; [apply dec_decimal|]. rewrite E.
  pose proof (format_number x N) as Fm. rewrite V in Fm. rewrite value_sval in V by exact N.
  pose proof (bits_valid x) as Va. apply number_finite in N.
  unfold dbl_to_i64. rewrite trunc_sval, V, Ztrunc_IZR by exact N. cbn [bind]. rewrite chk64_ok by exact I.
  destruct (of_int_round a) as [V1 R]. rewrite (RN_format _ Fm) in R. rewrite Rlt_bool_true in R.
  - destruct R as [R1 R2]. rewrite deq_real by assumption. rewrite V, R1, Req_bool_true by reflexivity. reflexivity.
  - rewrite <- abs_IZR. apply Rlt_le_trans with (IZR (2 ^ 64)).
    + apply IZR_lt. unfold in64, INT64_MIN, INT64_MAX in I. lia.
    + unfold big. change (IZR (2 ^ 64)) with (IZR (radix2 ^ 64)). rewrite IZR_Zpower by lia. apply bpow_le. discriminate.
Qed.
(** Any other number: the decimal number with six significant digits closest to it. *)
Theorem C122_fraction : forall star s X x l,
  Ready s -> Holds s (x :: l) -> number x -> (forall a, value x <> IZR a) ->
  exists s1 t v k q e, Only_stack s s1 l /\
    fish_execute star 110 X s = Ok ((ENone, X), {| s_w := set_w_out (w_out (s_w s) ++ t) (s_w s); s_r := s_r s1 |}) /\
    numeral t (sign_field x) v k /\ (IZR v * powerRZ 10 k = IZR q * powerRZ 10 e)%R /\
    10 ^ 5 <= q < 10 ^ 6 /\ closest (Rabs (value x) * powerRZ 10 (- e)) q.
Proof.
  intros star s X x l HR H N V. destruct (run_n star s X x l HR H) as (s1 & O & E).
  rewrite <- (sign_bits x N). rewrite value_sval in * by exact N.
  pose proof (bits_valid x) as Va. apply number_finite in N.
  pose proof (fraction_small _ Va N V) as Sm. destruct (of_int_format _ Sm) as [I1 I2].
  unfold dbl_to_i64 in E. rewrite trunc_sval in E by exact N. cbn [bind] in E.
  rewrite chk64_ok in E by (unfold in64, INT64_MIN, INT64_MAX; lia).
  rewrite deq_real in E by (try assumption; apply of_int_round). rewrite I1, Req_bool_false in E by apply V.
  destruct (dbl_of_bits x) as [g|g| |g m e]; try discriminate; [elim (V 0); reflexivity|].
  destruct (print_general_spec g m e) as (t & v & k & q & y & P & Q1 & Q2 & Q3 & Q4). rewrite P in E.
  exists s1, t, v, k, q, (y - 5). split; [exact O|]. split; [exact E|]. split; [exact Q1|]. split; [exact Q2|]. split; [exact Q3|].
  replace (- (y - 5)) with (5 - y) by lia. exact Q4.
Qed.
(** A number beyond the integers of 64 bits cannot be printed: undefined. *)
Theorem C122_large_refuted : forall star s X x l a,
  Ready s -> Holds s (x :: l) -> number x -> value x = IZR a -> ~ in64 a ->
  fish_execute star 110 X s = Bad BadOverflow.
Proof.
  intros star s X x l a HR H N V I. destruct (run_n star s X x l HR H) as (s1 & O & E). rewrite E.
  rewrite value_sval in V by exact N. apply number_finite in N.
  unfold dbl_to_i64. rewrite trunc_sval, V, Ztrunc_IZR by exact N. cbn [bind].
  unfold chk64. destruct (in64b a) eqn:Q; [|reflexivity]. elim I. apply in64b_true, Q.
Qed.
(** Infinities and NaNs cannot be printed either: n converts them to an integer
    first, which is undefined. *)
Theorem C122_special_refuted : forall star s X x l,
  Ready s -> Holds s (x :: l) -> (exists g, infinite g x) \/ not_a_number x ->
  fish_execute star 110 X s = Bad BadOverflow.
Proof.
  intros star s X x l HR H K. destruct (run_n star s X x l HR H) as (s1 & O & E). rewrite E.
  assert (N : ~ number x) by (unfold number; destruct K as [(g & K & _)|(K & _)]; rewrite K; intros Q; apply Q; reflexivity).
  rewrite number_finite in N. unfold dbl_to_i64. destruct (dbl_of_bits x); cbn in N |- *; try reflexivity; elim N; reflexivity.
Qed.
Example C122_special_ex : let inf := 9218868437227405312 in let nan := 9221120237041090560 in
  infinite false inf /\ not_a_number nan /\
  Ready (with_stacks [[inf]] (fdemo false [])) /\ Holds (with_stacks [[inf]] (fdemo false [])) [inf] /\
  Ready (with_stacks [[nan]] (fdemo false [])) /\ Holds (with_stacks [[nan]] (fdemo false [])) [nan].
Proof.
  cbv zeta. split; [vm_compute; repeat split|]. split; [vm_compute; split; [reflexivity|discriminate]|].
  split; [apply ready_with, fdemo_ready|]. split; [exact (stacks_holds _ 0 [[9218868437227405312]] _ (stacks_with _ _) eq_refl)|].
  split; [apply ready_with, fdemo_ready|]. exact (stacks_holds _ 0 [[9221120237041090560]] _ (stacks_with _ _) eq_refl).
Qed.
(** 0.1 is printed as 0.1, 1234567.5 as 1.23457e+06. *)
Example C122_ex : let x := 4591870180066957722 in let s := with_stacks [[x]] (fdemo false []) in
  Ready s /\ Holds s [x] /\ number x /\ (forall a, value x <> IZR a) /\
  match fish_execute false 110 fx0 s with Ok (_, s') => w_out (s_w s') = [48; 46; 49] | Bad _ => False end /\
  let y := bits_of_dbl (S754_finite false (2469135 * 2 ^ 31) (-32)) in
  match fish_execute false 110 fx0 (with_stacks [[y]] (fdemo false [])) with
  | Ok (_, s') => w_out (s_w s') = [49; 46; 50; 51; 52; 53; 55; 101; 43; 48; 54] | Bad _ => False end.
Proof.
  cbv zeta. split; [apply ready_with, fdemo_ready|]. split; [exact (stacks_holds _ 0 [[4591870180066957722]] _ (stacks_with _ _) eq_refl)|].
  assert (N : number 4591870180066957722) by (vm_compute; discriminate). split; [exact N|].
  split; [|split; vm_compute; reflexivity].
  intros a. rewrite value_sval by exact N.
  assert (E : dbl_of_bits 4591870180066957722 = S754_finite false 7205759403792794 (-56)) by (vm_compute; reflexivity).
  rewrite E. cbn [SF2R cond_Zopp]. unfold F2R. cbn [Fnum Fexp]. intros K.
  assert (K2 : (IZR 7205759403792794 = IZR (a * 2 ^ 56))%R).
  { rewrite mult_IZR, <- K. change (IZR (2 ^ 56)) with (IZR (radix2 ^ 56)). rewrite IZR_Zpower by lia.
    rewrite Rmult_assoc, <- bpow_plus. change (bpow radix2 (-56 + 56)) with 1%R. now rewrite Rmult_1_r. }
  apply eq_IZR in K2. change (2 ^ 56) with 72057594037927936 in K2. lia.
Qed.
Print Assumptions C122_whole.
Print Assumptions C122_fraction.
Print Assumptions C122_large_refuted.
Print Assumptions C122_special_refuted.
