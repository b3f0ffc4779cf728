(** * Properties C88-C91: bitwise operators, complex integers, fixed point
    helpers and long integers (BITW, BOOL, ORTH, FIXP, TOYS, CPLI, LONG). *)

From Coq Require Import String ZArith List Bool Lia.
From Verif Require Import Base BaseProofs VectorModel VectorProofs TextModel TextProofs
  StackModel StackProofs FieldModel FieldProofs World IpModel LoadModel FingModel CoreModel
  UniModel ExecProofs FlowProofs States PropsStack PropsBlocks Effects SchedProofs PropsIO PropsLoad PropsFing
  DblModel FloatProofs.
Import ListNotations.
Open Scope Z_scope.
Local Notation length := List.length.

(** ** Vocabulary *)

(** The IP [s] is about to execute instruction [c] of fingerprint [fp], and the
    selected stack holds [l], top first. *)
Definition Ready (s : st) (fp : Z) (c : Z) (l : list Z) : Prop :=
  (exists fld, Letter s fp fld c) /\ Holds s l.

(** The cell [i] places below the top; missing cells count as 0. *)
Notation at_top l i := (nth i l 0).

Lemma hd_nth (l : list Z) : hd 0 l = nth 0 l 0.
Proof. now destruct l. Qed.
Lemma hd_tl_nth (l : list Z) : hd 0 (tl l) = nth 1 l 0.
Proof. now destruct l as [|? []]. Qed.
Lemma tl_skip (l : list Z) : tl l = skipn 1 l.
Proof. now destruct l. Qed.
Lemma tl_tl_skip (l : list Z) : tl (tl l) = skipn 2 l.
Proof. now destruct l as [|? []]. Qed.

Lemma binop_run f s l x : Holds s l -> f (nth 1 l 0) (nth 0 l 0) = Ok x ->
  exists s', binop f s = Ok (ENone, s') /\ Only_stack s s' (x :: skipn 2 l).
Proof.
  intros H E. unfold binop. xpop. xpop. rewrite hd_tl_nth, hd_nth.
  rewrite (run_bind (lift (f (nth 1 l 0) (nth 0 l 0))) _ s1 x s1) by (now apply run_lift).
  rewrite tl_tl_skip in *. xpush. exists s2. split; [reflexivity|]. os_finish.
Qed.
Lemma binop_bad f s l b : Holds s l -> f (nth 1 l 0) (nth 0 l 0) = Bad b -> binop f s = Bad b.
Proof.
  intros H E. unfold binop. xpop. xpop. rewrite hd_tl_nth, hd_nth.
  apply run_bind_bad. unfold lift. now rewrite E.
Qed.
Lemma unop_run f s l x : Holds s l -> f (nth 0 l 0) = Ok x ->
  exists s', unop f s = Ok (ENone, s') /\ Only_stack s s' (x :: skipn 1 l).
Proof.
  intros H E. unfold unop. xpop. rewrite hd_nth.
  rewrite (run_bind (lift (f (nth 0 l 0))) _ s0 x s0) by (now apply run_lift).
  rewrite tl_skip in *. xpush. exists s1. split; [reflexivity|]. os_finish.
Qed.
Lemma unop_bad f s l b : Holds s l -> f (nth 0 l 0) = Bad b -> unop f s = Bad b.
Proof.
  intros H E. unfold unop. xpop. rewrite hd_nth. apply run_bind_bad. unfold lift. now rewrite E.
Qed.

(** ** C88 Bitwise operators *)

(** The two-operand bitwise instructions: fingerprint, instruction, and what it
    does to each pair of bits. *)
Definition bit_ops : list (Z * Z * (bool -> bool -> bool)) :=
  [(FP_BITW, 65 (* A *), andb); (FP_BITW, 79 (* O *), orb); (FP_BITW, 88 (* X *), xorb);
   (FP_BOOL, 65, andb); (FP_BOOL, 79, orb); (FP_BOOL, 88, xorb);
   (FP_FIXP, 65, andb); (FP_FIXP, 79, orb); (FP_FIXP, 88, xorb);
   (FP_ORTH, 65, andb); (FP_ORTH, 79, orb); (FP_ORTH, 69 (* E *), xorb)].

Lemma in64_bits x : in64 x <-> forall i, 63 <= i -> Z.testbit x i = Z.testbit x 63.
Proof.
  unfold in64, INT64_MIN, INT64_MAX. split.
  - intros R i I. assert (D : forall j, 63 <= j -> Z.testbit x j = (x <? 0)).
    { intros j J. destruct (Z.ltb_spec x 0) as [N|P].
      - rewrite Z.bits_iff_neg_ex in N. destruct N as (k & N).
        replace x with (Z.lnot (- x - 1)) by (unfold Z.lnot; lia). rewrite Z.lnot_spec by lia.
        replace (Z.testbit (- x - 1) j) with false; [reflexivity|].
        symmetry. destruct (Z.eq_dec (- x - 1) 0) as [->|]; [apply Z.testbit_0_l|].
        apply Z.bits_above_log2; [|apply Z.log2_lt_pow2].
        + assert (x < 0); [|lia]. destruct (Z.lt_ge_cases x 0); auto.
          exfalso. specialize (N (Z.max (k + 1) (Z.log2 x + 1))).
          rewrite Z.bits_above_log2 in N; [|lia|lia]. discriminate N. lia.
        + assert (x < 0); [|lia]. destruct (Z.lt_ge_cases x 0); auto.
          exfalso. specialize (N (Z.max (k + 1) (Z.log2 x + 1))).
          rewrite Z.bits_above_log2 in N; [|lia|lia]. discriminate N. lia.
        + apply Z.lt_le_trans with (2 ^ 63); [lia|]. now apply Z.pow_le_mono_r.
      - destruct (Z.eq_dec x 0) as [->|]; [apply Z.testbit_0_l|].
        apply Z.bits_above_log2; [lia|]. apply Z.log2_lt_pow2; [lia|].
        apply Z.lt_le_trans with (2 ^ 63); [lia|]. now apply Z.pow_le_mono_r. }
    rewrite !D by lia. reflexivity.
  - intros B. destruct (Z.testbit x 63) eqn:S.
    + assert (E : x / 2 ^ 63 = -1).
      { apply Z.bits_inj'. intros n N. rewrite Z.div_pow2_bits by lia. rewrite B by lia.
        now rewrite Z.bits_m1. }
      Z.div_mod_to_equations. lia.
    + assert (E : x / 2 ^ 63 = 0).
      { apply Z.bits_inj'. intros n N. rewrite Z.div_pow2_bits by lia. rewrite B by lia.
        now rewrite Z.bits_0. }
      Z.div_mod_to_equations. lia.
Qed.

(** Each bit of the result depends on the two operands' bits of the same
    position only, a result of 64-bit operands is a 64-bit number, and nothing
    but the stack changes. *)
Theorem C88_bits : forall F D s fp c f l,
  In (fp, c, f) bit_ops -> Ready s fp c l ->
  exists s' x, execute F (S D) c s = Ok (ENone, s') /\ Only_stack s s' (x :: skipn 2 l) /\
    (forall i, 0 <= i -> Z.testbit x i = f (Z.testbit (at_top l 1) i) (Z.testbit (at_top l 0) i)) /\
    (in64 (at_top l 0) -> in64 (at_top l 1) -> in64 x).
Proof.
  intros F D s fp c f l I ((fld & L) & H). rewrite (execute_letter F D _ _ _ _ L).
  assert (G : forall g, (forall a b i, Z.testbit (g a b) i = f (Z.testbit a i) (Z.testbit b i)) ->
    fp_exec F fp fld c = binop (pure2 g) ->
    exists s' x, fp_exec F fp fld c s = Ok (ENone, s') /\ Only_stack s s' (x :: skipn 2 l) /\
    (forall i, 0 <= i -> Z.testbit x i = f (Z.testbit (at_top l 1) i) (Z.testbit (at_top l 0) i)) /\
    (in64 (at_top l 0) -> in64 (at_top l 1) -> in64 x)).
  { intros g Hg E. destruct (binop_run (pure2 g) s l _ H eq_refl) as (s' & R & O).
    exists s', (g (nth 1 l 0) (nth 0 l 0)). rewrite E. split; [exact R|]. split; [exact O|]. split.
    - intros i _. apply Hg.
    - rewrite !in64_bits. intros A B i J. rewrite !Hg, (A i J), (B i J). reflexivity. }
  unfold bit_ops in I. cbn [In] in I.
  repeat match type of I with _ \/ _ => destruct I as [I|I] end; try contradiction;
    injection I as <- <- <-;
    (refine (G Z.land Z.land_spec eq_refl) || refine (G Z.lor Z.lor_spec eq_refl) || refine (G Z.lxor Z.lxor_spec eq_refl)).
Qed.
(** N of BITW and BOOL inverts every bit. *)
Theorem C88_not : forall F D s fp l,
  fp = FP_BITW \/ fp = FP_BOOL -> Ready s fp 78 l ->
  exists s' x, execute F (S D) 78 s = Ok (ENone, s') /\ Only_stack s s' (x :: skipn 1 l) /\
    (forall i, 0 <= i -> Z.testbit x i = negb (Z.testbit (at_top l 0) i)) /\
    (in64 (at_top l 0) -> in64 x).
Proof.
  intros F D s fp l I ((fld & L) & H). rewrite (execute_letter F D _ _ _ _ L).
  assert (E : fp_exec F fp fld 78 = unop (pure1 Z.lnot)) by (destruct I; subst; reflexivity).
  destruct (unop_run (pure1 Z.lnot) s l _ H eq_refl) as (s' & R & O).
  exists s', (Z.lnot (nth 0 l 0)). rewrite E. split; [exact R|]. split; [exact O|]. split.
  - intros i I'. now apply Z.lnot_spec.
  - unfold in64, INT64_MIN, INT64_MAX, Z.lnot. lia.
Qed.

(** The shifts: L and R of BITW, and H of TOYS, whose count is positive to the
    left and negative to the right.  [shift_of fp c n] is the number of places
    to the left. *)
Definition shift_of (fp c n : Z) : option Z :=
  if (fp =? FP_BITW) && (c =? 76) then Some n
  else if (fp =? FP_BITW) && (c =? 82) then Some (- n)
  else if (fp =? FP_TOYS) && (c =? 72) then Some n
  else None.
(** [x] is [a] shifted by [k] places, the 64 bits that remain: to the left the
    low bits of [a * 2^k], to the right [a] divided by the power of two,
    rounded down. *)
Definition Shifted (a k x : Z) : Prop :=
  in64 x /\ if 0 <=? k then (x - a * 2 ^ k) mod 2 ^ 64 = 0 else x = a / 2 ^ (- k).

Lemma shl_shifted a n : 0 <= n < 64 -> exists x, shl64 a n = Ok x /\ Shifted a n x.
Proof.
  intros R. unfold shl64. rewrite (proj2 (Z.leb_le 0 n)), (proj2 (Z.ltb_lt n 64)) by lia. cbn [andb].
  exists (to_i64 (Z.shiftl a n)). split; [reflexivity|]. split.
  - pose proof (wrap_range 64 (Z.shiftl a n)) as W. unfold to_i64, in64, INT64_MIN, INT64_MAX.
    change (2 ^ (64 - 1)) with 9223372036854775808 in W. lia.
  - rewrite (proj2 (Z.leb_le 0 n)) by lia. rewrite Z.shiftl_mul_pow2 by lia.
    apply (wrap_mod 64). lia.
Qed.
Lemma shr_shifted a n : in64 a -> 0 <= n < 64 -> exists x, shr64 a n = Ok x /\ Shifted a (- n) x.
Proof.
  intros I R. unfold shr64. rewrite (proj2 (Z.leb_le 0 n)), (proj2 (Z.ltb_lt n 64)) by lia. cbn [andb].
  exists (Z.shiftr a n). split; [reflexivity|]. rewrite Z.shiftr_div_pow2 by lia.
  assert (P : 0 < 2 ^ n) by lia. split.
  - unfold in64, INT64_MIN, INT64_MAX in *. split.
    + apply Z.div_le_lower_bound; [lia|]. nia.
    + apply Z.div_le_upper_bound; [lia|]. nia.
  - destruct (Z.leb_spec 0 (- n)).
    + assert (n = 0) as -> by lia. rewrite Z.div_1_r. change (2 ^ (- 0)) with 1.
      rewrite Z.mul_1_r, Z.sub_diag. reflexivity.
    + now rewrite Z.opp_involutive.
Qed.

(** A shift by fewer than 64 places in either direction.  (For R of BITW the count itself has to be
    non-negative, for L as well; H takes both signs.) *)
Theorem C88_shift_partial : forall F D s fp c l k,
  Ready s fp c l -> shift_of fp c (at_top l 0) = Some k -> in64 (at_top l 1) ->
  -64 < k < 64 -> (fp = FP_BITW -> 0 <= at_top l 0) ->
  exists s' x, execute F (S D) c s = Ok (ENone, s') /\ Only_stack s s' (x :: skipn 2 l) /\
    Shifted (at_top l 1) k x.
Proof.
  intros F D s fp c l k ((fld & L) & H) K I R B. rewrite (execute_letter F D _ _ _ _ L).
  unfold shift_of in K.
  destruct (Z.eqb_spec fp FP_BITW) as [->|N1]; cbn [andb] in K.
  - specialize (B eq_refl). destruct (Z.eqb_spec c 76) as [->|N2].
    + injection K as <-. destruct (shl_shifted (nth 1 l 0) (nth 0 l 0)) as (x & E & S); [lia|].
      destruct (binop_run shl64 s l x H E) as (s' & Ex & O). exists s', x. split; [exact Ex|]. auto.
    + destruct (Z.eqb_spec c 82) as [->|]; [|discriminate].
      injection K as <-. destruct (shr_shifted (nth 1 l 0) (nth 0 l 0)) as (x & E & S); [auto|lia|].
      destruct (binop_run shr64 s l x H E) as (s' & Ex & O). exists s', x. split; [exact Ex|]. auto.
  - destruct (Z.eqb_spec fp FP_TOYS) as [->|]; [|discriminate]. destruct (Z.eqb_spec c 72) as [->|]; [|discriminate].
    injection K as <-. change (fp_exec F FP_TOYS fld 72) with (toys_exec F fld 72).
    unfold toys_exec. cbn [Z.eqb Pos.eqb]. xpop. xpop. rewrite hd_tl_nth, hd_nth, tl_tl_skip in *.
    assert (X : exists x, (if nth 0 l 0 >? 0 then lift (shl64 (nth 1 l 0) (nth 0 l 0))
      else nb <- lift (neg64 (nth 0 l 0)) ;; lift (shr64 (nth 1 l 0) nb)) s1 = Ok (x, s1) /\
      Shifted (nth 1 l 0) (nth 0 l 0) x).
    { rewrite Z.gtb_ltb. destruct (Z.ltb_spec 0 (nth 0 l 0)).
      - destruct (shl_shifted (nth 1 l 0) (nth 0 l 0)) as (x & E' & S'); [lia|]. exists x. split; [now apply run_lift|auto].
      - assert (NG : neg64 (nth 0 l 0) = Ok (- nth 0 l 0)).
        { unfold neg64. apply chk64_ok. unfold in64, INT64_MIN, INT64_MAX. lia. }
        rewrite (run_bind (lift (neg64 (nth 0 l 0))) _ s1 _ s1 (run_lift _ _ _ NG)).
        destruct (shr_shifted (nth 1 l 0) (- nth 0 l 0)) as (x & E' & S'); [auto|lia|].
        exists x. split; [now apply run_lift|]. now rewrite Z.opp_involutive in S'. }
    destruct X as (x & EX & SX). rewrite (run_bind _ _ s1 x s1 EX). xpush.
    exists s2, x. split; [reflexivity|]. split; [os_finish|exact SX].
Qed.
(** Everything else is undefined: a count of 64 or more, a negative count for
    BITW. *)
Theorem C88_shift_undefined : forall F D s l c,
  Ready s FP_BITW c l -> c = 76 \/ c = 82 -> ~ 0 <= at_top l 0 < 64 ->
  execute F (S D) c s = Bad BadShift.
Proof.
  intros F D s l c ((fld & L) & H) C N. rewrite (execute_letter F D _ _ _ _ L).
  assert (B : (0 <=? nth 0 l 0) && (nth 0 l 0 <? 64) = false).
  { destruct (Z.leb_spec 0 (nth 0 l 0)); [|reflexivity]. destruct (Z.ltb_spec (nth 0 l 0) 64); [exfalso; auto|reflexivity]. }
  destruct C as [-> | ->].
  - apply (binop_bad shl64 s l _ H). unfold shl64. now rewrite B.
  - apply (binop_bad shr64 s l _ H). unfold shr64. now rewrite B.
Qed.
Definition bitw_demo (l : list Z) : st := loaded [FP_BITW] l.
Lemma ready_loaded fp c l : letterb (loaded [fp] l) fp 0 c = true ->
  Holds (loaded [fp] l) l -> Ready (loaded [fp] l) fp c l.
Proof. intros L H. split; [|exact H]. exists 0%nat. now apply letterb_ok. Qed.
(** Shifting 1 by 64 places. *)
Theorem C88_refuted : Ready (loaded [FP_BITW] [64; 1]) FP_BITW 76 [64; 1] /\
  forall F D, execute F (S D) 76 (loaded [FP_BITW] [64; 1]) = Bad BadShift.
Proof.
  assert (R : Ready (loaded [FP_BITW] [64; 1]) FP_BITW 76 [64; 1]).
  { apply ready_loaded; [vm_compute; reflexivity|apply holds_with_list; vm_compute; [reflexivity|discriminate]]. }
  split; [exact R|]. intros F D. apply (C88_shift_undefined F D _ _ _ R); [auto|]. cbn. lia.
Qed.

(** Examples: 12 and 10 bit by bit; shifts. *)
Ltac demo := apply ready_loaded; [vm_compute; reflexivity|apply holds_with_list; vm_compute; [reflexivity|discriminate]].
Example C88_ex : Ready (loaded [FP_BITW] [10; 12]) FP_BITW 65 [10; 12] /\ In (FP_BITW, 65, andb) bit_ops /\
  Ready (loaded [FP_BITW] [10; 12]) FP_BITW 78 [10; 12] /\
  Ready (loaded [FP_TOYS] [-2; -7]) FP_TOYS 72 [-2; -7] /\ shift_of FP_TOYS 72 (-2) = Some (-2) /\
  Shifted (-7) (-2) (-2) /\ Shifted (2 ^ 62) 2 0.
Proof.
  split; [demo|].
  split; [left; reflexivity|].
  split; [demo|].
  split; [demo|].
  split; [reflexivity|]. unfold Shifted, in64, INT64_MIN, INT64_MAX. vm_compute. intuition discriminate.
Qed.
Print Assumptions C88_bits.
Print Assumptions C88_not.
Print Assumptions C88_shift_partial.
Print Assumptions C88_shift_undefined.
Print Assumptions C88_refuted.

(** ** C89 Complex integers *)

(** Specification: complex numbers are pairs (real part, imaginary part); on
    the stack the imaginary part lies on top. *)
Definition complex_op (c : Z) (a b : Z * Z) : option (Z * Z) :=
  let '(ar, ai) := a in let '(br, bi) := b in
  if c =? 65 (* A *) then Some (ar + br, ai + bi)
  else if c =? 83 (* S *) then Some (ar - br, ai - bi)
  else if c =? 77 (* M *) then Some (ar * br - ai * bi, ar * bi + ai * br)
  else None.
(** The 64-bit numbers the computation goes through besides its result. *)
Definition complex_steps (c : Z) (a b : Z * Z) : list Z :=
  let '(ar, ai) := a in let '(br, bi) := b in
  if c =? 77 then [ar * br; ai * bi; ar * bi; ai * br] else [].
Definition Fits64 (l : list Z) : Prop := Forall in64 l.

Lemma popComplex_run s l : Holds s l ->
  exists s', popComplex s = Ok ((nth 1 l 0, nth 0 l 0), s') /\ Only_stack s s' (skipn 2 l).
Proof.
  intros H. unfold popComplex. xpop. xpop. rewrite hd_tl_nth, hd_nth, tl_tl_skip in *.
  exists s1. split; [reflexivity|]. os_finish.
Qed.
Lemma nth_skip n m (l : list Z) : nth n (skipn m l) 0 = nth (m + n) l 0.
Proof.
  revert l. induction m as [|m IH]; intros l; [reflexivity|]. destruct l as [|x l]; [now destruct n|].
  cbn [skipn Nat.add nth]. apply IH.
Qed.
Lemma skip_skip n m (l : list Z) : skipn n (skipn m l) = skipn (m + n) l.
Proof.
  revert l. induction m as [|m IH]; intros l; [reflexivity|]. destruct l as [|x l]; [now rewrite !skipn_nil|].
  cbn [skipn Nat.add]. apply IH.
Qed.
Lemma cpli_op_run f s l : Holds s l ->
  let a := (nth 3 l 0, nth 2 l 0) in let b := (nth 1 l 0, nth 0 l 0) in
  (forall x, f a b = Ok x -> exists s', cpli_op f s = Ok (ENone, s') /\ Only_stack s s' (snd x :: fst x :: skipn 4 l)) /\
  (forall e, f a b = Bad e -> cpli_op f s = Bad e).
Proof.
  intros H a b. unfold cpli_op.
  destruct (popComplex_run s l H) as (s1 & E1 & C1). rewrite (run_bind _ _ _ _ _ E1).
  pose proof (Only_stack_holds _ _ _ _ H C1) as H1.
  destruct (popComplex_run s1 _ H1) as (s2 & E2 & C2). rewrite (run_bind _ _ _ _ _ E2).
  rewrite !nth_skip, skip_skip in *. cbn [Nat.add] in *.
  pose proof (Only_stack_holds _ _ _ _ H1 C2) as H2. split.
  - intros x E. rewrite (run_bind (lift (f a b)) _ s2 x s2) by (now apply run_lift).
    unfold pushComplex. unfold mbind at 1.
    destruct (pushS_plain s2 _ (fst x) H2) as (s3 & E3 & C3). rewrite (run_bind _ _ _ _ _ E3).
    pose proof (Only_stack_holds _ _ _ _ H2 C3) as H3.
    destruct (pushS_plain s3 _ (snd x) H3) as (s4 & E4 & C4). rewrite E4.
    exists s4. split; [reflexivity|]. os_finish.
  - intros e E. apply run_bind_bad. unfold lift. unfold a, b in E. now rewrite E.
Qed.

Lemma chk_bind {B} z (k : Z -> res B) : in64 z -> (x <-- chk64 z ;; k x) = k z.
Proof. intros I. now rewrite chk64_ok. Qed.
Lemma chk_bad {B} z (k : Z -> res B) : ~ in64 z -> (x <-- chk64 z ;; k x) = Bad BadOverflow.
Proof. intros I. unfold chk64. apply in64b_false in I. now rewrite I. Qed.

(** The complex result is exact when its parts and the intermediate products
    fit 64 bits, and nothing but the stack changes. *)
Theorem C89_arith : forall F D s c l r i,
  Ready s FP_CPLI c l ->
  let a := (at_top l 3, at_top l 2) in let b := (at_top l 1, at_top l 0) in
  complex_op c a b = Some (r, i) -> Fits64 (r :: i :: complex_steps c a b) ->
  exists s', execute F (S D) c s = Ok (ENone, s') /\ Only_stack s s' (i :: r :: skipn 4 l).
Proof.
  intros F D s c l r i ((fld & L) & H) a b E Ft. rewrite (execute_letter F D _ _ _ _ L).
  change (fp_exec F FP_CPLI fld c) with (cpli_exec c).
  unfold complex_op, a, b in E. unfold complex_steps, a, b in Ft.
  inversion Ft as [|? ? Fr Ft']; subst. inversion Ft' as [|? ? Fi Ft'']; subst. clear Ft Ft'.
  assert (Go : forall f, cpli_exec c = cpli_op f -> f a b = Ok (r, i) ->
    exists s', cpli_exec c s = Ok (ENone, s') /\ Only_stack s s' (i :: r :: skipn 4 l)).
  { intros f Ef Hf. rewrite Ef. exact (proj1 (cpli_op_run f s l H) _ Hf). }
  destruct (Z.eqb_spec c 65) as [->|]; [|destruct (Z.eqb_spec c 83) as [->|]; [|destruct (Z.eqb_spec c 77) as [->|]; [|discriminate]]];
    injection E as <- <-.
  - refine (Go cpl_add eq_refl _). unfold cpl_add, a, b, add64. cbn [fst snd]. now rewrite !chk_bind.
  - refine (Go cpl_sub eq_refl _). unfold cpl_sub, a, b, sub64. cbn [fst snd]. now rewrite !chk_bind.
  - cbn [Z.eqb Pos.eqb] in Ft''.
    repeat match goal with K : Forall in64 (_ :: _) |- _ => inversion K; subst; clear K end.
    refine (Go cpl_mul eq_refl _). unfold cpl_mul, a, b, add64, sub64, mul64. cbn [fst snd]. now rewrite !chk_bind.
Qed.
(** Otherwise the instruction is undefined. *)
Theorem C89_overflow : forall F D s c l r i,
  Ready s FP_CPLI c l ->
  let a := (at_top l 3, at_top l 2) in let b := (at_top l 1, at_top l 0) in
  complex_op c a b = Some (r, i) -> ~ Fits64 (r :: i :: complex_steps c a b) ->
  execute F (S D) c s = Bad BadOverflow.
Proof.
  intros F D s c l r i ((fld & L) & H) a b E Ft. rewrite (execute_letter F D _ _ _ _ L).
  change (fp_exec F FP_CPLI fld c) with (cpli_exec c).
  unfold complex_op, a, b in E. unfold complex_steps, a, b in Ft.
  assert (Go : forall f, cpli_exec c = cpli_op f -> f a b = Bad BadOverflow -> cpli_exec c s = Bad BadOverflow).
  { intros f Ef Hf. rewrite Ef. exact (proj2 (cpli_op_run f s l H) _ Hf). }
  assert (dec64 : forall z, {in64 z} + {~ in64 z}).
  { intros z. destruct (in64b z) eqn:B; [left; now apply in64b_true|right; now apply in64b_false]. }
  destruct (Z.eqb_spec c 65) as [->|]; [|destruct (Z.eqb_spec c 83) as [->|]; [|destruct (Z.eqb_spec c 77) as [->|]; [|discriminate]]];
    injection E as <- <-.
  - refine (Go cpl_add eq_refl _). unfold cpl_add, a, b, add64. cbn [fst snd].
    destruct (dec64 (nth 3 l 0 + nth 1 l 0)); [rewrite chk_bind by auto|now apply chk_bad].
    destruct (dec64 (nth 2 l 0 + nth 0 l 0)); [|now apply chk_bad]. exfalso. apply Ft. repeat (apply Forall_cons || apply Forall_nil); assumption.
  - refine (Go cpl_sub eq_refl _). unfold cpl_sub, a, b, sub64. cbn [fst snd].
    destruct (dec64 (nth 3 l 0 - nth 1 l 0)); [rewrite chk_bind by auto|now apply chk_bad].
    destruct (dec64 (nth 2 l 0 - nth 0 l 0)); [|now apply chk_bad]. exfalso. apply Ft. repeat (apply Forall_cons || apply Forall_nil); assumption.
  - refine (Go cpl_mul eq_refl _). unfold cpl_mul, a, b, add64, sub64, mul64. cbn [fst snd].
    cbn [Z.eqb Pos.eqb] in Ft.
    repeat match goal with |- (_ <-- chk64 ?z ;; _) = _ =>
      destruct (dec64 z); [rewrite chk_bind by assumption; cbv beta|now apply chk_bad] end.
    exfalso. apply Ft. repeat (apply Forall_cons || apply Forall_nil); assumption.
Qed.

(** What O prints: the parts in decimal, the imaginary part followed by [i], a
    part that is zero left out (but not both), and a space. *)
Definition complex_text (r i : Z) (text : bytes) : Prop :=
  exists tr ti, decimal r tr /\ decimal i ti /\
    ((i = 0 /\ text = tr ++ [32]) \/
     (i <> 0 /\ r = 0 /\ text = ti ++ [105; 32]) \/
     (r <> 0 /\ 0 < i /\ text = tr ++ [43] ++ ti ++ [105; 32]) \/
     (r <> 0 /\ i < 0 /\ text = tr ++ ti ++ [105; 32])).
Theorem C89_print : forall F D s l,
  Ready s FP_CPLI 79 l ->
  exists s' text, execute F (S D) 79 s = Ok (ENone, s') /\ complex_text (at_top l 1) (at_top l 0) text /\
    World_and_stack s s' (set_w_out (w_out (s_w s) ++ text) (s_w s)) (skipn 2 l).
Proof.
  intros F D s l ((fld & L) & H). rewrite (execute_letter F D _ _ _ _ L).
  change (fp_exec F FP_CPLI fld 79) with (cpli_exec 79). unfold cpli_exec. cbn [Z.eqb Pos.eqb].
  destruct (popComplex_run s l H) as (s1 & E1 & C1). rewrite (run_bind _ _ _ _ _ E1).
  pose proof (Only_stack_w _ _ _ C1) as W.
  exists {| s_w := set_w_out (w_out (s_w s) ++ cpl_text (nth 1 l 0, nth 0 l 0)) (s_w s); s_r := s_r s1 |},
    (cpl_text (nth 1 l 0, nth 0 l 0)).
  split; [unfold out, modW, mbind; rewrite W; reflexivity|]. split.
  - exists (dec (nth 1 l 0)), (dec (nth 0 l 0)). split; [apply dec_decimal|]. split; [apply dec_decimal|].
    unfold cpl_text. destruct (Z.eqb_spec (nth 0 l 0) 0); [auto|].
    destruct (Z.eqb_spec (nth 1 l 0) 0); [auto|].
    destruct (Z.ltb_spec (nth 0 l 0) 0); [auto 10|]. right. right. left.
    split; [auto|]. split; [lia|reflexivity].
  - split; [reflexivity|]. exists s1. auto.
Qed.
(** The text determines the number. *)
Lemma decimal_sep n t (x : Z) u m t' u' : decimal n t -> decimal m t' ->
  ~ 48 <= x <= 57 -> forall y, ~ 48 <= y <= 57 ->
  t ++ x :: u = t' ++ y :: u' -> n = m /\ x = y /\ u = u'.
Proof.
  intros (ds & -> & Fd & Nd & Vd & Zd) (es & -> & Fe & Ne & Ve & Ze) X y Y E.
  assert (K : forall a b, Forall (fun c => 48 <= c <= 57) a -> Forall (fun c => 48 <= c <= 57) b ->
     a ++ x :: u = b ++ y :: u' -> a = b /\ x = y /\ u = u').
  { induction a as [|p a IH]; intros [|q b] A B Q; cbn [app] in Q; inversion Q; subst.
    - auto.
    - inversion B; subst. contradiction.
    - inversion A; subst. contradiction.
    - inversion A; inversion B; subst. destruct (IH b) as (-> & ? & ?); auto. }
  destruct (Z.ltb_spec n 0), (Z.ltb_spec m 0); cbn [app] in E.
  - injection E as E. destruct (K _ _ Fd Fe E) as (-> & -> & ->). split; [lia|auto].
  - exfalso. destruct es as [|e es]; [auto|]. cbn [app] in E. injection E as E _. inversion Fe; subst. lia.
  - exfalso. destruct ds as [|e ds]; [auto|]. cbn [app] in E. injection E as E _. inversion Fd; subst. lia.
  - destruct (K _ _ Fd Fe E) as (-> & -> & ->). split; [lia|auto].
Qed.
Lemma complex_shape r i text : complex_text r i text ->
  exists n t x u, decimal n t /\ ~ 48 <= x <= 57 /\ text = t ++ x :: u /\
    ((x = 32 /\ n = r /\ i = 0) \/ (x = 105 /\ n = i /\ r = 0) \/
     (x = 43 /\ n = r /\ exists ti, decimal i ti /\ u = ti ++ [105; 32]) \/
     (x = 45 /\ n = r /\ exists ds, decimal i (45 :: ds) /\ u = ds ++ [105; 32])).
Proof.
  intros (tr & ti & Dr & Di & T).
  destruct T as [(A & ->)|[(A & B & ->)|[(A & B & ->)|(A & B & ->)]]].
  - exists r, tr, 32, []. split; [auto|]. split; [lia|]. split; [reflexivity|]. auto 10.
  - exists i, ti, 105, [32]. split; [auto|]. split; [lia|]. split; [reflexivity|]. auto 10.
  - exists r, tr, 43, (ti ++ [105; 32]). split; [auto|]. split; [lia|]. split; [reflexivity|]. right. right. left. eauto.
  - assert (K := Di). destruct K as (ds & E & _). apply Z.ltb_lt in B. rewrite B in E. cbn [app] in E. subst ti.
    exists r, tr, 45, (ds ++ [105; 32]). split; [auto|]. split; [lia|]. split; [reflexivity|]. right. right. right. eauto.
Qed.
Theorem C89_text_unique : forall r i r' i' text, complex_text r i text -> complex_text r' i' text -> r = r' /\ i = i'.
Proof.
  intros r i r' i' text T T'.
  destruct (complex_shape _ _ _ T) as (n & t & x & u & Dn & X & -> & S).
  destruct (complex_shape _ _ _ T') as (n' & t' & x' & u' & Dn' & X' & E & S').
  destruct (decimal_sep _ _ _ _ _ _ _ Dn Dn' X _ X' E) as (<- & <- & <-).
  destruct S as [(A & B & C)|[(A & B & C)|[(A & B & ti & C & G)|(A & B & ti & C & G)]]];
  destruct S' as [(A' & B' & C')|[(A' & B' & C')|[(A' & B' & ti' & C' & G')|(A' & B' & ti' & C' & G')]]];
  try lia; rewrite G in G'; (split; [congruence|]).
  - destruct (decimal_sep i ti 105 [32] i' ti' [32] C C' ltac:(lia) 105 ltac:(lia) G') as (K & _). exact K.
  - assert (Q : (45 :: ti) ++ 105 :: [32] = (45 :: ti') ++ 105 :: [32]) by (cbn [app]; f_equal; exact G').
    destruct (decimal_sep i _ 105 [32] i' _ [32] C C' ltac:(lia) 105 ltac:(lia) Q) as (K & _). exact K.
Qed.
(** (3+4i)(1-2i) = 11-2i. *)
Example C89_ex : Ready (loaded [FP_CPLI] [-2; 1; 4; 3]) FP_CPLI 77 [-2; 1; 4; 3] /\
  complex_op 77 (3, 4) (1, -2) = Some (11, -2) /\
  Fits64 (11 :: -2 :: complex_steps 77 (3, 4) (1, -2)) /\
  complex_op 77 (2 ^ 62, 0) (2, 0) = Some (2 ^ 63, 0) /\ ~ Fits64 (2 ^ 63 :: 0 :: complex_steps 77 (2 ^ 62, 0) (2, 0)) /\
  Ready (loaded [FP_CPLI] [-2; 1; 4; 3]) FP_CPLI 79 [-2; 1; 4; 3] /\
  complex_text 11 (-2) [49; 49; 45; 50; 105; 32].
Proof.
  split; [demo|]. split; [reflexivity|].
  split; [unfold Fits64, in64, INT64_MIN, INT64_MAX; repeat constructor; vm_compute; discriminate|].
  split; [reflexivity|].
  split; [intros K; inversion K as [|? ? K1 _]; subst; destruct K1 as (_ & K1); vm_compute in K1; auto|].
  split; [demo|]. exists [49; 49], [45; 50].
  split; [exact (dec_decimal 11)|]. split; [exact (dec_decimal (-2))|].
  right. right. right. split; [lia|]. split; [lia|reflexivity].
Qed.
Print Assumptions C89_arith.
Print Assumptions C89_overflow.
Print Assumptions C89_print.
Print Assumptions C89_text_unique.

(** ** C90 Fixed point helpers *)

(** N negates, S gives the sign, V the absolute value. *)
Definition fixp_value (c x : Z) : option Z :=
  if c =? 78 (* N *) then Some (- x)
  else if c =? 83 (* S *) then Some (if x =? 0 then 0 else if x <? 0 then -1 else 1)
  else if c =? 86 (* V *) then Some (if x <? 0 then - x else x)
  else None.
Theorem C90_unary : forall F D s c l y,
  Ready s FP_FIXP c l -> fixp_value c (at_top l 0) = Some y ->
  (in64 y -> exists s', execute F (S D) c s = Ok (ENone, s') /\ Only_stack s s' (y :: skipn 1 l)) /\
  (~ in64 y -> execute F (S D) c s = Bad BadOverflow).
Proof.
  intros F D s c l y ((fld & L) & H) V. rewrite (execute_letter F D _ _ _ _ L).
  change (fp_exec F FP_FIXP fld c) with (fixp_exec c). unfold fixp_value in V.
  assert (Go : forall f, fixp_exec c = unop f -> f (nth 0 l 0) = chk64 y ->
    (in64 y -> exists s', fixp_exec c s = Ok (ENone, s') /\ Only_stack s s' (y :: skipn 1 l)) /\
    (~ in64 y -> fixp_exec c s = Bad BadOverflow)).
  { intros f E G. rewrite E. split; intros I.
    - apply (unop_run f s l y H). rewrite G. now apply chk64_ok.
    - apply (unop_bad f s l _ H). rewrite G. unfold chk64. apply in64b_false in I. now rewrite I. }
  destruct (Z.eqb_spec c 78) as [->|]; [|destruct (Z.eqb_spec c 83) as [->|]; [|destruct (Z.eqb_spec c 86) as [->|]; [|discriminate]]];
    injection V as <-.
  - exact (Go neg64 eq_refl eq_refl).
  - refine (Go (pure1 Z.sgn) eq_refl _). unfold pure1. rewrite chk64_ok.
    + f_equal. destruct (nth 0 l 0); reflexivity.
    + unfold in64, INT64_MIN, INT64_MAX. destruct (nth 0 l 0 =? 0), (nth 0 l 0 <? 0); lia.
  - refine (Go (fun n => chk64 (Z.abs n)) eq_refl _). f_equal. destruct (Z.ltb_spec (nth 0 l 0) 0); lia.
Qed.
(** Q: the largest integer whose square does not exceed the number. *)
Theorem C90_sqrt_partial : forall F D s l,
  Ready s FP_FIXP 81 l -> 0 <= at_top l 0 <= 2 ^ 52 ->
  exists s' y, execute F (S D) 81 s = Ok (ENone, s') /\ Only_stack s s' (y :: skipn 1 l) /\
    0 <= y /\ y * y <= at_top l 0 < (y + 1) * (y + 1).
Proof.
  intros F D s l ((fld & L) & H) R. rewrite (execute_letter F D _ _ _ _ L).
  destruct (unop_run fixp_sqrt s l (Z.sqrt (nth 0 l 0)) H) as (s' & E & O).
  - unfold fixp_sqrt. apply sqrt_int. exact R.
  - exists s', (Z.sqrt (nth 0 l 0)). split; [exact E|]. split; [exact O|].
    split; [apply Z.sqrt_nonneg|]. pose proof (Z.sqrt_spec (nth 0 l 0)). cbv zeta in *. lia.
Qed.
(** Above 2^52 the root is rounded as a double before it is cut off: 2^54 - 1 gives
    2^27, whose square is 2^54. *)
Theorem C90_sqrt_refuted : Ready (loaded [FP_FIXP] [2 ^ 54 - 1]) FP_FIXP 81 [2 ^ 54 - 1] /\
  forall F D, exists s', execute F (S D) 81 (loaded [FP_FIXP] [2 ^ 54 - 1]) = Ok (ENone, s') /\
    Only_stack (loaded [FP_FIXP] [2 ^ 54 - 1]) s' [2 ^ 27] /\ 2 ^ 27 * 2 ^ 27 > 2 ^ 54 - 1.
Proof.
  assert (R : Ready (loaded [FP_FIXP] [2 ^ 54 - 1]) FP_FIXP 81 [2 ^ 54 - 1]) by demo.
  split; [exact R|]. intros F D. destruct R as ((fld & L) & H). rewrite (execute_letter F D _ _ _ _ L).
  destruct (unop_run fixp_sqrt _ _ (2 ^ 27) H) as (s' & E & O); [vm_compute; reflexivity|].
  exists s'. split; [exact E|]. split; [exact O|]. reflexivity.
Qed.
(** The root of a negative number is no number; converting it to a cell is undefined. *)
Theorem C90_sqrt_negative : forall F D s l,
  Ready s FP_FIXP 81 l -> - 2 ^ 53 < at_top l 0 < 0 -> execute F (S D) 81 s = Bad BadOverflow.
Proof.
  intros F D s l ((fld & L) & H) N. rewrite (execute_letter F D _ _ _ _ L).
  change (fp_exec F FP_FIXP fld 81) with (unop fixp_sqrt).
  apply (unop_bad _ _ _ _ H). unfold fixp_sqrt. rewrite (sqrt_negative (nth 0 l 0)) by lia. reflexivity.
Qed.
(** R: the power, when it is at most 2^53 in absolute value; with a negative
    exponent the power rounded towards zero. *)
Theorem C90_power : forall F D s l,
  Ready s FP_FIXP 82 l -> let a := at_top l 1 in let b := at_top l 0 in
  (0 <= b -> Z.abs (a ^ b) <= 2 ^ 53 ->
     exists s', execute F (S D) 82 s = Ok (ENone, s') /\ Only_stack s s' (a ^ b :: skipn 2 l)) /\
  (b < 0 -> a <> 0 ->
     exists s' y, execute F (S D) 82 s = Ok (ENone, s') /\ Only_stack s s' (y :: skipn 2 l) /\
       y * a ^ (- b) = (if Z.abs a =? 1 then 1 else 0)) /\
  (b < 0 -> a = 0 -> execute F (S D) 82 s = Bad BadOverflow).
Proof.
  intros F D s l ((fld & L) & H) a b. rewrite (execute_letter F D _ _ _ _ L).
  change (fp_exec F FP_FIXP fld 82) with (fixp_exec 82). unfold fixp_exec. cbn [Z.eqb Pos.eqb].
  xpop. xpop. rewrite hd_tl_nth, hd_nth, tl_tl_skip in *. fold a b.
  assert (Go : forall x, fixp_pow a b = Ok x ->
    exists s', (x <- lift (fixp_pow a b) ;; pushS x ;;; ok) s1 = Ok (ENone, s') /\ Only_stack s s' (x :: skipn 2 l)).
  { intros x Ex. rewrite (run_bind (lift (fixp_pow a b)) _ s1 x s1) by (now apply run_lift). xpush.
    exists s2. split; [reflexivity|os_finish]. }
  unfold fixp_pow in *. cbv zeta in *. split; [|split].
  - intros B P. apply Go. destruct (Z.leb_spec 0 b); [|lia]. destruct (Z.leb_spec (Z.abs (a ^ b)) (2 ^ 53)); [reflexivity|lia].
  - intros B A. destruct (Z.leb_spec 0 b); [lia|]. destruct (Z.eqb_spec a 0); [contradiction|].
    destruct (Z.eqb_spec a 1) as [A1|]; [|destruct (Z.eqb_spec a (-1)) as [A2|]].
    + destruct (Go _ eq_refl) as (s' & Ex & O). exists s', 1. split; [exact Ex|]. split; [exact O|].
      rewrite A1. rewrite Z.pow_1_l by lia. reflexivity.
    + destruct (Go _ eq_refl) as (s' & Ex & O). eexists s', _. split; [exact Ex|]. split; [exact O|].
      rewrite A2. replace (Z.even b) with (Z.even (- b)) by apply Z.even_opp.
      change (Z.abs (-1) =? 1) with true. cbv iota.
      destruct (Z.even (- b)) eqn:Ev.
      * apply Z.even_spec in Ev. rewrite Z.mul_1_l. change (-1) with (- (1)). rewrite Z.pow_opp_even by auto. now apply Z.pow_1_l; lia.
      * assert (Od : Z.Odd (- b)). { apply Z.odd_spec. rewrite <- Z.negb_even, Ev. reflexivity. }
        change ((-1) ^ (- b)) with ((- (1)) ^ (- b)). rewrite Z.pow_opp_odd by auto. rewrite Z.pow_1_l by lia. reflexivity.
    + destruct (Go _ eq_refl) as (s' & Ex & O). exists s', 0. split; [exact Ex|]. split; [exact O|].
      destruct (Z.eqb_spec (Z.abs a) 1); [lia|reflexivity].
  - intros B A. destruct (Z.leb_spec 0 b); [lia|]. destruct (Z.eqb_spec a 0); [|contradiction]. reflexivity.
Qed.
(** D: a number between 0 and [n], both included, chosen by the random source,
    which can choose any of them. *)
Theorem C90_random_partial : forall F D s l,
  Ready s FP_FIXP 68 l -> 0 <= at_top l 0 < 2 ^ 31 ->
  exists s' y, execute F (S D) 68 s = Ok (ENone, s') /\
    World_and_stack s s' (set_w_nrnd (S (w_nrnd (s_w s))) (s_w s)) (y :: skipn 1 l) /\
    0 <= y <= at_top l 0 /\
    (0 <= w_rnd (s_w s) (w_nrnd (s_w s)) <= at_top l 0 -> y = w_rnd (s_w s) (w_nrnd (s_w s))).
Proof.
  intros F D s l ((fld & L) & H) R. rewrite (execute_letter F D _ _ _ _ L).
  change (fp_exec F FP_FIXP fld 68) with (fixp_exec 68). unfold fixp_exec. cbn [Z.eqb Pos.eqb].
  xpop. rewrite hd_nth, tl_skip in *.
  set (w1 := set_w_nrnd (S (w_nrnd (s_w s))) (s_w s)).
  set (x := w_rnd (s_w s) (w_nrnd (s_w s))).
  pose proof (Only_stack_w _ _ _ C) as W.
  set (s1 := {| s_w := w1; s_r := s_r s0 |}).
  assert (U : uniform 0 (nth 0 l 0) s0 = Ok (x mod (nth 0 l 0 + 1), s1)).
  { unfold uniform, rnd, mbind. rewrite W. fold x w1. rewrite !to_i32_id by lia.
    destruct (Z.ltb_spec (nth 0 l 0) 0); [lia|]. unfold ret. rewrite Z.sub_0_r, Z.add_0_l. reflexivity. }
  rewrite (run_bind _ _ _ _ _ U).
  assert (H1 : Holds s1 (skipn 1 l)) by exact H0.
  destruct (pushS_plain s1 _ (x mod (nth 0 l 0 + 1)) H1) as (s2 & E2 & C2). rewrite (run_bind _ _ _ _ _ E2).
  exists s2, (x mod (nth 0 l 0 + 1)). split; [reflexivity|].
  pose proof (Z.mod_pos_bound x (nth 0 l 0 + 1)).
  split; [|split; [lia|intros K; apply Z.mod_small; lia]].
  apply (was_trans s s1 s2 w1 (skipn 1 l)); [|exact C2]. split; [reflexivity|]. exists s0. auto.
Qed.
(** The bound is cut to an [int]: 2^31 becomes negative, an empty range. *)
Theorem C90_random_refuted : Ready (loaded [FP_FIXP] [2147483648]) FP_FIXP 68 [2147483648] /\
  forall F D, execute F (S D) 68 (loaded [FP_FIXP] [2147483648]) = Bad BadThrow.
Proof.
  assert (R : Ready (loaded [FP_FIXP] [2147483648]) FP_FIXP 68 [2147483648]) by demo.
  split; [exact R|]. intros F D. destruct R as ((fld & L) & H).
  rewrite (execute_letter F D _ _ _ _ L). change (fp_exec F FP_FIXP fld 68) with (fixp_exec 68).
  vm_compute. reflexivity.
Qed.
Example C90_ex : Ready (loaded [FP_FIXP] [-7]) FP_FIXP 86 [-7] /\ fixp_value 86 (-7) = Some 7 /\ in64 7 /\
  fixp_value 78 INT64_MIN = Some (2 ^ 63) /\ ~ in64 (2 ^ 63) /\
  Ready (loaded [FP_FIXP] [99]) FP_FIXP 81 [99] /\
  Ready (loaded [FP_FIXP] [13; -3]) FP_FIXP 82 [13; -3] /\ Z.abs ((-3) ^ 13) <= 2 ^ 53 /\
  Ready (loaded [FP_FIXP] [6]) FP_FIXP 68 [6].
Proof.
  split; [demo|]. split; [reflexivity|]. split; [vm_compute; intuition discriminate|].
  split; [reflexivity|]. split; [intros (_ & K); vm_compute in K; auto|].
  split; [demo|]. split; [demo|]. split; [vm_compute; discriminate|demo].
Qed.
Print Assumptions C90_unary.
Print Assumptions C90_sqrt_partial.
Print Assumptions C90_sqrt_refuted.
Print Assumptions C90_sqrt_negative.
Print Assumptions C90_power.
Print Assumptions C90_random_partial.
Print Assumptions C90_random_refuted.

(** ** C91 Long integers, the remaining instructions *)

(** [Stands hi lo n]: the cells [lo] (top) and [hi] (below) are the 128-bit
    two's complement number congruent to [n]; [long hi lo] is the number they
    stand for (see C56). *)

(** B gives the absolute value, N the negative. *)
Definition long_value (c a : Z) : option Z :=
  if c =? 66 (* B *) then Some (Z.abs a) else if c =? 78 (* N *) then Some (- a) else None.
Theorem C91_unary : forall F D s c l n,
  Ready s FP_LONG c l -> in64 (at_top l 1) -> long_value c (long (at_top l 1) (at_top l 0)) = Some n ->
  exists s' hi lo, execute F (S D) c s = Ok (ENone, s') /\ Only_stack s s' (lo :: hi :: skipn 2 l) /\ Stands hi lo n.
Proof.
  intros F D s c l n ((fld & L) & H) I V. rewrite (execute_letter F D _ _ _ _ L).
  change (fp_exec F FP_LONG fld c) with (long_exec c). unfold long_value in V.
  set (a := long (nth 1 l 0) (nth 0 l 0)) in *.
  assert (Go : long_exec c = (a <- popLong ;; pushLong (to_i128 (if c =? 66 then Z.abs a else - a)) ;;; ok) ->
    exists s' hi lo, long_exec c s = Ok (ENone, s') /\ Only_stack s s' (lo :: hi :: skipn 2 l) /\
      Stands hi lo (if c =? 66 then Z.abs a else - a)).
  { intros ->. destruct (popLong_plain s l H I) as (s1 & E1 & C1). rewrite (run_bind _ _ _ _ _ E1). fold a.
    pose proof (Only_stack_holds _ _ _ _ H C1) as H1. set (m := if c =? 66 then Z.abs a else - a).
    destruct (pushLong_plain s1 _ (to_i128 m) H1) as (s2 & E2 & C2). rewrite (run_bind _ _ _ _ _ E2).
    exists s2, (long_hi (to_i128 m)), (long_lo (to_i128 m)). split; [reflexivity|]. split; [os_finish|apply stands]. }
  destruct (Z.eqb_spec c 66) as [->|]; [|destruct (Z.eqb_spec c 78) as [->|]; [|discriminate]];
    injection V as <-; exact (Go eq_refl).
Qed.
(** E turns a cell into the pair standing for the same number. *)
Theorem C91_extend : forall F D s l,
  Ready s FP_LONG 69 l -> in64 (at_top l 0) ->
  exists s' hi lo, execute F (S D) 69 s = Ok (ENone, s') /\ Only_stack s s' (lo :: hi :: skipn 1 l) /\
    in64 hi /\ in64 lo /\ long hi lo = at_top l 0.
Proof.
  intros F D s l ((fld & L) & H) I. rewrite (execute_letter F D _ _ _ _ L).
  change (fp_exec F FP_LONG fld 69) with (long_exec 69). unfold long_exec. cbn [Z.eqb Pos.eqb].
  xpop. rewrite hd_nth, tl_skip in *. set (n := nth 0 l 0) in *.
  set (m := long_of (if n <? 0 then -1 else 0) n).
  assert (M : m = n).
  { unfold m. rewrite long_of_long by (unfold in64, INT64_MIN, INT64_MAX; destruct (n <? 0); lia).
    unfold long, in64, INT64_MIN, INT64_MAX in *. destruct (Z.ltb_spec n 0).
    - replace (n mod 2 ^ 64) with (n + 2 ^ 64); [lia|]. apply (Z.mod_unique_pos _ _ (-1)); lia.
    - rewrite Z.mod_small by lia. lia. }
  destruct (pushLong_plain s0 _ m H0) as (s2 & E2 & C2). rewrite (run_bind _ _ _ _ _ E2).
  exists s2, (long_hi m), (long_lo m). split; [reflexivity|]. split; [os_finish|].
  assert (A : to_i128 n = n). { apply (wrap_id 128); [lia|]. unfold in64, INT64_MIN, INT64_MAX in I. lia. }
  pose proof (stands n) as (S1 & S2 & S3). rewrite A in *. rewrite M. split; [auto|]. split; [auto|].
  unfold long_hi, long_lo, long in *. rewrite (to_i64_id n I) in *.
  assert (Hd : n / 2 ^ 64 = if n <? 0 then -1 else 0).
  { unfold in64, INT64_MIN, INT64_MAX in I. destruct (Z.ltb_spec n 0); Z.div_mod_to_equations; lia. }
  rewrite Hd. rewrite to_i64_id by (unfold in64, INT64_MIN, INT64_MAX; destruct (n <? 0); lia).
  unfold in64, INT64_MIN, INT64_MAX in I. destruct (Z.ltb_spec n 0); Z.div_mod_to_equations; lia.
Qed.
(** L and R shift: to the left modulo 2^128, to the right rounding down. *)
Definition long_shifted (c a n : Z) : option Z :=
  if c =? 76 (* L *) then Some (a * 2 ^ n) else if c =? 82 (* R *) then Some (a / 2 ^ n) else None.
Theorem C91_shift : forall F D s c l x,
  Ready s FP_LONG c l -> in64 (at_top l 2) -> 0 <= at_top l 0 < 128 ->
  long_shifted c (long (at_top l 2) (at_top l 1)) (at_top l 0) = Some x ->
  exists s' hi lo, execute F (S D) c s = Ok (ENone, s') /\ Only_stack s s' (lo :: hi :: skipn 3 l) /\ Stands hi lo x.
Proof.
  intros F D s c l x ((fld & L) & H) I R V. rewrite (execute_letter F D _ _ _ _ L).
  change (fp_exec F FP_LONG fld c) with (long_exec c). unfold long_shifted in V.
  set (a := long (nth 2 l 0) (nth 1 l 0)) in *. set (n := nth 0 l 0) in *.
  assert (Go : forall left, long_exec c =
     (n <- popS ;; a <- popLong ;; x <- lift (long_shift a n left) ;; pushLong x ;;; ok) ->
    x = (if left : bool then a * 2 ^ n else a / 2 ^ n) ->
    exists s' hi lo, long_exec c s = Ok (ENone, s') /\ Only_stack s s' (lo :: hi :: skipn 3 l) /\ Stands hi lo x).
  { intros left -> X. xpop. rewrite hd_nth, tl_skip in *. fold n.
    destruct (popLong_plain s0 _ H0) as (s1 & E1 & C1); [now rewrite nth_skip|].
    rewrite !nth_skip, skip_skip in *. cbn [Nat.add] in *. rewrite (run_bind _ _ _ _ _ E1). fold a.
    assert (Sh : long_shift a n left = Ok (to_i128 x)).
    { unfold long_shift. rewrite (proj2 (Z.leb_le 0 n)), (proj2 (Z.ltb_lt n 128)) by lia. cbn [andb]. f_equal.
      rewrite X. destruct left; [now rewrite Z.shiftl_mul_pow2 by lia|now rewrite Z.shiftr_div_pow2 by lia]. }
    rewrite (run_bind (lift (long_shift a n left)) _ s1 _ s1 (run_lift _ _ _ Sh)).
    pose proof (Only_stack_holds _ _ _ _ H0 C1) as H1.
    destruct (pushLong_plain s1 _ (to_i128 x) H1) as (s2 & E2 & C2). rewrite (run_bind _ _ _ _ _ E2).
    exists s2, (long_hi (to_i128 x)), (long_lo (to_i128 x)). split; [reflexivity|]. split; [os_finish|apply stands]. }
  destruct (Z.eqb_spec c 76) as [->|]; [|destruct (Z.eqb_spec c 82) as [->|]; [|discriminate]]; injection V as <-.
  - exact (Go true eq_refl eq_refl).
  - exact (Go false eq_refl eq_refl).
Qed.
(** P prints the number in decimal and a space. *)
Theorem C91_print : forall F D s l,
  Ready s FP_LONG 80 l -> in64 (at_top l 1) ->
  exists s' text, execute F (S D) 80 s = Ok (ENone, s') /\ decimal (long (at_top l 1) (at_top l 0)) text /\
    World_and_stack s s' (set_w_out (w_out (s_w s) ++ text ++ [32]) (s_w s)) (skipn 2 l).
Proof.
  intros F D s l ((fld & L) & H) I. rewrite (execute_letter F D _ _ _ _ L).
  change (fp_exec F FP_LONG fld 80) with (long_exec 80). unfold long_exec. cbn [Z.eqb Pos.eqb].
  destruct (popLong_plain s l H I) as (s1 & E1 & C1). rewrite (run_bind _ _ _ _ _ E1).
  set (a := long (nth 1 l 0) (nth 0 l 0)). pose proof (Only_stack_w _ _ _ C1) as W.
  exists {| s_w := set_w_out (w_out (s_w s) ++ dec a ++ [32]) (s_w s); s_r := s_r s1 |}, (dec a).
  split; [unfold out, modW, mbind; rewrite W; reflexivity|]. split; [apply dec_decimal|].
  split; [reflexivity|]. exists s1. auto.
Qed.
(** Z reads a string of digits as the number it denotes. *)
Lemma long_digits ds : forall a b, (a - b) mod 2 ^ 128 = 0 ->
  (fold_left (fun l c => to_i128 (to_i128 (l * 10) + (c - 48))) ds a - digits_value b ds) mod 2 ^ 128 = 0.
Proof.
  induction ds as [|d ds IH]; intros a b E; [exact E|]. cbn [fold_left digits_value]. apply IH.
  pose proof (wrap_mod 128 (a * 10)) as W1. pose proof (wrap_mod 128 (to_i128 (a * 10) + (d - 48))) as W2.
  unfold to_i128 in *. set (p := wrap 128 (a * 10)) in *. set (q := wrap 128 (p + (d - 48))) in *.
  specialize (W1 ltac:(lia)). specialize (W2 ltac:(lia)).
  apply Z.mod_divide in E; [|lia]. apply Z.mod_divide in W1; [|lia]. apply Z.mod_divide in W2; [|lia].
  destruct E as (x & E). destruct W1 as (y & W1). destruct W2 as (z & W2).
  apply Z.mod_divide; [lia|]. exists (10 * x + y + z).
  replace (q - (b * 10 + (d - 48))) with ((q - (p + (d - 48))) + (p - a * 10) + 10 * (a - b)) by ring.
  rewrite E, W1, W2. ring.
Qed.
Theorem C91_parse : forall F D s l ds,
  Ready s FP_LONG 90 (ds ++ 0 :: l) -> Forall digit ds ->
  exists s' hi lo, execute F (S D) 90 s = Ok (ENone, s') /\ Only_stack s s' (lo :: hi :: l) /\
    Stands hi lo (digits_value 0 ds).
Proof.
  intros F D s l ds ((fld & L) & H) Dg. rewrite (execute_letter F D _ _ _ _ L).
  change (fp_exec F FP_LONG fld 90) with (long_exec 90). unfold long_exec. cbn [Z.eqb Pos.eqb].
  assert (Ch : char_str ds). { eapply Forall_impl; [|exact Dg]. unfold digit. intros a. lia. }
  destruct (popString_plain s ds l Ch H) as (s1 & E1 & C1). rewrite (run_bind _ _ _ _ _ E1).
  pose proof (Only_stack_holds _ _ _ _ H C1) as H1.
  set (m := fold_left _ ds 0).
  assert (M : to_i128 m = m).
  { unfold m. destruct ds as [|d ds] using rev_ind; [reflexivity|]. rewrite fold_left_app. cbn [fold_left].
    apply (wrap_id 128); [lia|]. apply (wrap_range 128). lia. }
  destruct (pushLong_plain s1 _ m H1) as (s2 & E2 & C2). rewrite (run_bind _ _ _ _ _ E2).
  exists s2, (long_hi m), (long_lo m). split; [reflexivity|]. split; [os_finish|].
  pose proof (stands m) as (S1 & S2 & S3). rewrite M in *. split; [auto|]. split; [auto|].
  pose proof (long_digits ds 0 0 eq_refl) as K. fold m in K.
  apply Z.mod_divide in S3; [|lia]. apply Z.mod_divide in K; [|lia]. destruct S3 as (x & S3). destruct K as (y & K).
  apply Z.mod_divide; [lia|]. exists (x + y).
  replace (long (long_hi m) (long_lo m) - digits_value 0 ds) with
    ((long (long_hi m) (long_lo m) - m) + (m - digits_value 0 ds)) by ring. rewrite S3, K. ring.
Qed.
(** A minus sign is taken for a digit worth -3: "-5" becomes -25. *)
Theorem C91_negative_refuted : exists s', Ready (loaded [FP_LONG] [45; 53; 0]) FP_LONG 90 [45; 53; 0] /\
  execute 1 1 90 (loaded [FP_LONG] [45; 53; 0]) = Ok (ENone, s') /\ Holds s' [-25; -1] /\ long (-1) (-25) = -25.
Proof.
  destruct (execute 1 1 90 (loaded [FP_LONG] [45; 53; 0])) as [[e s']|] eqn:E; [|vm_compute in E; discriminate].
  exists s'. split; [demo|]. vm_compute in E. inversion E. split; [reflexivity|].
  split; [|reflexivity]. eexists. vm_compute. repeat split.
Qed.
Example C91_ex : Ready (loaded [FP_LONG] [5; -1]) FP_LONG 66 [5; -1] /\ long (-1) 5 = 5 - 2 ^ 64 /\
  long_value 66 (5 - 2 ^ 64) = Some (2 ^ 64 - 5) /\
  Ready (loaded [FP_LONG] [-9]) FP_LONG 69 [-9] /\
  Ready (loaded [FP_LONG] [70; 3; 0]) FP_LONG 76 [70; 3; 0] /\ long_shifted 76 (long 0 3) 70 = Some (3 * 2 ^ 70) /\
  Ready (loaded [FP_LONG] [5; -1]) FP_LONG 80 [5; -1] /\
  Ready (loaded [FP_LONG] [49; 50; 0; 7]) FP_LONG 90 ([49; 50] ++ 0 :: [7]) /\ Forall digit [49; 50].
Proof.
  split; [demo|]. split; [reflexivity|]. split; [reflexivity|]. split; [demo|]. split; [demo|].
  split; [reflexivity|]. split; [demo|]. split; [demo|]. unfold digit. repeat constructor; lia.
Qed.
Print Assumptions C91_unary.
Print Assumptions C91_extend.
Print Assumptions C91_shift.
Print Assumptions C91_print.
Print Assumptions C91_parse.
Print Assumptions C91_negative_refuted.
