(** * Facts about the shared definitions of Base.v. *)

From Coq Require Import ZArith List Bool Lia.
From Verif Require Import Base.
Import ListNotations.
Open Scope Z_scope.

(** A value that fits a signed 64-bit integer. *)
Definition in64 (z : Z) : Prop := INT64_MIN <= z <= INT64_MAX.

Lemma in64b_true z : in64b z = true <-> in64 z.
Proof. unfold in64b, in64. rewrite andb_true_iff, !Z.leb_le. lia. Qed.

Lemma in64b_false z : in64b z = false <-> ~ in64 z.
Proof. rewrite <- in64b_true. destruct (in64b z); split; congruence. Qed.

Lemma chk64_ok z : in64 z -> chk64 z = Ok z.
Proof. intros H. unfold chk64. apply in64b_true in H. now rewrite H. Qed.

Lemma chk64_inv z r : chk64 z = Ok r -> r = z /\ in64 z.
Proof.
  unfold chk64. destruct (in64b z) eqn:E; intros H; inversion H; subst.
  split; auto. now apply in64b_true.
Qed.

Lemma bind_ok {A B} (x : res A) (f : A -> res B) b :
  bind x f = Ok b -> exists a, x = Ok a /\ f a = Ok b.
Proof. destruct x; simpl; intros H; try discriminate; eauto. Qed.

Lemma wrap_range n z : 0 < n -> - 2 ^ (n - 1) <= wrap n z < 2 ^ (n - 1).
Proof.
  intros Hn. unfold wrap.
  assert (2 ^ n = 2 * 2 ^ (n - 1)).
  { replace n with (Z.succ (n - 1)) at 1 by lia. rewrite Z.pow_succ_r by lia. lia. }
  assert (0 < 2 ^ (n - 1)) by (apply Z.pow_pos_nonneg; lia).
  pose proof (Z.mod_pos_bound (z + 2 ^ (n - 1)) (2 ^ n)). lia.
Qed.

Lemma wrap_id n z : 0 < n -> - 2 ^ (n - 1) <= z < 2 ^ (n - 1) -> wrap n z = z.
Proof.
  intros Hn Hz. unfold wrap.
  assert (2 ^ n = 2 * 2 ^ (n - 1)).
  { replace n with (Z.succ (n - 1)) at 1 by lia. rewrite Z.pow_succ_r by lia. lia. }
  rewrite Z.mod_small by lia. lia.
Qed.

Lemma wrap_mod n z : 0 < n -> (wrap n z - z) mod 2 ^ n = 0.
Proof.
  intros Hn. unfold wrap.
  assert (0 < 2 ^ n) by (apply Z.pow_pos_nonneg; lia).
  replace ((z + 2 ^ (n - 1)) mod 2 ^ n - 2 ^ (n - 1) - z)
    with ((z + 2 ^ (n - 1)) mod 2 ^ n - (z + 2 ^ (n - 1))) by lia.
  rewrite Zminus_mod_idemp_l.
  rewrite Z.sub_diag. apply Z.mod_0_l. lia.
Qed.

Lemma to_i8_id z : -128 <= z <= 127 -> to_i8 z = z.
Proof. intros. unfold to_i8. apply wrap_id; simpl; lia. Qed.
Lemma to_i32_id z : -2147483648 <= z <= 2147483647 -> to_i32 z = z.
Proof. intros. unfold to_i32. apply wrap_id; simpl; lia. Qed.
Lemma to_i64_id z : in64 z -> to_i64 z = z.
Proof. unfold in64, INT64_MIN, INT64_MAX. intros. unfold to_i64. apply wrap_id; simpl; lia. Qed.
Lemma to_i8_range z : -128 <= to_i8 z <= 127.
Proof. pose proof (wrap_range 8 z). unfold to_i8. simpl in *. lia. Qed.
Lemma to_i32_range z : -2147483648 <= to_i32 z <= 2147483647.
Proof. pose proof (wrap_range 32 z). unfold to_i32. simpl in *. lia. Qed.

(** ** Loops: binary fuel is just iteration. *)

Section Loop.
  Context {S R : Type}.
  Variable f : S -> res (S + R).

  (** [n] iterations, in unary. *)
  Fixpoint loopN (n : nat) (s : S) : res (S + R) :=
    match n with
    | O => Ok (inl s)
    | Datatypes.S n' =>
        match f s with
        | Ok (inl s') => loopN n' s'
        | r => r
        end
    end.

  Lemma loopN_add n m s :
    loopN (n + m) s =
    match loopN n s with
    | Ok (inl s') => loopN m s'
    | r => r
    end.
  Proof.
    revert s. induction n as [|n IH]; intros s; simpl; auto.
    destruct (f s) as [[s'|r]|b]; auto.
  Qed.

  Lemma loopP_loopN p s : loopP f p s = loopN (Pos.to_nat p) s.
  Proof.
    revert s. induction p as [q IH|q IH|]; intros s; simpl loopP.
    - rewrite Pos2Nat.inj_xI. simpl. destruct (f s) as [[s'|r]|b]; auto.
      replace (Pos.to_nat q + (Pos.to_nat q + 0))%nat
        with (Pos.to_nat q + Pos.to_nat q)%nat by lia.
      rewrite loopN_add, IH. destruct (loopN (Pos.to_nat q) s') as [[s''|r]|b]; auto.
    - rewrite Pos2Nat.inj_xO. simpl.
      replace (Pos.to_nat q + (Pos.to_nat q + 0))%nat
        with (Pos.to_nat q + Pos.to_nat q)%nat by lia.
      rewrite loopN_add, IH. destruct (loopN (Pos.to_nat q) s) as [[s''|r]|b]; auto.
    - simpl. destruct (f s) as [[s'|r]|b]; auto.
  Qed.

  Definition loopNr (n : nat) (s : S) : res R :=
    match loopN n s with
    | Ok (inr r) => Ok r
    | Ok (inl _) => Bad BadFuel
    | Bad b => Bad b
    end.

  Lemma loop_loopNr p s : loop f p s = loopNr (Pos.to_nat p) s.
  Proof. unfold loop, loopNr. now rewrite loopP_loopN. Qed.

  Lemma loopNr_more n m s r :
    loopNr n s = r -> r <> Bad BadFuel -> (n <= m)%nat -> loopNr m s = r.
  Proof.
    unfold loopNr. intros H Hr Hle.
    replace m with (n + (m - n))%nat by lia. rewrite loopN_add.
    destruct (loopN n s) as [[s'|r']|b]; subst; auto. congruence.
  Qed.

  Lemma loopNr_unfold n s :
    loopNr (Datatypes.S n) s =
    match f s with
    | Ok (inl s') => loopNr n s'
    | Ok (inr r) => Ok r
    | Bad b => Bad b
    end.
  Proof. unfold loopNr. simpl. destruct (f s) as [[s'|r]|b]; auto. Qed.

  (** An invariant that is kept and never lets the loop exit means the loop
      does not finish, whatever the fuel. *)
  Lemma loop_diverges (I : S -> Prop) s :
    I s -> (forall s, I s -> exists s', f s = Ok (inl s') /\ I s') ->
    forall p, loop f p s = Bad BadFuel.
  Proof.
    intros H0 Hstep p. rewrite loop_loopNr. revert s H0.
    induction (Pos.to_nat p) as [|n IH]; intros s H0; [reflexivity|].
    rewrite loopNr_unfold. destruct (Hstep s H0) as (s' & E & I').
    rewrite E. auto.
  Qed.
End Loop.

Lemma forN_ok_ind {S : Type} (P : nat -> S -> Prop) (f : nat -> S -> res S) :
  forall n i s s',
    P i s ->
    (forall j s s', (i <= j < i + n)%nat -> P j s -> f j s = Ok s' -> P (Datatypes.S j) s') ->
    forN n i f s = Ok s' -> P (i + n)%nat s'.
Proof.
  induction n as [|n IH]; intros i s s' H0 Hstep H; simpl in H.
  - inversion H; subst. now rewrite Nat.add_0_r.
  - apply bind_ok in H. destruct H as (s1 & E & H).
    replace (i + Datatypes.S n)%nat with (Datatypes.S i + n)%nat by lia.
    eapply IH; eauto.
    + apply (Hstep i s s1); auto. lia.
    + intros. eapply Hstep; eauto. lia.
Qed.
