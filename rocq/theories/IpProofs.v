(** * Movement of the IP (see IpModel.v). *)

From Coq Require Import ZArith List Bool Lia.
From Verif Require Import Base BaseProofs VectorModel VectorProofs FieldModel FieldProofs
  World IpModel.
Import ListNotations.
Open Scope Z_scope.

(** ** Being inside the bounds *)

(** [p] lies within the least and greatest used coordinate of each of the
    [dims] dimensions. *)
Definition inside (dims : nat) (f : field) (p : nat -> Z) : Prop :=
  forall i, (i < dims)%nat -> f_min f i <= p i <= f_max f i.

Lemma in_field_loop_spec n : forall i f p,
  in_field_loop n i f p = true <->
  (forall j, (i <= j < i + n)%nat -> f_min f j <= vget p j <= f_max f j).
Proof.
  induction n as [|n IH]; intros i f p; cbn [in_field_loop].
  - split; auto. intros _ j Hj. lia.
  - destruct (Z.ltb_spec (vget p i) (f_min f i)); cbn [orb].
    { split; [discriminate|]. intros H0. specialize (H0 i). lia. }
    rewrite Z.gtb_ltb. destruct (Z.ltb_spec (f_max f i) (vget p i)).
    { split; [discriminate|]. intros H1. specialize (H1 i). lia. }
    rewrite IH. split; intros G j Hj.
    + destruct (Nat.eq_dec j i); [subst; lia|]. apply G. lia.
    + apply G. lia.
Qed.

Lemma in_field_spec dims f p : in_field dims f p = true <-> inside dims f (vget p).
Proof.
  unfold in_field. rewrite in_field_loop_spec. unfold inside. split; intros H i Hi; apply H; lia.
Qed.
Lemma in_field_false dims f p : in_field dims f p = false <-> ~ inside dims f (vget p).
Proof. rewrite <- in_field_spec. destruct (in_field dims f p); split; congruence. Qed.

Lemma inside_dec dims f p : {inside dims f p} + {~ inside dims f p}.
Proof.
  unfold inside. induction dims as [|n IH].
  - left. intros i Hi. lia.
  - destruct IH as [IH|IH].
    + destruct (Z_le_dec (f_min f n) (p n)), (Z_le_dec (p n) (f_max f n));
        try (right; intros H; specialize (H n); lia).
      left. intros i Hi. destruct (Nat.eq_dec i n); [subst; lia|]. apply IH. lia.
    + right. intros H. apply IH. intros i Hi. apply H. lia.
Qed.

Lemma inside_ext dims f p q : (forall i, p i = q i) -> inside dims f p <-> inside dims f q.
Proof. intros H. unfold inside. split; intros G i Hi; specialize (G i Hi); specialize (H i); lia. Qed.

(** [k] steps of [d] from [p]. *)
Definition along (p d : vec) (k : Z) (i : nat) : Z := vget p i + k * vget d i.

(** A box is convex. *)
Lemma inside_convex dims f p d a b c :
  a <= b <= c -> inside dims f (along p d a) -> inside dims f (along p d c) ->
  inside dims f (along p d b).
Proof.
  intros H A C i Hi. specialize (A i Hi). specialize (C i Hi). unfold along in *.
  destruct (Z_le_dec 0 (vget d i)).
  - assert (a * vget d i <= b * vget d i) by (apply Z.mul_le_mono_nonneg_r; lia).
    assert (b * vget d i <= c * vget d i) by (apply Z.mul_le_mono_nonneg_r; lia). lia.
  - assert (b * vget d i <= a * vget d i) by (apply Z.mul_le_mono_nonpos_r; lia).
    assert (c * vget d i <= b * vget d i) by (apply Z.mul_le_mono_nonpos_r; lia). lia.
Qed.

(** ** The backward walk *)

Definition room (f : field) (d p : vec) (i : nat) : Z :=
  if 0 <? vget d i then f_max f i - vget p i else vget p i - f_min f i.

(** The walk stops, at the first point outside. *)
Lemma walk_loop dims f d i : (i < dims)%nat -> vget d i <> 0 ->
  forall n p, room f d p i < Z.of_nat n ->
  match loopNr (walk_step dims f d) (S n) p with
  | Ok q => exists k, 0 <= k /\ (forall j, vget q j = along p d k j) /\
              ~ inside dims f (vget q) /\
              (forall m, 0 <= m < k -> inside dims f (along p d m))
  | Bad b => b = BadOverflow /\
              exists k, 0 <= k /\ (forall m, 0 <= m <= k -> inside dims f (along p d m)) /\
                ~ (forall j, in64 (along p d (k + 1) j))
  end.
Proof.
  intros Hi Hd. induction n as [|n IH]; intros p Hm.
  - rewrite loopNr_unfold. unfold walk_step at 1.
    destruct (in_field dims f p) eqn:E.
    + apply in_field_spec in E. specialize (E i Hi). unfold room in Hm.
      destruct (Z.ltb_spec 0 (vget d i)); lia.
    + apply in_field_false in E. exists 0. split; [lia|]. split.
      { intros j. unfold along. lia. }
      split; auto. intros m Hm'. lia.
  - rewrite loopNr_unfold. unfold walk_step at 1.
    destruct (in_field dims f p) eqn:E.
    2:{ apply in_field_false in E. exists 0. split; [lia|]. split.
        { intros j. unfold along. lia. }
        split; auto. intros m Hm'. lia. }
    apply in_field_spec in E.
    destruct (vadd p d) as [p'|b] eqn:EA; cbn [bind].
    + pose proof (vadd_get _ _ _ EA) as G.
      assert (R : room f d p' i < Z.of_nat n).
      { unfold room in *. rewrite G. destruct (Z.ltb_spec 0 (vget d i)); lia. }
      specialize (IH p' R).
      destruct (loopNr (walk_step dims f d) (S n) p') as [q|b].
      * destruct IH as (k & Hk & Gq & Ho & Hin). exists (k + 1). split; [lia|]. split.
        { intros j. rewrite Gq. unfold along. rewrite G. lia. }
        split; auto. intros m Hm'. destruct (Z.eq_dec m 0).
        { subst. eapply inside_ext; [|exact E]. intros j. unfold along. lia. }
        eapply inside_ext; [|apply (Hin (m - 1)); lia].
        intros j. unfold along. rewrite G. lia.
      * destruct IH as (-> & k & Hk & Hin & Ho). split; auto. exists (k + 1).
        split; [lia|]. split.
        { intros m Hm'. destruct (Z.eq_dec m 0).
          - subst. eapply inside_ext; [|exact E]. intros l. unfold along. lia.
          - eapply inside_ext; [|apply (Hin (m - 1)); lia].
            intros l. unfold along. rewrite G. lia. }
        intros H64. apply Ho. intros j. specialize (H64 j). revert H64.
        unfold along. rewrite G. replace ((k + 1 + 1) * vget d j) with (vget d j + (k + 1) * vget d j) by lia.
        now rewrite Z.add_assoc.
    + pose proof (vadd_bad _ _ _ EA). subst b. split; auto. exists 0.
      split; [lia|]. split.
      { intros m Hm'. eapply inside_ext; [|exact E]. intros l. unfold along.
        assert (m = 0) by lia. subst. lia. }
      intros H64. destruct (vadd_defined p d) as (r & X); [|congruence].
      intros j. specialize (H64 j). revert H64. unfold along.
      now replace (vget p j + (0 + 1) * vget d j) with (vget p j + vget d j) by lia.
Qed.

(** All bounds are 64-bit integers: true of every field built by puts of
    64-bit positions. *)
Definition bounds64 (f : field) : Prop := forall i, in64 (f_min f i) /\ in64 (f_max f i).

Lemma walk_loop_big dims f d p i : (i < dims)%nat -> vget d i <> 0 ->
  bounds64 f -> in64 (vget p i) ->
  match loop (walk_step dims f d) BIG p with
  | Ok q => exists k, 0 <= k /\ (forall j, vget q j = along p d k j) /\
              ~ inside dims f (vget q) /\
              (forall m, 0 <= m < k -> inside dims f (along p d m))
  | Bad b => b = BadOverflow /\
              exists k, 0 <= k /\ (forall m, 0 <= m <= k -> inside dims f (along p d m)) /\
                ~ (forall j, in64 (along p d (k + 1) j))
  end.
Proof.
  intros Hi Hd B P. rewrite loop_loopNr.
  assert (X : exists n, Pos.to_nat BIG = S n /\ room f d p i < Z.of_nat n).
  { destruct (Pos2Nat.is_succ BIG) as (n & E). exists n. split; auto.
    assert (Z.of_nat n = Z.pos BIG - 1) by lia.
    rewrite H. unfold BIG. destruct (B i) as (B1 & B2). unfold in64, INT64_MIN, INT64_MAX in *.
    unfold room. destruct (Z.ltb_spec 0 (vget d i)); lia. }
  destruct X as (n & -> & R). now apply (walk_loop dims f d i).
Qed.

(** A vector with no coordinate beyond the dimensions of the field. *)
Definition lives (dims : nat) (v : vec) : Prop := forall i, (dims <= i)%nat -> vget v i = 0.

Lemma not_inside_moves dims f p d :
  inside dims f (vget p) -> ~ inside dims f (along p d 1) ->
  exists i, (i < dims)%nat /\ vget d i <> 0.
Proof.
  intros H N.
  assert (X : forall n, (exists i, (i < n)%nat /\ vget d i <> 0) \/ forall i, (i < n)%nat -> vget d i = 0).
  { induction n as [|n [IH|IH]].
    - right. intros. lia.
    - left. destruct IH as (i & ? & ?). exists i. split; auto; lia.
    - destruct (Z.eq_dec (vget d n) 0).
      + right. intros i Hi. destruct (Nat.eq_dec i n); [now subst|]. apply IH. lia.
      + left. exists n. split; auto. }
  destruct (X dims) as [Y|Y]; auto. exfalso. apply N.
  intros i Hi. unfold along. rewrite Y by auto. rewrite Z.mul_0_r, Z.add_0_r. now apply H.
Qed.

(** The cells one step beyond the box can still be represented. *)
Definition room64 (dims : nat) (f : field) (d : vec) : Prop :=
  forall i, (i < dims)%nat ->
    in64 (f_min f i - Z.abs (vget d i)) /\ in64 (f_max f i + Z.abs (vget d i)).

Lemma room64_near dims f p d k :
  lives dims p -> lives dims d -> room64 dims f d -> inside dims f (along p d k) ->
  forall j, in64 (along p d (k + 1) j) /\ in64 (along p d (k - 1) j).
Proof.
  intros Lp Ld R I j. destruct (Nat.lt_ge_cases j dims) as [Hj|Hj].
  - specialize (R j Hj). specialize (I j Hj). unfold along in *.
    rewrite Z.mul_add_distr_r, Z.mul_sub_distr_r. unfold in64 in *. lia.
  - unfold along. rewrite Lp, Ld by auto. unfold in64, INT64_MIN, INT64_MAX. lia.
Qed.

(** What a step in Lahey-space does, from inside the bounds. *)
Definition lahey_spec (dims : nat) (f : field) (p d p' : vec) : Prop :=
  (inside dims f (along p d 1) -> forall i, vget p' i = along p d 1 i) /\
  (~ inside dims f (along p d 1) ->
   exists k, 0 <= k /\ (forall i, vget p' i = along p d (- k) i) /\
     (forall m, 0 <= m -> (inside dims f (along p d (- m)) <-> m <= k))).

Lemma vrev_vrev v r : vwf v -> v <> [] -> vrev v = Ok r -> r <> [] /\ (vrev r = Ok v \/ vrev r = Bad BadOverflow).
Proof.
  intros W N E. destruct (vrev_get _ _ W E) as (Wr & Lr & G).
  assert (Nr : r <> []).
  { destruct r; [|discriminate]. destruct v; [congruence|discriminate]. }
  split; auto. destruct (vrev r) as [v'|b] eqn:E2.
  - left. f_equal. destruct (vrev_get _ _ Wr E2) as (Wv & Lv & G2).
    apply vwf_ext; auto.
    + destruct v'; [|discriminate]. destruct r; [congruence|discriminate].
    + intros i. rewrite G2, G. lia.
  - right. f_equal. now apply vrev_bad in E2.
Qed.

Lemma ip_next_lahey dims f p d :
  vwf d -> d <> [] -> lives dims p -> lives dims d ->
  bounds64 f -> room64 dims f d -> inside dims f (vget p) ->
  exists p', ip_next false dims f p d = Ok (p', d) /\ lives dims p' /\
    inside dims f (vget p') /\ lahey_spec dims f p d p'.
Proof.
  intros W N Lp Ld B R I. unfold ip_next.
  assert (I0 : inside dims f (along p d 0)).
  { eapply inside_ext; [|exact I]. intros i. unfold along. lia. }
  destruct (vadd_defined p d) as (p1 & E1).
  { intros i. destruct (room64_near dims f p d 0 Lp Ld R I0 i) as (H & _). revert H.
    unfold along. now replace (vget p i + (0 + 1) * vget d i) with (vget p i + vget d i) by lia. }
  rewrite E1. cbn [bind]. pose proof (vadd_get _ _ _ E1) as G1. unfold lahey_wrap.
  assert (A1 : forall i, vget p1 i = along p d 1 i) by (intros i; unfold along; rewrite G1; lia).
  destruct (in_field dims f p1) eqn:EI.
  - apply in_field_spec in EI. exists p1. split; auto. split.
    { intros i Hi. rewrite G1, Lp, Ld by auto. lia. }
    split; auto. split; [intros _; exact A1|]. intros H. exfalso. apply H.
    eapply inside_ext; [|exact EI]. intros i. now rewrite A1.
  - apply in_field_false in EI.
    assert (EI' : ~ inside dims f (along p d 1)).
    { intros H. apply EI. eapply inside_ext; [|exact H]. exact A1. }
    destruct (not_inside_moves _ _ _ _ I EI') as (i0 & Hi0 & Nz).
    destruct (vrev_ok d W) as (d1 & E2 & W2 & L2 & G2).
    { intros j. destruct (Nat.lt_ge_cases j dims) as [Hj|Hj].
      - specialize (R j Hj). specialize (I j Hj). destruct (B j).
        unfold in64, INT64_MIN, INT64_MAX in *. lia.
      - rewrite Ld by auto. unfold in64, INT64_MIN, INT64_MAX. lia. }
    rewrite E2. cbn [bind].
    assert (P64 : forall j, in64 (vget p j)).
    { intros j. destruct (Nat.lt_ge_cases j dims) as [Hj|Hj].
      - specialize (I j Hj). destruct (B j). unfold in64 in *. lia.
      - rewrite Lp by auto. unfold in64, INT64_MIN, INT64_MAX. lia. }
    destruct (vadd_defined p1 d1) as (p2 & E3).
    { intros j. rewrite G1, G2. replace (vget p j + vget d j + - vget d j) with (vget p j) by lia. apply P64. }
    rewrite E3. cbn [bind]. pose proof (vadd_get _ _ _ E3) as G3.
    assert (A2 : forall j, vget p2 j = vget p j) by (intros j; rewrite G3, G1, G2; lia).
    assert (AL : forall k j, along p2 d1 k j = along p d (- k) j).
    { intros k j. unfold along. rewrite A2, G2. lia. }
    pose proof (walk_loop_big dims f d1 p2 i0 Hi0 ltac:(rewrite G2; lia) B
                  ltac:(rewrite A2; apply P64)) as WL.
    destruct (loop (walk_step dims f d1) BIG p2) as [q|b].
    + destruct WL as (k & Hk & Gq & Ho & Hin). cbn [bind].
      destruct (vrev_vrev d d1 W N E2) as (N1 & [E4|E4]).
      2:{ exfalso. destruct (vrev_ok d1 W2) as (x & Y & _); [|congruence].
          intros j. rewrite G2, Z.opp_involutive.
          destruct (Nat.lt_ge_cases j dims) as [Hj|Hj].
          - specialize (R j Hj). specialize (I j Hj). destruct (B j).
            unfold in64, INT64_MIN, INT64_MAX in *. lia.
          - rewrite Ld by auto. unfold in64, INT64_MIN, INT64_MAX. lia. }
      rewrite E4. cbn [bind].
      assert (K1 : 1 <= k).
      { destruct (Z.eq_dec k 0); [|lia]. subst. exfalso. apply Ho.
        eapply inside_ext; [|exact I]. intros j. rewrite Gq. unfold along. rewrite A2. lia. }
      destruct (vadd_defined q d) as (p3 & E5).
      { intros j. rewrite Gq, AL. unfold along.
        specialize (Hin (k - 1) ltac:(lia)).
        destruct (Nat.lt_ge_cases j dims) as [Hj|Hj].
        - specialize (Hin j Hj). rewrite AL in Hin. unfold along in Hin. destruct (B j).
          replace (vget p j + - k * vget d j + vget d j) with (vget p j + - (k - 1) * vget d j) by lia.
          unfold in64 in *. lia.
        - rewrite Lp, Ld by auto. unfold in64, INT64_MIN, INT64_MAX. lia. }
      rewrite E5. cbn [bind]. pose proof (vadd_get _ _ _ E5) as G5.
      assert (A5 : forall j, vget p3 j = along p d (- (k - 1)) j).
      { intros j. rewrite G5, Gq, AL. unfold along. lia. }
      exists p3. split; auto. split.
      { intros j Hj. rewrite A5. unfold along. rewrite Lp, Ld by auto. lia. }
      assert (Ilast : inside dims f (along p d (- (k - 1)))).
      { eapply inside_ext; [|apply (Hin (k - 1)); lia]. intros j. now rewrite AL. }
      split.
      { eapply inside_ext; [|exact Ilast]. exact A5. }
      split; [intros H; contradiction|]. intros _. exists (k - 1). split; [lia|]. split; auto.
      intros m Hm. split.
      * intros H. destruct (Z_le_dec m (k - 1)); auto. exfalso. apply Ho.
        eapply inside_ext; [|apply (inside_convex dims f p d (- m) (- k) 0); [lia| |exact I0]].
        { intros j. rewrite Gq, AL. reflexivity. }
        exact H.
      * intros H. apply (inside_convex dims f p d (- (k - 1)) (- m) 0); [lia|exact Ilast|exact I0].
    + exfalso. destruct WL as (_ & k & Hk & Hin & Ho). apply Ho. intros j. rewrite AL.
      replace (- (k + 1)) with (- k - 1) by lia.
      apply (room64_near dims f p d (- k)); auto.
      eapply inside_ext; [|apply (Hin k); lia]. intros l. now rewrite AL.
Qed.

(** From outside the bounds the IP flies on. *)
Lemma ip_next_outside dims f p d :
  vwf d -> d <> [] -> ~ inside dims f (vget p) ->
  (forall i, in64 (vget p i)) -> (forall i, in64 (vget d i)) -> (forall i, in64 (- vget d i)) ->
  (forall i, in64 (vget p i + vget d i)) ->
  exists p', ip_next false dims f p d = Ok (p', d) /\
    forall i, vget p' i = vget p i + vget d i.
Proof.
  intros W N O P64 D64 ND64 PD64. unfold ip_next.
  destruct (vadd_defined p d PD64) as (p1 & E1). rewrite E1. cbn [bind].
  pose proof (vadd_get _ _ _ E1) as G1. unfold lahey_wrap.
  destruct (in_field dims f p1) eqn:EI; [eauto|].
  destruct (vrev_ok d W ND64) as (d1 & E2 & W2 & L2 & G2). rewrite E2. cbn [bind].
  destruct (vadd_defined p1 d1) as (p2 & E3).
  { intros j. rewrite G1, G2. replace (vget p j + vget d j + - vget d j) with (vget p j) by lia. apply P64. }
  rewrite E3. cbn [bind]. pose proof (vadd_get _ _ _ E3) as G3.
  assert (A2 : forall j, vget p2 j = vget p j) by (intros j; rewrite G3, G1, G2; lia).
  assert (EL : loop (walk_step dims f d1) BIG p2 = Ok p2).
  { rewrite loop_loopNr. destruct (Pos2Nat.is_succ BIG) as (n & ->).
    rewrite loopNr_unfold. unfold walk_step.
    assert (X : in_field dims f p2 = false).
    { apply in_field_false. intros H. apply O. eapply inside_ext; [|exact H]. intros; now rewrite A2. }
    now rewrite X. }
  rewrite EL. cbn [bind].
  destruct (vrev_vrev d d1 W N E2) as (N1 & [E4|E4]).
  2:{ exfalso. destruct (vrev_ok d1 W2) as (x & Y & _); [|congruence].
      intros j. rewrite G2, Z.opp_involutive. apply D64. }
  rewrite E4. cbn [bind].
  destruct (vadd_defined p2 d) as (p3 & E5).
  { intros j. rewrite A2. apply PD64. }
  rewrite E5. cbn [bind]. exists p3. split; auto. intros i.
  rewrite (vadd_get _ _ _ E5), A2. reflexivity.
Qed.

(** A step never loops for ever. *)
Lemma ip_next_terminates torus dims f p d :
  vwf d -> bounds64 f -> (forall i, in64 (vget p i)) -> ip_next torus dims f p d <> Bad BadFuel.
Proof.
  intros W B P64. unfold ip_next. destruct (vadd p d) as [p1|b] eqn:E1; cbn [bind].
  2:{ apply vadd_bad in E1. congruence. }
  destruct torus; [congruence|]. unfold lahey_wrap.
  destruct (in_field dims f p1) eqn:EI; [congruence|].
  destruct (vrev d) as [d1|b] eqn:E2; cbn [bind]; [|apply vrev_bad in E2; congruence].
  destruct (vrev_get _ _ W E2) as (W2 & _ & G2).
  destruct (vadd p1 d1) as [p2|b] eqn:E3; cbn [bind]; [|apply vadd_bad in E3; congruence].
  assert (A2 : forall j, vget p2 j = vget p j).
  { intros j. rewrite (vadd_get _ _ _ E3), (vadd_get _ _ _ E1), G2. lia. }
  assert (X : loop (walk_step dims f d1) BIG p2 <> Bad BadFuel).
  { destruct (inside_dec dims f (vget p)) as [I|O].
    - apply in_field_false in EI.
      assert (EI' : ~ inside dims f (along p d 1)).
      { intros H. apply EI. eapply inside_ext; [|exact H]. intros i. unfold along.
        rewrite (vadd_get _ _ _ E1). lia. }
      destruct (not_inside_moves _ _ _ _ I EI') as (i0 & Hi0 & Nz).
      pose proof (walk_loop_big dims f d1 p2 i0 Hi0 ltac:(rewrite G2; lia) B
                  ltac:(rewrite A2; apply P64)) as WL.
      destruct (loop (walk_step dims f d1) BIG p2); [congruence|]. destruct WL as (-> & _). congruence.
    - rewrite loop_loopNr. destruct (Pos2Nat.is_succ BIG) as (n & ->).
      rewrite loopNr_unfold. unfold walk_step.
      assert (Y : in_field dims f p2 = false).
      { apply in_field_false. intros H. apply O. eapply inside_ext; [|exact H]. intros; now rewrite A2. }
      rewrite Y. congruence. }
  destruct (loop (walk_step dims f d1) BIG p2) as [q|b] eqn:EL; cbn [bind]; [|congruence].
  destruct (vrev d1) as [d2|b] eqn:E4; cbn [bind]; [|apply vrev_bad in E4; congruence].
  destruct (vadd q d2) as [p3|b] eqn:E5; cbn [bind]; [congruence|apply vadd_bad in E5; congruence].
Qed.

(** ** Retracing *)

(** [n] steps in Lahey-space. *)
Fixpoint walk (dims : nat) (f : field) (n : nat) (p d : vec) : res (vec * vec) :=
  match n with
  | O => Ok (p, d)
  | S n' => pd <-- ip_next false dims f p d ;; walk dims f n' (fst pd) (snd pd)
  end.

Lemma walk_snoc dims f n : forall p d,
  walk dims f (S n) p d =
  (pd <-- walk dims f n p d ;; ip_next false dims f (fst pd) (snd pd)).
Proof.
  induction n as [|n IH]; intros p d.
  - cbn [walk bind fst snd]. destruct (ip_next false dims f p d) as [[a b]|e]; reflexivity.
  - cbn [walk]. destruct (ip_next false dims f p d) as [[a b]|e]; cbn [bind fst snd]; auto.
    apply (IH a b).
Qed.

Lemma lahey_spec_back dims f p d p1 q d1 p2 :
  (forall i, vget d1 i = - vget d i) ->
  inside dims f (vget p) ->
  lahey_spec dims f p d p1 -> (forall i, vget q i = vget p1 i) ->
  lahey_spec dims f q d1 p2 -> forall i, vget p2 i = vget p i.
Proof.
  intros G I (Sin & Sout) Q (Tin & Tout) i.
  assert (I0 : inside dims f (along p d 0)).
  { eapply inside_ext; [|exact I]. intros j. unfold along. lia. }
  destruct (inside_dec dims f (along p d 1)) as [H|H].
  - specialize (Sin H).
    assert (A : forall j, along q d1 1 j = along p d 0 j).
    { intros j. unfold along. rewrite Q, Sin, G. unfold along. lia. }
    rewrite Tin, A; [unfold along; lia|]. eapply inside_ext; [|exact I0]. auto.
  - destruct (Sout H) as (k & Hk & Gp & Mx).
    assert (A : forall m j, along q d1 m j = along p d (- (k + m)) j).
    { intros m j. unfold along. rewrite Q, Gp, G. unfold along. lia. }
    assert (O : ~ inside dims f (along q d1 1)).
    { intros C. assert (inside dims f (along p d (- (k + 1)))) as C1.
      { eapply inside_ext; [|exact C]. intros j. now rewrite A. }
      apply Mx in C1; lia. }
    destruct (Tout O) as (k2 & Hk2 & Gp2 & Mx2).
    assert (K : k2 = k).
    { assert (C1 : inside dims f (along q d1 (- k))).
      { eapply inside_ext; [|exact I0]. intros j. rewrite A. unfold along. lia. }
      apply Mx2 in C1; [|lia].
      assert (C2 : ~ (k + 1 <= k2)).
      { intros C. apply Mx2 in C; [|lia]. apply H. eapply inside_ext; [|exact C].
        intros j. rewrite A. unfold along. lia. }
      lia. }
    rewrite Gp2, A, K. unfold along. lia.
Qed.

Lemma vopp_side dims f d d1 :
  (forall i, vget d1 i = - vget d i) -> lives dims d -> room64 dims f d ->
  lives dims d1 /\ room64 dims f d1.
Proof.
  intros G L R. split.
  - intros i Hi. rewrite G, L by auto. reflexivity.
  - intros i Hi. rewrite G, Z.abs_opp. now apply R.
Qed.

Lemma walk_forward dims f d : vwf d -> d <> [] -> lives dims d ->
  bounds64 f -> room64 dims f d ->
  forall n p, lives dims p -> inside dims f (vget p) ->
  exists p', walk dims f n p d = Ok (p', d) /\ lives dims p' /\ inside dims f (vget p').
Proof.
  intros W N Ld B R. induction n as [|n IH]; intros p Lp I; cbn [walk]; eauto.
  destruct (ip_next_lahey dims f p d) as (p1 & E & L1 & I1 & _); auto.
  rewrite E. cbn [bind fst snd]. now apply IH.
Qed.

Lemma walk_ext dims f d : vwf d -> d <> [] -> lives dims d ->
  bounds64 f -> room64 dims f d ->
  forall n p q p' , lives dims p -> inside dims f (vget p) ->
  (forall i, vget q i = vget p i) -> walk dims f n p d = Ok (p', d) ->
  exists q', walk dims f n q d = Ok (q', d) /\ forall i, vget q' i = vget p' i.
Proof.
  intros W N Ld B R. induction n as [|n IH]; intros p q p' Lp I Q H.
  - cbn [walk] in *. inversion H; subst. eauto.
  - cbn [walk] in *.
    assert (Lq : lives dims q) by (intros i Hi; rewrite Q; auto).
    assert (Iq : inside dims f (vget q)) by (eapply inside_ext; [exact Q|exact I]).
    destruct (ip_next_lahey dims f p d) as (p1 & E & L1 & I1 & S1); auto.
    destruct (ip_next_lahey dims f q d) as (q1 & E2 & L2 & I2 & S2); auto.
    rewrite E in H. rewrite E2. cbn [bind fst snd] in *.
    apply (IH p1 q1 p'); auto.
    intros i. destruct S1 as (S1 & T1), S2 as (S2 & T2).
    assert (A : forall k j, along q d k j = along p d k j) by (intros; unfold along; now rewrite Q).
    destruct (inside_dec dims f (along p d 1)) as [X|X].
    + rewrite S1, S2; auto. eapply inside_ext; [|exact X]. intros; now rewrite A.
    + destruct (T1 X) as (k1 & ? & G1 & M1).
      destruct T2 as (k2 & ? & G2 & M2).
      { intros C. apply X. eapply inside_ext; [|exact C]. intros; now rewrite A. }
      rewrite G1, G2, A. f_equal.
      assert (k2 <= k1).
      { apply M1; [lia|]. assert (C : inside dims f (along q d (- k2))) by (apply M2; lia).
        eapply inside_ext; [|exact C]. intros; now rewrite A. }
      assert (k1 <= k2).
      { apply M2; [lia|]. assert (C : inside dims f (along p d (- k1))) by (apply M1; lia).
        eapply inside_ext; [|exact C]. intros; now rewrite A. }
      lia.
Qed.

Lemma walk_back dims f d d1 : vwf d -> d <> [] -> lives dims d ->
  bounds64 f -> room64 dims f d -> vrev d = Ok d1 ->
  forall n p p', lives dims p -> inside dims f (vget p) ->
  walk dims f n p d = Ok (p', d) ->
  exists p2, walk dims f n p' d1 = Ok (p2, d1) /\ forall i, vget p2 i = vget p i.
Proof.
  intros W N Ld B R Er. destruct (vrev_get _ _ W Er) as (W1 & L1 & G1).
  assert (N1 : d1 <> []).
  { destruct d1; [|discriminate]. destruct d; [congruence|discriminate]. }
  destruct (vopp_side dims f d d1 G1 Ld R) as (Ld1 & R1).
  induction n as [|n IH]; intros p p' Lp I H.
  - cbn [walk] in *. inversion H; subst. eauto.
  - cbn [walk] in H.
    destruct (ip_next_lahey dims f p d) as (pa & Ea & La & Ia & Sa); auto.
    rewrite Ea in H. cbn [bind fst snd] in H.
    destruct (IH pa p' La Ia H) as (pb & Eb & Gb).
    destruct (ip_next_lahey dims f pb d1) as (pc & Ec & Lc & Ic & Sc); auto.
    { intros i Hi. rewrite Gb. now apply La. }
    { eapply inside_ext; [exact Gb|exact Ia]. }
    exists pc. split.
    + rewrite walk_snoc, Eb. cbn [bind fst snd]. exact Ec.
    + eapply lahey_spec_back; eauto.
Qed.

(** ** The torus *)

Lemma torus_wrap_get p :
  let x := vget p 0 in let y := vget p 1 in
  vget (torus_wrap p) 0 = (if x >? 80 then 0 else if x <? 0 then 79 else x) /\
  vget (torus_wrap p) 1 = (if y >? 25 then 0 else if y <? 0 then 24 else y) /\
  (forall i, (2 <= i)%nat -> vget (torus_wrap p) i = vget p i).
Proof.
  cbn zeta. unfold torus_wrap.
  set (p1 := if vget p 0 >? 80 then vset p 0 0 else if vget p 0 <? 0 then vset p 0 79 else p).
  assert (H0 : vget p1 0 = if vget p 0 >? 80 then 0 else if vget p 0 <? 0 then 79 else vget p 0).
  { unfold p1. destruct (vget p 0 >? 80); [now rewrite vget_vset|].
    destruct (vget p 0 <? 0); [now rewrite vget_vset|reflexivity]. }
  assert (H1 : forall i, i <> 0%nat -> vget p1 i = vget p i).
  { intros i Hi. unfold p1. destruct (vget p 0 >? 80); [|destruct (vget p 0 <? 0)]; auto;
      rewrite vget_vset; destruct (Nat.eqb_spec i 0); congruence. }
  rewrite (H1 1%nat) by auto.
  split; [|split].
  - destruct (vget p 1 >? 25); [|destruct (vget p 1 <? 0)]; auto; rewrite vget_vset; cbn [Nat.eqb]; auto.
  - destruct (vget p 1 >? 25); [|destruct (vget p 1 <? 0)]; try (now rewrite vget_vset).
    apply H1. auto.
  - intros i Hi. destruct (vget p 1 >? 25); [|destruct (vget p 1 <? 0)];
      try (rewrite vget_vset; destruct (Nat.eqb_spec i 1); [lia|]); apply H1; lia.
Qed.
