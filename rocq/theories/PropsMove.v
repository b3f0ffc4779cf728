(** * Properties C14-C16: how an IP moves through Funge-space. *)

From Coq Require Import ZArith List Bool Lia.
From Verif Require Import Base BaseProofs VectorModel VectorProofs FieldModel FieldProofs
  World IpModel IpProofs.
Import ListNotations.
Open Scope Z_scope.

(** [inside dims f p]: the tuple [p] lies between the least and the greatest
    used coordinate in each of the [dims] dimensions.  [along p d k] is the tuple
    [p + k*d].  [lives dims v]: no coordinate beyond the dimensions.
    [room64]: the cells one delta beyond the bounds still have 64-bit
    coordinates, so that walking off the edge does not overflow. *)

(** ** C14 Lahey-space wrapping re-enters on the far side of the same line *)

(** The IP moves by its delta if that stays inside; otherwise it lands on the
    point [p - k*d] such that, of all points [p - m*d] with [m >= 0], exactly
    those with [m <= k] are inside.  The delta is the same afterwards, and the
    new position is inside. *)
Theorem C14_lahey : forall dims f p d,
  vwf d -> d <> [] -> lives dims p -> lives dims d ->
  bounds64 f -> room64 dims f d -> inside dims f (vget p) ->
  exists p', ip_next false dims f p d = Ok (p', d) /\
    lives dims p' /\ inside dims f (vget p') /\
    (inside dims f (along p d 1) -> forall i, vget p' i = vget p i + vget d i) /\
    (~ inside dims f (along p d 1) ->
     exists k, 0 <= k /\ (forall i, vget p' i = vget p i - k * vget d i) /\
       (forall m, 0 <= m -> (inside dims f (along p d (- m)) <-> m <= k))).
Proof.
  intros dims f p d W N Lp Ld B R I.
  destruct (ip_next_lahey dims f p d W N Lp Ld B R I) as (p' & E & L' & I' & S1 & S2).
  exists p'. split; auto. split; auto. split; auto. split.
  - intros H i. rewrite (S1 H). unfold along. lia.
  - intros H. destruct (S2 H) as (k & K & G & Mx). exists k. split; auto. split; auto.
    intros i. rewrite G. unfold along. lia.
Qed.
(** The step always terminates, also from outside the bounds, with any delta
    and in both topologies. *)
Theorem C14_terminates : forall torus dims f p d,
  vwf d -> bounds64 f -> (forall i, in64 (vget p i)) ->
  ip_next torus dims f p d <> Bad BadFuel.
Proof. exact ip_next_terminates. Qed.
(** From outside the bounds the IP simply moves by its delta. *)
Theorem C14_outside : forall dims f p d,
  vwf d -> d <> [] -> ~ inside dims f (vget p) ->
  (forall i, in64 (vget p i)) -> (forall i, in64 (vget d i)) ->
  (forall i, in64 (- vget d i)) -> (forall i, in64 (vget p i + vget d i)) ->
  exists p', ip_next false dims f p d = Ok (p', d) /\
    forall i, vget p' i = vget p i + vget d i.
Proof. exact ip_next_outside. Qed.

(** A 3-D field with corners (-2,0,0) and (5,3,1): flying off along (2,-1,0). *)
Definition box : field :=
  f_put (mkvec [5; 3; 1]) 65 (f_put (mkvec [-2; 1]) 66 (field_empty 3 false)).
Example C14_ex_hyp :
  vwf [2; -1] /\ lives 3 [4; 1] /\ lives 3 [2; -1] /\ bounds64 box /\
  room64 3 box [2; -1] /\ inside 3 box (vget [4; 1]) /\ ~ inside 3 box (along [4; 1] [2; -1] 1).
Proof.
  split; [right; discriminate|].
  split; [intros i Hi; apply vget_out; cbn; lia|].
  split; [intros i Hi; apply vget_out; cbn; lia|].
  split.
  { intros i. destruct i as [|[|[|i]]]; vm_compute; repeat split; discriminate. }
  split.
  { intros i Hi. destruct i as [|[|[|i]]]; [| | |lia]; vm_compute; repeat split; discriminate. }
  split.
  { intros i Hi. destruct i as [|[|[|i]]]; [| | |lia]; vm_compute; repeat split; discriminate. }
  intros H. specialize (H 0%nat ltac:(lia)). vm_compute in H. destruct H as [_ H]. apply H. reflexivity.
Qed.
Example C14_ex_run : ip_next false 3 box [4; 1] [2; -1] = Ok ([0; 3], [2; -1]).
Proof. vm_compute. reflexivity. Qed.
Print Assumptions C14_lahey.
Print Assumptions C14_terminates.
Print Assumptions C14_outside.

(** ** C15 Lahey-space movement is reversible *)

(** [walk dims f n p d] is [n] steps of [ip_next].  After any number of steps,
    reflecting and taking as many steps leads back to the start. *)
Theorem C15_retrace : forall dims f n p d d',
  vwf d -> d <> [] -> lives dims p -> lives dims d ->
  bounds64 f -> room64 dims f d -> inside dims f (vget p) ->
  vrev d = Ok d' ->
  exists p1 p2,
    walk dims f n p d = Ok (p1, d) /\
    walk dims f n p1 d' = Ok (p2, d') /\
    forall i, vget p2 i = vget p i.
Proof.
  intros dims f n p d d' W N Lp Ld B R I E.
  destruct (walk_forward dims f d W N Ld B R n p Lp I) as (p1 & E1 & L1 & I1).
  destruct (walk_back dims f d d' W N Ld B R E n p p1 Lp I E1) as (p2 & E2 & G).
  eauto.
Qed.
(** The single step of the property. *)
Theorem C15_step : forall dims f p d d',
  vwf d -> d <> [] -> lives dims p -> lives dims d ->
  bounds64 f -> room64 dims f d -> inside dims f (vget p) ->
  vrev d = Ok d' ->
  exists p1 p2,
    ip_next false dims f p d = Ok (p1, d) /\
    ip_next false dims f p1 d' = Ok (p2, d') /\
    forall i, vget p2 i = vget p i.
Proof.
  intros dims f p d d' W N Lp Ld B R I E.
  destruct (C15_retrace dims f 1 p d d' W N Lp Ld B R I E) as (p1 & p2 & E1 & E2 & G).
  exists p1, p2. cbn [walk] in E1, E2.
  destruct (ip_next false dims f p d) as [[a b]|]; [|discriminate].
  destruct (ip_next false dims f p1 d') as [[a' b']|]; [|discriminate].
  cbn [bind fst snd] in E1, E2. inversion E1; inversion E2; subst. auto.
Qed.
Example C15_ex :
  walk 3 box 3 [4; 1] [2; -1] = Ok ([4; 1], [2; -1]) /\
  walk 3 box 2 [4; 1] [2; -1] = Ok ([2; 2], [2; -1]) /\
  vrev [2; -1] = Ok [-2; 1] /\
  walk 3 box 2 [2; 2] [-2; 1] = Ok ([4; 1], [-2; 1]).
Proof. vm_compute. repeat split. Qed.
Print Assumptions C15_retrace.
Print Assumptions C15_step.

(** ** C16 The Befunge-93 torus is 80 by 25 *)

(** Columns 0..79 and rows 0..24. *)
Definition playfield (p : vec) : Prop :=
  0 <= vget p 0 <= 79 /\ 0 <= vget p 1 <= 24.
(** What the code actually keeps: 81 columns and 26 rows. *)
Definition playfield81 (p : vec) : Prop :=
  0 <= vget p 0 <= 80 /\ 0 <= vget p 1 <= 25.
Definition cardinal (d : vec) : Prop :=
  d = mkvec [1] \/ d = mkvec [-1] \/ d = mkvec [0; 1] \/ d = mkvec [0; -1].

(** Refuted: from column 79, moving east leaves the playfield for column 80;
    likewise row 25. *)
Theorem C16_stays_refuted :
  ~ (forall f p d, playfield p -> cardinal d ->
       exists p', ip_next true 2 f p d = Ok (p', d) /\ playfield p').
Proof.
  intros H. destruct (H (field_empty 2 true) [79; 0] (mkvec [1])) as (p' & E & P).
  - vm_compute. repeat split; discriminate.
  - left. reflexivity.
  - vm_compute in E. inversion E; subst. destruct P as [[_ P] _]. vm_compute in P. apply P. reflexivity.
Qed.
(** Refuted: west from column 0 leads to 79, and east from there to 80. *)
Theorem C16_reverse_refuted :
  ~ (forall f p d d', playfield p -> cardinal d -> vrev d = Ok d' ->
       exists p1 p2, ip_next true 2 f p d = Ok (p1, d) /\
         ip_next true 2 f p1 d' = Ok (p2, d') /\ forall i, vget p2 i = vget p i).
Proof.
  intros H. destruct (H (field_empty 2 true) [0; 3] (mkvec [-1]) (mkvec [1])) as (p1 & p2 & E1 & E2 & G).
  - vm_compute. repeat split; discriminate.
  - right. left. reflexivity.
  - reflexivity.
  - vm_compute in E1. inversion E1; subst. vm_compute in E2. inversion E2; subst.
    specialize (G 0%nat). vm_compute in G. discriminate.
Qed.
(** What holds: the IP always stays within columns 0..80 and rows 0..25, for
    any number of steps; the delta never changes; a step that does not leave the
    true playfield is by the delta alone, and stepping back then returns to the
    start.  Missing: staying within 80 by 25 and reversibility across the
    edges. *)
Fixpoint torus_walk (f : field) (n : nat) (p d : vec) : res (vec * vec) :=
  match n with
  | O => Ok (p, d)
  | S n' => pd <-- ip_next true 2 f p d ;; torus_walk f n' (fst pd) (snd pd)
  end.
Lemma cardinal_small d i : cardinal d -> -1 <= vget d i <= 1 /\
  (d = mkvec [1] \/ d = mkvec [-1] -> vget d 1 = 0).
Proof.
  intros [H|[H|[H|H]]]; subst; (split; [destruct i as [|[|i]]; try (vm_compute; split; discriminate);
    rewrite vget_mkvec; destruct i; cbn; lia|]); intros [H|H]; try discriminate; reflexivity.
Qed.
Lemma torus_step f p d : playfield81 p -> cardinal d -> lives 2 p ->
  exists p', ip_next true 2 f p d = Ok (p', d) /\ playfield81 p' /\ lives 2 p' /\
    ((0 <= vget p 0 + vget d 0 <= 80 -> vget p' 0 = vget p 0 + vget d 0) /\
     (0 <= vget p 1 + vget d 1 <= 25 -> vget p' 1 = vget p 1 + vget d 1)).
Proof.
  intros P C L. unfold ip_next.
  destruct (vadd_defined p d) as (p1 & E).
  { intros i. pose proof (cardinal_small d i C) as [Hd _]. destruct P as [P0 P1].
    destruct i as [|[|i]].
    - unfold in64, INT64_MIN, INT64_MAX. lia.
    - unfold in64, INT64_MIN, INT64_MAX. lia.
    - rewrite L by lia. unfold in64, INT64_MIN, INT64_MAX. lia. }
  rewrite E. cbn [bind]. pose proof (vadd_get _ _ _ E) as G.
  exists (torus_wrap p1). split; auto.
  destruct (torus_wrap_get p1) as (T0 & T1 & T2).
  pose proof (cardinal_small d 0 C) as [D0 _]. pose proof (cardinal_small d 1 C) as [D1 _].
  destruct P as [P0 P1]. rewrite !G in T0, T1.
  rewrite Z.gtb_ltb in T0, T1.
  destruct (Z.ltb_spec 80 (vget p 0 + vget d 0)), (Z.ltb_spec (vget p 0 + vget d 0) 0),
    (Z.ltb_spec 25 (vget p 1 + vget d 1)), (Z.ltb_spec (vget p 1 + vget d 1) 0); try lia;
  (split; [split; lia|]); (split; [|split; lia]);
  intros i Hi; rewrite T2, G, L by auto; rewrite Z.add_0_l;
  destruct C as [C|[C|[C|C]]]; subst d; apply vget_out; cbn; lia.
Qed.
Theorem C16_stays_partial : forall f n p d,
  playfield p -> lives 2 p -> cardinal d ->
  exists p', torus_walk f n p d = Ok (p', d) /\ playfield81 p'.
Proof.
  intros f n p d P L C.
  assert (P' : playfield81 p) by (unfold playfield, playfield81 in *; lia).
  clear P. revert p P' L. induction n as [|n IH]; intros p P L; cbn [torus_walk]; eauto.
  destruct (torus_step f p d P C L) as (p1 & E & P1 & L1 & _). rewrite E. cbn [bind fst snd]. auto.
Qed.
Theorem C16_interior_partial : forall f p q d d',
  playfield p -> lives 2 p -> cardinal d -> vadd p d = Ok q -> playfield q -> vrev d = Ok d' ->
  exists p1 p2, ip_next true 2 f p d = Ok (p1, d) /\ (forall i, vget p1 i = vget q i) /\
    ip_next true 2 f p1 d' = Ok (p2, d') /\ forall i, vget p2 i = vget p i.
Proof.
  intros f p q d d' P L C Eq Q Er. pose proof (vadd_get _ _ _ Eq) as G.
  assert (W : vwf d).
  { destruct C as [C|[C|[C|C]]]; subst; apply mkvec_wf. }
  destruct (vrev_get d d' W Er) as (W' & _ & G').
  assert (C' : cardinal d').
  { destruct C as [C|[C|[C|C]]]; subst; vm_compute in Er; inversion Er; subst;
      [right;left|left|right;right;right|right;right;left]; reflexivity. }
  destruct (torus_step f p d) as (p1 & E1 & P1 & L1 & S0 & S1); auto.
  { unfold playfield, playfield81 in *; lia. }
  assert (G1 : forall i, vget p1 i = vget q i).
  { intros i. rewrite G. unfold playfield in *. rewrite !G in Q. destruct i as [|[|i]].
    - apply S0. lia.
    - apply S1. lia.
    - rewrite L1, L by lia. destruct C as [C|[C|[C|C]]]; subst d; rewrite vget_mkvec; destruct i; reflexivity. }
  destruct (torus_step f p1 d') as (p2 & E2 & P2 & L2 & U0 & U1); auto.
  exists p1, p2. split; auto. split; auto. split; auto.
  intros i. unfold playfield in *. rewrite !G in Q. destruct i as [|[|i]].
  - rewrite U0; rewrite G1, G, G'; lia.
  - rewrite U1; rewrite G1, G, G'; lia.
  - rewrite L2, L by lia. reflexivity.
Qed.
Example C16_ex :
  torus_walk (field_empty 2 true) 82 [79; 24] (mkvec [1]) = Ok ([80; 24], [1]) /\
  torus_walk (field_empty 2 true) 81 [79; 24] (mkvec [1]) = Ok ([79; 24], [1]) /\
  torus_walk (field_empty 2 true) 5 [10; 20] (mkvec [0; 1]) = Ok ([10; 25], [0; 1]).
Proof. vm_compute. repeat split. Qed.
Print Assumptions C16_stays_refuted.
Print Assumptions C16_reverse_refuted.
Print Assumptions C16_stays_partial.
Print Assumptions C16_interior_partial.
