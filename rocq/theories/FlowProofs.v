(** * Lemmas about walking through Funge-space: cycles of Lahey-space, the
    searching loops and ticks. *)

From Coq Require Import ZArith List Bool Lia.
From Verif Require Import Base BaseProofs VectorModel VectorProofs StackModel StackProofs
  FieldModel FieldProofs World IpModel LoadModel FingModel CoreModel IpProofs ExecProofs.
Import ListNotations.
Open Scope Z_scope.

(** ** Loops in the monad *)

Lemma loopM_run {A B} F (f : A -> M (A + B)) (tr : nat -> A * st) n b s' :
  (forall i, (i < n)%nat ->
     f (fst (tr i)) (snd (tr i)) = Ok (inl (fst (tr (S i))), snd (tr (S i)))) ->
  f (fst (tr n)) (snd (tr n)) = Ok (inr b, s') ->
  (n < Pos.to_nat F)%nat ->
  loopM F f (fst (tr 0%nat)) (snd (tr 0%nat)) = Ok (b, s').
Proof.
  intros H E L. unfold loopM. rewrite loop_loopNr. revert L.
  generalize (Pos.to_nat F) as k. revert tr H E.
  induction n as [|n IH]; intros tr H E k L.
  - destruct k as [|k]; [lia|]. rewrite loopNr_unfold. cbn [fst snd].
    rewrite E. reflexivity.
  - destruct k as [|k]; [lia|]. rewrite loopNr_unfold. cbn [fst snd].
    rewrite (H 0%nat) by lia.
    apply (IH (fun i => tr (S i))); [|exact E|lia].
    intros i Hi. apply H. lia.
Qed.
Lemma loopM_bad {A B} F (f : A -> M (A + B)) (tr : nat -> A * st) n e :
  (forall i, (i < n)%nat ->
     f (fst (tr i)) (snd (tr i)) = Ok (inl (fst (tr (S i))), snd (tr (S i)))) ->
  f (fst (tr n)) (snd (tr n)) = Bad e ->
  (n < Pos.to_nat F)%nat ->
  loopM F f (fst (tr 0%nat)) (snd (tr 0%nat)) = Bad e.
Proof.
  intros H E L. unfold loopM. rewrite loop_loopNr. revert L.
  generalize (Pos.to_nat F) as k. revert tr H E.
  induction n as [|n IH]; intros tr H E k L.
  - destruct k as [|k]; [lia|]. rewrite loopNr_unfold. cbn [fst snd].
    rewrite E. reflexivity.
  - destruct k as [|k]; [lia|]. rewrite loopNr_unfold. cbn [fst snd].
    rewrite (H 0%nat) by lia.
    apply (IH (fun i => tr (S i))); [|exact E|lia].
    intros i Hi. apply H. lia.
Qed.
(** One unfolding. *)
Lemma loopM_step {A B} F (f : A -> M (A + B)) a s :
  loopM (Pos.succ F) f a s =
  match f a s with
  | Ok (inl a', s') => loopM F f a' s'
  | Ok (inr b, s') => Ok (b, s')
  | Bad e => Bad e
  end.
Proof.
  unfold loopM. rewrite !loop_loopNr, Pos2Nat.inj_succ, loopNr_unfold. cbn [fst snd].
  destruct (f a s) as [[[a'|b] s']|e]; try reflexivity. now rewrite loop_loopNr.
Qed.
Lemma loopM_invariant {A B} F (f : A -> M (A + B)) (I : A -> st -> Prop) a s :
  (forall a s, I a s -> exists a' s', f a s = Ok (inl a', s') /\ I a' s') -> I a s ->
  loopM F f a s = Bad BadFuel.
Proof.
  intros H Ia. unfold loopM. rewrite loop_loopNr. revert a s Ia.
  induction (Pos.to_nat F) as [|n IH]; intros a s Ia; [reflexivity|].
  rewrite loopNr_unfold. cbn [fst snd]. destruct (H a s Ia) as (a' & s' & -> & Ia'). now apply IH.
Qed.

(** ** Straight lines and cycles of Lahey-space *)

Lemma inside_along0 dims f p d : inside dims f (vget p) <-> inside dims f (along p d 0).
Proof. apply inside_ext. intros i. unfold along. lia. Qed.

Lemma walk_straight dims f d : vwf d -> d <> [] -> lives dims d -> bounds64 f -> room64 dims f d ->
  forall n p, lives dims p -> inside dims f (vget p) ->
  (forall j, 0 <= j <= Z.of_nat n -> inside dims f (along p d j)) ->
  exists p', walk dims f n p d = Ok (p', d) /\ lives dims p' /\
    (forall i, vget p' i = along p d (Z.of_nat n) i).
Proof.
  intros W N Ld B R. induction n as [|n IH]; intros p Lp I H.
  - exists p. split; [reflexivity|]. split; auto. intros i. unfold along. lia.
  - cbn [walk]. destruct (ip_next_lahey dims f p d W N Lp Ld B R I) as (p1 & E & L1 & I1 & S1 & _).
    rewrite E. cbn [bind fst snd]. specialize (S1 (H 1 ltac:(lia))).
    destruct (IH p1 L1 I1) as (p' & E' & L' & G').
    + intros j Hj. eapply inside_ext; [|apply (H (j + 1)); lia].
      intros i. unfold along. rewrite S1. unfold along. lia.
    + exists p'. split; auto. split; auto. intros i. rewrite G'. unfold along. rewrite S1. unfold along.
      rewrite Nat2Z.inj_succ. lia.
Qed.

Lemma walk_app dims f n : forall m p d,
  walk dims f (n + m) p d = (pd <-- walk dims f n p d ;; walk dims f m (fst pd) (snd pd)).
Proof.
  induction n as [|n IH]; intros m p d; [reflexivity|].
  cbn [Nat.add walk]. destruct (ip_next false dims f p d) as [[a b]|]; cbn [bind fst snd]; auto.
Qed.

(** How far it is to the last cell inside, going along [d]. *)
Lemma last_inside dims f d i : (i < dims)%nat -> vget d i <> 0 ->
  forall n p, inside dims f (vget p) -> room f d p i < Z.of_nat n ->
  exists b, 0 <= b < Z.of_nat n /\ (forall j, 0 <= j <= b -> inside dims f (along p d j)) /\
    ~ inside dims f (along p d (b + 1)).
Proof.
  intros Hi Hd. induction n as [|n IH]; intros p I R.
  - exfalso. specialize (I i Hi). unfold room in R. destruct (Z.ltb_spec 0 (vget d i)); lia.
  - destruct (inside_dec dims f (along p d 1)) as [I1|I1].
    + set (p1 := map (fun i => along p d 1 i) (seq 0 (Nat.max (vsize p) (vsize d)))).
      assert (G : forall j, vget p1 j = along p d 1 j).
      { intros j. rewrite vget_nth. unfold p1.
        destruct (Nat.lt_ge_cases j (Nat.max (vsize p) (vsize d))) as [L|L].
        - rewrite (nth_indep _ 0 (along p d 1 0%nat)) by (rewrite map_length, seq_length; auto).
          rewrite (map_nth (fun i => along p d 1 i)). now rewrite seq_nth.
        - rewrite nth_overflow by (rewrite map_length, seq_length; auto). unfold along.
          rewrite !vget_out by (unfold vsize in *; lia). lia. }
      destruct (IH p1) as (b & Hb & In & Out).
      * eapply inside_ext; [|exact I1]. exact G.
      * unfold room in *. rewrite G. unfold along. destruct (Z.ltb_spec 0 (vget d i)); lia.
      * exists (b + 1). split; [lia|]. split.
        -- intros j Hj. destruct (Z.eq_dec j 0) as [->|]; [now apply inside_along0|].
           eapply inside_ext; [|apply (In (j - 1)); lia]. intros k. unfold along. rewrite G. unfold along. lia.
        -- intros C. apply Out. eapply inside_ext; [|exact C].
           intros k. unfold along. rewrite G. unfold along. lia.
    + exists 0. split; [lia|]. split; auto.
      intros j Hj. replace j with 0 by lia. now apply inside_along0.
Qed.

(** Every in-bounds IP comes back to where it is. *)
Lemma lahey_cycle dims f p d :
  vwf d -> d <> [] -> lives dims p -> lives dims d ->
  bounds64 f -> room64 dims f d -> inside dims f (vget p) ->
  exists n p', (0 < n)%nat /\ Z.of_nat n <= 2 ^ 65 /\
    walk dims f n p d = Ok (p', d) /\ forall i, vget p' i = vget p i.
Proof.
  intros W N Lp Ld B R I.
  assert (X : (exists i, (i < dims)%nat /\ vget d i <> 0) \/ forall i, vget d i = 0).
  { assert (Y : forall n, (exists i, (i < n)%nat /\ vget d i <> 0) \/ forall i, (i < n)%nat -> vget d i = 0).
    { induction n as [|n [IH|IH]].
      - right. intros. lia.
      - left. destruct IH as (i & ? & ?). exists i. split; auto; lia.
      - destruct (Z.eq_dec (vget d n) 0).
        + right. intros i Hi. destruct (Nat.eq_dec i n); [now subst|]. apply IH. lia.
        + left. exists n. split; auto. }
    destruct (Y dims) as [?|Z0]; auto. right. intros i.
    destruct (Nat.lt_ge_cases i dims); auto. }
  destruct X as [(i & Hi & Hd)|Z0].
  2:{ destruct (walk_straight dims f d W N Ld B R 1 p Lp I) as (p' & E & _ & G).
      { intros j Hj. eapply inside_ext; [|exact I]. intros k. unfold along. rewrite Z0. lia. }
      exists 1%nat, p'. split; [lia|]. split; [cbn; lia|]. split; auto.
      intros k. rewrite G. unfold along. rewrite Z0. lia. }
  assert (Rm : exists n, room f d p i < Z.of_nat n /\ Z.of_nat n <= 2 ^ 64).
  { exists (Z.to_nat (2 ^ 64)). destruct (B i) as (B1 & B2). specialize (I i Hi).
    unfold in64, INT64_MIN, INT64_MAX in *. change (2 ^ 64) with 18446744073709551616.
    rewrite Z2Nat.id by lia. unfold room. destruct (Z.ltb_spec 0 (vget d i)); lia. }
  destruct Rm as (n & Rn & Ln).
  destruct (last_inside dims f d i Hi Hd n p I Rn) as (b & Hb & Ib & Ob).
  destruct (walk_straight dims f d W N Ld B R (Z.to_nat b) p Lp I) as (pb & Eb & Lb & Gb).
  { intros j Hj. apply Ib. rewrite Z2Nat.id in Hj; lia. }
  rewrite Z2Nat.id in Gb by lia.
  assert (Ipb : inside dims f (vget pb)).
  { eapply inside_ext; [|apply (Ib b); lia]. exact Gb. }
  destruct (ip_next_lahey dims f pb d W N Lb Ld B R Ipb) as (q & Eq & Lq & Iq & _ & S2).
  destruct S2 as (k & Hk & Gk & Mx).
  { intros C. apply Ob. eapply inside_ext; [|exact C].
    intros j. unfold along. rewrite Gb. unfold along. lia. }
  assert (Kb : b <= k).
  { apply Mx; [lia|]. eapply inside_ext; [|exact I]. intros j. unfold along. rewrite Gb. unfold along. lia. }
  assert (Gq : forall j, vget q j = along p d (b - k) j).
  { intros j. rewrite Gk. unfold along. rewrite Gb. unfold along. lia. }
  destruct (walk_straight dims f d W N Ld B R (Z.to_nat (k - b)) q Lq Iq) as (p' & E' & _ & G').
  { intros j Hj. rewrite Z2Nat.id in Hj by lia.
    eapply inside_ext; [|apply (inside_convex dims f p d (b - k) (b - k + j) 0); [lia| |now apply inside_along0]].
    - intros l. unfold along. rewrite Gq. unfold along. lia.
    - eapply inside_ext; [|exact Iq]. intros l. now rewrite Gq. }
  exists (Z.to_nat b + (1 + Z.to_nat (k - b)))%nat, p'. split; [lia|]. split.
  { assert (K64 : k < 2 ^ 64).
    { pose proof (Ipb i Hi) as A1. pose proof (Iq i Hi) as A2.
      rewrite Gk in A2. unfold along in A2.
      destruct (B i) as (B1 & B2). unfold in64, INT64_MIN, INT64_MAX in *.
      change (2 ^ 64) with 18446744073709551616. nia. }
    change (2 ^ 64) with 18446744073709551616 in *. change (2 ^ 65) with 36893488147419103232. lia. }
  split.
  { rewrite walk_app, Eb. cbn [bind fst snd Nat.add walk]. rewrite Eq. cbn [bind fst snd]. exact E'. }
  intros j. rewrite G'. rewrite Z2Nat.id by lia. unfold along. rewrite Gq. unfold along. lia.
Qed.

Lemma walk_prefix dims f n : forall m p d x, walk dims f (n + m) p d = Ok x ->
  exists y, walk dims f n p d = Ok y.
Proof.
  intros m p d x E. rewrite walk_app in E. destruct (walk dims f n p d) as [y|e]; eauto.
Qed.

(** ** Reading the cells along the IP's path *)

(** The Funge-space the IP executes from. *)
Definition here (s : st) : field := u_field (w_uni (s_w s) (r_uni (s_r s))).

(** [Path s p cs q]: stepping [length cs] times from [p] with the delta of the
    IP of [s] leads to [q], the delta never changing, and the cells entered on
    the way contain [cs]. *)
Inductive Path (s : st) : vec -> list Z -> vec -> Prop :=
| Path_nil p : Path s p [] p
| Path_cons p p1 cs q :
    ip_next (c_torus (u_cfg (w_uni (s_w s) (r_uni (s_r s))))) (dims_of s) (here s) p (r_delta (s_r s))
      = Ok (p1, r_delta (s_r s)) ->
    Path s p1 cs q -> Path s p (f_get (here s) p1 :: cs) q.

Lemma path_app s p a q : Path s p a q -> forall b r, Path s q b r -> Path s p (a ++ b) r.
Proof. induction 1; intros b r H'; cbn [app]; auto. econstructor; eauto. Qed.
Lemma path_app_inv s a : forall p b r, Path s p (a ++ b) r -> exists q, Path s p a q /\ Path s q b r.
Proof.
  induction a as [|x a IH]; intros p b r H; cbn [app] in H.
  - exists p. split; [constructor|auto].
  - inversion H as [|? ? ? ? En Hp]; subst. destruct (IH _ _ _ Hp) as (q & A & B). exists q. split; auto. econstructor; eauto.
Qed.

Definition at_ (s : st) (p : vec) : st := moved s p (r_delta (s_r s)).
Lemma at_self s : at_ s (r_pos (s_r s)) = s.
Proof. destruct s as [w r]. unfold at_, moved. cbn [s_w s_r]. now destruct r. Qed.
Lemma at_at s p q : at_ (at_ s p) q = at_ s q.
Proof. reflexivity. Qed.

Lemma path_next s p p1 : r_stopped (s_r s) = false ->
  ip_next (c_torus (u_cfg (w_uni (s_w s) (r_uni (s_r s))))) (dims_of s) (here s) p (r_delta (s_r s))
      = Ok (p1, r_delta (s_r s)) ->
  ipNext (at_ s p) = Ok (tt, at_ s p1).
Proof. intros St E. rewrite (ipNext_run (at_ s p) p1 (r_delta (s_r s))); [reflexivity|exact St|exact E]. Qed.
Lemma path_get s p : ipGet (at_ s p) = Ok (f_get (here s) p, at_ s p).
Proof. reflexivity. Qed.

(** [do ip.next(); while(!g(ip.get()))]. *)
Definition seek_step (g : Z -> bool) (_ : unit) : M (unit + unit) :=
  ipNext ;;; c <- ipGet ;; if g c then ret (inr tt) else ret (inl tt).

Lemma loopM_inr {A B} F (f : A -> M (A + B)) a s b s' :
  f a s = Ok (inr b, s') -> loopM F f a s = Ok (b, s').
Proof.
  intros E. exact (loopM_run F f (fun _ => (a, s)) 0 b s' ltac:(lia) E ltac:(lia)).
Qed.
Lemma loopM_inl {A B} F (f : A -> M (A + B)) a s a' s' : (1 < Pos.to_nat F)%nat ->
  f a s = Ok (inl a', s') -> loopM F f a s = loopM (Pos.pred F) f a' s'.
Proof.
  intros L E. rewrite <- (Pos.succ_pred F) at 1 by lia. rewrite loopM_step, E. reflexivity.
Qed.
Lemma loopM_err {A B} F (f : A -> M (A + B)) a s e :
  f a s = Bad e -> loopM F f a s = Bad e.
Proof.
  intros E. exact (loopM_bad F f (fun _ => (a, s)) 0 e ltac:(lia) E ltac:(lia)).
Qed.

Lemma seek_run g s (St : r_stopped (s_r s) = false) body : forall F p c q,
  Path s p (body ++ [c]) q -> g c = true -> Forall (fun x => g x = false) body ->
  (length body < Pos.to_nat F)%nat ->
  loopM F (seek_step g) tt (at_ s p) = Ok (tt, at_ s q).
Proof.
  induction body as [|x body IH]; intros F p c q P G Fb L; cbn [app] in P;
    inversion P as [|pa p1 ca qa En Hp]; subst.
  - inversion Hp; subst. apply loopM_inr. unfold seek_step.
    rewrite (run_bind _ _ _ _ _ (path_next s p q St En)).
    rewrite (run_bind _ _ _ _ _ (path_get s q)). now rewrite G.
  - inversion Fb as [|? ? Gx Fb']; subst. cbn [length] in L.
    rewrite (loopM_inl F (seek_step g) tt (at_ s p) tt (at_ s p1)); [|lia|].
    + apply (IH _ p1 c q); auto. lia.
    + unfold seek_step. rewrite (run_bind _ _ _ _ _ (path_next s p p1 St En)).
      rewrite (run_bind _ _ _ _ _ (path_get s p1)). now rewrite Gx.
Qed.

(** ** Skipped cells *)

(** Blank cells and [;...;] sections. *)
Inductive Skipped (blank : Z -> Prop) : list Z -> Prop :=
| Skipped_nil : Skipped blank []
| Skipped_blank c cs : blank c -> Skipped blank cs -> Skipped blank (c :: cs)
| Skipped_section body cs :
    ~ In 59 body -> Skipped blank cs -> Skipped blank (59 :: body ++ 59 :: cs).

Lemma not_semi body : ~ In 59 body -> Forall (fun x => (x =? 59) = false) body.
Proof.
  intros H. apply Forall_forall. intros x Hx. apply Z.eqb_neq. intros ->. contradiction.
Qed.

(** A state that differs from [s] in the IP's position only behaves alike. *)
Lemma normal_at s p c : Normal s c -> Normal (at_ s p) c.
Proof. intros H. exact H. Qed.

Lemma exec_blank F D s c : Normal s c -> c = 32 \/ c = 9 -> execute F (S D) c s = Ok (ESkip, s).
Proof.
  intros H [-> | ->]; rewrite (execute_normal F D _ s _ _ H eq_refl); reflexivity.
Qed.
Lemma exec_semi F D s : Normal s 59 ->
  execute F (S D) 59 s = (jumpOver F ;;; reterr ESkip) s.
Proof. intros H. rewrite (execute_normal F D _ s _ _ H eq_refl). reflexivity. Qed.

Definition no_debug (s : st) : Prop := testmode MODE_DEBUG (w_uni (s_w s) (r_uni (s_r s))) = false.

Lemma tick_step_skip F D s s1 s2 :
  no_debug s -> execute F D (f_get (here s) (r_pos (s_r s))) s = Ok (ESkip, s1) ->
  ipNext s1 = Ok (tt, s2) ->
  tick_step F D tt s = Ok (inl tt, s2).
Proof.
  intros Nd E N. unfold tick_step. unfold isMode, getU, mbind. unfold ret at 1.
  unfold no_debug in Nd. rewrite Nd.
  change (ipGet s) with (Ok (f_get (here s) (r_pos (s_r s)), s) : res (Z * st)). cbv beta iota.
  rewrite E. cbv beta iota. unfold getR. cbv beta iota. unfold ret at 1. cbv beta iota. rewrite N. reflexivity.
Qed.

(** Skipping costs no tick. *)
Lemma tick_skips F D s J :
  Skipped (fun c => c = 32 \/ c = 9) J ->
  r_stopped (s_r s) = false -> no_debug s -> Normal s 32 -> Normal s 9 -> (In 59 J -> Normal s 59) ->
  (length J < Pos.to_nat F)%nat ->
  forall G p cs c q, f_get (here s) p :: cs = J ++ [c] -> Path s p cs q ->
  (length J < Pos.to_nat G)%nat ->
  exists G', loopM G (tick_step F (S D)) tt (at_ s p) = loopM G' (tick_step F (S D)) tt (at_ s q).
Proof.
  intros SK St Nd N32 N9. induction SK as [|x J Bx SK IH|body J Nb SK IH]; intros N59 LF G p cs c q E P LG.
  - cbn [app] in E. inversion E; subst. inversion P; subst. now exists G.
  - cbn [app length] in *. injection E as E1 E2.
    assert (X : exists y cs', cs = y :: cs' /\ y :: cs' = J ++ [c]).
    { destruct cs as [|y cs']; [destruct J; discriminate|eauto]. }
    destruct X as (y & cs' & -> & E3). inversion P as [|pa p1 ca qa En Hp]; subst.
    destruct (IH ltac:(intros; apply N59; now right) ltac:(lia) (Pos.pred G) p1 cs' c q E3 Hp) as (G' & R).
    { lia. }
    exists G'. rewrite <- R. apply loopM_inl; [lia|].
    apply (tick_step_skip F (S D) _ (at_ s p)); auto.
    + change (f_get (here (at_ s p)) (r_pos (s_r (at_ s p)))) with (f_get (here s) p).
      apply exec_blank; [|exact Bx]. destruct Bx as [Bx|Bx]; rewrite Bx; apply normal_at; auto.
    + now apply path_next.
  - cbn [app length] in *. rewrite app_length in LF, LG. cbn [length] in LF, LG.
    injection E as E1 E2. rewrite <- app_assoc in E2. cbn [app] in E2.
    assert (X : exists y cs', cs = (body ++ [59]) ++ y :: cs' /\ y :: cs' = J ++ [c]).
    { exists (hd 0 (J ++ [c])), (tl (J ++ [c])). rewrite E2, <- app_assoc. cbn [app].
      assert (Y : hd 0 (J ++ [c]) :: tl (J ++ [c]) = J ++ [c]) by (now destruct J).
      rewrite Y. auto. }
    destruct X as (y & cs' & -> & E3).
    destruct (path_app_inv s _ _ _ _ P) as (p2 & P1 & P2). inversion P2 as [|pa p1 ca qa En Hp]; subst.
    destruct (IH ltac:(intros; apply N59; right; apply in_or_app; now right; right) ltac:(lia)
                (Pos.pred G) p1 cs' c q E3 Hp ltac:(lia)) as (G' & R).
    exists G'. rewrite <- R. apply loopM_inl; [lia|].
    apply (tick_step_skip F (S D) _ (at_ s p2)); auto.
    + change (r_pos (s_r (at_ s p))) with p. change (here (at_ s p)) with (here s). rewrite E1.
      rewrite exec_semi by (apply normal_at, N59; now left).
      unfold jumpOver. change jump_over_step with (seek_step (fun c => c =? 59)).
      rewrite (run_bind _ _ _ _ _ (seek_run (fun c => c =? 59) s St body F p 59 p2 P1 eq_refl (not_semi _ Nb) ltac:(lia))).
      reflexivity.
    + now apply path_next.
Qed.
