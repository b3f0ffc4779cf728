(** * Properties C26 and C27: [j] and [k].  See PropsFlow.v for [InLahey],
    FlowProofs.v for [Path] and [Skipped], PropsIO.v for [Moved_stack]. *)

From Coq Require Import ZArith List Bool Lia.
From Verif Require Import Base BaseProofs VectorModel VectorProofs StackModel StackProofs
  FieldModel FieldProofs World IpModel LoadModel FingModel CoreModel UniModel IpProofs
  ExecProofs FlowProofs States PropsStack PropsIO PropsTurn PropsFlow.
Import ListNotations.
Open Scope Z_scope.

(** ** C26 j jumps exactly n cells *)

(** [s] with its IP turned to face [d]. *)
Definition facing (s : st) (d : vec) : st := {| s_w := s_w s; s_r := set_r_delta d (s_r s) |}.

Lemma rep_next n : forall s p cs q, r_stopped (s_r s) = false -> Path s p cs q -> length cs = n ->
  repM n ipNext (at_ s p) = Ok (tt, at_ s q).
Proof.
  induction n as [|n IH]; intros s p cs q St P L; destruct cs as [|c cs]; try discriminate.
  - inversion P; subst. reflexivity.
  - inversion P as [|pa p1 ca qa En Hp]; subst. cbn [repM].
    rewrite (run_bind _ _ _ _ _ (path_next s p p1 St En)). apply (IH s p1 cs q); auto.
Qed.
Lemma path_facing s s' p cs q d l : Only_stack s s' l -> Path (facing s d) p cs q -> Path (facing s' d) p cs q.
Proof.
  intros C P. induction P as [p|p p1 cs q En Hp IH]; [constructor|].
  assert (W : s_w (facing s' d) = s_w (facing s d)) by exact (Only_stack_w _ _ _ C).
  assert (R : r_uni (s_r (facing s' d)) = r_uni (s_r (facing s d))).
  { cbn [facing s_r]. destruct (s_r s') eqn:X. now rewrite (Only_stack_r _ _ _ C) in X; destruct (s_r s); inversion X. }
  assert (Hh : here (facing s d) = here (facing s' d)) by (unfold here; now rewrite W, R).
  rewrite Hh. econstructor; [|exact IH].
  unfold dims_of. rewrite W, R, <- Hh. exact En.
Qed.
Lemma facing_self s : facing s (r_delta (s_r s)) = s.
Proof. destruct s as [w r]. unfold facing. cbn [s_w s_r]. now destruct r. Qed.

(** Forwards for n >= 0, with the reversed delta for n < 0: after j the IP has
    made |n| steps and the tick's own step is still to come; delta, other
    stacks and everything else are as before. *)
Theorem C26_partial : forall F D s l d' cs q,
  let n := hd 0 l in let d := r_delta (s_r s) in
  Normal s 106 -> Holds s l -> r_stopped (s_r s) = false ->
  -2147483648 < n <= 2147483647 -> vwf d -> d <> [] -> (forall i, in64 (- vget d i)) ->
  (0 <= n -> d' = d) -> (n < 0 -> vwf d' /\ d' <> [] /\ forall i, vget d' i = - vget d i) ->
  (forall i, in64 (vget d i)) ->
  Path (facing s d') (r_pos (s_r s)) cs q -> Z.of_nat (length cs) = Z.abs n ->
  exists s', execute F (S D) 106 s = Ok (ENone, s') /\ Moved_stack s s' q d (tl l).
Proof.
  intros F D s l d' cs q n d HN H St Rn W Nd N64 Hp Hm D64 P L.
  rewrite (execute_normal F D _ s _ _ HN eq_refl). cbn [run_meth].
  xpop. fold n. rewrite to_i32_id by lia.
  assert (Dl : r_delta (s_r s0) = d) by now rewrite (Only_stack_r _ _ _ C).
  assert (Ps : r_pos (s_r s0) = r_pos (s_r s)) by now rewrite (Only_stack_r _ _ _ C).
  assert (St0 : r_stopped (s_r s0) = false) by now rewrite (Only_stack_r _ _ _ C).
  pose proof (path_facing _ _ _ _ _ _ _ C P) as P0.
  assert (Ec : Z.to_nat (Z.abs n) = length cs) by lia.
  destruct (Z.eqb_spec n (-2147483648)) as [X|_]; [lia|].
  exists (moved s0 q d). split; [|exists s0; auto].
  destruct (Z.ltb_spec n 0) as [Neg|Pos].
  - destruct (Hm Neg) as (W' & N' & G').
    assert (E1 : vrev d = Ok d').
    { destruct (vrev_ok d W N64) as (x & Ex & Wx & Lx & Gx). rewrite Ex. f_equal.
      apply vwf_ext; auto.
      - destruct (vrev_vrev d x W Nd Ex) as (? & _). auto.
      - intros i. rewrite Gx, G'. reflexivity. }
    assert (E2 : vrev d' = Ok d).
    { destruct (vrev_ok d' W') as (x & Ex & Wx & Lx & Gx).
      { intros i. rewrite G', Z.opp_involutive. apply D64. }
      rewrite Ex. f_equal. apply vwf_ext; auto.
      - destruct (vrev_vrev d' x W' N' Ex) as (? & _). auto.
      - intros i. rewrite Gx, G'. lia. }
    rewrite (run_bind ipReflect _ s0 tt (facing s0 d')).
    2:{ unfold ipReflect, ipTurn, mbind, getR. rewrite Dl, E1. reflexivity. }
    rewrite (run_bind (lift (Ok (Z.abs n))) _ (facing s0 d') (Z.abs n) (facing s0 d')) by reflexivity.
    pose proof (rep_next (length cs) (facing s0 d') (r_pos (s_r s)) cs q St0 P0 eq_refl) as R.
    rewrite <- Ps in R. change (r_pos (s_r s0)) with (r_pos (s_r (facing s0 d'))) in R. rewrite at_self in R.
    rewrite Ec. rewrite (run_bind _ _ _ _ _ R).
    unfold ipReflect, ipTurn, mbind, getR. cbn [at_ facing moved s_r r_delta set_r_delta set_r_pos].
    rewrite E2. reflexivity.
  - rewrite (Hp Pos) in P0. rewrite <- Dl in P0. rewrite facing_self in P0.
    rewrite (run_bind (ret tt) _ s0 tt s0) by reflexivity.
    rewrite (run_bind (lift (Ok (Z.abs n))) _ s0 (Z.abs n) s0) by reflexivity.
    pose proof (rep_next (length cs) s0 (r_pos (s_r s)) cs q St0 P0 eq_refl) as R.
    rewrite <- Ps, at_self in R. rewrite Ec. rewrite (run_bind _ _ _ _ _ R).
    unfold at_. rewrite Dl. reflexivity.
Qed.

Lemma path_of_walk s d : c_torus (u_cfg (w_uni (s_w s) (r_uni (s_r s)))) = false ->
  vwf d -> d <> [] -> lives (dims_of s) d -> bounds64 (space s) -> room64 (dims_of s) (space s) d ->
  forall n p q, lives (dims_of s) p -> inside (dims_of s) (space s) (vget p) ->
  walk (dims_of s) (space s) n p d = Ok (q, d) ->
  exists cs, length cs = n /\ Path (facing s d) p cs q.
Proof.
  intros T W N Ld B R. induction n as [|n IH]; intros p q Lp I E.
  - cbn [walk] in E. inversion E; subst. exists []. split; [reflexivity|constructor].
  - cbn [walk] in E. destruct (ip_next_lahey (dims_of s) (space s) p d) as (p1 & E1 & L1 & I1 & _); auto.
    rewrite E1 in E. cbn [bind fst snd] in E. destruct (IH p1 q L1 I1 E) as (cs & Lc & P).
    exists (f_get (here (facing s d)) p1 :: cs). cbn [length]. split; [now rewrite Lc|].
    econstructor; [|exact P]. change (r_delta (s_r (facing s d))) with d.
    change (c_torus (u_cfg (w_uni (s_w (facing s d)) (r_uni (s_r (facing s d)))))) with (c_torus (u_cfg (w_uni (s_w s) (r_uni (s_r s))))).
    rewrite T. exact E1.
Qed.

(** In Lahey-space, from any position in bounds: j always succeeds; its effect
    is that of |n| single steps; and when the n cells lie within the bounds it
    lands n deltas away. *)
Theorem C26_lahey_partial : forall F D s l,
  let n := hd 0 l in let p := r_pos (s_r s) in let d := r_delta (s_r s) in
  InLahey s -> Normal s 106 -> Holds s l -> -2147483648 < n <= 2147483647 ->
  exists d' q s', (forall i, vget d' i = if n <? 0 then - vget d i else vget d i) /\
    walk (dims_of s) (space s) (Z.to_nat (Z.abs n)) p d' = Ok (q, d') /\
    execute F (S D) 106 s = Ok (ENone, s') /\ Moved_stack s s' q d (tl l) /\
    ((forall k, 0 <= k <= Z.abs n -> inside (dims_of s) (space s) (along p d' k)) ->
     forall i, vget q i = vget p i + n * vget d i).
Proof.
  intros F D s l n p d HL HN H Rn. destruct HL as (T & St & W & Nd & Lp & Ld & B & R & I).
  assert (D64 : forall i, in64 (vget d i) /\ in64 (- vget d i)).
  { intros i. destruct (Nat.lt_ge_cases i (dims_of s)) as [Hi|Hi].
    - specialize (R i Hi). specialize (I i Hi). destruct (B i). fold d in R.
      unfold in64, INT64_MIN, INT64_MAX in *. lia.
    - unfold d. rewrite Ld by auto. unfold in64, INT64_MIN, INT64_MAX. lia. }
  destruct (vrev_ok d W (fun i => proj2 (D64 i))) as (dr & Er & Wr & _ & Gr).
  destruct (vrev_vrev d dr W Nd Er) as (Nr & _).
  set (d' := if n <? 0 then dr else d).
  assert (W' : vwf d') by (unfold d'; destruct (n <? 0); auto).
  assert (N' : d' <> []) by (unfold d'; destruct (n <? 0); auto).
  assert (L' : lives (dims_of s) d').
  { unfold d'. destruct (n <? 0); auto. intros i Hi. rewrite Gr. unfold d. rewrite Ld; auto. }
  assert (A' : forall i, Z.abs (vget d' i) = Z.abs (vget d i)).
  { intros i. unfold d'. destruct (n <? 0); auto. rewrite Gr. lia. }
  assert (R' : room64 (dims_of s) (space s) d').
  { intros i Hi. rewrite A'. now apply R. }
  destruct (walk_forward (dims_of s) (space s) d' W' N' L' B R' (Z.to_nat (Z.abs n)) p Lp I) as (q & E & Lq & Iq).
  destruct (path_of_walk s d' T W' N' L' B R' (Z.to_nat (Z.abs n)) p q Lp I E) as (cs & Lc & P).
  destruct (C26_partial F D s l d' cs q HN H St Rn W Nd (fun i => proj2 (D64 i))) as (s' & E' & M'); auto.
  - intros X. unfold d'. fold n in X. destruct (Z.ltb_spec n 0); [lia|reflexivity].
  - intros X. fold n in X. split; auto. split; auto. intros i. unfold d'. destruct (Z.ltb_spec n 0); [apply Gr|lia].
  - intros i. apply D64.
  - fold n. lia.
  - exists d', q, s'. split.
    { intros i. unfold d'. destruct (n <? 0); auto. }
    split; auto. split; auto. split; auto. intros J i.
    destruct (walk_straight (dims_of s) (space s) d' W' N' L' B R' (Z.to_nat (Z.abs n)) p Lp I) as (q' & E1 & _ & G).
    { intros j Hj. apply J. lia. }
    rewrite E in E1. inversion E1; subst q'. rewrite G. unfold along, d'.
    destruct (Z.ltb_spec n 0); [rewrite Gr|]; rewrite Z2Nat.id by lia; [rewrite Z.abs_neq by lia|rewrite Z.abs_eq by lia]; lia.
Qed.

(** The count is an int: 2^32 j is 0 j, and -2^31 j is undefined. *)
Theorem C26_refuted : exists s, InLahey s /\ Normal s 106 /\
  Holds s [4294967296] /\
  pos_after (execute 100 1 106 s) = Ok (ENone, r_pos (s_r s)) /\
  (forall i, 0 <= i <= 4 -> inside (dims_of s) (space s) (vget (mkvec [i]))) /\
  exists s', Normal s' 106 /\ Holds s' [-2147483648] /\ execute 100 1 106 s' = Bad BadOverflow.
Proof.
  set (s := with_list [4294967296] (start98 2 [106; 49; 50; 51; 64] [])).
  exists s. split; [apply lahey_b_ok; vm_compute; reflexivity|].
  split; [vm_compute; repeat split|]. split; [apply holds_with_list; vm_compute; [reflexivity|discriminate]|].
  split; [vm_compute; reflexivity|].
  split.
  { intros i Hi j Hj. assert (Dm : dims_of s = 2%nat) by (vm_compute; reflexivity). rewrite Dm in Hj.
    assert (M0 : f_min (space s) 0 = 0 /\ f_max (space s) 0 = 4 /\ f_min (space s) 1 = 0 /\ f_max (space s) 1 = 0)
      by (vm_compute; repeat split).
    destruct M0 as (M0 & M1 & M2 & M3).
    assert (V : vget (mkvec [i]) 0 = i /\ vget (mkvec [i]) 1 = 0).
    { unfold mkvec, normalize. destruct i; vm_compute; auto. }
    destruct V as (V0 & V1). destruct j as [|[|j]]; [rewrite M0, M1, V0; lia|rewrite M2, M3, V1; lia|lia]. }
  exists (with_list [-2147483648] (start98 2 [106; 49; 50; 51; 64] [])).
  split; [vm_compute; repeat split|]. split; [apply holds_with_list; vm_compute; [reflexivity|discriminate]|].
  vm_compute. reflexivity.
Qed.

(** "j" at column 0 of a five-column line with 3 on the stack, and with -2. *)
Example C26_ex_hyp : forall n, In n [3; -2] ->
  let s := with_list [n] (start98 2 [106; 49; 50; 51; 64] []) in
  InLahey s /\ Normal s 106 /\ Holds s [n].
Proof.
  intros n [<-|[<-|[]]]; (split; [apply lahey_b_ok; vm_compute; reflexivity|]; split;
    [vm_compute; repeat split|apply holds_with_list; vm_compute; [reflexivity|discriminate]]).
Qed.
Example C26_ex : map (fun n => pos_after (execute 100 1 106 (with_list [n] (start98 2 [106; 49; 50; 51; 64] []))))
  [3; -2; 0; 7] = [Ok (ENone, mkvec [3]); Ok (ENone, mkvec [3]); Ok (ENone, mkvec [0]); Ok (ENone, mkvec [2])].
Proof. vm_compute. reflexivity. Qed.
Print Assumptions C26_partial.
Print Assumptions C26_lahey_partial.
Print Assumptions C26_refuted.

(** ** C27 k executes the next instruction n times, or skips it when n is zero *)

(** Executing [c] [n] times in a row, whatever each execution reports. *)
Inductive Times (F : positive) (D : nat) (c : Z) : nat -> st -> st -> Prop :=
| Times_0 s : Times F D c 0 s s
| Times_S n s e s1 s2 : execute F D c s = Ok (e, s1) -> Times F D c n s1 s2 -> Times F D c (S n) s s2.

Definition byte (c : Z) : Prop := -128 <= c <= 127.

Lemma semi_seek : iter_semi_step = seek_step (fun c => to_i8 c =? 59).
Proof. reflexivity. Qed.

(** The scan for the instruction to repeat. *)
Lemma iter_scan F s J : r_stopped (s_r s) = false -> Skipped (fun c => c = 32) J ->
  (length J < Pos.to_nat F)%nat ->
  forall G p cs c q, f_get (here s) p :: cs = J ++ [c] -> Forall byte (J ++ [c]) ->
  c <> 32 -> c <> 59 -> Path s p cs q -> (length J < Pos.to_nat G)%nat ->
  loopM G (iter_step F) (to_i8 (f_get (here s) p)) (at_ s p) = Ok (c, at_ s q).
Proof.
  intros St SK. induction SK as [|x J Bx SK IH|body J Nb SK IH]; intros LF G p cs c q E Fb N1 N2 P LG.
  - cbn [app] in E, Fb. injection E as E1 E2. subst cs. inversion P; subst.
    inversion Fb as [|? ? Bc _]; subst. rewrite to_i8_id by exact Bc. apply loopM_inr.
    unfold iter_step. apply Z.eqb_neq in N1, N2. rewrite N1, N2. reflexivity.
  - cbn [app length] in *. injection E as E1 E2. inversion Fb as [|? ? Bc Fb']; subst x.
    assert (X : exists y cs', cs = y :: cs' /\ y :: cs' = J ++ [c]).
    { destruct cs as [|y cs']; [destruct J; discriminate|eauto]. }
    destruct X as (y & cs' & -> & E3). inversion P as [|pa p1 ca qa En Hp]; subst.
    rewrite E1. rewrite (loopM_inl G (iter_step F) (to_i8 32) (at_ s p) (to_i8 (f_get (here s) p1)) (at_ s p1)); [|lia|].
    + apply (IH ltac:(lia) _ p1 cs' c q); auto. lia.
    + unfold iter_step. cbn [orb Z.eqb Pos.eqb].
      change (to_i8 32 =? 32) with true. change (to_i8 32 =? 59) with false. cbn [orb].
      rewrite (run_bind (ret tt) _ (at_ s p) tt (at_ s p)) by reflexivity.
      rewrite (run_bind _ _ _ _ _ (path_next s p p1 St En)).
      rewrite (run_bind _ _ _ _ _ (path_get s p1)). reflexivity.
  - cbn [app length] in *. rewrite app_length in LF, LG. cbn [length] in LF, LG.
    injection E as E1 E2. rewrite <- app_assoc in E2. cbn [app] in E2.
    assert (X : exists y cs', cs = (body ++ [59]) ++ y :: cs' /\ y :: cs' = J ++ [c]).
    { exists (hd 0 (J ++ [c])), (tl (J ++ [c])). rewrite E2, <- app_assoc. cbn [app].
      assert (Y : hd 0 (J ++ [c]) :: tl (J ++ [c]) = J ++ [c]) by (now destruct J).
      rewrite Y. auto. }
    destruct X as (y & cs' & -> & E3).
    inversion Fb as [|? ? B1 Fb']; subst. rewrite <- app_assoc in Fb'. cbn [app] in Fb'.
    apply Forall_app in Fb'. destruct Fb' as (Fb1 & Fb2). inversion Fb2 as [|? ? _ Fb3]; subst.
    destruct (path_app_inv s _ _ _ _ P) as (p2 & P1 & P2). inversion P2 as [|pa p1 ca qa En Hp]; subst.
    rewrite E1. rewrite (loopM_inl G (iter_step F) (to_i8 59) (at_ s p) (to_i8 (f_get (here s) p1)) (at_ s p1)); [|lia|].
    + apply (IH ltac:(lia) _ p1 cs' c q); auto. lia.
    + unfold iter_step. change (to_i8 59 =? 32) with false. change (to_i8 59 =? 59) with true. cbn [orb].
      rewrite semi_seek.
      assert (Fs : Forall (fun x => (to_i8 x =? 59) = false) body).
      { apply Forall_forall. intros z Hz. rewrite Forall_forall in Fb1. rewrite to_i8_id by (apply Fb1; auto).
        apply Z.eqb_neq. intros ->. contradiction. }
      rewrite (run_bind _ _ _ _ _ (seek_run (fun c => to_i8 c =? 59) s St body F p 59 p2 P1 eq_refl Fs ltac:(lia))).
      rewrite (run_bind _ _ _ _ _ (path_next s p2 p1 St En)).
      rewrite (run_bind _ _ _ _ _ (path_get s p1)). reflexivity.
Qed.

Lemma times_rep F D c n : forall s s', Times F D c n s s' -> repM n (exec_again (execute F D) c) s = Ok (tt, s').
Proof.
  induction n as [|n IH]; intros s s' T; inversion T as [|? ? e s1 ? E T']; subst; [reflexivity|].
  cbn [repM]. assert (X : exec_again (execute F D) c s = Ok (tt, s1)).
  { unfold exec_again. now rewrite (run_bind _ _ _ _ _ E). }
  rewrite (run_bind _ _ _ _ _ X). now apply IH.
Qed.

Section K.
Variables (F : positive) (D : nat) (s : st) (l : list Z) (J : list Z) (c : Z) (q : vec).
Hypothesis (HN : Normal s 107) (HH : Holds s l) (Hm : Home s) (St : r_stopped (s_r s) = false)
  (SK : Skipped (fun c => c = 32) J) (By : Forall byte (J ++ [c])) (N1 : c <> 32) (N2 : c <> 59)
  (P : Path s (r_pos (s_r s)) (J ++ [c]) q) (L : (length J < Pos.to_nat F)%nat).

Lemma iterate_scan : exists s1, Only_stack s s1 (tl l) /\
  execute F (S D) 107 s =
  (repM (Z.to_nat (to_i32 (hd 0 l))) (exec_again (execute F D) c) ;;;
   (if to_i32 (hd 0 l) =? 0 then ipNext else ret tt) ;;; ok) s1.
Proof.
  rewrite (execute_normal F D _ s _ _ HN eq_refl). cbn [run_meth]. unfold iterate.
  rewrite (run_bind getPos _ s (r_pos (s_r s)) s) by reflexivity.
  assert (X : exists p1 cs, ipNext s = Ok (tt, at_ s p1) /\ f_get (here s) p1 :: cs = J ++ [c] /\ Path s p1 cs q).
  { inversion P as [pa A B|pa p1 cs qa En Hp A B]; [destruct J; discriminate|].
    exists p1, cs. split; auto. rewrite <- (at_self s) at 1. now apply path_next. }
  destruct X as (p1 & cs & E1 & E2 & P2).
  rewrite (run_bind _ _ _ _ _ E1). rewrite (run_bind getR _ (at_ s p1) (s_r (at_ s p1)) (at_ s p1)) by reflexivity.
  assert (E3 : fget (r_fld (s_r (at_ s p1))) (r_pos (s_r (at_ s p1))) (at_ s p1) = Ok (f_get (here s) p1, at_ s p1)).
  { unfold Home in Hm. change (r_fld (s_r (at_ s p1))) with (r_fld (s_r s)). rewrite Hm. reflexivity. }
  rewrite (run_bind _ _ _ _ _ E3).
  rewrite (run_bind _ _ _ _ _ (iter_scan F s J St SK L F p1 cs c q E2 By N1 N2 P2 L)).
  rewrite (run_bind (ipSetPos (r_pos (s_r s))) _ (at_ s q) tt s).
  2:{ transitivity (Ok (tt, at_ s (r_pos (s_r s)))); [reflexivity|now rewrite at_self]. }
  destruct (popS_plain s l HH) as (s1 & E & C). rewrite (run_bind _ _ _ _ _ E).
  exists s1. auto.
Qed.

(** n > 0: n executions from k's own position, the count popped. *)
Theorem C27_times : 0 < hd 0 l <= 2147483647 ->
  exists s1, Only_stack s s1 (tl l) /\
    forall s2, Times F D c (Z.to_nat (hd 0 l)) s1 s2 -> execute F (S D) 107 s = Ok (ENone, s2).
Proof.
  intros R. destruct iterate_scan as (s1 & C & E). exists s1. split; auto.
  intros s2 T. rewrite E, to_i32_id by lia.
  rewrite (run_bind _ _ _ _ _ (times_rep F D c _ _ _ T)).
  destruct (Z.eqb_spec (hd 0 l) 0); [lia|]. reflexivity.
Qed.
(** n < 0: nothing. *)
Theorem C27_negative : -2147483648 <= hd 0 l < 0 ->
  exists s1, Only_stack s s1 (tl l) /\ execute F (S D) 107 s = Ok (ENone, s1).
Proof.
  intros R. destruct iterate_scan as (s1 & C & E). exists s1. split; auto.
  rewrite E, to_i32_id by lia. replace (Z.to_nat (hd 0 l)) with 0%nat by lia.
  destruct (Z.eqb_spec (hd 0 l) 0); [lia|]. reflexivity.
Qed.
(** n = 0: one extra step, which skips the instruction exactly when it is the
    next cell. *)
Theorem C27_zero_partial : hd 0 l = 0 -> J = [] ->
  exists s', execute F (S D) 107 s = Ok (ENone, s') /\ Moved_stack s s' q (r_delta (s_r s)) (tl l).
Proof.
  intros R JE. destruct iterate_scan as (s1 & C & E).
  exists (moved s1 q (r_delta (s_r s))). split; [|exists s1; auto].
  rewrite E, R. change (to_i32 0) with 0. cbn [Z.to_nat repM Z.eqb].
  rewrite (run_bind (ret tt) _ s1 tt s1) by reflexivity.
  rewrite JE in P. cbn [app] in P. inversion P as [|pa p1 cs qa En Hp]. inversion Hp. subst.
  rewrite (run_bind ipNext _ s1 tt (moved s1 q (r_delta (s_r s)))); [reflexivity|].
  apply ipNext_run; [rewrite (Only_stack_r _ _ _ C); exact St|].
  unfold next_of. rewrite (Only_stack_w _ _ _ C), (Only_stack_r _ _ _ C). exact En.
Qed.
End K.

(** "0k 5@": the 5 is executed all the same (the step skips the space). *)
Theorem C27_zero_refuted : exists s s1 s2,
  Normal s 107 /\ Holds s [0] /\ Home s /\
  Path s (r_pos (s_r s)) [32; 53] (mkvec [2]) /\
  execute 100 1 107 s = Ok (ENone, s1) /\ ipNext s1 = Ok (tt, s2) /\
  r_pos (s_r s2) = mkvec [2].
Proof.
  set (s := with_list [0] (start98 2 [107; 32; 53; 64] [])).
  destruct (execute 100 1 107 s) as [[e s1]|] eqn:E; [|vm_compute in E; discriminate].
  destruct (ipNext s1) as [[[] s2]|] eqn:E2.
  2:{ exfalso. vm_compute in E. inversion E; subst. vm_compute in E2. discriminate. }
  exists s, s1, s2. split; [vm_compute; repeat split|].
  split; [apply holds_with_list; vm_compute; [reflexivity|discriminate]|].
  split; [vm_compute; reflexivity|].
  split.
  { assert (X : forall n c, ip_next false (dims_of s) (here s) (mkvec [n]) (mkvec [1]) = Ok (mkvec [n + 1], mkvec [1]) ->
              f_get (here s) (mkvec [n + 1]) = c ->
              forall cs q, Path s (mkvec [n + 1]) cs q ->
              Path s (mkvec [n]) (c :: cs) q).
    { intros n c En <- cs q Pq. econstructor; eauto. }
    apply (X 0); [vm_compute; reflexivity|vm_compute; reflexivity|].
    apply (X 1); [vm_compute; reflexivity|vm_compute; reflexivity|]. constructor. }
  split; [|split; [exact E2|]].
  - assert (X : e = ENone) by (vm_compute in E; now inversion E). rewrite <- X. exact E.
  - vm_compute in E. inversion E; subst. vm_compute in E2. inversion E2; subst. reflexivity.
Qed.

(** "3k 5" and "2k;x;:" *)
Definition ex_k (l : list Z) (t : list Z) : st := with_list l (start98 2 t []).
Example C27_ex_hyp : let s := ex_k [2; 9] [107; 59; 120; 59; 32; 58; 64] in
  Normal s 107 /\ Holds s [2; 9] /\ Home s /\ Skipped (fun c => c = 32) [59; 120; 59; 32] /\
  Path s (r_pos (s_r s)) ([59; 120; 59; 32] ++ [58]) (mkvec [5]).
Proof.
  set (s := ex_k [2; 9] [107; 59; 120; 59; 32; 58; 64]).
  split; [vm_compute; repeat split|].
  split; [apply holds_with_list; vm_compute; [reflexivity|discriminate]|].
  split; [vm_compute; reflexivity|].
  split.
  { apply (Skipped_section _ [120] [32]); [intros [H|[]]; discriminate|].
    apply Skipped_blank; [reflexivity|constructor]. }
  assert (X : forall n c, ip_next false (dims_of s) (here s) (mkvec [n]) (mkvec [1]) = Ok (mkvec [n + 1], mkvec [1]) ->
              f_get (here s) (mkvec [n + 1]) = c ->
              forall cs q, Path s (mkvec [n + 1]) cs q ->
              Path s (mkvec [n]) (c :: cs) q).
  { intros n c En <- cs q Pq. econstructor; eauto. }
  cbn [app].
  apply (X 0); [vm_compute; reflexivity|vm_compute; reflexivity|].
  apply (X 1); [vm_compute; reflexivity|vm_compute; reflexivity|].
  apply (X 2); [vm_compute; reflexivity|vm_compute; reflexivity|].
  apply (X 3); [vm_compute; reflexivity|vm_compute; reflexivity|].
  apply (X 4); [vm_compute; reflexivity|vm_compute; reflexivity|]. constructor.
Qed.
Example C27_ex : run_stack (execute 100 2 107) (ex_k [2; 9] [107; 59; 120; 59; 32; 58; 64]) = Ok (ENone, [9; 9; 9]).
Proof. vm_compute. reflexivity. Qed.
Print Assumptions C27_times.
Print Assumptions C27_negative.
Print Assumptions C27_zero_partial.
Print Assumptions C27_zero_refuted.
