(** * Properties C26, C27, C28, C30 and C66: jumps, repetition, comments,
    errors and ticks.  See PropsStack.v for the vocabulary and FlowProofs.v for
    [Path] and [Skipped]. *)

From Coq Require Import ZArith List Bool Lia.
From Verif Require Import Base BaseProofs VectorModel VectorProofs StackModel StackProofs
  FieldModel FieldProofs World IpModel LoadModel FingModel CoreModel UniModel IpProofs
  ExecProofs FlowProofs States PropsStack PropsIO PropsTurn.
Import ListNotations.
Open Scope Z_scope.

(** The IP of [s] runs in Lahey-space, is inside the bounds, and its delta is
    such that one step beyond the bounds is still a 64-bit position. *)
Definition InLahey (s : st) : Prop :=
  c_torus (u_cfg (w_uni (s_w s) (r_uni (s_r s)))) = false /\
  r_stopped (s_r s) = false /\
  vwf (r_delta (s_r s)) /\ r_delta (s_r s) <> [] /\
  lives (dims_of s) (r_pos (s_r s)) /\ lives (dims_of s) (r_delta (s_r s)) /\
  bounds64 (space s) /\ room64 (dims_of s) (space s) (r_delta (s_r s)) /\
  inside (dims_of s) (space s) (vget (r_pos (s_r s))).

(** A checkable form of [InLahey], for the examples. *)
Definition lahey_b (s : st) : bool :=
  let f := space s in let n := dims_of s in let p := r_pos (s_r s) in let d := r_delta (s_r s) in
  negb (c_torus (u_cfg (w_uni (s_w s) (r_uni (s_r s))))) && negb (r_stopped (s_r s)) &&
  (Nat.leb (length d) 1 || negb (last d 0 =? 0)) && Nat.ltb 0 (length d) && forallb (Z.eqb 0) (skipn n p) && forallb (Z.eqb 0) (skipn n d) &&
  forallb in64b (f_mins f) && forallb in64b (f_maxs f) &&
  forallb (fun i => in64b (f_min f i - Z.abs (vget d i)) && in64b (f_max f i + Z.abs (vget d i)) &&
                    (f_min f i <=? vget p i) && (vget p i <=? f_max f i)) (seq 0 n).
Lemma in64b_ok x : in64b x = true -> in64 x.
Proof. apply in64b_true. Qed.
Lemma zeros_ok n v : forallb (Z.eqb 0) (skipn n v) = true -> lives n v.
Proof.
  intros H i Hi. rewrite forallb_forall in H. rewrite vget_nth.
  destruct (Nat.lt_ge_cases i (length v)) as [L|L]; [|now rewrite nth_overflow].
  symmetry. apply Z.eqb_eq. apply H.
  replace (nth i v 0) with (nth i (firstn n v ++ skipn n v) 0) by now rewrite firstn_skipn.
  rewrite app_nth2 by (rewrite firstn_length; lia).
  apply nth_In. rewrite skipn_length, firstn_length. lia.
Qed.
Lemma lahey_b_ok s : lahey_b s = true -> InLahey s.
Proof.
  unfold lahey_b. rewrite !andb_true_iff. intros ((((((((T & St) & V) & W) & Lp) & Ld) & Mi) & Ma) & B).
  rewrite negb_true_iff in T, St. apply Nat.ltb_lt in W.
  rewrite forallb_forall in Mi, Ma, B.
  assert (B' : forall i, (i < dims_of s)%nat ->
     in64 (f_min (space s) i - Z.abs (vget (r_delta (s_r s)) i)) /\
     in64 (f_max (space s) i + Z.abs (vget (r_delta (s_r s)) i)) /\
     f_min (space s) i <= vget (r_pos (s_r s)) i <= f_max (space s) i).
  { intros i Hi. specialize (B i). rewrite !andb_true_iff, !Z.leb_le in B.
    destruct B as (((B1 & B2) & B3) & B4); [apply in_seq; lia|].
    auto using in64b_ok. }
  split; auto. split; auto.
  split; [rewrite orb_true_iff, Nat.leb_le, negb_true_iff, Z.eqb_neq in V; exact V|].
  split; [intros X; rewrite X in W; cbn in W; lia|].
  split; [now apply zeros_ok|]. split; [now apply zeros_ok|].
  split; [|split; intros i Hi; now destruct (B' i Hi)].
  intros i. unfold f_min, f_max.
  assert (Z0 : in64 0) by (unfold in64, INT64_MIN, INT64_MAX; lia).
  split; match goal with |- context [Nat.ltb ?a ?b] => destruct (Nat.ltb_spec a b) end; auto;
    apply in64b_ok; auto using nth_In.
Qed.

(** ** C28 ; always finds its end in Lahey-space *)

Section Cycle.
  Variable s : st.
  Hypothesis HL : InLahey s.
  Let d := r_delta (s_r s).
  Let pw (n : nat) : vec :=
    match walk (dims_of s) (space s) n (r_pos (s_r s)) d with Ok (q, _) => q | Bad _ => [] end.

  Lemma pw_walk n : walk (dims_of s) (space s) n (r_pos (s_r s)) d = Ok (pw n, d) /\
    lives (dims_of s) (pw n) /\ inside (dims_of s) (space s) (vget (pw n)).
  Proof.
    destruct HL as (T & St & W & N & Lp & Ld & B & R & I).
    destruct (walk_forward (dims_of s) (space s) d W N Ld B R n (r_pos (s_r s)) Lp I) as (p1 & E & L & J).
    unfold pw. rewrite E. auto.
  Qed.
  Lemma pw_step n : ip_next false (dims_of s) (space s) (pw n) d = Ok (pw (S n), d).
  Proof.
    destruct (pw_walk n) as (E & _ & _). destruct (pw_walk (S n)) as (E' & _ & _).
    rewrite walk_snoc, E in E'. exact E'.
  Qed.
  Lemma pw_path k : forall i, Path s (pw i) (map (fun j => f_get (space s) (pw j)) (seq (S i) k)) (pw (i + k)).
  Proof.
    induction k as [|k IH]; intros i; cbn [seq map].
    - rewrite Nat.add_0_r. constructor.
    - change (space s) with (here s). econstructor.
      + destruct HL as (T & _). rewrite T. apply pw_step.
      + rewrite Nat.add_succ_r. apply (IH (S i)).
  Qed.

  Lemma least (P : nat -> bool) n : P n = true -> (0 < n)%nat ->
    exists k, (0 < k <= n)%nat /\ P k = true /\ forall j, (0 < j < k)%nat -> P j = false.
  Proof.
    induction n as [n IH] using lt_wf_ind. intros H L.
    assert (X : (exists m, (0 < m < n)%nat /\ P m = true) \/ forall m, (0 < m < n)%nat -> P m = false).
    { clear. induction n as [|n IH]; [right; intros; lia|].
      destruct IH as [(m & A & B)|A]; [left; exists m; split; auto; lia|].
      destruct (P n) eqn:E.
      - destruct (Nat.eq_dec n 0); [right; intros; lia|]. left. exists n. split; auto; lia.
      - right. intros m Hm. destruct (Nat.eq_dec m n); [now subst|]. apply A. lia. }
    destruct X as [(m & A & B)|A].
    - destruct (IH m ltac:(lia) B ltac:(lia)) as (k & K1 & K2 & K3). exists k. split; [lia|auto].
    - exists n. split; [lia|auto].
  Qed.

  (** The first cell at or after the next one that holds [c], when the IP's own
      cell holds it. *)
  Lemma find_next c : f_get (space s) (r_pos (s_r s)) = c ->
    exists cs q, Path s (r_pos (s_r s)) (cs ++ [c]) q /\ ~ In c cs /\ Z.of_nat (length cs) < 2 ^ 65.
  Proof.
    intros C. destruct HL as (T & St & W & N & Lp & Ld & B & R & I).
    destruct (lahey_cycle _ _ _ _ W N Lp Ld B R I) as (n & p' & N0 & N65 & E & G).
    assert (Pn : (f_get (space s) (pw n) =? c) = true).
    { apply Z.eqb_eq. rewrite <- C. apply f_get_ext. unfold pw, d. rewrite E. exact G. }
    destruct (least (fun j => f_get (space s) (pw j) =? c) n Pn N0) as (k & K1 & K2 & K3).
    exists (map (fun j => f_get (space s) (pw j)) (seq 1 (k - 1))), (pw k).
    assert (P0 : pw 0 = r_pos (s_r s)) by reflexivity.
    split; [|split].
    - pose proof (pw_path k 0) as P. rewrite P0 in P. cbn [Nat.add] in P.
      replace k with ((k - 1) + 1)%nat in P at 1 by lia. rewrite seq_app, map_app in P.
      replace (1 + (k - 1))%nat with k in P by lia. cbn [seq map] in P.
      apply Z.eqb_eq in K2. rewrite K2 in P. exact P.
    - intros X. apply in_map_iff in X. destruct X as (j & Ej & Hj). apply in_seq in Hj.
      specialize (K3 j ltac:(lia)). apply Z.eqb_neq in K3. contradiction.
    - rewrite map_length, seq_length. lia.
  Qed.
End Cycle.

Theorem C28_comment : forall F D s,
  InLahey s -> Normal s 59 -> f_get (space s) (r_pos (s_r s)) = 59 ->
  2 ^ 65 <= Zpos F ->
  exists cs q, Path s (r_pos (s_r s)) (cs ++ [59]) q /\ ~ In 59 cs /\
    execute F (S D) 59 s = Ok (ESkip, moved s q (r_delta (s_r s))).
Proof.
  intros F D s HL HN C HF. destruct (find_next s HL 59 C) as (cs & q & P & N & L).
  exists cs, q. split; auto. split; auto. rewrite exec_semi by auto.
  unfold jumpOver. change jump_over_step with (seek_step (fun c => c =? 59)).
  destruct HL as (_ & St & _).
  pose proof (seek_run (fun c => c =? 59) s St cs F (r_pos (s_r s)) 59 q P eq_refl (not_semi _ N) ltac:(lia)) as R.
  rewrite at_self in R. rewrite (run_bind _ _ _ _ _ R). reflexivity.
Qed.
(** Only the position differs afterwards. *)
Theorem C28_frame : forall s q,
  let s' := moved s q (r_delta (s_r s)) in
  s_w s' = s_w s /\ s_r s' = set_r_pos q (s_r s).
Proof. intros s q. split; [reflexivity|]. unfold moved. cbn [s_r]. now destruct (s_r s). Qed.

(** The line ";@" : the only semicolon is found again by wrapping around. *)
Definition ex_semi : st := start98 2 [59; 64; 59; 53; 64] [].
Example C28_ex_hyp : InLahey ex_semi /\ Normal ex_semi 59 /\ f_get (space ex_semi) (r_pos (s_r ex_semi)) = 59.
Proof.
  split; [apply lahey_b_ok; vm_compute; reflexivity|]. vm_compute. repeat split.
Qed.
Definition pos_after {A} (x : res (A * st)) : res (A * vec) :=
  match x with Ok (a, s) => Ok (a, r_pos (s_r s)) | Bad e => Bad e end.
Example C28_ex : pos_after (execute 100 1 59 ex_semi) = Ok (ESkip, mkvec [2]).
Proof. vm_compute. reflexivity. Qed.
Print Assumptions C28_comment.

(** ** C66 A tick only runs one non-skipped instruction *)

(** The cells from the IP's own onwards are [J ++ [c]], where [J] is made of
    blanks and [;...;] sections; [c] is at [q]. *)
Definition Reaches (blank : Z -> Prop) (s : st) (J : list Z) (c : Z) (q : vec) : Prop :=
  Skipped blank J /\ exists cs, f_get (space s) (r_pos (s_r s)) :: cs = J ++ [c] /\
    Path s (r_pos (s_r s)) cs q.

(** The skipped characters have their standard meaning and the IP can move. *)
Definition Ticking (s : st) (J : list Z) : Prop :=
  r_stopped (s_r s) = false /\ no_debug s /\ Normal s 32 /\ Normal s 9 /\ (In 59 J -> Normal s 59).

Lemma reaches_cell s J c q blank : Reaches blank s J c q -> f_get (space s) q = c.
Proof.
  intros (_ & cs & E & P).
  assert (X : forall p cs q, Path s p cs q -> forall d, f_get (space s) q = last (f_get (space s) p :: cs) d).
  { intros p cs' q' P'. induction P' as [p|p p1 cs' q' En Hp IH]; intros d; [reflexivity|].
    rewrite (IH d). change (here s) with (space s). cbn [last]. now destruct cs'. }
  rewrite (X _ _ _ P 0), E, last_last. reflexivity.
Qed.

Lemma tick_reaches F D s J c q :
  Reaches (fun c => c = 32 \/ c = 9) s J c q -> Ticking s J -> (length J < Pos.to_nat F)%nat ->
  exists G, tick F (S D) s = loopM G (tick_step F (S D)) tt (at_ s q).
Proof.
  intros (SK & cs & E & P) (St & Nd & N32 & N9 & N59) L.
  destruct (tick_skips F D s J SK St Nd N32 N9 N59 L F (r_pos (s_r s)) cs c q E P L) as (G & R).
  exists G. rewrite at_self in R. exact R.
Qed.
Lemma tick_step_exec F D s c e s' : no_debug s -> f_get (space s) (r_pos (s_r s)) = c ->
  execute F D c s = Ok (e, s') ->
  tick_step F D tt s =
  (e' <- match e with
         | ENone | ESkip | EBlock => ret e
         | EUnimp | ENotAvail | EUnspec =>
             if r_handler (s_r s') then errorHandler e else ipNext ;;; ret e
         end ;;
   match e' with
   | ENone => ipNext ;;; ret (inr tt)
   | ESkip => ipNext ;;; ret (inl tt)
   | _ => ret (inr tt)
   end) s'.
Proof.
  intros Nd C E. unfold tick_step, isMode, getU, mbind. unfold ret at 1. unfold no_debug in Nd. rewrite Nd.
  change (ipGet s) with (Ok (f_get (space s) (r_pos (s_r s)), s) : res (Z * st)). cbv beta iota. rewrite C, E.
  reflexivity.
Qed.

(** A tick that meets [c] after the skipped cells executes [c], once, in the
    state in which only the IP's position has changed, and then makes one
    step. *)
Theorem C66_tick : forall F D s J c q s1 s2,
  Reaches (fun c => c = 32 \/ c = 9) s J c q -> Ticking s J -> (length J < Pos.to_nat F)%nat ->
  execute F (S D) c (moved s q (r_delta (s_r s))) = Ok (ENone, s1) ->
  ipNext s1 = Ok (tt, s2) ->
  tick F (S D) s = Ok (tt, s2).
Proof.
  intros F D s J c q s1 s2 HR HT L E N.
  destruct (tick_reaches F D s J c q HR HT L) as (G & ->). apply loopM_inr.
  rewrite (tick_step_exec F (S D) (at_ s q) c ENone s1); [| |exact (reaches_cell _ _ _ _ _ HR)|exact E].
  - unfold mbind, ret. rewrite N. reflexivity.
  - destruct HT as (_ & Nd & _). exact Nd.
Qed.
(** An instruction that blocks (a dormant IP) keeps its position. *)
Theorem C66_block : forall F D s J c q s1,
  Reaches (fun c => c = 32 \/ c = 9) s J c q -> Ticking s J -> (length J < Pos.to_nat F)%nat ->
  execute F (S D) c (moved s q (r_delta (s_r s))) = Ok (EBlock, s1) ->
  tick F (S D) s = Ok (tt, s1).
Proof.
  intros F D s J c q s1 HR HT L E.
  destruct (tick_reaches F D s J c q HR HT L) as (G & ->). apply loopM_inr.
  rewrite (tick_step_exec F (S D) (at_ s q) c EBlock s1); [| |exact (reaches_cell _ _ _ _ _ HR)|exact E].
  - reflexivity.
  - destruct HT as (_ & Nd & _). exact Nd.
Qed.
(** An undefined execution of [c] is an undefined tick, and nothing else is. *)
Theorem C66_undefined : forall F D s J c q e,
  Reaches (fun c => c = 32 \/ c = 9) s J c q -> Ticking s J -> (length J < Pos.to_nat F)%nat ->
  execute F (S D) c (moved s q (r_delta (s_r s))) = Bad e ->
  tick F (S D) s = Bad e.
Proof.
  intros F D s J c q e HR HT L E.
  destruct (tick_reaches F D s J c q HR HT L) as (G & ->). apply loopM_err.
  unfold tick_step, isMode, getU, mbind. unfold ret at 1. destruct HT as (_ & Nd & _).
  unfold no_debug in Nd. change (testmode MODE_DEBUG (w_uni (s_w (at_ s q)) (r_uni (s_r (at_ s q)))))
    with (testmode MODE_DEBUG (w_uni (s_w s) (r_uni (s_r s)))). rewrite Nd.
  rewrite path_get. cbv beta iota.
  pose proof (reaches_cell _ _ _ _ _ HR) as RC. change (space s) with (here s) in RC. rewrite RC.
  change (at_ s q) with (moved s q (r_delta (s_r s))). rewrite E. reflexivity.
Qed.
(** Conversely, when every cell of the IP's path is blank, the tick never ends:
    no amount of fuel suffices. *)
Theorem C66_blank_line : forall F D s,
  InLahey s -> no_debug s -> Normal s 32 ->
  (forall n q, walk (dims_of s) (space s) n (r_pos (s_r s)) (r_delta (s_r s)) = Ok (q, r_delta (s_r s)) ->
     f_get (space s) q = 32) ->
  tick F (S D) s = Bad BadFuel.
Proof.
  intros F D s HL Nd N32 B. unfold tick.
  apply (loopM_invariant F (tick_step F (S D))
           (fun _ s' => exists n q, s' = at_ s q /\
              walk (dims_of s) (space s) n (r_pos (s_r s)) (r_delta (s_r s)) = Ok (q, r_delta (s_r s)))).
  2:{ exists 0%nat, (r_pos (s_r s)). split; [now rewrite at_self|reflexivity]. }
  intros a s' (n & q & -> & E). exists tt. destruct (pw_walk s HL (S n)) as (E1 & _).
  set (q1 := match walk (dims_of s) (space s) (S n) (r_pos (s_r s)) (r_delta (s_r s)) with
             | Ok (x, _) => x | Bad _ => [] end) in *.
  exists (at_ s q1). split; [|exists (S n), q1; split; auto].
  destruct a. apply (tick_step_skip F (S D) _ (at_ s q)); auto.
  - change (f_get (here (at_ s q)) (r_pos (s_r (at_ s q)))) with (f_get (space s) q).
    rewrite (B n q E). apply exec_blank; auto.
  - apply path_next; [now destruct HL as (_ & St & _)|].
    rewrite walk_snoc, E in E1. cbn [bind fst snd] in E1.
    destruct HL as (T & _). rewrite T. exact E1.
Qed.

Definition ex_tick : st := start98 2 [32; 59; 52; 59; 32; 53; 64] [].
Example C66_ex_hyp : Reaches (fun c => c = 32 \/ c = 9) ex_tick [32; 59; 52; 59; 32] 53 (mkvec [5]) /\
  Ticking ex_tick [32; 59; 52; 59; 32].
Proof.
  split.
  - split.
    + apply Skipped_blank; auto. apply (Skipped_section _ [52] [32]).
      * intros [H|[]]. discriminate.
      * apply Skipped_blank; auto. constructor.
    + exists [59; 52; 59; 32; 53]. split; [vm_compute; reflexivity|].
      assert (X : forall n, ip_next false (dims_of ex_tick) (here ex_tick) (mkvec [n]) (mkvec [1]) = Ok (mkvec [n + 1], mkvec [1]) ->
              forall cs q, Path ex_tick (mkvec [n + 1]) cs q ->
              Path ex_tick (mkvec [n]) (f_get (here ex_tick) (mkvec [n + 1]) :: cs) q).
      { intros n E cs q P. econstructor; eauto. }
      apply (X 0); [vm_compute; reflexivity|]. apply (X 1); [vm_compute; reflexivity|].
      apply (X 2); [vm_compute; reflexivity|]. apply (X 3); [vm_compute; reflexivity|].
      apply (X 4); [vm_compute; reflexivity|]. constructor.
  - vm_compute. repeat split.
Qed.
Example C66_ex : run_stack (tick 100 1) ex_tick = Ok (tt, [5]).
Proof. vm_compute. reflexivity. Qed.
Print Assumptions C66_tick.
Print Assumptions C66_block.
Print Assumptions C66_undefined.
Print Assumptions C66_blank_line.

(** ** C30 Unimplemented and failing instructions reflect *)

Definition failing (e : err) : Prop := e = EUnimp \/ e = ENotAvail \/ e = EUnspec.
(** [s'] is [s] after reversing the delta and one step. *)
Definition Bounced (s s' : st) : Prop :=
  exists d p d', (forall i, vget d i = - vget (r_delta (s_r s)) i) /\
    next_of {| s_w := s_w s; s_r := set_r_delta d (s_r s) |} = Ok (p, d') /\
    s' = {| s_w := s_w s; s_r := set_r_delta d' (set_r_pos p (s_r s)) |}.

Lemma handler_bounces e s d p d' : failing e -> vwf (r_delta (s_r s)) ->
  r_stopped (s_r s) = false -> vrev (r_delta (s_r s)) = Ok d ->
  next_of {| s_w := s_w s; s_r := set_r_delta d (s_r s) |} = Ok (p, d') ->
  exists s', errorHandler e s = Ok (e, s') /\ Bounced s s'.
Proof.
  intros Fe W St E N.
  set (s1 := {| s_w := s_w s; s_r := set_r_delta d (s_r s) |}) in *.
  exists (moved s1 p d'). split.
  - assert (X : errorHandler e s = (ipReflect ;;; ipNext ;;; ret e) s)
      by (destruct Fe as [-> |[-> | ->]]; reflexivity).
    rewrite X. assert (R : ipReflect s = Ok (tt, s1)).
    { unfold ipReflect, ipTurn, mbind, getR. rewrite E. reflexivity. }
    rewrite (run_bind _ _ _ _ _ R). rewrite (run_bind _ _ _ _ _ (ipNext_run s1 p d' St N)). reflexivity.
  - exists d, p, d'. destruct (vrev_get _ _ W E) as (_ & _ & G). auto.
Qed.

(** Any instruction that fails, leaving the interpreter in state [s1], is
    followed by a bounce from [s1]. *)
Theorem C30_failing : forall F D s J c q e s1 d p d',
  Reaches (fun c => c = 32 \/ c = 9) s J c q -> Ticking s J -> (length J < Pos.to_nat F)%nat ->
  execute F (S D) c (moved s q (r_delta (s_r s))) = Ok (e, s1) -> failing e ->
  r_handler (s_r s1) = true -> r_stopped (s_r s1) = false -> vwf (r_delta (s_r s1)) ->
  vrev (r_delta (s_r s1)) = Ok d ->
  next_of {| s_w := s_w s1; s_r := set_r_delta d (s_r s1) |} = Ok (p, d') ->
  exists s2, tick F (S D) s = Ok (tt, s2) /\ Bounced s1 s2.
Proof.
  intros F D s J c q e s1 d p d' HR HT L E Fe Hh St W Er N.
  destruct (handler_bounces e s1 d p d' Fe W St Er N) as (s2 & Eh & B).
  exists s2. split; auto.
  destruct (tick_reaches F D s J c q HR HT L) as (G & ->). apply loopM_inr.
  rewrite (tick_step_exec F (S D) (at_ s q) c e s1); [| |exact (reaches_cell _ _ _ _ _ HR)|exact E].
  2:{ destruct HT as (_ & Nd & _). exact Nd. }
  rewrite Hh. destruct Fe as [-> |[-> | ->]]; rewrite (run_bind _ _ _ _ _ Eh); reflexivity.
Qed.

(** A cell without meaning fails, changing nothing. *)
Theorem C30_unimplemented : forall F D s c,
  r_string (s_r s) = false -> sem_top c (r_sem (s_r s)) = None ->
  execute F (S D) c s = Ok (EUnimp, s).
Proof.
  intros F D s c NS T. cbn [execute]. unfold mbind at 1, getR at 1. rewrite NS.
  unfold exec_normal, mbind, getR. rewrite T. reflexivity.
Qed.
(** The core instructions that fail in a Funge standard, and what they leave
    behind: [t = i o] without permission and [u }] without a second stack change
    nothing. *)
Theorem C30_core_failures : forall F D s,
  let c := u_cfg (w_uni (s_w s) (r_uni (s_r s))) in
  (Normal s 116 -> c_conc c = false -> execute F (S D) 116 s = Ok (ENotAvail, s)) /\
  (Normal s 61 -> c_exec c = false -> execute F (S D) 61 s = Ok (ENotAvail, s)) /\
  (Normal s 105 -> c_fs c = false -> execute F (S D) 105 s = Ok (ENotAvail, s)) /\
  (Normal s 111 -> c_fs c = false -> execute F (S D) 111 s = Ok (ENotAvail, s)) /\
  (Normal s 117 -> (ss_size (mySS s) <= 1)%nat -> execute F (S D) 117 s = Ok (EUnspec, s)) /\
  (Normal s 125 -> NoSwitch s -> (ss_size (mySS s) <= 1)%nat -> execute F (S D) 125 s = Ok (EUnspec, s)) /\
  (Normal s 40 -> NoSwitch s -> c_fing c = false -> execute F (S D) 40 s = Ok (ENotAvail, s)) /\
  (Normal s 41 -> NoSwitch s -> c_fing c = false -> execute F (S D) 41 s = Ok (ENotAvail, s)) /\
  (Normal s 126 -> w_in (s_w s) = [] -> execute F (S D) 126 s = Ok (EUnspec, s)).
Proof.
  intros F D s c.
  assert (GC : getC s = Ok (c, s)) by reflexivity.
  repeat match goal with |- _ /\ _ => split end; intros HN; intros;
    rewrite (execute_normal F D _ s _ _ HN eq_refl); cbn [run_meth];
    unfold fileIn, fileOut, load_, unload_, under, end_, charIn;
    try (rewrite (run_bind _ _ _ _ _ GC)).
  1-4: rewrite H; reflexivity.
  - rewrite (run_bind getR _ s (s_r s) s) by reflexivity.
    unfold mySS in H. destruct (Nat.ltb_spec 1 (ss_size (r_ss (s_r s)))); [lia|reflexivity].
  - rewrite (run_bind getR _ s (s_r s) s) by reflexivity.
    unfold mySS in H0. destruct (Nat.ltb_spec 1 (ss_size (r_ss (s_r s)))); [lia|].
    rewrite (run_bind (reterr EUnspec) _ s EUnspec s) by reflexivity.
    rewrite (run_bind _ _ _ _ _ (switch_off 123 s H)). reflexivity.
  - rewrite H0. rewrite (run_bind (reterr ENotAvail) _ s ENotAvail s) by reflexivity.
    rewrite (run_bind _ _ _ _ _ (switch_off 41 s H)). reflexivity.
  - rewrite H0. rewrite (run_bind (reterr ENotAvail) _ s ENotAvail s) by reflexivity.
    rewrite (run_bind _ _ _ _ _ (switch_off 40 s H)). reflexivity.
  - unfold mbind, getchar. rewrite H. reflexivity.
Qed.
(** Loading an unknown fingerprint only pops its name. *)
Lemma popFing_plain n : forall acc s l, Holds s l ->
  exists s' x, popFing n acc s = Ok (x, s') /\ Only_stack s s' (skipn n l).
Proof.
  induction n as [|n IH]; intros acc s l H; cbn [popFing].
  - exists s, acc. split; [reflexivity|]. now apply Only_stack_refl.
  - xpop. destruct (IH (to_u64 (acc * 256 + hd 0 l)) s0 (tl l) H0) as (s' & x & E' & C').
    exists s', x. split; auto. rewrite <- skipn_tl. exact (Only_stack_trans _ _ _ _ _ C C').
Qed.
Example C30_ex_hyp : let s := start98 2 [32; 220; 64] [] in
  sem_top (-36) (r_sem (s_r s)) = None /\ r_handler (s_r s) = true /\
  match tick 100 1 s with Ok (_, s') => r_pos (s_r s') = mkvec [0] /\ r_delta (s_r s') = mkvec [-1] | Bad _ => False end.
Proof. vm_compute. repeat split. Qed.
Print Assumptions C30_failing.
Print Assumptions C30_unimplemented.
Print Assumptions C30_core_failures.
