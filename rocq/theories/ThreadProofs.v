(** * Invariants of the threads of ThreadModel.v. *)

From Coq Require Import List Bool Arith Lia.
From Verif Require Import ThreadModel.
Import ListNotations.

Lemma tid_eqb_spec a b : reflect (a = b) (tid_eqb a b).
Proof.
  destruct a as [n|n], b as [m|m]; cbn [tid_eqb]; try (constructor; congruence);
    destruct (Nat.eqb_spec n m); constructor; congruence.
Qed.
Lemma tid_eqb_refl a : tid_eqb a a = true.
Proof. destruct (tid_eqb_spec a a); congruence. Qed.

(** Thread at operation [p] holds the mutex of universe [n] / of its semaphore. *)
Definition holdsM (n : nat) (p : cpc) : bool :=
  match p with
  | Add1 m _ | Rel0 m _ | Rel1 m _ | Rel2 m _ | Rel3 m _ | Unl m | Kill1 m | Kill2 m | Kill3 m
  | Wait1 m _ | WaitU m _ => m =? n
  | _ => false
  end.
Definition holdsS (n : nat) (p : cpc) : bool :=
  match p with Rel1 m _ | Rel2 m _ | Rel3 m _ => m =? n | _ => false end.
Definition uholdsM (p : uphase) : bool :=
  match p with ULoop | UPick _ | UPop _ | UPlace _ | UNote | UUnl => true | _ => false end.
Definition uholdsS (p : uphase) : bool := match p with UAcqT | UAcqU => true | _ => false end.
Definition holds (n : nat) (t : tid) (y : sys) : bool :=
  holdsM n (y_pc y t) || (tid_eqb t (U n) && uholdsM (u_phase (y_uni y n))).
Definition sholds (n : nat) (t : tid) (y : sys) : bool :=
  holdsS n (y_pc y t) || (tid_eqb t (U n) && uholdsS (u_phase (y_uni y n))).

Record Locks (y : sys) : Prop := {
  lk_m : forall n t, u_mutex (y_uni y n) = Some t <-> holds n t y = true;
  lk_s : forall n t, u_smutex (y_uni y n) = Some t <-> sholds n t y = true;
  lk_idle : forall n, y_pc y (U n) <> Idle -> exists r, u_phase (y_uni y n) = UTick r }.

(** Break a step into its cases. *)
Ltac step_cases H :=
  unfold fire, go, begin, may_begin, ustep, cstep, lock, slock in H;
  repeat match type of H with
  | None = Some _ => discriminate H
  | Some _ = Some _ => injection H as H
  | context [match ?x with _ => _ end] =>
      match x with context [match _ with _ => _ end] => fail 1 | _ => idtac end;
      match type of x with
      | sumbool _ _ => fail 1
      | _ => let E := fresh "E" in destruct x eqn:E
      end
  end; try discriminate H; try (injection H as H).
Ltac fields :=
  cbn [y_uni y_home y_born y_stopped y_freed y_pc y_asleep y_bad
       u_run u_runners u_value u_mutex u_smutex u_phase u_wait
       phase_to on_uni set_pc set_asleep set_home set_born set_stopped set_freed use unlock sunlock notify
       set_run set_runners set_value set_mutex set_smutex set_phase set_wait] in *.

Lemma stop_all_spec : forall l y, let y' := stop_all l y in
  y_uni y' = y_uni y /\ y_home y' = y_home y /\ y_born y' = y_born y /\ y_freed y' = y_freed y /\
  y_pc y' = y_pc y /\ y_asleep y' = y_asleep y.
Proof.
  induction l as [|r l IH]; intros y; cbn [stop_all]; [repeat split|].
  destruct (IH (set_stopped (upd (y_stopped y) r true) (use r y))) as (-> & -> & -> & -> & -> & ->). repeat split.
Qed.

(** Case analysis on which universe and thread is meant. *)
Ltac who :=
  unfold upd, updt in *;
  repeat match goal with
  | |- context [?a =? ?b] => destruct (Nat.eqb_spec a b); subst
  | H : context [?a =? ?b] |- _ => destruct (Nat.eqb_spec a b); subst
  | |- context [tid_eqb ?a ?b] => destruct (tid_eqb_spec a b); subst
  | H : context [tid_eqb ?a ?b] |- _ => destruct (tid_eqb_spec a b); subst
  end.
Ltac known :=
  repeat match goal with
  | E : y_pc _ _ = _, K : context [y_pc _ _] |- _ => rewrite E in K
  | E : y_pc _ _ = _ |- context [y_pc _ _] => rewrite E
  | E : u_phase (y_uni _ _) = _, K : context [u_phase (y_uni _ _)] |- _ => rewrite E in K
  | E : u_phase (y_uni _ _) = _ |- context [u_phase (y_uni _ _)] => rewrite E
  end.

Lemma locks_init : Locks init.
Proof.
  split; intros; cbn in *.
  - split; intros H; [discriminate|]. rewrite andb_false_r in H. discriminate.
  - split; intros H; [discriminate|]. rewrite andb_false_r in H. discriminate.
  - congruence.
Qed.
Lemma or_true a b : a || b = true <-> a = true \/ b = true.
Proof. apply orb_true_iff. Qed.
Ltac simp := cbn [holdsM holdsS uholdsM uholdsS andb orb tid_eqb] in *;
  rewrite ?orb_false_r, ?orb_true_r, ?andb_true_r, ?andb_false_r, ?Nat.eqb_refl, ?tid_eqb_refl in *.
Ltac casing :=
  match goal with
  | |- context [stop_all ?l ?y] =>
      let S1 := fresh "S" in let S2 := fresh "S" in let S3 := fresh "S" in
      let S4 := fresh "S" in let S5 := fresh "S" in let S6 := fresh "S" in
      destruct (stop_all_spec l y) as (S1 & S2 & S3 & S4 & S5 & S6); fields;
      rewrite ?S1, ?S2, ?S3, ?S4, ?S5, ?S6 in *
  | _ => idtac
  end; fields.
Lemma locks_step l y y' : Locks y -> fire l y = Some y' -> Locks y'.
Proof.
  intros [Im Is Ii] H. unfold holds, sholds in *. destruct l as [t|t o|n|[n|k]]; step_cases H; subst y'; 
    (split; [intros nn tt'; pose proof (Im nn tt') as J|intros nn tt'; pose proof (Is nn tt') as J|intros nn; pose proof (Ii nn) as J]).
  all: unfold holds, sholds in *; casing.
  all: try exact J.
  all: unfold upd, updt in *.
  all: repeat match goal with
    | |- context [?a =? ?b] => destruct (Nat.eqb_spec a b); subst
    | |- context [tid_eqb ?a ?b] => destruct (tid_eqb_spec a b); subst
    end; fields; known; simp; try exact J; try congruence.
  all: try (intros _;
    match goal with
    | E : y_pc ?y (U ?n) = _ |- exists r, u_phase (y_uni ?y ?n) = UTick r => apply Ii; rewrite E; discriminate
    | E : u_phase (y_uni ?y ?n) = UTick ?r |- exists r, u_phase (y_uni ?y ?n) = UTick r => now exists r
    end).
  all: repeat match goal with
    | E : y_pc ?y (U ?n) = ?p |- context [u_phase (y_uni ?y ?n)] =>
        lazymatch p with Idle => fail | _ => idtac end;
        let r := fresh "r" in let Er := fresh "Er" in
        destruct (Ii n) as [r Er]; [rewrite E; discriminate|]; rewrite Er in *
    end; simp.
  all: repeat match goal with |- context [?a =? ?b] => destruct (Nat.eqb_spec a b); subst end.
  all: simp; try exact J; try congruence; try tauto.
  all: try match goal with |- None = Some ?t' <-> _ => split; [discriminate|intros K; exfalso] end.
  all: try match goal with |- Some ?a = Some ?b <-> _ => split; [intros K; injection K as K; subst; try congruence|intros K; exfalso] end.
  all: try match type of J with context [?a =? ?b] => destruct (Nat.eqb_spec a b); subst end; try congruence; try exact J.
  all: try (apply J in K; congruence).
  all: try match type of J with u_mutex (y_uni ?y ?n) = Some _ <-> _ =>
    match goal with
    | E : y_pc y ?t = _ |- _ => pose proof (Im n t) as A; known; simp
    end end.
  all: try match type of J with u_smutex (y_uni ?y ?n) = Some _ <-> _ =>
    match goal with
    | E : y_pc y ?t = _ |- _ => pose proof (Is n t) as A; known; simp
    end end.
  all: try (apply J in K; destruct A as [_ A]; specialize (A eq_refl); congruence).
  all: match goal with e : U _ = U _ |- _ => injection e as -> end; intros _; eexists; eassumption.
Qed.

Lemma reach_ind : forall (P : sys -> Prop), P init ->
  (forall l y y', reachable y -> P y -> fire l y = Some y' -> P y') -> forall y, reachable y -> P y.
Proof.
  intros P H0 HS y [ls E].
  assert (G : forall ls y0 y1, reachable y0 -> P y0 -> fires ls y0 = Some y1 -> P y1 ).
  { clear ls E y. induction ls as [|l ls IH]; intros y0 y1 R Py E; cbn [fires] in E; [congruence|].
    destruct (fire l y0) as [y2|] eqn:E2; [|discriminate].
    apply (IH y2); [|eapply HS; eauto|exact E].
    destruct R as [l0 R]. exists (l0 ++ [l]). clear - R E2. revert R. generalize init. induction l0 as [|a l0 IH]; intros i R; cbn [fires app] in *.
    - injection R as ->. now rewrite E2.
    - destruct (fire a i); [now apply IH|discriminate]. }
  eapply G; [|exact H0|exact E]. now exists [].
Qed.
Lemma reach_locks : forall y, reachable y -> Locks y.
Proof. apply reach_ind; [exact locks_init|]. intros. eapply locks_step; eauto. Qed.

(** ** Nobody sleeps through a wake-up *)

(** The holder of universe [n]'s mutex has yet to set the semaphore. *)
Definition to_set (n : nat) (y : sys) : bool :=
  match u_mutex (y_uni y n) with
  | Some t => match y_pc y t with Rel0 m _ | Rel1 m _ => m =? n | _ => false end
  | None => false
  end.
(** The holder of the semaphore's mutex has yet to wake the sleeper. *)
Definition to_wake (n : nat) (y : sys) : bool :=
  match u_smutex (y_uni y n) with
  | Some t => match y_pc y t with Rel2 m _ => m =? n | _ => false end
  | None => false
  end.
(** The holder of the mutex is killing the universe and has yet to notify. *)
Definition to_tell (n : nat) (y : sys) : bool :=
  match u_mutex (y_uni y n) with
  | Some t => match y_pc y t with
              | Rel0 m RKill | Rel1 m RKill | Rel2 m RKill | Rel3 m RKill | Kill3 m => m =? n
              | _ => false
              end
  | None => false
  end.
(** The universe thread will look at the semaphore before it looks at the queue. *)
Definition outside (p : uphase) : bool := match p with UTop | UAcq | UAcqT | UAcqS => true | _ => false end.

Record Wake (y : sys) : Prop := {
  wk_value : forall n, u_runners (y_uni y n) <> [] -> outside (u_phase (y_uni y n)) = true ->
               u_value (y_uni y n) = true \/ to_set n y = true;
  wk_wait : forall n, u_wait (y_uni y n) = true -> u_phase (y_uni y n) = UAcqS;
  wk_sleep : forall n, u_wait (y_uni y n) = true -> u_value (y_uni y n) = false \/ to_wake n y = true;
  wk_empty : forall n, u_phase (y_uni y n) = UUnl -> u_runners (y_uni y n) = [] }.

Lemma wake_init : Wake init.
Proof. split; intros; cbn in *; congruence. Qed.

(** A thread in the middle of an operation holds what it should. *)
Lemma has_m : forall n t y, Locks y -> holdsM n (y_pc y t) = true -> u_mutex (y_uni y n) = Some t.
Proof. intros n t y L H. apply (lk_m y L). unfold holds. now rewrite H. Qed.
Lemma has_s : forall n t y, Locks y -> holdsS n (y_pc y t) = true -> u_smutex (y_uni y n) = Some t.
Proof. intros n t y L H. apply (lk_s y L). unfold sholds. now rewrite H. Qed.
Lemma uhas_m : forall n y, Locks y -> uholdsM (u_phase (y_uni y n)) = true -> u_mutex (y_uni y n) = Some (U n).
Proof. intros n y L H. apply (lk_m y L). unfold holds. rewrite tid_eqb_refl, H. apply orb_true_r. Qed.
Lemma uhas_s : forall n y, Locks y -> uholdsS (u_phase (y_uni y n)) = true -> u_smutex (y_uni y n) = Some (U n).
Proof. intros n y L H. apply (lk_s y L). unfold sholds. rewrite tid_eqb_refl, H. apply orb_true_r. Qed.

(** Derive the holders from where the acting thread is. *)
Ltac hold_m L n t y E := let Hm := fresh "Hm" in
  pose proof (has_m n t y L) as Hm; rewrite E in Hm; cbn [holdsM] in Hm; rewrite Nat.eqb_refl in Hm; specialize (Hm eq_refl).
Ltac hold_s L n t y E := let Hs := fresh "Hs" in
  pose proof (has_s n t y L) as Hs; rewrite E in Hs; cbn [holdsS] in Hs; rewrite Nat.eqb_refl in Hs; specialize (Hs eq_refl).
Ltac holders L :=
  try match goal with E : y_pc ?y ?t = ?p |- _ =>
    lazymatch p with
    | Add1 ?n _ => hold_m L n t y E
    | Rel0 ?n _ => hold_m L n t y E
    | Rel1 ?n _ => hold_m L n t y E; hold_s L n t y E
    | Rel2 ?n _ => hold_m L n t y E; hold_s L n t y E
    | Rel3 ?n _ => hold_m L n t y E; hold_s L n t y E
    | Unl ?n => hold_m L n t y E
    | Kill1 ?n => hold_m L n t y E
    | Kill2 ?n => hold_m L n t y E
    | Kill3 ?n => hold_m L n t y E
    | Wait1 ?n _ => hold_m L n t y E
    | WaitU ?n _ => hold_m L n t y E
    end
  end;
  try match goal with E : u_phase (y_uni ?y ?n) = ?p |- _ =>
    let Hu := fresh "Hm" in pose proof (uhas_m n y L) as Hu; rewrite E in Hu; cbn [uholdsM] in Hu; specialize (Hu eq_refl)
  end;
  try match goal with E : u_phase (y_uni ?y ?n) = ?p |- _ =>
    let Hu := fresh "Hs" in pose proof (uhas_s n y L) as Hu; rewrite E in Hu; cbn [uholdsS] in Hu; specialize (Hu eq_refl)
  end.

Lemma wake_step l y y' : Locks y -> Wake y -> fire l y = Some y' -> Wake y'.
Proof.
  intros L [W1 W2 W3 W4] H. destruct l as [t|t o|n|[n|k]]; step_cases H; subst y'; holders L;
    (split; [intros nn; pose proof (W1 nn) as J|intros nn; pose proof (W2 nn) as J|intros nn; pose proof (W3 nn) as J|intros nn; pose proof (W4 nn) as J]).
  all: unfold to_set, to_wake in *; casing.
  all: try exact J.
  all: unfold upd, updt in *.
  all: repeat match goal with
    | |- context [?a =? ?b] => destruct (Nat.eqb_spec a b); subst
    end; fields; try exact J; try congruence.
  all: try match goal with
    | Hm : u_mutex (y_uni ?y ?n) = Some _ |- context [u_mutex (y_uni ?y ?n)] => rewrite Hm in *
    | |- context [match u_mutex (y_uni ?y ?n) with _ => _ end] => destruct (u_mutex (y_uni y n)) as [h|] eqn:Eh
    end;
    try match goal with
    | Hm : u_smutex (y_uni ?y ?n) = Some _ |- context [u_smutex (y_uni ?y ?n)] => rewrite Hm in *
    | |- context [match u_smutex (y_uni ?y ?n) with _ => _ end] => destruct (u_smutex (y_uni y n)) as [h|] eqn:Eh
    end.
  all: repeat match goal with
    | |- context [tid_eqb ?a ?b] => destruct (tid_eqb_spec a b); subst
    end; fields; known; rewrite ?Nat.eqb_refl in *; cbn [outside] in *; try exact J; try congruence; try tauto.
  all: repeat match goal with
    | E : u_mutex (y_uni ?y ?n) = _, K : context [match u_mutex (y_uni ?y ?n) with _ => _ end] |- _ => rewrite E in K
    | E : u_smutex (y_uni ?y ?n) = _, K : context [match u_smutex (y_uni ?y ?n) with _ => _ end] |- _ => rewrite E in K
    end; known; rewrite ?Nat.eqb_refl in *; try exact J; try tauto.
  all: try (intros K; specialize (J K); discriminate).
  all: try match type of J with context [?a =? ?b] => destruct (Nat.eqb_spec a b); subst; [congruence|exact J] end.
  all: try match goal with |- context [?a =? ?b] => destruct (Nat.eqb_spec a b); subst; [congruence|exact J] end.
  - intros K _. exfalso. apply K. now apply W4.
  - intros K. exfalso. pose proof (uhas_m n y L) as Hu. rewrite K in Hu. specialize (Hu eq_refl).
    assert (t = U n) by congruence. subst t. destruct (lk_idle y L n) as [r' Er]; congruence.
Qed.
Lemma reach_wake : forall y, reachable y -> Wake y.
Proof. apply reach_ind; [exact wake_init|]. intros. eapply wake_step; eauto using reach_locks. Qed.

(** ** Nobody waits for a universe that has ended *)

Record Waiters (y : sys) : Prop := {
  wt_run : forall t n k, y_asleep y t = true -> y_pc y t = WaitS n k ->
             u_run (y_uni y n) = true \/ to_tell n y = true;
  wt_queue : forall t n k, y_asleep y t = true -> y_pc y t = WaitS n k ->
             u_run (y_uni y n) = false \/ u_runners (y_uni y n) <> [] \/
             match u_phase (y_uni y n) with UPlace _ | UNote => True | _ => False end }.
Lemma waiters_init : Waiters init.
Proof. split; intros; cbn in *; congruence. Qed.
Lemma waiters_step l y y' : Locks y -> Waiters y -> fire l y = Some y' -> Waiters y'.
Proof.
  intros L [W1 W2] H. destruct l as [t|t o|n|[n|k]]; step_cases H; subst y'; holders L;
    (split; intros ti nn kk; [pose proof (W1 ti nn kk) as J|pose proof (W2 ti nn kk) as J]).
  all: unfold to_tell in *; casing.
  all: try exact J.
  all: unfold upd, updt in *.
  all: repeat match goal with
    | |- context [?a =? ?b] => destruct (Nat.eqb_spec a b); subst
    end; fields; try exact J; try congruence.
  all: try match goal with
    | Hm : u_mutex (y_uni ?y ?n) = Some _ |- context [u_mutex (y_uni ?y ?n)] => rewrite Hm in *
    | |- context [match u_mutex (y_uni ?y ?n) with _ => _ end] => destruct (u_mutex (y_uni y n)) as [h|] eqn:Eh
    end.
  all: repeat match goal with
    | |- context [tid_eqb ?a ?b] => destruct (tid_eqb_spec a b); subst
    end; fields; known; rewrite ?Nat.eqb_refl in *; try exact J; try congruence; try tauto.
  all: repeat match goal with
    | E : u_mutex (y_uni ?y ?n) = _, K : context [match u_mutex (y_uni ?y ?n) with _ => _ end] |- _ => rewrite E in K
    end; known; rewrite ?Nat.eqb_refl in *; try exact J; try tauto.
  all: try (intros K1 K2; rewrite K2 in K1; cbn [sleeps_on] in K1;
    match type of K1 with context [?a =? ?b] => destruct (Nat.eqb_spec a b); subst; [discriminate|] end;
    first [congruence | apply J; [exact K1|exact K2] |
      destruct (J K1 K2) as [Q|Q]; [now left|apply Nat.eqb_eq in Q; congruence]]).
  all: try match goal with |- context [?a =? ?b] => destruct (Nat.eqb_spec a b); subst; [congruence|exact J] end.
  all: try (intros _ _; right; left; destruct (u_runners (y_uni y n)); discriminate).
  all: intros _ _; match goal with E : is_running _ = true |- _ => unfold is_running in E; apply andb_true_iff in E; destruct E as [E1 E2] end.
  - now left.
  - right. left. intros K. rewrite K in E2. discriminate.
Qed.
Lemma reach_waiters : forall y, reachable y -> Waiters y.
Proof. apply reach_ind; [exact waiters_init|]. intros. eapply waiters_step; eauto using reach_locks. Qed.
