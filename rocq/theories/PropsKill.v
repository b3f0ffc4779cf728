(** * Threads: idle universes sleep (C106); killed universes end (C107). *)

From Coq Require Import List Bool Arith Lia Cantor.
From Verif Require Import ThreadModel ThreadProofs ThreadLive ThreadOwn ThreadExample NativeModel NativeProofs.
Import ListNotations.

(** ** C106 No busy waiting *)

(** A step in which the thread of universe [n] comes past its semaphore to look at the
    queue; one in which an IP is put into the queue; one in which the universe is
    killed. *)
Definition looks (n : nat) (x : label) (y : sys) : nat :=
  match x with
  | Go (U m) => if m =? n then match y_pc y (U m), u_phase (y_uni y m) with Idle, ULock => 1 | _, _ => 0 end else 0
  | _ => 0
  end.
Definition arrives (n : nat) (x : label) (y : sys) : nat :=
  match x with Go t => match y_pc y t with Add1 m _ => if m =? n then 1 else 0 | _ => 0 end | _ => 0 end.
Definition kills (n : nat) (x : label) (y : sys) : nat :=
  match x with Go t => match y_pc y t with Kill2 m => if m =? n then 1 else 0 | _ => 0 end | _ => 0 end.
(** How often that happens in a run. *)
Fixpoint times (f : label -> sys -> nat) (ls : list label) (y : sys) : nat :=
  match ls with
  | [] => 0
  | x :: t => f x y + match fire x y with Some y' => times f t y' | None => 0 end
  end.

Definition spare (n : nat) (y : sys) : nat :=
  (match u_phase (y_uni y n) with UAcqU | ULock => 1 | _ => 0 end) + (if u_value (y_uni y n) then 1 else 0) +
  (if to_set n y then 1 else 0).
Lemma looks_busy n t y : y_pc y t <> Idle -> looks n (Go t) y = 0.
Proof.
  unfold looks. destruct t as [m|]; [|reflexivity]. intros H. destruct (m =? n); [|reflexivity].
  destruct (y_pc y (U m)); congruence.
Qed.
Lemma spare_step n x y y' : Locks y -> fire x y = Some y' ->
  looks n x y + spare n y' <= spare n y + arrives n x y + kills n x y.
Proof.
  intros L H. unfold spare, arrives, kills, to_set.
  destruct x as [t|t o|m|[m|k]]; step_cases H; subst y'; holders L; casing.
  all: try match goal with E : y_pc ?y ?t = _ |- context [looks ?n (Go ?t) ?y] =>
    first [rewrite (looks_busy n t y) by (rewrite E; discriminate)|unfold looks] end; unfold looks.
  all: unfold upd, updt in *.
  all: repeat match goal with
    | |- context [?a =? ?b] => destruct (Nat.eqb_spec a b); subst
    end; fields; known; try congruence; try lia.
  all: try match goal with
    | Hm : u_mutex (y_uni ?y ?n) = Some _ |- context [u_mutex (y_uni ?y ?n)] => rewrite Hm in *
    | |- context [match u_mutex (y_uni ?y ?n) with _ => _ end] => destruct (u_mutex (y_uni y n)) as [h|] eqn:Eh
    end.
  all: repeat match goal with
    | |- context [tid_eqb ?a ?b] => destruct (tid_eqb_spec a b); subst
    end; fields; known; rewrite ?Nat.eqb_refl in *; try congruence; try lia.
  all: try (destruct (u_value _); lia).
  all: try (destruct (u_phase (y_uni y n)); lia).
  all: match goal with N : ?a <> ?b |- context [?a =? ?b] => rewrite (proj2 (Nat.eqb_neq a b) N) end; lia.
Qed.
(** However the threads are scheduled, a universe's thread looks at its queue at most
    once for every IP put there and every kill: without them it sleeps. *)
Theorem C106 : forall n ls y, fires ls init = Some y ->
  times (looks n) ls init <= times (arrives n) ls init + times (kills n) ls init.
Proof.
  intros n ls y E.
  assert (G : forall ls y0 y1, reachable y0 -> fires ls y0 = Some y1 ->
    times (looks n) ls y0 <= spare n y0 + times (arrives n) ls y0 + times (kills n) ls y0).
  { clear ls y E. induction ls as [|x ls IH]; intros y0 y1 Re E; cbn [times fires] in *; [lia|].
    destruct (fire x y0) as [y2|] eqn:E2; [|discriminate].
    assert (R2 : reachable y2).
    { destruct Re as [l0 R]. exists (l0 ++ [x]). clear - R E2. revert R. generalize init. induction l0 as [|a l0 IH]; intros i R; cbn [fires app] in *.
      - injection R as ->. now rewrite E2.
      - destruct (fire a i); [now apply IH|discriminate]. }
    pose proof (IH y2 y1 R2 E). pose proof (spare_step n x y0 y2 (reach_locks _ Re) E2). lia. }
  apply (G ls init y); [exists []; reflexivity|exact E].
Qed.
(** One IP arrives, is run and ends: the thread looks once, and sleeps again. *)
Example C106_ex : exists ls y, fires ls init = Some y /\ times (looks 0) ls init = 1 /\ times (arrives 0) ls init = 1 /\
  u_phase (y_uni y 0) = UAcqS /\ u_wait (y_uni y 0) = true /\ fire (Go (U 0)) y = None.
Proof.
  exists (start_labels ++ repeat (Go (U 0)) 8 ++ Stop 0 :: repeat (Go (U 0)) 10).
  eexists. split; [vm_compute; reflexivity|]. repeat split; vm_compute; reflexivity.
Qed.
Print Assumptions C106.


(** ** C107 Killed universes end *)

(** The IP the thread of a universe has in hand. *)
Definition in_hand (p : uphase) (r : nat) : Prop :=
  p = UPick r \/ p = UTest r \/ p = UTick r \/ p = UBack r \/ p = UPop r.
(** Universe [n] was killed: it is marked, and its IPs are stopped. *)
Definition Killed (n : nat) (y : sys) : Prop :=
  u_run (y_uni y n) = false /\
  (forall r, In r (u_runners (y_uni y n)) -> y_stopped y r = true) /\
  (forall r, u_phase (y_uni y n) = UPlace r -> y_stopped y r = true).
(** Nobody is putting an IP into universe [n]. *)
Definition Closed (n : nat) (y : sys) : Prop := forall t r, y_pc y t <> Add1 n r.

(** The IP in hand is the first of the queue. *)
Definition Front (y : sys) : Prop := forall n r, in_hand (u_phase (y_uni y n)) r -> exists q, u_runners (y_uni y n) = r :: q.
Lemma front_step x y y' : Front y -> fire x y = Some y' -> Front y'.
Proof.
  intros I H nn rr. pose proof (I nn rr) as J. unfold in_hand in *.
  destruct x as [t|t o|m|[m|k]]; step_cases H; subst y'; casing; auto.
  all: unfold updt, upd in *; repeat match goal with
    | |- context [?a =? ?b] => destruct (Nat.eqb_spec a b); [subst|]
    end; fields; known; auto; try (intros K; decompose [or] K; congruence).
  all: try (intros K; destruct (J K) as [q ->]; eexists; reflexivity).
  all: intros K; decompose [or] K; try congruence; clear K.
  all: match goal with Q : ?f _ = ?f _ |- _ => injection Q as Q; subst end; first [now eauto|apply J; tauto].
Qed.
Lemma reach_front y : reachable y -> Front y.
Proof. revert y. apply reach_ind; [intros n r K; unfold in_hand in K; cbn in K; decompose [or] K; discriminate|]. intros l0 y y' _. apply front_step. Qed.

(** While the thread waits for its semaphore in a killed universe, that is set. *)
Definition asking (p : uphase) : bool := match p with UAcq | UAcqT | UAcqS => true | _ => false end.
Definition Roused (y : sys) : Prop := forall n, u_run (y_uni y n) = false -> asking (u_phase (y_uni y n)) = true ->
  u_value (y_uni y n) = true \/ to_set n y = true.
Lemma roused_step x y y' : Locks y -> Roused y -> fire x y = Some y' -> Roused y'.
Proof.
  intros L I H nn. pose proof (I nn) as J.
  destruct x as [t|t o|n|[n|k]]; step_cases H; subst y'; holders L.
  all: unfold to_set in *; casing.
  all: try exact J.
  all: unfold upd, updt in *.
  all: repeat match goal with
    | |- context [?a =? ?b] => destruct (Nat.eqb_spec a b); subst
    end; fields; known; cbn [asking] in *; try exact J; try congruence.
  all: try match goal with
    | Hm : u_mutex (y_uni ?y ?n) = Some _ |- context [u_mutex (y_uni ?y ?n)] => rewrite Hm in *
    | |- context [match u_mutex (y_uni ?y ?n) with _ => _ end] => destruct (u_mutex (y_uni y n)) as [h|] eqn:Eh
    end.
  all: repeat match goal with
    | |- context [tid_eqb ?a ?b] => destruct (tid_eqb_spec a b); subst
    end; fields; known; rewrite ?Nat.eqb_refl in *; try exact J; try congruence; try tauto.
  all: repeat match goal with
    | E : u_mutex (y_uni ?y ?n) = _, K : context [match u_mutex (y_uni ?y ?n) with _ => _ end] |- _ => rewrite E in K
    end; known; rewrite ?Nat.eqb_refl in *; try exact J; try tauto.
  all: try (intros K1 K2; destruct (J K1 K2); [now left|discriminate]).
  intros K1 K2; destruct (J K1 K2) as [Q|Q]; [now left|apply Nat.eqb_eq in Q; congruence].
Qed.
Lemma reach_roused y : reachable y -> Roused y.
Proof. revert y. apply reach_ind; [intros n K; cbn in K; discriminate|]. intros l0 y y' Re. apply roused_step. now apply reach_locks. Qed.

(** Stopped IPs stay stopped. *)
Lemma stop_all_stopped : forall l y r, y_stopped y r = true \/ In r l -> y_stopped (stop_all l y) r = true.
Proof.
  induction l as [|a l IH]; intros y r H; cbn [stop_all]; [destruct H as [H|[]]; exact H|].
  apply IH. fields. unfold upd. destruct (Nat.eqb_spec r a) as [->|N]; [now left|]. destruct H as [H|[H|H]]; [left; exact H|congruence|now right].
Qed.
Lemma stopped_step x y y' r : fire x y = Some y' -> y_stopped y r = true -> y_stopped y' r = true.
Proof.
  intros H St. destruct x as [t|t o|n|[n|k]]; step_cases H; subst y'; fields; auto.
  all: try (apply stop_all_stopped; now left).
  all: unfold upd; match goal with |- context [?a =? ?b] => destruct (a =? b); auto end.
Qed.
Lemma killed_step n x y y' : Front y -> Killed n y -> Closed n y -> fire x y = Some y' -> Killed n y'.
Proof.
  intros Fr (K1 & K2 & K3) Cl H.
  assert (St : forall r, y_stopped y r = true -> y_stopped y' r = true) by (intros r; now apply (stopped_step x)).
  assert (X : u_run (y_uni y' n) = false /\
    (forall r, In r (u_runners (y_uni y' n)) -> In r (u_runners (y_uni y n)) \/ u_phase (y_uni y n) = UPlace r) /\
    (forall r, u_phase (y_uni y' n) = UPlace r -> u_phase (y_uni y n) = UPlace r \/ u_phase (y_uni y n) = UPop r)).
  { clear St. destruct x as [t|t o|m|[m|k]]; step_cases H; subst y'; casing; auto.
    all: unfold updt, upd in *; repeat match goal with
      | |- context [?a =? ?b] => destruct (Nat.eqb_spec a b); [subst|]
      end; fields; known; auto; try (exfalso; eapply Cl; eassumption).
    all: try (split; [exact K1|]; split; [now auto|congruence]).
    all: split; [exact K1|]; split; try congruence; intros r'.
    - intros I. left. destruct (u_runners (y_uni y _)); [exact I|now right].
    - intros [= <-]. now right.
    - intros I. apply in_app_or in I. destruct I as [I|[<-|[]]]; auto. }
  destruct X as (X1 & X2 & X3). split; [exact X1|]. split.
  - intros r I. apply St. destruct (X2 r I) as [A|A]; auto.
  - intros r P. apply St. destruct (X3 r P) as [A|A]; [now apply K3|].
    destruct (Fr n r) as [q Q]; [unfold in_hand; rewrite A; tauto|]. apply K2. rewrite Q. now left.
Qed.
(** Between stopping the IPs and marking the universe nothing comes in between. *)
Definition Halted (y : sys) : Prop := forall t n, y_pc y t = Kill2 n -> forall r, In r (u_runners (y_uni y n)) -> y_stopped y r = true.
Lemma halted_step x y y' : Locks y -> Halted y -> fire x y = Some y' -> Halted y'.
Proof.
  intros L I H tt n P r In_.
  assert (St : forall r, y_stopped y r = true -> y_stopped y' r = true) by (intros r'; now apply (stopped_step x)).
  assert (X : (y_pc y tt = Kill2 n /\ In r (u_runners (y_uni y n))) \/ (y_pc y tt = Kill1 n /\ x = Go tt /\ In r (u_runners (y_uni y n)))).
  { revert P In_. clear St. destruct x as [t|t o|m|[m|k]]; step_cases H; subst y'; holders L; casing; auto.
    all: unfold updt, upd in *; repeat match goal with
      | |- context [?a =? ?b] => destruct (Nat.eqb_spec a b); [subst|]
      | |- context [tid_eqb ?a ?b] => destruct (tid_eqb_spec a b); [subst|]
      end; fields; auto; try congruence.
    all: try (lazymatch goal with |- Kill2 _ = Kill2 _ -> _ => intros [= <-]; now auto end).
    all: intros P; match type of P with y_pc _ ?w = Kill2 ?m => pose proof (has_m m w y L) as Hk; rewrite P in Hk; cbn [holdsM] in Hk;
      rewrite Nat.eqb_refl in Hk; specialize (Hk eq_refl) end.
    all: intros _; exfalso; match goal with A : u_mutex ?u = Some ?a, B : u_mutex ?u = Some ?b |- _ => assert (b = a) by congruence; congruence end. }
  destruct X as [[A B]|(A & -> & B)]; [apply St; now apply (I tt n)|].
  cbn [fire] in H. rewrite go_pc in H by congruence. unfold cstep in H. rewrite A in H. injection H as <-.
  fields. apply stop_all_stopped. now right.
Qed.
Lemma reach_halted y : reachable y -> Halted y.
Proof. revert y. apply reach_ind; [intros t n K; cbn in K; discriminate|]. intros l0 y y' Re. apply halted_step. now apply reach_locks. Qed.

(** killAll stops every IP of the universe. *)
Theorem C107_kill : forall y y' t n, reachable y -> y_pc y t = Kill2 n -> fire (Go t) y = Some y' -> Killed n y'.
Proof.
  intros y y' t n Re P H. pose proof (reach_locks y Re) as L.
  cbn [fire] in H. rewrite go_pc in H by congruence. unfold cstep in H. rewrite P in H. injection H as <-.
  unfold Killed. fields. rewrite upd_same. fields. split; [reflexivity|]. split; [exact (reach_halted y Re t n P)|].
  intros r Q. exfalso. pose proof (has_m n t y L) as H1. rewrite P in H1. cbn [holdsM] in H1. rewrite Nat.eqb_refl in H1. specialize (H1 eq_refl).
  pose proof (uhas_m n y L) as H2. rewrite Q in H2. specialize (H2 eq_refl). assert (t = U n) by congruence. subst t.
  destruct (lk_idle y L n) as [r' Er]; congruence.
Qed.

Section End.
Variables (s : nat -> sys) (l : nat -> label).
Hypotheses (R : Run s l) (F : Fair s l).

Definition drank (p : uphase) : nat :=
  match p with
  | UAcq => 19 | UAcqS => 18 | UAcqT => 17 | UAcqU => 16 | ULock => 15
  | UPlace _ => 13 | UNote => 12 | ULoop => 11 | UPick _ => 10 | UTest _ => 9 | UTick _ => 8
  | UBack _ => 7 | UPop _ => 6 | UUnl => 2 | UTop => 1 | UEnd => 0
  end.
Definition left_over (n : nat) (y : sys) : nat := length (u_runners (y_uni y n)) * 100 + drank (u_phase (y_uni y n)).
Definition Woken (n : nat) (y : sys) : Prop := asking (u_phase (y_uni y n)) = true -> u_value (y_uni y n) = true.

Lemma end_own n y y' : Front y -> Killed n y -> Woken n y -> ustep n y = Some y' ->
  Woken n y' /\ left_over n y' < left_over n y.
Proof.
  intros Fr (K1 & K2 & K3) W H. unfold Woken, left_over in *. pose proof (Fr n) as Fn. unfold in_hand in Fn.
  unfold ustep, lock, slock in H. destruct (u_phase (y_uni y n)) eqn:E; cbn [asking drank] in *.
  - rewrite K1 in H. injection H as <-. fields. rewrite !upd_same. fields. cbn. split; [discriminate|lia].
  - destruct (u_smutex _); [discriminate|]. injection H as <-. fields. rewrite !upd_same. fields. cbn. split; [auto|lia].
  - rewrite W in H by reflexivity. injection H as <-. fields. rewrite !upd_same. fields. cbn. split; [discriminate|lia].
  - destruct (u_wait _); [discriminate|]. destruct (u_smutex _); [discriminate|]. injection H as <-. fields. rewrite !upd_same. fields. cbn. split; [auto|lia].
  - injection H as <-. fields. rewrite !upd_same. fields. cbn. split; [discriminate|lia].
  - destruct (u_mutex _); [discriminate|]. injection H as <-. fields. rewrite !upd_same. fields. cbn. split; [discriminate|lia].
  - injection H as <-. fields. rewrite !upd_same. fields. destruct (u_runners (y_uni y n)); cbn; (split; [discriminate|lia]).
  - injection H as <-. fields. rewrite !upd_same. fields. cbn. split; [discriminate|lia].
  - injection H as <-. fields. rewrite !upd_same. fields. destruct (y_stopped y r); cbn; (split; [discriminate|lia]).
  - injection H as <-. fields. rewrite !upd_same. fields. cbn. split; [discriminate|lia].
  - destruct (u_mutex _); [discriminate|]. injection H as <-. fields. rewrite !upd_same. fields. cbn. split; [discriminate|lia].
  - injection H as <-. fields. rewrite !upd_same. fields. destruct (Fn r) as [q ->]; [tauto|]. cbn [tl length asking drank]. split; [discriminate|lia].
  - injection H as <-. rewrite (K3 r eq_refl). destruct (y_home y r =? n); fields; rewrite !upd_same; fields; cbn; (split; [discriminate|lia]).
  - injection H as <-. fields. rewrite !upd_same. fields. cbn. split; [discriminate|lia].
  - injection H as <-. fields. rewrite !upd_same. fields. cbn. split; [discriminate|lia].
  - discriminate.
Qed.
(** Steps of other threads keep the queue. *)
Lemma end_others n x y y' : fire x y = Some y' -> (x = Go (U n) -> y_pc y (U n) <> Idle) -> Closed n y ->
  u_runners (y_uni y' n) = u_runners (y_uni y n) /\ u_phase (y_uni y' n) = u_phase (y_uni y n) /\
  (u_value (y_uni y n) = true -> u_value (y_uni y' n) = true).
Proof.
  intros H N Cl. destruct x as [t|t o|m|[m|k]]; step_cases H; subst y'; casing; auto.
  all: unfold updt, upd in *; repeat match goal with
    | |- context [?a =? ?b] => destruct (Nat.eqb_spec a b); [subst; try congruence|]
    end; fields; auto.
  all: try (exfalso; apply N; [reflexivity|assumption]).
  exfalso. eapply Cl; eassumption.
Qed.

Variable n : nat.
Hypothesis TE : Ticks_end s n.
Hypotheses (K0 : Killed n (s 0)) (Cl : forall j, Closed n (s j)).

Lemma killed_on j : Killed n (s j).
Proof.
  induction j as [|d IH]; [exact K0|].
  eapply (killed_step n (l d) (s d)); [apply reach_front, (run_reach s l R)|exact IH|apply Cl|apply (run_step _ _ R)].
Qed.
Lemma end_keep i d : Woken n (s i) -> (forall k, i <= k < i + d -> ~ own s l n k) ->
  Woken n (s (i + d)) /\ left_over n (s (i + d)) = left_over n (s i) /\ u_phase (y_uni (s (i + d)) n) = u_phase (y_uni (s i) n).
Proof.
  intros W. induction d as [|d IH]; intros N; [rewrite Nat.add_0_r; auto|].
  destruct IH as (W' & M & P); [intros k Hk; apply N; lia|]. rewrite Nat.add_succ_r.
  destruct (end_others n (l (i + d)) (s (i + d)) (s (S (i + d)))) as (A & B & D).
  - apply (run_step _ _ R).
  - intros E K. apply (N (i + d)); [lia|]. split; assumption.
  - apply Cl.
  - unfold Woken, left_over in *. rewrite A, B. auto.
Qed.
Lemma end_moves i : Woken n (s i) -> u_phase (y_uni (s i) n) <> UEnd ->
  exists j, i <= j /\ own s l n j /\ forall k, i <= k < j -> ~ own s l n k.
Proof.
  intros W NE.
  destruct (tick_dec (u_phase (y_uni (s i) n))) as [[r' P]|P].
  - destruct (TE i) as (j & Lj & Hj).
    destruct (own_search s l n i (j - i)) as [(k & ? & ? & ?)|N].
    + exists k. split; [lia|auto].
    + exfalso. destruct (end_keep i (j - i) W N) as (_ & _ & E). replace (i + (j - i)) with j in E by lia. rewrite P in E. now apply (Hj r').
  - set (p := u_phase (y_uni (s i) n)) in *.
    destruct (goes s l R F (U n) (fun y => y_pc y (U n) = Idle /\ u_phase (y_uni y n) = p /\ Woken n y)
      (fun y => match p with ULock | UBack _ => u_mutex (y_uni y n) = None | _ => u_smutex (y_uni y n) = None end) i) as (j & Lj & G & (Q1 & Q2 & Q3) & N).
    + intros k (Q1 & Q2 & Q3) N.
      destruct (phase_kept n p (l k) (s k) (s (S k)) P Q1 Q2 (run_step _ _ R k) N) as [A B].
      destruct (end_others n (l k) (s k) (s (S k)) (run_step _ _ R k)) as (D & E & V); [congruence|apply Cl|].
      split; [exact A|]. split; [exact B|]. unfold Woken in *. rewrite E. auto.
    + intros k (Q1 & Q2 & Q3) Fr. rewrite go_phase by exact Q1. unfold ustep. rewrite Q2. unfold Woken in Q3. rewrite Q2 in Q3.
      clearbody p. destruct p; try discriminate.
      * unfold slock. rewrite Fr. discriminate.
      * destruct (u_value _); discriminate.
      * destruct (u_wait (y_uni (s k) n)) eqn:Ew.
        { exfalso. destruct (wk_sleep _ (run_wake s l R k) n Ew) as [K|K]; [rewrite Q3 in K by reflexivity; discriminate|].
          unfold to_wake in K. rewrite Fr in K. discriminate. }
        unfold slock. rewrite Fr. discriminate.
      * unfold lock. rewrite Fr. discriminate.
      * unfold lock. rewrite Fr. discriminate.
      * exfalso. now apply NE.
    + intros k _. clearbody p. destruct p; eauto using (s_free s l R F), (m_free s l R F).
    + split; [now apply (phase_idle s l R)|]. split; [reflexivity|exact W].
    + exists j. split; [exact Lj|]. split; [split; assumption|]. intros k Hk [K _]. now apply (N k Hk).
Qed.
Lemma end_woken : forall d i, Woken n (s i) -> left_over n (s i) < d -> exists j, i <= j /\ u_phase (y_uni (s j) n) = UEnd.
Proof.
  induction d as [|d IH]; intros i W M; [lia|].
  assert (X : u_phase (y_uni (s i) n) = UEnd \/ u_phase (y_uni (s i) n) <> UEnd).
  { destruct (u_phase (y_uni (s i) n)); auto; right; discriminate. }
  destruct X as [X|X]; [now exists i|].
  destruct (end_moves i W X) as (j & Lj & [O1 O2] & N).
  destruct (end_keep i (j - i) W) as (W' & M' & P'); [intros k Hk; apply N; lia|].
  replace (i + (j - i)) with j in * by lia.
  pose proof (run_step _ _ R j) as E. rewrite O1 in E. cbn [fire] in E. rewrite go_phase in E by exact O2.
  destruct (end_own n (s j) (s (S j)) (reach_front _ (run_reach s l R j)) (killed_on j) W' E) as (W2 & M2).
  destruct (IH (S j) W2) as (m & Lm & Hm); [lia|]. exists m. split; [lia|exact Hm].
Qed.
(** The semaphore gets set. *)
Lemma end_set i : exists j, i <= j /\ Woken n (s j).
Proof.
  destruct (asking (u_phase (y_uni (s i) n))) eqn:O; [|exists i; split; [lia|unfold Woken; congruence]].
  destruct (killed_on i) as (K1 & _).
  destruct (reach_roused _ (run_reach s l R i) n K1 O) as [K|K]; [exists i; split; [lia|unfold Woken; congruence]|].
  assert (X : exists j, i <= j /\ u_value (y_uni (s j) n) = true).
  { unfold to_set in K. destruct (u_mutex (y_uni (s i) n)) as [h|] eqn:Eh; [|discriminate].
    assert (X1 : forall i k, y_pc (s i) h = Rel1 n k -> exists j, i <= j /\ u_value (y_uni (s j) n) = true).
    { clear O K1 K Eh i. intros i k E. destruct (pc_goes_now s l R F h (Rel1 n k) i ltac:(discriminate) E) as (j & Lj & E2 & G).
      { intros j Ej. unfold cstep. rewrite Ej. discriminate. }
      exists (S j). split; [lia|]. unfold cstep in G. rewrite E2 in G. injection G as G. rewrite <- G. fields. rewrite upd_same. reflexivity. }
    destruct (y_pc (s i) h) eqn:Ep; try discriminate K; apply Nat.eqb_eq in K; subst.
    - destruct (pc_goes s l R F h (Rel0 n k) (fun y => u_smutex (y_uni y n) = None) i ltac:(discriminate) Ep) as (j & Lj & E2 & G).
      + intros j Ej Hf. unfold cstep, slock. rewrite Ej, Hf. discriminate.
      + intros; apply (s_free s l R F).
      + destruct (X1 (S j) k) as (m & Lm & Em); [|exists m; split; [lia|exact Em]].
        unfold cstep, slock in G. rewrite E2 in G. destruct (u_smutex (y_uni (s j) n)); [discriminate|].
        injection G as G. rewrite <- G. fields. apply updt_same.
    - eapply X1, Ep. }
  destruct X as (j & Lj & V). exists j. split; [exact Lj|]. unfold Woken. auto.
Qed.
Lemma end_all : exists j, u_phase (y_uni (s j) n) = UEnd.
Proof.
  destruct (end_set 0) as (i & _ & W). destruct (end_woken _ i W (Nat.lt_succ_diag_r _)) as (j & _ & E). now exists j.
Qed.
End End.

(** In every fair schedule the thread of a killed universe ends (so that its destructor
    comes back from joining it), if the ticks of its IPs end and nobody puts another IP
    into it. *)
Theorem C107_ends : forall s l n i, Run s l -> Fair s l -> Ticks_end s n -> Killed n (s i) -> (forall j, i <= j -> Closed n (s j)) ->
  exists j, i <= j /\ u_phase (y_uni (s j) n) = UEnd.
Proof.
  intros s l n i R F TE K Cl.
  destruct (end_all (fun j => s (i + j)) (fun j => l (i + j))) with (n := n) as (j & E).
  - split; [apply (run_reach s l R)|]. intros j. rewrite Nat.add_succ_r. apply (run_step _ _ R).
  - intros t k. destruct (F t (i + k)) as (j & Lj & Hj). exists (j - i). split; [lia|].
    replace (i + (j - i)) with j by lia. destruct Hj as [Hj|Hj]; [now left|]. right. intros m Hm. apply Hj. lia.
  - intros k. destruct (TE (i + k)) as (j & Lj & Hj). exists (j - i). split; [lia|]. replace (i + (j - i)) with j by lia. exact Hj.
  - now rewrite Nat.add_0_r.
  - intros j. apply Cl. lia.
  - exists (i + j). split; [lia|exact E].
Qed.

(** A fair run of it: universe 0 is killed while it is about to run its IP. *)
Definition kill_labels : list label :=
  start_labels ++ repeat (Go (U 0)) 7 ++ Begin (C 0) (OKill 0) :: repeat (Go (C 0)) 9.
Definition kstart : sys := match fires kill_labels init with Some y => y | None => init end.
Fixpoint kst (i : nat) : sys :=
  match i with
  | 0 => kstart
  | S j => match fire (lab j (kst j)) (kst j) with Some y => y | None => kst j end
  end.
Definition klb (i : nat) : label := lab i (kst i).
Definition going_ok (u : ust) : Prop :=
  u_run u = false /\ u_smutex u = None /\
  ((u_runners u = [0] /\ u_mutex u = None /\ (u_phase u = UTest 0 \/ u_phase u = UBack 0)) \/
   (u_runners u = [0] /\ u_mutex u = Some (U 0) /\ u_phase u = UPop 0) \/
   (u_runners u = [] /\ u_mutex u = Some (U 0) /\ (u_phase u = UPlace 0 \/ u_phase u = UNote \/ u_phase u = ULoop \/ u_phase u = UUnl)) \/
   (u_runners u = [] /\ u_mutex u = None /\ (u_phase u = UTop \/ u_phase u = UEnd))).
Record KFine (y : sys) : Prop := {
  kf_pc : forall t, y_pc y t = Idle;
  kf_home : y_home y 0 = 0;
  kf_stop : y_stopped y 0 = true;
  kf_busy : going_ok (y_uni y 0);
  kf_rest : forall n, n <> 0 -> rest_ok n (y_uni y n) }.
Lemma kstart_fires : fires kill_labels init = Some kstart.
Proof.
  unfold kstart. assert (X : match fires kill_labels init with Some _ => true | None => false end = true) by (vm_compute; reflexivity).
  destruct (fires kill_labels init); [reflexivity|discriminate].
Qed.
Lemma kstart_uni : let u := y_uni kstart 0 in
  u_run u = false /\ u_smutex u = None /\ u_runners u = [0] /\ u_mutex u = None /\ u_phase u = UTest 0.
Proof. vm_compute. repeat split. Qed.
Lemma kstart_fine : KFine kstart.
Proof.
  split.
  - intros [n|[|k]]; vm_compute; reflexivity.
  - vm_compute; reflexivity.
  - vm_compute; reflexivity.
  - pose proof kstart_uni as K. cbv zeta in K. unfold going_ok. tauto.
  - intros [|n] N; [congruence|].
    assert (E : u_run (y_uni kstart (S n)) = true /\ u_runners (y_uni kstart (S n)) = [] /\ u_value (y_uni kstart (S n)) = false /\
      u_mutex (y_uni kstart (S n)) = None /\ u_phase (y_uni kstart (S n)) = UTop /\ u_smutex (y_uni kstart (S n)) = None) by (vm_compute; repeat split).
    unfold rest_ok. tauto.
Qed.
Lemma going_goes y : KFine y -> u_phase (y_uni y 0) <> UEnd -> exists y', ustep 0 y = Some y' /\ KFine y'.
Proof.
  intros [P Ho St (B1 & S & B) Re] NE. unfold ustep, lock, slock.
  assert (G : forall y', (forall t, y_pc y' t = Idle) -> y_home y' 0 = 0 -> y_stopped y' 0 = true -> going_ok (y_uni y' 0) ->
     (forall n, n <> 0 -> y_uni y' n = y_uni y n) -> KFine y').
  { intros y' A1 A2 A3 A4 A5. split; auto. intros n N. rewrite A5 by exact N. now apply Re. }
  assert (O : forall n, n <> 0 -> (n =? 0) = false) by (intros n N; now apply Nat.eqb_neq).
  destruct B as [(Q & M & [Ph|Ph])|[(Q & M & Ph)|[(Q & M & [Ph|[Ph|[Ph|Ph]]])|(Q & M & [Ph|Ph])]]]; try congruence;
    rewrite ?Ph, ?B1, ?Q, ?M, ?S, ?Ho, ?St; eexists; (split; [reflexivity|]); cbn [Nat.eqb];
    (apply G; fields; rewrite ?upd_same; fields; auto; [|intros n N; unfold upd; now rewrite O by exact N]).
  all: unfold going_ok; fields; rewrite ?Q, ?S, ?M, ?B1; (split; [reflexivity|]); (split; [reflexivity|]); cbn [app tl]; tauto.
Qed.
Lemma krest_goes y n : n <> 0 -> KFine y -> u_phase (y_uni y n) <> UAcqS -> exists y', ustep n y = Some y' /\ KFine y'.
Proof.
  intros N [P Ho St B Re] NS. destruct (Re n N) as (R1 & R2 & R3 & R4 & R). unfold ustep, slock.
  assert (G : forall y', (forall t, y_pc y' t = Idle) -> y_home y' 0 = 0 -> y_stopped y' 0 = true ->
     (forall m, m <> n -> y_uni y' m = y_uni y m) -> rest_ok n (y_uni y' n) -> KFine y').
  { intros y' A1 A2 A3 A4 A5. split; auto; [rewrite A4 by auto; exact B|]. intros m Nm. destruct (Nat.eq_dec m n) as [->|D]; [exact A5|]. rewrite A4 by exact D. now apply Re. }
  assert (O : forall m, m <> n -> (m =? n) = false) by (intros m Nm; now apply Nat.eqb_neq).
  destruct R as [(Ph & S)|[(Ph & S)|[(Ph & S)|(Ph & S & W)]]]; [| | |congruence]; rewrite Ph, ?R1, ?R3, ?S; eexists; (split; [reflexivity|]);
    (apply G; fields; rewrite ?upd_same; fields; auto; [intros m Nm; unfold upd; rewrite ?O by exact Nm; reflexivity|]).
  all: unfold rest_ok; fields; tauto.
Qed.
(** The threads that wait for ever: those asleep, and that of universe 0 after its end. *)
Definition through (n : nat) (y : sys) : Prop := (n <> 0 /\ u_phase (y_uni y n) = UAcqS) \/ (n = 0 /\ u_phase (y_uni y n) = UEnd).
Lemma through_stays n y : KFine y -> through n y -> ustep n y = None.
Proof.
  intros Fi [[N E]|[-> E]]; [|unfold ustep; now rewrite E].
  destruct (kf_rest _ Fi n N) as (_ & _ & _ & _ & R). destruct R as [(Ph & S)|[(Ph & S)|[(Ph & S)|(Ph & S & W)]]]; try congruence. now apply asleep_stays.
Qed.
Lemma through_or y n : KFine y -> through n y \/ exists y', ustep n y = Some y' /\ KFine y'.
Proof.
  intros Fi. destruct (Nat.eq_dec n 0) as [->|N].
  - assert (X : u_phase (y_uni y 0) = UEnd \/ u_phase (y_uni y 0) <> UEnd) by (destruct (u_phase (y_uni y 0)); auto; right; discriminate).
    destruct X as [X|X]; [left; right; auto|right; now apply going_goes].
  - assert (X : u_phase (y_uni y n) = UAcqS \/ u_phase (y_uni y n) <> UAcqS) by (destruct (u_phase (y_uni y n)); auto; right; discriminate).
    destruct X as [X|X]; [left; left; auto|right; now apply krest_goes].
Qed.
Lemma kfine_lab i y : KFine y -> exists y', fire (lab i y) y = Some y' /\ KFine y'.
Proof.
  intros Fi. unfold lab, turn. set (n := fst (of_nat i)).
  assert (E : go (U n) y = ustep n y) by (apply go_phase, (kf_pc _ Fi)). rewrite E.
  destruct (through_or y n Fi) as [T|(y' & Eu & A)].
  - rewrite (through_stays n y Fi T). eexists. split; [reflexivity|]. destruct Fi. split; auto.
  - rewrite Eu. exists y'. cbn [fire]. now rewrite E.
Qed.
Lemma kst_fine i : KFine (kst i).
Proof.
  induction i as [|i IH]; [exact kstart_fine|]. cbn [kst]. destruct (kfine_lab i (kst i) IH) as (y' & -> & A). exact A.
Qed.
Lemma kst_run : Run kst klb.
Proof.
  split; [now exists kill_labels; apply kstart_fires|].
  intros i. unfold klb. cbn [kst]. destruct (kfine_lab i (kst i) (kst_fine i)) as (y' & E & A). rewrite E. reflexivity.
Qed.
Lemma kst_through n i d : through n (kst i) -> through n (kst (i + d)).
Proof.
  intros E. induction d as [|d IH]; [now rewrite Nat.add_0_r|]. rewrite Nat.add_succ_r.
  pose proof (run_step _ _ kst_run (i + d)) as F.
  assert (P : u_phase (y_uni (kst (S (i + d))) n) = u_phase (y_uni (kst (i + d)) n)).
  { eapply phase_own; [exact F|]. intros K _. rewrite K in F. cbn [fire] in F.
    rewrite go_phase in F by apply (kf_pc _ (kst_fine _)). rewrite (through_stays n _ (kst_fine _) IH) in F. discriminate. }
  unfold through in *. now rewrite P.
Qed.
Lemma kst_fair : Fair kst klb.
Proof.
  intros [n|k] i.
  - destruct (turn_again n i) as (j & Lj & Ej). exists j. split; [exact Lj|].
    assert (Eg : forall m, go (U n) (kst m) = ustep n (kst m)) by (intros m; apply go_phase, (kf_pc _ (kst_fine m))).
    destruct (through_or (kst j) n (kst_fine j)) as [T|(y' & Eu & _)].
    + right. intros m Hm. rewrite Eg. apply through_stays; [apply kst_fine|].
      replace m with (j + (m - j)) by lia. now apply kst_through.
    + left. unfold klb, lab. rewrite Ej, Eg, Eu. reflexivity.
  - exists i. split; [lia|]. right. intros m _. unfold go, cstep. now rewrite (kf_pc _ (kst_fine m)).
Qed.
Lemma kst_ticks : Ticks_end kst 0.
Proof.
  intros i. exists i. split; [lia|]. intros q K. destruct (kf_busy _ (kst_fine i)) as (_ & _ & B).
  decompose [or and] B; congruence.
Qed.
Example C107_ends_ex : Run kst klb /\ Fair kst klb /\ Ticks_end kst 0 /\ Killed 0 (kst 0) /\ (forall j, Closed 0 (kst j)) /\
  u_runners (y_uni (kst 0) 0) = [0] /\ u_phase (y_uni (kst 0) 0) = UTest 0.
Proof.
  pose proof kstart_uni as K. cbv zeta in K. destruct K as (B1 & _ & Q1 & _ & Q2).
  split; [exact kst_run|]. split; [exact kst_fair|]. split; [exact kst_ticks|]. cbn [kst].
  split; [|split; [intros j t r; rewrite (kf_pc _ (kst_fine j)); discriminate|split; assumption]].
  split; [exact B1|]. rewrite Q1, Q2. split; [intros r [<-|[]]; exact (kf_stop _ kstart_fine)|discriminate].
Qed.
Definition two_labels : list label :=
  start_labels ++ (Begin (C 0) (OAdd 0 1) :: repeat (Go (C 0)) 7) ++ Begin (C 0) (OKill 0) :: repeat (Go (C 0)) 2.
Example C107_kill_ex : exists y t, reachable y /\ y_pc y t = Kill2 0 /\ u_runners (y_uni y 0) = [0; 1].
Proof.
  assert (X : match fires two_labels init with Some y => y_pc y (C 0) = Kill2 0 /\ u_runners (y_uni y 0) = [0; 1] | None => False end) by (vm_compute; split; reflexivity).
  destruct (fires two_labels init) as [y|] eqn:E; [|destruct X].
  exists y, (C 0). split; [exists two_labels; exact E|exact X].
Qed.
Print Assumptions C107_kill. Print Assumptions C107_ends.

(** *** With -fthreads=native *)
Definition NRoused (y : nst) : Prop := n_run y = false ->
  (n_phase y = NAcq -> n_value y = true) /\ (n_pc y WM = NWS -> n_asleep y = true -> exists w, n_pc y w = NKill2).
Lemma nroused_step x y y' : NLocks y -> NRoused y -> nfire x y = Some y' -> NRoused y'.
Proof.
  intros L I H. unfold NRoused in *. pose proof L as [Il Ip Iu].
  destruct x as [w|w r|w| |r|]; ncases H; subst y'; subst; nmays; unfold n_running in *; nfields; intros Q.
  all: try congruence.
  all: try (specialize (I Q); destruct I as [I1 I2]).
  all: split; [try congruence; nwho; auto; try congruence; intros; discriminate|].
  all: repeat match goal with |- context [who_eqb WM ?w] => destruct (who_eqb_spec WM w); [subst|] end; try congruence; try (intros; discriminate).
  all: try (intros A B; eexists; rewrite who_eqb_refl; reflexivity).
  all: try (intros A B; destruct (I2 A B) as [w' W']; exists w'; repeat match goal with |- context [who_eqb ?a ?b] => destruct (who_eqb_spec a b); [subst; congruence|] end; exact W').
  all: try match goal with E : (_ && _)%bool = true |- _ => apply andb_true_iff in E; destruct E; congruence end.
  all: exact (proj2 (I eq_refl)).
Qed.
Definition NHeld (y : nst) : Prop := n_mutex y = Some WU -> phM (n_phase y) = true.
Lemma nheld_step x y y' : NLocks y -> NHeld y -> nfire x y = Some y' -> NHeld y'.
Proof.
  intros L I H. unfold NHeld in *. pose proof (nl_wu y L) as W. destruct x as [w|w r|w| |r|]; ncases H; subst y'; subst; nfields; auto; try congruence.
  all: intros Q; first [discriminate Q|specialize (I Q); congruence].
Qed.
(** A universe that was killed wakes its thread and whoever waits for its end, and its
    thread ends by itself as soon as no IP is running in it. *)
Theorem C107_native : forall y, nreachable y -> n_run y = false ->
  (n_phase y = NAcq -> n_value y = true) /\
  (n_pc y WM = NWS -> n_asleep y = true -> exists w, n_pc y w = NKill2) /\
  ((forall r, n_alive y r = false) -> n_mutex y = None \/ n_mutex y = Some WU ->
   exists k y', nfires (repeat (NGo WU) k) y = Some y' /\ n_phase y' = NEnd).
Proof.
  intros y Re Q.
  assert (X : NLocks y /\ NRoused y).
  { revert y Re Q. intros y Re _. revert y Re. apply nreach_ind; [intros K; discriminate|]. intros. eapply nroused_step; eauto. }
  destruct X as [L X]. destruct (X Q) as [X1 X2]. split; [exact X1|]. split; [exact X2|]. clear X X2. intros Al Mu.
  pose proof (nl_ph y L) as Lp. clear L.
  assert (One : forall y y', nustep y = Some y' -> (exists k z, nfires (repeat (NGo WU) k) y' = Some z /\ n_phase z = NEnd) ->
    exists k z, nfires (repeat (NGo WU) k) y = Some z /\ n_phase z = NEnd).
  { intros a b E (k & z & A & B). exists (S k), z. cbn [repeat nfires nfire]. now rewrite E. }
  assert (Top : forall y, n_run y = false -> n_phase y = NTop -> exists k z, nfires (repeat (NGo WU) k) y = Some z /\ n_phase z = NEnd).
  { intros a A B. eapply One; [unfold nustep; rewrite B, A; reflexivity|]. exists 0. eexists. split; reflexivity. }
  assert (Loop : forall q y, n_threads y = q -> n_run y = false -> n_phase y = NLoop -> (forall r, n_alive y r = false) ->
    exists k z, nfires (repeat (NGo WU) k) y = Some z /\ n_phase z = NEnd).
  { induction q as [|r q IH]; intros a T A B D.
    - eapply One; [unfold nustep; rewrite B, T; reflexivity|]. eapply One; [reflexivity|]. apply Top; [exact A|reflexivity].
    - eapply One; [unfold nustep; rewrite B, T; reflexivity|].
      eapply One; [unfold nustep; nfields; rewrite D; reflexivity|]. eapply One; [reflexivity|]. eapply One; [reflexivity|].
      apply IH; nfields; auto. now rewrite T. }
  assert (Pop : forall r y, n_run y = false -> n_phase y = NPop r -> (forall r, n_alive y r = false) ->
    exists k z, nfires (repeat (NGo WU) k) y = Some z /\ n_phase z = NEnd).
  { intros r a A B D. eapply One; [unfold nustep; rewrite B; reflexivity|]. eapply Loop; nfields; auto. }
  assert (Back : forall r y, n_mutex y = None -> n_run y = false -> n_phase y = NBack r -> (forall r, n_alive y r = false) ->
    exists k z, nfires (repeat (NGo WU) k) y = Some z /\ n_phase z = NEnd).
  { intros r a M A B D. eapply One; [unfold nustep, nlock; rewrite B, M; reflexivity|]. eapply Pop; nfields; auto. }
  assert (Lock : forall y, n_mutex y = None -> n_run y = false -> n_phase y = NLock -> (forall r, n_alive y r = false) ->
    exists k z, nfires (repeat (NGo WU) k) y = Some z /\ n_phase z = NEnd).
  { intros a M A B D. eapply One; [unfold nustep, nlock; rewrite B, M; reflexivity|]. eapply Loop; nfields; auto. }
  assert (Hh : NHeld y) by (revert y Re Q X1 Al Mu Lp; intros y Re _ _ _ _ _; refine (proj2 (nreach_ind NHeld _ nheld_step y Re)); intros K; discriminate K).
  unfold NHeld in Hh.
  destruct (n_phase y) eqn:Ph; cbn [phM] in Lp, Hh.
  all: try (destruct Mu as [Mu|Mu]; [|discriminate (Hh Mu)]).
  - now apply Top.
  - eapply One; [unfold nustep; rewrite Ph, (X1 eq_refl); reflexivity|]. apply Lock; nfields; auto.
  - now apply Lock.
  - now apply (Loop _ y eq_refl).
  - eapply One; [unfold nustep; rewrite Ph, Al; reflexivity|]. apply (Back r); nfields; auto.
  - now apply (Back r).
  - now apply (Pop r).
  - eapply One; [unfold nustep; rewrite Ph; reflexivity|]. apply Top; nfields; auto.
  - exists 0, y. auto.
Qed.
Definition native_run (ls : list nlabel) : nst := match nfires ls ninit with Some y => y | None => ninit end.
Lemma native_fires ls : match nfires ls ninit with Some _ => true | None => false end = true -> nfires ls ninit = Some (native_run ls).
Proof. unfold native_run. destruct (nfires ls ninit); [reflexivity|discriminate]. Qed.
(** An IP added and killed while the universe's thread waits for its semaphore. *)
Definition native1 : list nlabel := [NGo WU; NBegAdd WM 0; NGo WM; NGo WM; NGo WM; NBegWait; NGo WM; NGo WM; NBegKill (WI 0); NGo (WI 0); NGo (WI 0)].
Example C107_native_ex : let y := native_run native1 in
  nreachable y /\ n_run y = false /\ n_phase y = NAcq /\ n_pc y WM = NWS /\ n_asleep y = true /\ n_pc y (WI 0) = NKill2.
Proof. split; [exists native1; apply native_fires; vm_compute; reflexivity|]. vm_compute. repeat split. Qed.
Definition native2 : list nlabel := native1 ++ [NGo (WI 0); NDone 0].
Example C107_native_ex2 : let y := native_run native2 in
  nreachable y /\ n_run y = false /\ (forall r, n_alive y r = false) /\ n_mutex y = None /\ n_threads y = [0].
Proof. split; [exists native2; apply native_fires; vm_compute; reflexivity|]. split; [vm_compute; reflexivity|]. split; [intros [|r]; vm_compute; reflexivity|]. vm_compute. split; reflexivity. Qed.

(** The destructor then deletes the threads that are left: it comes to an end exactly if
    there are none. *)
Theorem C107_destroy_partial : forall y, nreachable y -> n_phase y = NEnd ->
  ((exists f, nclear f (n_threads y) (fun _ => false) = NClean) <-> n_threads y = []) /\
  (forall r q, n_threads y = r :: q -> forall f, 2 <= f -> nclear f (n_threads y) (fun _ => false) = NFreed r).
Proof.
  intros y _ _.
  assert (X : forall r q, n_threads y = r :: q -> forall f, 2 <= f -> nclear f (n_threads y) (fun _ => false) = NFreed r).
  { intros r q E f Hf. rewrite E. destruct f as [|[|f]]; [lia|lia|]. cbn [nclear]. now rewrite Nat.eqb_refl. }
  split; [|exact X]. split.
  - intros [f E]. destruct (n_threads y) as [|r q] eqn:Et; [reflexivity|]. exfalso.
    destruct f as [|[|f]]; [discriminate|discriminate|]. cbn [nclear] in E. rewrite Nat.eqb_refl in E. discriminate.
  - intros ->. now exists 1.
Qed.
(** An IP that ends its universe before the universe's thread first looks at it is left,
    and the destructor joins its thread object after deleting it. *)
Definition hasty : list nlabel :=
  [NBegAdd WM 0; NGo WM; NGo WM; NGo WM; NBegKill (WI 0); NGo (WI 0); NGo (WI 0); NGo (WI 0); NDone 0; NGo WU].
Theorem C107_destroy_refuted : exists y, nfires hasty ninit = Some y /\ nreachable y /\ n_phase y = NEnd /\
  (forall w, n_pc y w = NIdle) /\ (forall r, n_alive y r = false) /\
  forall f, 2 <= f -> nclear f (n_threads y) (fun _ => false) = NFreed 0.
Proof.
  assert (E : nfires hasty ninit = Some (native_run hasty)) by (apply native_fires; vm_compute; reflexivity).
  exists (native_run hasty). split; [exact E|]. split; [exists hasty; exact E|]. split; [vm_compute; reflexivity|].
  split; [intros [| |[|r]]; vm_compute; reflexivity|]. split; [intros [|r]; vm_compute; reflexivity|].
  assert (T : n_threads (native_run hasty) = [0]) by (vm_compute; reflexivity). rewrite T.
  intros f Hf. destruct f as [|[|f]]; [lia|lia|]. reflexivity.
Qed.
Print Assumptions C107_native. Print Assumptions C107_destroy_partial. Print Assumptions C107_destroy_refuted.
