(** * A fair infinite run: universe 0 runs one IP for ever, all others sleep. *)

From Coq Require Import List Bool Arith Lia Cantor.
From Verif Require Import ThreadModel ThreadProofs ThreadLive.
Import ListNotations.

Definition start_labels : list label :=
  Begin (C 0) (OAdd 0 0) :: Go (C 0) :: Go (C 0) :: Go (C 0) :: Go (C 0) :: Go (C 0) :: Go (C 0) :: Go (C 0) :: nil.
Definition start : sys := match fires start_labels init with Some y => y | None => init end.

(** Round robin over all universe threads; when the thread whose turn it is cannot go,
    nothing happens (an awake thread is woken). *)
Definition turn (i : nat) : tid := U (fst (of_nat i)).
Definition lab (i : nat) (y : sys) : label := match go (turn i) y with Some _ => Go (turn i) | None => Spurious (C 0) end.
Fixpoint st (i : nat) : sys :=
  match i with
  | 0 => start
  | S j => match fire (lab j (st j)) (st j) with Some y => y | None => st j end
  end.
Definition lb (i : nat) : label := lab i (st i).

(** What holds all along. *)
Definition rest_ok (n : nat) (u : ust) : Prop :=
  u_run u = true /\ u_runners u = [] /\ u_value u = false /\ u_mutex u = None /\
  ((u_phase u = UTop /\ u_smutex u = None) \/ (u_phase u = UAcq /\ u_smutex u = None) \/
   (u_phase u = UAcqT /\ u_smutex u = Some (U n)) \/ (u_phase u = UAcqS /\ u_smutex u = None /\ u_wait u = true)).
Definition busy_ok (u : ust) : Prop :=
  u_run u = true /\
  ((u_value u = true /\ u_runners u = [0] /\ u_mutex u = None /\ u_smutex u = None /\ (u_phase u = UTop \/ u_phase u = UAcq)) \/
   (u_value u = true /\ u_runners u = [0] /\ u_mutex u = None /\ u_smutex u = Some (U 0) /\ u_phase u = UAcqT) \/
   (u_runners u = [0] /\ u_mutex u = None /\ u_smutex u = Some (U 0) /\ u_phase u = UAcqU) \/
   (u_runners u = [0] /\ u_mutex u = None /\ u_smutex u = None /\ (u_phase u = ULock \/ u_phase u = UTest 0 \/ u_phase u = UTick 0 \/ u_phase u = UBack 0)) \/
   (u_runners u = [0] /\ u_mutex u = Some (U 0) /\ u_smutex u = None /\ (u_phase u = ULoop \/ u_phase u = UPick 0 \/ u_phase u = UPop 0)) \/
   (u_runners u = [] /\ u_mutex u = Some (U 0) /\ u_smutex u = None /\ u_phase u = UPlace 0)).
Record Fine (y : sys) : Prop := {
  fi_pc : forall t, y_pc y t = Idle;
  fi_home : y_home y 0 = 0;
  fi_stop : y_stopped y 0 = false;
  fi_busy : busy_ok (y_uni y 0);
  fi_rest : forall n, n <> 0 -> rest_ok n (y_uni y n) }.

Lemma start_fires : fires start_labels init = Some start.
Proof. unfold start. vm_compute. reflexivity. Qed.
Lemma start_fine : Fine start.
Proof.
  unfold start. cbn -[tid_eqb Nat.eqb]. split; cbn.
  - intros [n|[|k]]; reflexivity.
  - reflexivity.
  - reflexivity.
  - unfold busy_ok; cbn. split; [reflexivity|]. left. repeat split; auto.
  - intros [|n] N; [congruence|]. unfold rest_ok; cbn. repeat split; auto.
Qed.

(** The busy universe can always go on, another one until it sleeps; both stay fine. *)
Lemma busy_goes y : Fine y -> exists y', ustep 0 y = Some y' /\ Fine y'.
Proof.
  intros [P Ho St [B1 B] Re]. unfold ustep, lock, slock.
  assert (G : forall y', (forall t, y_pc y' t = Idle) -> y_home y' 0 = 0 -> y_stopped y' 0 = false -> busy_ok (y_uni y' 0) ->
     (forall n, n <> 0 -> y_uni y' n = y_uni y n) -> Fine y').
  { intros y' A1 A2 A3 A4 A5. split; auto. intros n N. rewrite A5 by exact N. now apply Re. }
  assert (O : forall n, n <> 0 -> (n =? 0) = false) by (intros n N; now apply Nat.eqb_neq).
  destruct B as [(V & Q & M & S & [Ph|Ph])|[(V & Q & M & S & Ph)|[(Q & M & S & Ph)|[(Q & M & S & [Ph|[Ph|[Ph|Ph]]])|[(Q & M & S & [Ph|[Ph|Ph]])|(Q & M & S & Ph)]]]]];
    rewrite ?Ph, ?B1, ?V, ?Q, ?M, ?S, ?Ho, ?St; eexists; (split; [reflexivity|]); cbn [Nat.eqb];
    (apply G; fields; rewrite ?upd_same; fields; auto; [|intros n N; unfold upd; now rewrite O by exact N]).
  all: unfold busy_ok; fields; rewrite ?Q, ?V, ?S, ?M, ?B1; (split; [reflexivity|]); cbn [app tl]; tauto.
Qed.
Lemma rest_goes y n : n <> 0 -> Fine y -> u_phase (y_uni y n) <> UAcqS -> exists y', ustep n y = Some y' /\ Fine y'.
Proof.
  intros N [P Ho St B Re] NS. destruct (Re n N) as (R1 & R2 & R3 & R4 & R). unfold ustep, slock.
  assert (G : forall y', (forall t, y_pc y' t = Idle) -> y_home y' 0 = 0 -> y_stopped y' 0 = false ->
     (forall m, m <> n -> y_uni y' m = y_uni y m) -> rest_ok n (y_uni y' n) -> Fine y').
  { intros y' A1 A2 A3 A4 A5. split; auto; [rewrite A4 by auto; exact B|]. intros m Nm. destruct (Nat.eq_dec m n) as [->|D]; [exact A5|]. rewrite A4 by exact D. now apply Re. }
  assert (O : forall m, m <> n -> (m =? n) = false) by (intros m Nm; now apply Nat.eqb_neq).
  destruct R as [(Ph & S)|[(Ph & S)|[(Ph & S)|(Ph & S & W)]]]; [| | |congruence]; rewrite Ph, ?R1, ?R3, ?S; eexists; (split; [reflexivity|]);
    (apply G; fields; rewrite ?upd_same; fields; auto; [intros m Nm; unfold upd; rewrite ?O by exact Nm; reflexivity|]).
  all: unfold rest_ok; fields; tauto.
Qed.
Lemma asleep_stays n y : u_phase (y_uni y n) = UAcqS -> u_wait (y_uni y n) = true -> ustep n y = None.
Proof. intros E W. unfold ustep. now rewrite E, W. Qed.

Lemma fine_lab i y : Fine y -> exists y', fire (lab i y) y = Some y' /\ Fine y'.
Proof.
  intros Fi. unfold lab, turn. set (n := fst (of_nat i)).
  assert (E : go (U n) y = ustep n y) by (apply go_phase, (fi_pc _ Fi)). rewrite E.
  destruct (ustep n y) as [y1|] eqn:Eu.
  - exists y1. cbn [fire]. split; [now rewrite E|].
    destruct (Nat.eq_dec n 0) as [->|D].
    + destruct (busy_goes y Fi) as (y' & A & A'). congruence.
    + assert (NS : u_phase (y_uni y n) <> UAcqS).
      { intros K. destruct (fi_rest _ Fi n D) as (_ & _ & _ & _ & R). destruct R as [(Ph & S)|[(Ph & S)|[(Ph & S)|(Ph & S & W)]]]; try congruence.
        rewrite (asleep_stays n y Ph W) in Eu. discriminate. }
      destruct (rest_goes y n D Fi NS) as (y' & A & A'). congruence.
  - eexists. split; [reflexivity|]. destruct Fi. split; auto.
Qed.
Lemma st_fine i : Fine (st i).
Proof.
  induction i as [|i IH]; [exact start_fine|]. cbn [st]. destruct (fine_lab i (st i) IH) as (y' & -> & A). exact A.
Qed.
Lemma st_run : Run st lb.
Proof.
  split; [now exists start_labels; apply start_fires|].
  intros i. unfold lb. cbn [st]. destruct (fine_lab i (st i) (st_fine i)) as (y' & E & A). rewrite E. reflexivity.
Qed.
(** The turn of each universe comes again and again. *)
Lemma turn_again n i : exists j, i <= j /\ turn j = U n.
Proof.
  exists (to_nat (n, i)). split; [pose proof (to_nat_non_decreasing n i); lia|]. unfold turn. now rewrite cancel_of_to.
Qed.
(** A sleeping universe sleeps on. *)
Lemma st_asleep n i d : n <> 0 -> u_phase (y_uni (st i) n) = UAcqS -> u_phase (y_uni (st (i + d)) n) = UAcqS.
Proof.
  intros N E. induction d as [|d IH]; [now rewrite Nat.add_0_r|]. rewrite Nat.add_succ_r.
  pose proof (run_step _ _ st_run (i + d)) as F. rewrite <- IH. unfold lb, lab in F.
  destruct (go (turn (i + d)) (st (i + d))) as [y1|] eqn:Eg.
  - eapply phase_own; [exact F|]. intros K _. unfold turn in Eg; injection K as K; rewrite K in Eg. rewrite go_phase in Eg by apply (fi_pc _ (st_fine _)).
    destruct (fi_rest _ (st_fine (i + d)) n N) as (_ & _ & _ & _ & R).
    destruct R as [(Ph & S)|[(Ph & S)|[(Ph & S)|(Ph & S & W)]]]; try congruence. rewrite asleep_stays in Eg by assumption. discriminate.
  - eapply phase_own; [exact F|discriminate].
Qed.
Lemma st_fair : Fair st lb.
Proof.
  intros [n|k] i.
  - destruct (turn_again n i) as (j & Lj & Ej). exists j. split; [exact Lj|].
    assert (Eg : forall m, go (U n) (st m) = ustep n (st m)) by (intros m; apply go_phase, (fi_pc _ (st_fine m))).
    destruct (ustep n (st j)) as [y1|] eqn:Eu.
    + left. unfold lb, lab. rewrite Ej, Eg, Eu. reflexivity.
    + right. intros m Hm. rewrite Eg.
      destruct (Nat.eq_dec n 0) as [->|D].
      { destruct (busy_goes (st j) (st_fine j)) as (y' & A & _). congruence. }
      assert (K : u_phase (y_uni (st j) n) = UAcqS).
      { destruct (fi_rest _ (st_fine j) n D) as (_ & _ & _ & _ & R).
        destruct R as [(Ph & S)|[(Ph & S)|[(Ph & S)|(Ph & S & W)]]]; auto; exfalso;
          (destruct (rest_goes (st j) n D (st_fine j)) as (y' & A & _); [congruence|congruence]). }
      pose proof (st_asleep n j (m - j) D K) as K2. replace (j + (m - j)) with m in K2 by lia.
      destruct (fi_rest _ (st_fine m) n D) as (_ & _ & _ & _ & R).
      destruct R as [(Ph & S)|[(Ph & S)|[(Ph & S)|(Ph & S & W)]]]; try congruence. now apply asleep_stays.
  - exists i. split; [lia|]. right. intros m _. unfold go, cstep. now rewrite (fi_pc _ (st_fine m)).
Qed.
(** The ticks of universe 0 end: it goes on whenever it is its turn. *)
Lemma st_ticks : Ticks_end st 0.
Proof.
  intros i. destruct (turn_again 0 i) as (j & Lj & Ej).
  pose proof (run_step _ _ st_run j) as F. unfold lb, lab in F. rewrite Ej in F.
  assert (Eg : go (U 0) (st j) = ustep 0 (st j)) by (apply go_phase, (fi_pc _ (st_fine j))). rewrite Eg in F.
  destruct (busy_goes (st j) (st_fine j)) as (y' & A & _). rewrite A in F. cbn [fire] in F. rewrite Eg in F.
  destruct (u_phase (y_uni (st j) 0)) eqn:Ph; try (exists j; split; [exact Lj|intros q K; congruence]).
  exists (S j). split; [lia|]. intros q K. unfold ustep in F. rewrite Ph in F. injection F as F. assert (F2 : st (S j) = phase_to 0 (UBack r) (use r (st j))) by (symmetry; exact F); rewrite F2 in K. cbn in K. discriminate.
Qed.
