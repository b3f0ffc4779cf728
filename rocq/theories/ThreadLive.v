(** * Fair runs of the threads of ThreadModel.v: locks are always released and the
    universe threads keep going. *)

From Coq Require Import List Bool Arith Lia.
From Verif Require Import ThreadModel ThreadProofs.
Import ListNotations.

(** An infinite run: states [s i] and labels [l i]. *)
Record Run (s : nat -> sys) (l : nat -> label) : Prop := {
  run_start : reachable (s 0);
  run_step : forall i, fire (l i) (s i) = Some (s (S i)) }.
(** Every thread goes on again and again, or is blocked for ever from some point on. *)
Definition Fair (s : nat -> sys) (l : nat -> label) : Prop :=
  forall t i, exists j, i <= j /\ (l j = Go t \/ forall k, j <= k -> go t (s k) = None).

Definition is_go (t : tid) (x : label) : bool := match x with Go t' => tid_eqb t' t | _ => false end.
Lemma is_go_spec t x : reflect (x = Go t) (is_go t x).
Proof.
  destruct x as [t'| | |]; cbn [is_go]; try (constructor; congruence).
  destruct (tid_eqb_spec t' t); constructor; congruence.
Qed.

Section Runs.
Variables (s : nat -> sys) (l : nat -> label).
Hypothesis R : Run s l.
Hypothesis F : Fair s l.

Lemma run_reach i : reachable (s i).
Proof.
  induction i as [|i [ls IH]]; [apply (run_start _ _ R)|].
  exists (ls ++ [l i]). pose proof (run_step _ _ R i) as E. revert IH. generalize init.
  induction ls as [|a ls IHl]; intros y H; cbn [fires app] in *.
  - injection H as ->. now rewrite E.
  - destruct (fire a y); [now apply IHl|discriminate].
Qed.
Lemma run_locks i : Locks (s i). Proof. apply reach_locks, run_reach. Qed.
Lemma run_wake i : Wake (s i). Proof. apply reach_wake, run_reach. Qed.
Lemma run_waiters i : Waiters (s i). Proof. apply reach_waiters, run_reach. Qed.

(** A property kept by every step but those of [h]. *)
Definition Kept (h : tid) (Q : sys -> Prop) : Prop :=
  forall i, Q (s i) -> l i <> Go h -> Q (s (S i)).

Lemma kept_until h Q i d : Kept h Q -> Q (s i) ->
  (exists j, i <= j < i + d /\ l j = Go h /\ Q (s j) /\ forall k, i <= k < j -> l k <> Go h) \/
  (Q (s (i + d)) /\ forall k, i <= k < i + d -> l k <> Go h).
Proof.
  intros K H. induction d as [|d IH].
  - right. rewrite Nat.add_0_r. split; [exact H|]. intros. lia.
  - destruct IH as [(j & Hj & E & Qj & N)|[Q' N]].
    + left. exists j. repeat split; auto; lia.
    + destruct (is_go_spec h (l (i + d))) as [E|E].
      * left. exists (i + d). repeat split; auto; lia.
      * right. rewrite Nat.add_succ_r. split; [now apply K|].
        intros k Hk. destruct (Nat.eq_dec k (i + d)); [now subst|]. apply N. lia.
Qed.

(** If [h] can go whenever [free] holds, and that is so again and again, then it goes. *)
Lemma goes h (Q free : sys -> Prop) i : Kept h Q ->
  (forall j, Q (s j) -> free (s j) -> go h (s j) <> None) ->
  (forall j, i <= j -> exists k, j <= k /\ free (s k)) ->
  Q (s i) ->
  exists j, i <= j /\ l j = Go h /\ Q (s j) /\ forall k, i <= k < j -> l k <> Go h.
Proof.
  intros K En Fr H. destruct (F h i) as (j & Lj & Hj).
  destruct (kept_until h Q i (S (j - i)) K H) as [(j' & ? & ? & ? & ?)|[Q1 N]].
  { exists j'. repeat split; auto; lia. }
  destruct Hj as [Hj|Hj].
  { exfalso. apply (N j); [lia|exact Hj]. }
  exfalso. destruct (Fr j Lj) as (k & Lk & Hk).
  assert (NG : forall m, j <= m -> l m <> Go h).
  { intros m Hm E. pose proof (run_step _ _ R m) as E2. rewrite E in E2. cbn [fire] in E2. rewrite Hj in E2 by exact Hm. discriminate. }
  destruct (kept_until h Q i (S (k - i)) K H) as [(j' & Hj' & E & _)|[Q2 N2]].
  { destruct (le_lt_dec j j'); [now apply (NG j')|]. apply (N j'); [lia|exact E]. }
  destruct (kept_until h Q i (k - i) K H) as [(j' & Hj' & E & _)|[Q3 N3]].
  { apply (N2 j'); [lia|exact E]. }
  replace (i + (k - i)) with k in Q3 by lia. apply (En k Q3 Hk). apply Hj. exact Lk.
Qed.

(** ** What other threads leave alone *)

Lemma pc_kept : forall h p x y y', p <> Idle -> y_pc y h = p -> fire x y = Some y' -> x <> Go h -> y_pc y' h = p.
Proof.
  intros h p x y y' Np E H N.
  destruct x as [t|t o|n|[n|k]]; step_cases H; subst y'; casing; auto.
  all: unfold updt; try (destruct (tid_eqb_spec h t); [subst; congruence|auto]).
  all: match goal with |- context [tid_eqb ?a ?b] => destruct (tid_eqb_spec a b); [subst; congruence|auto] end.
Qed.
Lemma phase_kept : forall n p x y y', (forall r, p <> UTick r) -> y_pc y (U n) = Idle -> u_phase (y_uni y n) = p ->
  fire x y = Some y' -> x <> Go (U n) -> y_pc y' (U n) = Idle /\ u_phase (y_uni y' n) = p.
Proof.
  intros n p x y y' Np E1 E2 H N.
  destruct x as [t|t o|m|[m|k]]; step_cases H; subst y'; casing; auto.
  all: unfold updt, upd in *; repeat match goal with
    | |- context [tid_eqb ?a ?b] => destruct (tid_eqb_spec a b); [subst; try congruence|]
    | |- context [?a =? ?b] => destruct (Nat.eqb_spec a b); [subst; try congruence|]
    end; fields; auto.
  all: match goal with e : U _ = U _ |- _ => injection e as -> end; exfalso; eapply Np; eassumption.
Qed.

Lemma go_pc h y : y_pc y h <> Idle -> go h y = cstep h y.
Proof. intros N. unfold go. destruct (y_pc y h), h; congruence. Qed.
Lemma go_phase n y : y_pc y (U n) = Idle -> go (U n) y = ustep n y.
Proof. intros N. unfold go. now rewrite N. Qed.

(** A thread inside an operation takes its next step, if it can again and again. *)
Lemma pc_goes h p (free : sys -> Prop) i : p <> Idle -> y_pc (s i) h = p ->
  (forall j, y_pc (s j) h = p -> free (s j) -> cstep h (s j) <> None) ->
  (forall j, i <= j -> exists k, j <= k /\ free (s k)) ->
  exists j, i <= j /\ y_pc (s j) h = p /\ cstep h (s j) = Some (s (S j)).
Proof.
  intros Np E En Fr.
  destruct (goes h (fun y => y_pc y h = p) free i) as (j & Lj & G & Q & _); auto.
  - intros k Q N. eapply pc_kept; eauto. apply (run_step _ _ R k).
  - intros k Q Hf. rewrite go_pc by congruence. now apply En.
  - exists j. split; [exact Lj|]. split; [exact Q|].
    pose proof (run_step _ _ R j) as E2. rewrite G in E2. cbn [fire] in E2. rewrite go_pc in E2 by congruence. exact E2.
Qed.
Lemma pc_goes_now h p i : p <> Idle -> y_pc (s i) h = p ->
  (forall j, y_pc (s j) h = p -> cstep h (s j) <> None) ->
  exists j, i <= j /\ y_pc (s j) h = p /\ cstep h (s j) = Some (s (S j)).
Proof. intros. apply (pc_goes h p (fun _ => True)); eauto. Qed.
(** The same for the thread of a universe; nothing else moves it meanwhile. *)
Lemma phase_goes n p (free : sys -> Prop) i : (forall r, p <> UTick r) ->
  y_pc (s i) (U n) = Idle -> u_phase (y_uni (s i) n) = p ->
  (forall j, i <= j -> y_pc (s j) (U n) = Idle -> u_phase (y_uni (s j) n) = p -> free (s j) -> ustep n (s j) <> None) ->
  (forall j, i <= j -> exists k, j <= k /\ free (s k)) ->
  exists j, i <= j /\ y_pc (s j) (U n) = Idle /\ u_phase (y_uni (s j) n) = p /\ ustep n (s j) = Some (s (S j)) /\
    forall k, i <= k < j -> l k <> Go (U n).
Proof.
  intros Np E1 E2 En Fr.
  destruct (goes (U n) (fun y => y_pc y (U n) = Idle /\ u_phase (y_uni y n) = p) (fun y => free y /\ exists j, i <= j /\ y = s j) i) as (j & Lj & G & [Q1 Q2] & N); auto.
  - intros k [Q1 Q2] N. eapply phase_kept; eauto. apply (run_step _ _ R k).
  - intros k [Q1 Q2] [Hf (j & Lj & Ej)]. rewrite go_phase by exact Q1. rewrite Ej in *. now apply En.
  - intros j Lj. destruct (Fr j Lj) as (k & Lk & Hk). exists k. split; [exact Lk|]. split; [exact Hk|]. exists k. split; [lia|reflexivity].
  - exists j. repeat split; auto.
    pose proof (run_step _ _ R j) as E3. rewrite G in E3. cbn [fire] in E3. rewrite go_phase in E3 by exact Q1. exact E3.
Qed.
Lemma phase_goes_now n p i : (forall r, p <> UTick r) ->
  y_pc (s i) (U n) = Idle -> u_phase (y_uni (s i) n) = p ->
  (forall j, u_phase (y_uni (s j) n) = p -> ustep n (s j) <> None) ->
  exists j, i <= j /\ y_pc (s j) (U n) = Idle /\ u_phase (y_uni (s j) n) = p /\ ustep n (s j) = Some (s (S j)) /\
    forall k, i <= k < j -> l k <> Go (U n).
Proof. intros. apply (phase_goes n p (fun _ => True)); eauto. Qed.

Lemma upd_same {A} (f : nat -> A) n x : upd f n x n = x.
Proof. unfold upd. now rewrite Nat.eqb_refl. Qed.
Lemma updt_same {A} (f : tid -> A) t x : updt f t x t = x.
Proof. unfold updt. now rewrite tid_eqb_refl. Qed.

(** A thread with a universe phase other than a tick is in no operation. *)
Lemma phase_idle n i : (forall r, u_phase (y_uni (s i) n) <> UTick r) -> y_pc (s i) (U n) = Idle.
Proof.
  intros N. destruct (y_pc (s i) (U n)) eqn:E; auto; exfalso;
    (destruct (lk_idle _ (run_locks i) n) as [z Er]; [rewrite E; discriminate|]; now apply (N z)).
Qed.

(** ** Locks are released *)

Ltac next_pc E G := unfold cstep in G; rewrite E in G.
Ltac took G := injection G as G; rewrite <- G; fields; unfold phase_to, on_uni, unlock, sunlock, set_pc; fields; rewrite ?upd_same, ?updt_same; fields.

Lemma s_free_rel3 i n k h : y_pc (s i) h = Rel3 n k -> exists j, i <= j /\ u_smutex (y_uni (s j) n) = None.
Proof.
  intros E. destruct (pc_goes_now h (Rel3 n k) i ltac:(discriminate) E) as (j & Lj & E2 & G).
  { intros j Ej. unfold cstep. rewrite Ej. discriminate. }
  exists (S j). split; [lia|]. next_pc E2 G. took G. reflexivity.
Qed.
Lemma s_free_rel2 i n k h : y_pc (s i) h = Rel2 n k -> exists j, i <= j /\ u_smutex (y_uni (s j) n) = None.
Proof.
  intros E. destruct (pc_goes_now h (Rel2 n k) i ltac:(discriminate) E) as (j & Lj & E2 & G).
  { intros j Ej. unfold cstep. rewrite Ej. discriminate. }
  destruct (s_free_rel3 (S j) n k h) as (m & Lm & Em); [|exists m; split; [lia|exact Em]].
  next_pc E2 G. took G. reflexivity.
Qed.
Lemma s_free_rel1 i n k h : y_pc (s i) h = Rel1 n k -> exists j, i <= j /\ u_smutex (y_uni (s j) n) = None.
Proof.
  intros E. destruct (pc_goes_now h (Rel1 n k) i ltac:(discriminate) E) as (j & Lj & E2 & G).
  { intros j Ej. unfold cstep. rewrite Ej. discriminate. }
  destruct (s_free_rel2 (S j) n k h) as (m & Lm & Em); [|exists m; split; [lia|exact Em]].
  next_pc E2 G. took G. reflexivity.
Qed.
Ltac no_tick := let z := fresh "z" in intros z; congruence.
Ltac next_ph E G := unfold ustep in G; rewrite E in G.
Lemma s_free_acqu i n : u_phase (y_uni (s i) n) = UAcqU -> exists j, i <= j /\ u_smutex (y_uni (s j) n) = None.
Proof.
  intros E. destruct (phase_goes_now n UAcqU i ltac:(no_tick) (phase_idle n i ltac:(no_tick)) E) as (j & Lj & _ & E2 & G & _).
  { intros j Ej. unfold ustep. rewrite Ej. discriminate. }
  exists (S j). split; [lia|]. next_ph E2 G. took G. reflexivity.
Qed.
Lemma s_free_acqt i n : u_phase (y_uni (s i) n) = UAcqT -> exists j, i <= j /\ u_smutex (y_uni (s j) n) = None.
Proof.
  intros E. destruct (phase_goes_now n UAcqT i ltac:(no_tick) (phase_idle n i ltac:(no_tick)) E) as (j & Lj & _ & E2 & G & _).
  { intros j Ej. unfold ustep. rewrite Ej. destruct (u_value (y_uni (s j) n)); discriminate. }
  next_ph E2 G. destruct (u_value (y_uni (s j) n)).
  - destruct (s_free_acqu (S j) n) as (m & Lm & Em); [|exists m; split; [lia|exact Em]]. took G. reflexivity.
  - exists (S j). split; [lia|]. took G. reflexivity.
Qed.
Lemma s_free i n : exists j, i <= j /\ u_smutex (y_uni (s j) n) = None.
Proof.
  destruct (u_smutex (y_uni (s i) n)) as [h|] eqn:E; [|exists i; auto].
  apply (lk_s _ (run_locks i)) in E. unfold sholds in E. apply orb_true_iff in E. destruct E as [E|E].
  - destruct (y_pc (s i) h) eqn:Ep; try discriminate E; cbn [holdsS] in E; apply Nat.eqb_eq in E; subst.
    + eapply s_free_rel1, Ep.
    + eapply s_free_rel2, Ep.
    + eapply s_free_rel3, Ep.
  - apply andb_true_iff in E. destruct E as [_ E]. destruct (u_phase (y_uni (s i) n)) eqn:Ep; try discriminate E.
    + now apply s_free_acqt.
    + now apply s_free_acqu.
Qed.

(** How far the holder of a mutex is from releasing it. *)
Definition mrank (p : cpc) : nat :=
  match p with
  | Kill1 _ => 12 | Kill2 _ => 11 | Add1 _ _ => 11 | Rel0 _ _ => 10 | Rel1 _ _ => 9 | Rel2 _ _ => 8 | Rel3 _ _ => 7
  | Kill3 _ => 6 | Wait1 _ _ => 2 | WaitU _ _ => 1 | Unl _ => 1 | _ => 0
  end.
Definition umrank (p : uphase) : nat :=
  match p with UPop _ => 6 | UPlace _ => 5 | UNote => 4 | ULoop => 3 | UPick _ => 2 | UUnl => 2 | _ => 0 end.

Lemma m_free_pc : forall d i n h, mrank (y_pc (s i) h) < d -> holdsM n (y_pc (s i) h) = true ->
  exists j, i <= j /\ u_mutex (y_uni (s j) n) = None.
Proof.
  induction d as [|d IH]; intros i n h D H; [lia|].
  assert (NI : y_pc (s i) h <> Idle) by (intros K; rewrite K in H; discriminate).
  destruct (pc_goes h (y_pc (s i) h) (fun y => u_smutex (y_uni y n) = None) i NI eq_refl) as (j & Lj & E2 & G).
  - intros j Ej Hf. unfold cstep. rewrite Ej. destruct (y_pc (s i) h); try discriminate H; try discriminate.
    + cbn [holdsM] in H. apply Nat.eqb_eq in H. subst. unfold slock. rewrite Hf. discriminate.
    + destruct (is_running _); discriminate.
  - intros j _. apply s_free.
  - unfold cstep in G. rewrite E2 in G.
    assert (Next : mrank (y_pc (s (S j)) h) < mrank (y_pc (s i) h) -> holdsM n (y_pc (s (S j)) h) = true -> exists j, i <= j /\ u_mutex (y_uni (s j) n) = None).
    { intros A B. destruct (IH (S j) n h) as (m & Lm & Em); [lia|exact B|]. exists m. split; [lia|exact Em]. }
    destruct (y_pc (s i) h) eqn:Ep; try discriminate H; cbn [holdsM] in H; apply Nat.eqb_eq in H; subst.
    + apply Next; took G; cbn [mrank holdsM]; [lia|apply Nat.eqb_refl].
    + unfold slock in G. destruct (u_smutex (y_uni (s j) n)); [discriminate|]. apply Next; took G; cbn [mrank holdsM]; [lia|apply Nat.eqb_refl].
    + apply Next; took G; cbn [mrank holdsM]; [lia|apply Nat.eqb_refl].
    + apply Next; took G; cbn [mrank holdsM]; [lia|apply Nat.eqb_refl].
    + apply Next; took G; destruct k; cbn [mrank holdsM]; try lia; apply Nat.eqb_refl.
    + exists (S j). split; [lia|]. took G. reflexivity.
    + apply Next; took G; cbn [mrank holdsM]; [lia|apply Nat.eqb_refl].
    + apply Next; took G; cbn [mrank holdsM]; [lia|apply Nat.eqb_refl].
    + apply Next; took G; cbn [mrank holdsM]; [lia|apply Nat.eqb_refl].
    + destruct (is_running (y_uni (s j) n)).
      * exists (S j). split; [lia|]. took G. reflexivity.
      * apply Next; took G; cbn [mrank holdsM]; [lia|apply Nat.eqb_refl].
    + exists (S j). split; [lia|]. took G. reflexivity.
Qed.
Lemma m_free_phase : forall d i n, umrank (u_phase (y_uni (s i) n)) < d -> uholdsM (u_phase (y_uni (s i) n)) = true ->
  exists j, i <= j /\ u_mutex (y_uni (s j) n) = None.
Proof.
  induction d as [|d IH]; intros i n D H; [lia|].
  assert (NT : forall r, u_phase (y_uni (s i) n) <> UTick r) by (intros r K; rewrite K in H; discriminate).
  destruct (phase_goes_now n _ i NT (phase_idle n i NT) eq_refl) as (j & Lj & _ & E2 & G & _).
  { intros j Ej. unfold ustep. rewrite Ej. destruct (u_phase (y_uni (s i) n)); try discriminate H; discriminate. }
  unfold ustep in G. rewrite E2 in G.
  assert (Next : umrank (u_phase (y_uni (s (S j)) n)) < umrank (u_phase (y_uni (s i) n)) -> uholdsM (u_phase (y_uni (s (S j)) n)) = true -> exists j, i <= j /\ u_mutex (y_uni (s j) n) = None).
  { intros A B. destruct (IH (S j) n) as (m & Lm & Em); [lia|exact B|]. exists m. split; [lia|exact Em]. }
  destruct (u_phase (y_uni (s i) n)) eqn:Ep; try discriminate H.
  - apply Next; took G; destruct (u_runners (y_uni (s j) n)); cbn [umrank uholdsM]; auto; lia.
  - exists (S j). split; [lia|]. took G. reflexivity.
  - apply Next; took G; cbn [umrank uholdsM]; auto; lia.
  - destruct (y_home (s j) r =? n); [destruct (y_stopped (s j) r)|]; apply Next; took G; cbn [umrank uholdsM]; auto; lia.
  - apply Next; took G; cbn [umrank uholdsM]; auto; lia.
  - exists (S j). split; [lia|]. took G. reflexivity.
Qed.
Lemma m_free i n : exists j, i <= j /\ u_mutex (y_uni (s j) n) = None.
Proof.
  destruct (u_mutex (y_uni (s i) n)) as [h|] eqn:E; [|exists i; auto].
  apply (lk_m _ (run_locks i)) in E. unfold holds in E. apply orb_true_iff in E. destruct E as [E|E].
  - eapply m_free_pc; [apply Nat.lt_succ_diag_r|exact E].
  - apply andb_true_iff in E. destruct E as [_ E]. eapply m_free_phase; [apply Nat.lt_succ_diag_r|exact E].
Qed.

(** ** The universe thread works through its queue *)

(** The thread handles the IP at the front of the queue. *)
Definition handling (p : uphase) : bool :=
  match p with UPick _ | UTest _ | UTick _ | UBack _ | UPop _ => true | _ => false end.
(** IP [r] is in the queue of universe [n] behind [pre], and is not the one being handled. *)
Definition Tracked (n r : nat) (pre : list nat) (y : sys) : Prop :=
  (exists post, u_runners (y_uni y n) = pre ++ r :: post) /\
  (handling (u_phase (y_uni y n)) = true -> pre <> []).
(** The thread will not have to sleep before it looks at the queue. *)
Definition Set_up (n : nat) (y : sys) : Prop :=
  outside (u_phase (y_uni y n)) = true -> u_value (y_uni y n) = true.

Lemma others_keep : forall n r pre x y y', fire x y = Some y' ->
  (x = Go (U n) -> y_pc y (U n) <> Idle) -> Tracked n r pre y ->
  Tracked n r pre y' /\ u_phase (y_uni y' n) = u_phase (y_uni y n) /\
  (u_value (y_uni y n) = true -> u_value (y_uni y' n) = true).
Proof.
  intros n r pre x y y' H N [[post T1] T2]. unfold Tracked.
  destruct x as [t|t o|m|[m|k]]; step_cases H; subst y'; casing; eauto.
  all: unfold updt, upd in *; repeat match goal with
    | |- context [?a =? ?b] => destruct (Nat.eqb_spec a b); [subst; try congruence|]
    end; fields; eauto.
  all: try (exfalso; apply N; [reflexivity|assumption]).
  all: rewrite T1, <- app_assoc; cbn [app]; eauto.
Qed.

Definition urank (p : uphase) : nat :=
  match p with
  | UTop => 20 | UAcq => 19 | UAcqS => 18 | UAcqT => 17 | UAcqU => 16 | ULock => 15
  | UPlace _ => 13 | UNote => 12 | ULoop => 11 | UPick _ => 10 | UTest _ => 9 | UTick _ => 8
  | UBack _ => 7 | UPop _ => 6 | UUnl => 0 | UEnd => 0
  end.

(** What a step of the thread itself does to the IP being waited for. *)
Lemma own_step : forall n r pre y y', Wake y -> ustep n y = Some y' -> Tracked n r pre y -> Set_up n y ->
  (u_phase (y_uni y n) = ULoop /\ u_phase (y_uni y' n) = UPick r) \/
  (u_phase (y_uni y n) = UTop /\ u_run (y_uni y n) = false) \/
  exists pre', Tracked n r pre' y' /\ Set_up n y' /\
    length pre' * 100 + urank (u_phase (y_uni y' n)) < length pre * 100 + urank (u_phase (y_uni y n)).
Proof.
  intros n r pre y y' W H [[post T1] T2] S. unfold Tracked, Set_up in *.
  unfold ustep, lock, slock in H. destruct (u_phase (y_uni y n)) eqn:E.
  - destruct (u_run (y_uni y n)) eqn:Er; [|right; left; auto].
    right. right. exists pre. injection H as <-. fields. rewrite !upd_same. fields. repeat split; eauto; cbn; try discriminate; lia.
  - right. right. exists pre. destruct (u_smutex (y_uni y n)); [discriminate|]. injection H as <-. fields. rewrite !upd_same. fields. repeat split; eauto; cbn; try discriminate; lia.
  - right. right. exists pre. rewrite S in H by reflexivity. injection H as <-. fields. rewrite !upd_same. fields. repeat split; eauto; cbn; try discriminate; lia.
  - right. right. exists pre. destruct (u_wait (y_uni y n)); [discriminate|]. destruct (u_smutex (y_uni y n)); [discriminate|].
    injection H as <-. fields. rewrite !upd_same. fields. repeat split; eauto; cbn; try discriminate; lia.
  - right. right. exists pre. injection H as <-. fields. rewrite !upd_same. fields. repeat split; eauto; cbn; try discriminate; lia.
  - right. right. exists pre. destruct (u_mutex (y_uni y n)); [discriminate|]. injection H as <-. fields. rewrite !upd_same. fields. repeat split; eauto; cbn; try discriminate; lia.
  - rewrite T1 in H. destruct pre as [|a pre]; cbn [app] in H.
    + left. injection H as <-. fields. rewrite !upd_same. fields. auto.
    + right. right. exists (a :: pre). injection H as <-. fields. rewrite !upd_same. fields. repeat split; eauto; cbn [urank outside]; try discriminate; lia.
  - right. right. exists pre. injection H as <-. fields. rewrite !upd_same. fields. repeat split; eauto; cbn; try discriminate; lia.
  - right. right. exists pre. injection H as <-. fields. rewrite !upd_same. fields. destruct (y_stopped y r0); repeat split; eauto; cbn; try discriminate; lia.
  - right. right. exists pre. injection H as <-. fields. rewrite !upd_same. fields. repeat split; eauto; cbn; try discriminate; lia.
  - right. right. exists pre. destruct (u_mutex (y_uni y n)); [discriminate|]. injection H as <-. fields. rewrite !upd_same. fields. repeat split; eauto; cbn; try discriminate; lia.
  - right. right. destruct pre as [|a pre]; [exfalso; now apply T2|]. exists pre. injection H as <-. fields. rewrite !upd_same. fields. rewrite T1. cbn [app tl].
    repeat split; eauto; cbn [length handling outside urank]; try discriminate; lia.
  - right. right. exists pre. injection H as <-. destruct (y_home y r0 =? n); [destruct (y_stopped y r0)|]; fields; rewrite !upd_same; fields; (split; [split|split]); try discriminate; cbn [urank]; try lia; eauto.
    rewrite T1, <- app_assoc. cbn [app]. eauto.
  - right. right. exists pre. injection H as <-. fields. rewrite !upd_same. fields. repeat split; eauto; cbn; try discriminate; lia.
  - exfalso. pose proof (wk_empty _ W n E) as K. rewrite K in T1. destruct pre; discriminate.
  - discriminate.
Qed.

(** A universe's thread ends only if the universe was killed. *)
Lemma reach_ended : forall y, reachable y -> forall n, u_phase (y_uni y n) = UEnd -> u_run (y_uni y n) = false.
Proof.
  apply (reach_ind (fun y => forall n, u_phase (y_uni y n) = UEnd -> u_run (y_uni y n) = false)); [cbn; discriminate|].
  intros x y y' _ I H nn. pose proof (I nn) as J.
  destruct x as [t|t o|m|[m|k]]; step_cases H; subst y'; casing; auto.
  all: unfold updt, upd in *; repeat match goal with
    | |- context [?a =? ?b] => destruct (Nat.eqb_spec a b); [subst; try congruence|]
    end; fields; auto; congruence.
Qed.

(** Ticks of the IPs of universe [n] come to an end. *)
Definition Ticks_end (n : nat) : Prop := forall i, exists j, i <= j /\ forall r, u_phase (y_uni (s j) n) <> UTick r.

Definition own (n k : nat) : Prop := l k = Go (U n) /\ y_pc (s k) (U n) = Idle.
Lemma own_dec n k : own n k \/ ~ own n k.
Proof.
  unfold own. destruct (is_go_spec (U n) (l k)) as [E|E]; [|tauto].
  destruct (y_pc (s k) (U n)); auto; right; intros [_ K]; discriminate.
Qed.
Lemma keep_until n r pre i d : Tracked n r pre (s i) -> Set_up n (s i) ->
  (forall k, i <= k < i + d -> ~ own n k) ->
  Tracked n r pre (s (i + d)) /\ Set_up n (s (i + d)) /\ u_phase (y_uni (s (i + d)) n) = u_phase (y_uni (s i) n).
Proof.
  intros T S. induction d as [|d IH]; intros N; [rewrite Nat.add_0_r; auto|].
  destruct IH as (T' & S' & P); [intros k Hk; apply N; lia|].
  rewrite Nat.add_succ_r.
  destruct (others_keep n r pre (l (i + d)) (s (i + d)) (s (Datatypes.S (i + d)))) as (A & B & D); auto.
  - apply (run_step _ _ R).
  - intros E K. apply (N (i + d)); [lia|]. split; assumption.
  - split; [exact A|]. split; [|congruence]. unfold Set_up in *. rewrite B. auto.
Qed.
(** The first step of the thread itself among the next [d] ones. *)
Lemma own_search n i d : (exists k, i <= k < i + d /\ own n k /\ forall m, i <= m < k -> ~ own n m) \/
  (forall k, i <= k < i + d -> ~ own n k).
Proof.
  induction d as [|d [(k & ? & ? & ?)|IH]].
  - right. intros. lia.
  - left. exists k. repeat split; auto; try lia; apply H0.
  - destruct (own_dec n (i + d)) as [O|O].
    + left. exists (i + d). split; [lia|]. split; [exact O|exact IH].
    + right. intros k Hk. destruct (Nat.eq_dec k (i + d)); [now subst|]. apply IH. lia.
Qed.

Lemma tick_dec p : (exists r, p = UTick r) \/ (forall r, p <> UTick r).
Proof. destruct p; try (right; discriminate). left. now exists r. Qed.
(** The thread moves, unless it has ended. *)
Lemma own_moves n r pre i : Ticks_end n -> Tracked n r pre (s i) -> Set_up n (s i) ->
  u_phase (y_uni (s i) n) <> UEnd ->
  exists j, i <= j /\ own n j /\ forall k, i <= k < j -> ~ own n k.
Proof.
  intros TE T S NE.
  destruct (tick_dec (u_phase (y_uni (s i) n))) as [[r' P]|P].
  - destruct (TE i) as (j & Lj & Hj).
    destruct (own_search n i (j - i)) as [(k & ? & ? & ?)|N].
    + exists k. split; [lia|auto].
    + exfalso. destruct (keep_until n r pre i (j - i) T S N) as (_ & _ & E). replace (i + (j - i)) with j in E by lia. rewrite P in E. now apply (Hj r').
  - set (p := u_phase (y_uni (s i) n)) in *.
    destruct (goes (U n) (fun y => y_pc y (U n) = Idle /\ u_phase (y_uni y n) = p /\ Tracked n r pre y /\ Set_up n y)
      (fun y => match p with ULock | UBack _ => u_mutex (y_uni y n) = None | _ => u_smutex (y_uni y n) = None end) i) as (j & Lj & G & (Q1 & Q2 & Q3 & Q4) & N).
    + intros k (Q1 & Q2 & Q3 & Q4) N.
      destruct (phase_kept n p (l k) (s k) (s (Datatypes.S k)) P Q1 Q2 (run_step _ _ R k) N) as [A B].
      destruct (others_keep n r pre (l k) (s k) (s (Datatypes.S k)) (run_step _ _ R k)) as (D & E & V); [congruence|exact Q3|].
      split; [exact A|]. split; [exact B|]. split; [exact D|]. unfold Set_up in *. rewrite E. auto.
    + intros k (Q1 & Q2 & Q3 & Q4) Fr. rewrite go_phase by exact Q1. unfold ustep. rewrite Q2. unfold Set_up in Q4. rewrite Q2 in Q4.
      clearbody p. destruct p; try discriminate.
      * unfold slock. rewrite Fr. discriminate.
      * destruct (u_value _); discriminate.
      * destruct (u_wait (y_uni (s k) n)) eqn:Ew.
        { exfalso. destruct (wk_sleep _ (run_wake k) n Ew) as [K|K]; [rewrite Q4 in K by reflexivity; discriminate|].
          unfold to_wake in K. rewrite Fr in K. discriminate. }
        unfold slock. rewrite Fr. discriminate.
      * unfold lock. rewrite Fr. discriminate.
      * unfold lock. rewrite Fr. discriminate.
      * exfalso. now apply NE.
    + intros k _. clearbody p. destruct p; auto using s_free, m_free.
    + split; [now apply phase_idle|]. split; [reflexivity|]. split; [exact T|exact S].
    + exists j. split; [exact Lj|]. split; [split; assumption|]. intros k Hk [K _]. now apply (N k Hk).
Qed.

(** While the semaphore is not set, somebody is about to set it. *)
Lemma set_soon n i : u_runners (y_uni (s i) n) <> [] -> exists j, i <= j /\ Set_up n (s j) /\ forall k, i <= k < j -> ~ Set_up n (s k).
Proof.
  intros NE.
  destruct (outside (u_phase (y_uni (s i) n))) eqn:O; [|exists i; split; [lia|split; [unfold Set_up; congruence|intros; lia]]].
  destruct (u_value (y_uni (s i) n)) eqn:V; [exists i; split; [lia|split; [unfold Set_up; congruence|intros; lia]]|].
  assert (X : exists j, i <= j /\ u_value (y_uni (s j) n) = true).
  { destruct (wk_value _ (run_wake i) n NE O) as [K|K]; [congruence|]. unfold to_set in K.
    destruct (u_mutex (y_uni (s i) n)) as [h|] eqn:Eh; [|discriminate].
    assert (X1 : forall i k, y_pc (s i) h = Rel1 n k -> exists j, i <= j /\ u_value (y_uni (s j) n) = true).
    { clear NE O V Eh K i. intros i k E. destruct (pc_goes_now h (Rel1 n k) i ltac:(discriminate) E) as (j & Lj & E2 & G).
      { intros j Ej. unfold cstep. rewrite Ej. discriminate. }
      exists (Datatypes.S j). split; [lia|]. next_pc E2 G. took G. reflexivity. }
    destruct (y_pc (s i) h) eqn:Ep; try discriminate K; apply Nat.eqb_eq in K; subst.
    - destruct (pc_goes h (Rel0 n k) (fun y => u_smutex (y_uni y n) = None) i ltac:(discriminate) Ep) as (j & Lj & E2 & G).
      + intros j Ej Hf. unfold cstep, slock. rewrite Ej, Hf. discriminate.
      + intros; apply s_free.
      + destruct (X1 (Datatypes.S j) k) as (m & Lm & Em); [|exists m; split; [lia|exact Em]].
        next_pc E2 G. unfold slock in G. destruct (u_smutex (y_uni (s j) n)); [discriminate|]. took G. reflexivity.
    - eapply X1, Ep. }
  destruct X as (j & Lj & Vj).
  assert (D : forall k, Set_up n (s k) \/ ~ Set_up n (s k)).
  { intros k. unfold Set_up. destruct (outside (u_phase (y_uni (s k) n))), (u_value (y_uni (s k) n)); auto. right. intros K. specialize (K eq_refl). discriminate. }
  assert (Y : forall d, (exists k, i <= k < i + d /\ Set_up n (s k) /\ forall m, i <= m < k -> ~ Set_up n (s m)) \/ (forall k, i <= k < i + d -> ~ Set_up n (s k))).
  { induction d as [|d [(k & ? & ? & ?)|IH]].
    - right. intros. lia.
    - left. exists k. repeat split; auto; lia.
    - destruct (D (i + d)) as [O'|O'].
      + left. exists (i + d). split; [lia|]. split; [exact O'|exact IH].
      + right. intros k Hk. destruct (Nat.eq_dec k (i + d)); [now subst|]. apply IH. lia. }
  destruct (Y (Datatypes.S (j - i))) as [(k & ? & ? & ?)|N].
  - exists k. split; [lia|]. auto.
  - exfalso. apply (N j); [lia|]. unfold Set_up. auto.
Qed.

(** Up to there the IP stays where it is. *)
Lemma unset_keep n r pre y x y' : Tracked n r pre y -> ~ Set_up n y -> fire x y = Some y' -> Tracked n r pre y'.
Proof.
  intros T N H.
  assert (O : outside (u_phase (y_uni y n)) = true /\ u_value (y_uni y n) = false).
  { unfold Set_up in N. destruct (outside (u_phase (y_uni y n))), (u_value (y_uni y n)); auto; exfalso; apply N; auto; discriminate. }
  destruct O as [O V].
  destruct (is_go_spec (U n) x) as [->|NG]; [|eapply others_keep; eauto; congruence].
  destruct (y_pc y (U n)) eqn:E; try (eapply others_keep; eauto; intros _ K; congruence).
  cbn [fire] in H. rewrite go_phase in H by exact E. destruct T as [[post T1] T2]. unfold Tracked.
  unfold ustep, slock in H. destruct (u_phase (y_uni y n)) eqn:P; try discriminate O.
  - injection H as <-. fields. rewrite !upd_same. fields. split; [eauto|]. destruct (u_run (y_uni y n)); discriminate.
  - destruct (u_smutex (y_uni y n)); [discriminate|]. injection H as <-. fields. rewrite !upd_same. fields. split; [eauto|discriminate].
  - rewrite V in H. injection H as <-. fields. rewrite !upd_same. fields. split; [eauto|discriminate].
  - destruct (u_wait (y_uni y n)); [discriminate|]. destruct (u_smutex (y_uni y n)); [discriminate|]. injection H as <-. fields. rewrite !upd_same. fields. split; [eauto|discriminate].
Qed.

(** An IP waiting in the queue is taken from it, or the universe is killed. *)
Lemma taken_set n r : Ticks_end n -> forall d i pre, Tracked n r pre (s i) -> Set_up n (s i) ->
  length pre * 100 + urank (u_phase (y_uni (s i) n)) < d ->
  exists j, i <= j /\ ((u_phase (y_uni (s j) n) = ULoop /\ u_phase (y_uni (s (S j)) n) = UPick r) \/ u_run (y_uni (s j) n) = false).
Proof.
  intros TE. induction d as [|d IH]; intros i pre T Su M; [lia|].
  assert (X : u_phase (y_uni (s i) n) = UEnd \/ u_phase (y_uni (s i) n) <> UEnd).
  { destruct (u_phase (y_uni (s i) n)); auto; right; discriminate. }
  destruct X as [X|X].
  { exists i. split; [lia|]. right. now apply (reach_ended _ (run_reach i)). }
  destruct (own_moves n r pre i TE T Su X) as (j & Lj & [O1 O2] & N).
  destruct (keep_until n r pre i (j - i) T Su) as (T' & S' & P'); [intros k Hk; apply N; lia|].
  replace (i + (j - i)) with j in * by lia.
  pose proof (run_step _ _ R j) as E. rewrite O1 in E. cbn [fire] in E. rewrite go_phase in E by exact O2.
  destruct (own_step n r pre (s j) (s (S j)) (run_wake j) E T' S') as [A|[[A B]|(pre' & A & B & D)]].
  - exists j. split; [exact Lj|]. now left.
  - exists j. split; [exact Lj|]. now right.
  - destruct (IH (S j) pre' A B) as (m & Lm & Hm); [rewrite P' in D; lia|]. exists m. split; [lia|exact Hm].
Qed.
Lemma taken n r pre i : Ticks_end n -> Tracked n r pre (s i) ->
  exists j, i <= j /\ ((u_phase (y_uni (s j) n) = ULoop /\ u_phase (y_uni (s (S j)) n) = UPick r) \/ u_run (y_uni (s j) n) = false).
Proof.
  intros TE T. destruct (set_soon n i) as (j & Lj & Sj & N).
  { destruct T as [[post ->] _]. destruct pre; discriminate. }
  assert (T' : Tracked n r pre (s j)).
  { assert (G : forall d, i + d <= j -> Tracked n r pre (s (i + d))).
    { induction d as [|d IHd]; intros Hd; [now rewrite Nat.add_0_r|]. rewrite Nat.add_succ_r.
      apply (unset_keep n r pre (s (i + d)) (l (i + d))); [apply IHd; lia|apply N; lia|apply (run_step _ _ R)]. }
    specialize (G (j - i)). replace (i + (j - i)) with j in G by lia. apply G. lia. }
  destruct (taken_set n r TE _ j pre T' Sj (Nat.lt_succ_diag_r _)) as (m & Lm & Hm). exists m. split; [lia|exact Hm].
Qed.

(** Once taken, it is asked whether it runs, and if so it is ticked. *)
Lemma picked n r i : u_phase (y_uni (s i) n) = UPick r ->
  exists j, i <= j /\ u_phase (y_uni (s j) n) = UTest r /\
    u_phase (y_uni (s (S j)) n) = if y_stopped (s j) r then UBack r else UTick r.
Proof.
  intros E. destruct (phase_goes_now n (UPick r) i ltac:(no_tick) (phase_idle n i ltac:(no_tick)) E) as (j & Lj & _ & E2 & G & _).
  { intros j Ej. unfold ustep. rewrite Ej. discriminate. }
  assert (E3 : u_phase (y_uni (s (S j)) n) = UTest r) by (next_ph E2 G; took G; reflexivity).
  destruct (phase_goes_now n (UTest r) (S j) ltac:(no_tick) (phase_idle n (S j) ltac:(no_tick)) E3) as (k & Lk & _ & E4 & G2 & _).
  { intros k Ek. unfold ustep. rewrite Ek. discriminate. }
  exists k. split; [lia|]. split; [exact E4|]. next_ph E4 G2. took G2. reflexivity.
Qed.

(** ** An IP that goes on running is ticked again and again *)

Lemma phase_own : forall n x y y', fire x y = Some y' -> (x = Go (U n) -> y_pc y (U n) <> Idle) ->
  u_phase (y_uni y' n) = u_phase (y_uni y n).
Proof.
  intros n x y y' H N.
  destruct x as [t|t o|m|[m|k]]; step_cases H; subst y'; casing; eauto.
  all: unfold updt, upd in *; repeat match goal with
    | |- context [?a =? ?b] => destruct (Nat.eqb_spec a b); [subst; try congruence|]
    end; fields; eauto.
  all: exfalso; apply N; [reflexivity|assumption].
Qed.
Lemma tick_over n r i : Ticks_end n -> u_phase (y_uni (s i) n) = UTick r -> exists j, i <= j /\ u_phase (y_uni (s j) n) = UBack r.
Proof.
  intros TE E. destruct (TE i) as (j & Lj & Hj).
  assert (G : forall d, (forall k, i <= k < i + d -> ~ own n k) -> u_phase (y_uni (s (i + d)) n) = UTick r).
  { induction d as [|d IH]; intros N; [now rewrite Nat.add_0_r|]. rewrite Nat.add_succ_r.
    rewrite (phase_own n (l (i + d)) (s (i + d))); [apply IH; intros k Hk; apply N; lia|apply (run_step _ _ R)|].
    intros K1 K2. apply (N (i + d)); [lia|split; assumption]. }
  destruct (own_search n i (j - i)) as [(k & Hk & [O1 O2] & N)|N].
  - specialize (G (k - i)). replace (i + (k - i)) with k in G by lia.
    assert (P : u_phase (y_uni (s k) n) = UTick r) by (apply G; intros m Hm; apply N; lia).
    exists (S k). split; [lia|]. pose proof (run_step _ _ R k) as E2. rewrite O1 in E2. cbn [fire] in E2. rewrite go_phase in E2 by exact O2.
    next_ph P E2. took E2. reflexivity.
  - exfalso. apply (Hj r). specialize (G (j - i) N). now replace (i + (j - i)) with j in G by lia.
Qed.
Lemma queued_again n r i : Ticks_end n ->
  (forall j, i <= j -> y_stopped (s j) r = false /\ y_home (s j) r = n) ->
  u_phase (y_uni (s i) n) = UTest r -> exists j pre, i <= j /\ Tracked n r pre (s j).
Proof.
  intros TE Al E.
  assert (A1 : exists j, i <= j /\ u_phase (y_uni (s j) n) = UTick r).
  { destruct (phase_goes_now n (UTest r) i ltac:(no_tick) (phase_idle n i ltac:(no_tick)) E) as (k & Lk & _ & E4 & G2 & _).
    { intros k Ek. unfold ustep. rewrite Ek. discriminate. }
    exists (S k). split; [lia|]. next_ph E4 G2. rewrite (proj1 (Al k Lk)) in G2. took G2. reflexivity. }
  destruct A1 as (a & La & Ea). destruct (tick_over n r a TE Ea) as (b & Lb & Eb).
  destruct (phase_goes n (UBack r) (fun y => u_mutex (y_uni y n) = None) b ltac:(no_tick) (phase_idle n b ltac:(no_tick)) Eb) as (c & Lc & _ & Ec & Gc & _).
  { intros k _ _ Ek Hf. unfold ustep, lock. rewrite Ek, Hf. discriminate. }
  { intros k _. apply m_free. }
  assert (Ed : u_phase (y_uni (s (S c)) n) = UPop r).
  { next_ph Ec Gc. unfold lock in Gc. destruct (u_mutex (y_uni (s c) n)); [discriminate|]. took Gc. reflexivity. }
  destruct (phase_goes_now n (UPop r) (S c) ltac:(no_tick) (phase_idle n (S c) ltac:(no_tick)) Ed) as (d & Ld & _ & Ed' & Gd & _).
  { intros k Ek. unfold ustep. rewrite Ek. discriminate. }
  assert (Ee : u_phase (y_uni (s (S d)) n) = UPlace r) by (next_ph Ed' Gd; took Gd; reflexivity).
  destruct (phase_goes_now n (UPlace r) (S d) ltac:(no_tick) (phase_idle n (S d) ltac:(no_tick)) Ee) as (e & Le & _ & Ee' & Ge & _).
  { intros k Ek. unfold ustep. rewrite Ek. discriminate. }
  destruct (Al e) as [B1 B2]; [lia|].
  exists (S e), (u_runners (y_uni (s e) n)). split; [lia|].
  next_ph Ee' Ge. rewrite B1, B2, Nat.eqb_refl in Ge. unfold Tracked. took Ge. split; [now exists []|discriminate].
Qed.

(** ** Waiters return *)

Lemma waiter_wakes n k t i : (forall j, i <= j -> is_running (y_uni (s j) n) = false) ->
  y_pc (s i) t = WaitS n k -> exists j, i <= j /\ y_pc (s j) t = Wait1 n k.
Proof.
  intros Nr E.
  destruct (goes t (fun y => y_pc y t = WaitS n k) (fun y => u_mutex (y_uni y n) = None /\ exists j, i <= j /\ y = s j) i) as (j & Lj & G & Q & _); auto.
  - intros j Q N. eapply pc_kept; eauto; [discriminate|apply (run_step _ _ R j)].
  - intros j Q (Hf & j' & Lj' & Ej). rewrite go_pc by congruence. unfold cstep. rewrite Q.
    destruct (y_asleep (s j) t) eqn:Ea; [|unfold lock; rewrite Hf; discriminate].
    exfalso. pose proof (Nr j' Lj') as Nj. rewrite <- Ej in Nj. unfold is_running in Nj.
    destruct (wt_run _ (run_waiters j) t n k Ea Q) as [A|A]; [|unfold to_tell in A; rewrite Hf in A; discriminate].
    rewrite A in Nj. destruct (wt_queue _ (run_waiters j) t n k Ea Q) as [B|[B|B]].
    + congruence.
    + destruct (u_runners (y_uni (s j) n)); [now apply B|discriminate].
    + pose proof (uhas_m n (s j) (run_locks j)) as Hu. destruct (u_phase (y_uni (s j) n)); try contradiction; specialize (Hu eq_refl); congruence.
  - intros j Lj. destruct (m_free j n) as (m & Lm & Hm). exists m. split; [exact Lm|]. split; [exact Hm|]. exists m. split; [lia|reflexivity].
  - pose proof (run_step _ _ R j) as E2. rewrite G in E2. cbn [fire] in E2. rewrite go_pc in E2 by congruence. next_pc Q E2.
    destruct (y_asleep (s j) t); [discriminate|]. unfold lock in E2. destruct (u_mutex (y_uni (s j) n)); [discriminate|].
    exists (S j). split; [lia|]. took E2. reflexivity.
Qed.
Lemma waiter_returns n k t i : (forall j, i <= j -> is_running (y_uni (s j) n) = false) ->
  y_pc (s i) t = Wait0 n k \/ y_pc (s i) t = Wait1 n k \/ y_pc (s i) t = WaitS n k ->
  exists j, i <= j /\ y_pc (s j) t = WaitU n k /\ y_pc (s (S j)) t = match k with KDone => Idle | _ => Scan k end.
Proof.
  intros Nr.
  assert (A1 : forall i', i <= i' -> y_pc (s i') t = Wait1 n k -> exists j, i <= j /\ y_pc (s j) t = WaitU n k /\ y_pc (s (S j)) t = match k with KDone => Idle | _ => Scan k end).
  { intros i' Li E. destruct (pc_goes_now t (Wait1 n k) i' ltac:(discriminate) E) as (j & Lj & E2 & G).
    { intros j Ej. unfold cstep. rewrite Ej. destruct (is_running _); discriminate. }
    next_pc E2 G. rewrite Nr in G by lia.
    assert (E3 : y_pc (s (S j)) t = WaitU n k) by (took G; reflexivity).
    destruct (pc_goes_now t (WaitU n k) (S j) ltac:(discriminate) E3) as (m & Lm & E4 & G2).
    { intros m Em. unfold cstep. rewrite Em. discriminate. }
    exists m. split; [lia|]. split; [exact E4|]. next_pc E4 G2. took G2. destruct k; reflexivity. }
  intros [E|[E|E]].
  - destruct (pc_goes t (Wait0 n k) (fun y => u_mutex (y_uni y n) = None) i ltac:(discriminate) E) as (j & Lj & E2 & G).
    + intros j Ej Hf. unfold cstep, lock. rewrite Ej, Hf. discriminate.
    + intros; apply m_free.
    + apply (A1 (S j)); [lia|]. next_pc E2 G. unfold lock in G. destruct (u_mutex (y_uni (s j) n)); [discriminate|]. took G. reflexivity.
  - now apply (A1 i).
  - destruct (waiter_wakes n k t i Nr E) as (j & Lj & Ej). now apply (A1 j).
Qed.

End Runs.
