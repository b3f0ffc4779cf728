(** * Threads: nothing is forgotten, everything queued is run (C37); native threads (C38);
    no IP is used after its deletion (C72); waiting for all universes (C73). *)

From Coq Require Import List Bool Arith Lia.
From Verif Require Import ThreadModel ThreadProofs ThreadLive ThreadOwn ThreadExample NativeModel NativeProofs.
Import ListNotations.

(** ** C37 *)

(** A universe's thread has yet to look at its semaphore, or sleeps on it. *)
Definition before_queue (p : uphase) : Prop := p = UTop \/ p = UAcq \/ p = UAcqT \/ p = UAcqS.
(** Some thread is inside addRunner, transferRunner or killAll of universe [n], before
    it sets the semaphore / before it has woken the universe's thread / before it has
    notified those who wait for the universe. *)
Definition to_be_set (n : nat) (y : sys) : Prop := exists t k, y_pc y t = Rel0 n k \/ y_pc y t = Rel1 n k.
Definition to_be_woken (n : nat) (y : sys) : Prop := exists t k, y_pc y t = Rel0 n k \/ y_pc y t = Rel1 n k \/ y_pc y t = Rel2 n k.
Definition to_be_told (n : nat) (y : sys) : Prop :=
  exists t, y_pc y t = Rel0 n RKill \/ y_pc y t = Rel1 n RKill \/ y_pc y t = Rel2 n RKill \/ y_pc y t = Rel3 n RKill \/ y_pc y t = Kill3 n.

Lemma to_set_who n y : to_set n y = true -> to_be_set n y.
Proof.
  unfold to_set. destruct (u_mutex (y_uni y n)) as [t|]; [|discriminate]. intros H. exists t.
  destruct (y_pc y t); try discriminate H; apply Nat.eqb_eq in H; subst; eauto.
Qed.

(** Whenever an IP is queued and the universe's thread has not yet come past its
    semaphore, the semaphore is set or about to be. *)
Theorem C37_wakeup : forall y n, reachable y -> u_runners (y_uni y n) <> [] -> before_queue (u_phase (y_uni y n)) ->
  u_value (y_uni y n) = true \/ to_be_set n y.
Proof.
  intros y n Re NE B. destruct (wk_value _ (reach_wake _ Re) n NE) as [H|H]; [|now left|right; now apply to_set_who].
  destruct B as [->|[->|[->| ->]]]; reflexivity.
Qed.
(** It does not sleep on with an IP queued, once the adding thread is through. *)
Theorem C37_no_sleep : forall y n, reachable y -> u_runners (y_uni y n) <> [] -> u_wait (y_uni y n) = true -> to_be_woken n y.
Proof.
  intros y n Re NE W. pose proof (reach_wake _ Re) as Wk. pose proof (wk_wait _ Wk n W) as P.
  destruct (wk_sleep _ Wk n W) as [H|H].
  - destruct (C37_wakeup y n Re NE) as [K|(t & k & [K|K])]; [unfold before_queue; auto|congruence| |]; exists t, k; auto.
  - unfold to_wake in H. destruct (u_smutex (y_uni y n)) as [t|]; [|discriminate]. exists t.
    destruct (y_pc y t); try discriminate H. apply Nat.eqb_eq in H. subst. eauto.
Qed.
(** A thread waits for a universe only as long as that has an IP and is not killed, or
    somebody is just about to tell it. *)
Theorem C37_waiter : forall y t n k, reachable y -> y_pc y t = WaitS n k -> y_asleep y t = true ->
  is_running (y_uni y n) = true \/ to_be_told n y \/
  (exists r, u_phase (y_uni y n) = UPlace r) \/ u_phase (y_uni y n) = UNote.
Proof.
  intros y t n k Re E A. pose proof (reach_waiters _ Re) as W. unfold is_running.
  destruct (wt_run _ W t n k A E) as [H|H].
  - rewrite H. destruct (wt_queue _ W t n k A E) as [K|[K|K]]; [congruence| |].
    + left. destruct (u_runners (y_uni y n)); [congruence|reflexivity].
    + right. right. destruct (u_phase (y_uni y n)); try contradiction; eauto.
  - right. left. unfold to_tell in H. destruct (u_mutex (y_uni y n)) as [h|]; [|discriminate]. exists h.
    destruct (y_pc y h) as [| | |m []|m []|m []|m []| | | | |m| | | | |]; try discriminate H; apply Nat.eqb_eq in H; subst; auto 6.
Qed.

(** In every fair run whose ticks end, an IP that is queued in a universe is taken from
    the queue and, unless it was stopped, ticked, or the universe is killed. *)
Theorem C37_runs : forall s l n r i, Run s l -> Fair s l -> Ticks_end s n ->
  (exists pre post, u_runners (y_uni (s i) n) = pre ++ r :: post /\
     (handling (u_phase (y_uni (s i) n)) = true -> pre <> [])) ->
  exists j, i <= j /\
    (u_run (y_uni (s j) n) = false \/
     u_phase (y_uni (s j) n) = UTest r /\
     u_phase (y_uni (s (S j)) n) = if y_stopped (s j) r then UBack r else UTick r).
Proof.
  intros s l n r i R F TE (pre & post & E & H).
  destruct (taken s l R F n r pre i TE) as (j & Lj & [[A B]|A]); [split; eauto| |exists j; auto].
  destruct (picked s l R F n r (S j) B) as (k & Lk & P1 & P2). exists k. split; [lia|]. now right.
Qed.
(** An IP that neither stops nor leaves is ticked again and again. *)
Theorem C37_again : forall s l n r i, Run s l -> Fair s l -> Ticks_end s n ->
  (forall j, i <= j -> y_stopped (s j) r = false /\ y_home (s j) r = n /\ u_run (y_uni (s j) n) = true) ->
  (exists pre post, u_runners (y_uni (s i) n) = pre ++ r :: post /\
     (handling (u_phase (y_uni (s i) n)) = true -> pre <> [])) ->
  forall k, exists j, k <= j /\ u_phase (y_uni (s j) n) = UTick r.
Proof.
  intros s l n r i R F TE Al (pre & post & E & H).
  assert (G : forall k, exists m pre', i <= m /\ k <= m /\ Tracked n r pre' (s m)).
  { induction k as [|k (m & pre' & L1 & L2 & T)].
    - exists i, pre. repeat split; eauto; lia.
    - destruct (taken s l R F n r pre' m TE T) as (j & Lj & [[A B]|A]); [|destruct (Al j ltac:(lia)) as (_ & _ & K); congruence].
      destruct (picked s l R F n r (S j) B) as (q & Lq & P1 & P2).
      destruct (queued_again s l R F n r q TE) as (j' & pre2 & Lj' & T'); [intros x Hx; destruct (Al x) as (? & ? & ?); [lia|auto]|exact P1|].
      exists j', pre2. repeat split; try lia; apply T'. }
  intros k. destruct (G k) as (m & pre' & L1 & L2 & T).
  destruct (C37_runs s l n r m R F TE) as (j & Lj & [K|[P1 P2]]).
  - destruct T as [[post' T1] T2]. eauto.
  - destruct (Al j ltac:(lia)) as (_ & _ & K2). congruence.
  - destruct (Al j ltac:(lia)) as (K & _ & _). rewrite K in P2. exists (S j). split; [lia|exact P2].
Qed.
(** A thread that waits for a universe returns, once that has ended for good. *)
Theorem C37_return : forall s l n k t i, Run s l -> Fair s l ->
  (forall j, i <= j -> is_running (y_uni (s j) n) = false) ->
  y_pc (s i) t = Wait0 n k \/ y_pc (s i) t = Wait1 n k \/ y_pc (s i) t = WaitS n k ->
  exists j, i <= j /\ y_pc (s j) t = WaitU n k /\ y_pc (s (S j)) t = match k with KDone => Idle | _ => Scan k end.
Proof. intros s l n k t i R F. now apply (waiter_returns s l R F). Qed.

(** The run of ThreadExample.v is fair, its ticks end, and its IP is queued at the start. *)
Example C37_ex : Run st lb /\ Fair st lb /\ Ticks_end st 0 /\ u_runners (y_uni (st 0) 0) = [] ++ 0 :: [] /\
  u_phase (y_uni (st 0) 0) = UTop /\ u_run (y_uni (st 0) 0) = true.
Proof.
  split; [exact st_run|]. split; [exact st_fair|]. split; [exact st_ticks|].
  split; [vm_compute; reflexivity|]. split; vm_compute; reflexivity.
Qed.
Example C37_ex_again : forall j, 0 <= j -> y_stopped (st j) 0 = false /\ y_home (st j) 0 = 0 /\ u_run (y_uni (st j) 0) = true.
Proof. intros j _. destruct (st_fine j) as [A B C [D _] E]. auto. Qed.
(** An IP is queued while the thread sleeps: the adder is between queueing and waking. *)
Example C37_ex_sleep : exists y, reachable y /\ u_runners (y_uni y 0) = [0] /\ u_wait (y_uni y 0) = true /\ u_value (y_uni y 0) = false.
Proof.
  set (ls := [Go (U 0); Go (U 0); Go (U 0); Begin (C 0) (OAdd 0 0); Go (C 0); Go (C 0); Go (C 0)]).
  assert (H : match fires ls init with Some y => match u_runners (y_uni y 0), u_wait (y_uni y 0), u_value (y_uni y 0) with [0], true, false => true | _, _, _ => false end | None => false end = true) by (vm_compute; reflexivity).
  destruct (fires ls init) as [y|] eqn:E; [|discriminate]. exists y. split; [now exists ls|].
  destruct (u_runners (y_uni y 0)) as [|[|]  []], (u_wait (y_uni y 0)), (u_value (y_uni y 0)); try discriminate; auto.
Qed.
(** A waiter sleeps, its IP is stopped and taken out: it is about to be told. *)
Example C37_ex_waiter : exists y, reachable y /\ y_pc y (C 0) = WaitS 0 KDone /\ y_asleep y (C 0) = true /\
  is_running (y_uni y 0) = false /\ u_phase (y_uni y 0) = UPlace 0.
Proof.
  set (ls := start_labels ++ [Begin (C 0) (OWait 0); Go (C 0); Go (C 0)] ++
    [Go (U 0); Go (U 0); Go (U 0); Go (U 0); Go (U 0); Go (U 0); Go (U 0); Go (U 0); Stop 0; Go (U 0); Go (U 0); Go (U 0)]).
  assert (H : match fires ls init with Some y => match y_pc y (C 0), y_asleep y (C 0), is_running (y_uni y 0), u_phase (y_uni y 0) with WaitS 0 KDone, true, false, UPlace 0 => true | _, _, _, _ => false end | None => false end = true) by (vm_compute; reflexivity).
  destruct (fires ls init) as [y|] eqn:E; [|discriminate]. exists y. split; [now exists ls|].
  destruct (y_pc y (C 0)) as [| | | | | | | | | | | | | |[|] []| |], (y_asleep y (C 0)), (is_running (y_uni y 0)), (u_phase (y_uni y 0)) as [| | | | | | | | | | | |[|]| | |]; try discriminate; auto.
Qed.

(** ** C72 *)

(** Without transfers between universes no IP is accessed after its deletion, an IP is
    in at most one queue and there only once. *)
Theorem C72_partial : forall y, reachable_without stays y ->
  y_bad y = false /\
  (forall n r, In r (u_runners (y_uni y n)) -> y_freed y r = false) /\
  (forall n, NoDup (u_runners (y_uni y n))) /\
  (forall n m r, In r (u_runners (y_uni y n)) -> In r (u_runners (y_uni y m)) -> n = m).
Proof.
  intros y H. destruct (reach_owned y H) as [Iq In_ If Ip Ia Io Ifr Ig].
  repeat split; auto.
  - intros n r Q. now destruct (Iq n r Q) as (_ & _ & ?).
  - intros n m r Q1 Q2. destruct (Iq n r Q1) as (_ & <- & _). destruct (Iq m r Q2) as (_ & <- & _). reflexivity.
Qed.
(** With a transfer it is: the thread of the old universe looks at the IP after the new
    universe has run and deleted it. *)
Definition u0 (k : nat) : list label := repeat (Go (U 0)) k.
Definition u1 (k : nat) : list label := repeat (Go (U 1)) k.
Definition transfer_race : list label :=
  start_labels ++ u0 8 ++ Begin (U 0) (OMove 1 0) :: u0 7 ++ u0 1 ++
  u1 8 ++ Stop 1 :: u1 4 ++ u0 2.
Theorem C72_refuted : exists y y', fires transfer_race init = Some y /\ y_bad y = false /\
  u_phase (y_uni y 0) = UPlace 0 /\ y_freed y 0 = true /\
  fire (Go (U 0)) y = Some y' /\ y_bad y' = true.
Proof.
  assert (H : match fires transfer_race init with
              | Some y => match y_bad y, u_phase (y_uni y 0), y_freed y 0, fire (Go (U 0)) y with
                          | false, UPlace 0, true, Some y' => y_bad y' | _, _, _, _ => false end
              | None => false end = true) by (vm_compute; reflexivity).
  destruct (fires transfer_race init) as [y|]; [|discriminate].
  destruct (y_bad y) eqn:E1; [discriminate|]. destruct (u_phase (y_uni y 0)) as [| | | | | | | | | | | |[|]| | |] eqn:E2; try discriminate.
  destruct (y_freed y 0) eqn:E3; [|discriminate]. destruct (fire (Go (U 0)) y) as [y'|] eqn:E4; [|discriminate].
  exists y, y'. auto 7.
Qed.
(** An IP that adds another one, is stopped and deleted. *)
Example C72_ex : exists y, reachable_without stays y /\ y_freed y 0 = true /\ u_runners (y_uni y 0) = [1].
Proof.
  set (ls := start_labels ++ u0 8 ++ Begin (U 0) (OAdd 0 1) :: u0 7 ++ Stop 0 :: u0 4).
  assert (H : match fires ls init with Some y => match y_freed y 0, u_runners (y_uni y 0) with true, [1] => true | _, _ => false end | None => false end = true) by (vm_compute; reflexivity).
  destruct (fires ls init) as [y|] eqn:E; [|discriminate]. exists y.
  split; [exists ls; split; [vm_compute; reflexivity|exact E]|].
  destruct (y_freed y 0), (u_runners (y_uni y 0)) as [|[|[|]] []]; try discriminate; auto.
Qed.

(** ** C73 *)

(** If, from when it starts, IPs are added to a universe only by that universe's own
    thread, waiting for all universes returns only when none of them is running. *)
Theorem C73_partial : forall y0 ls y1 y2 c b all, reachable y0 ->
  (forall t n r, y_pc y0 t = Add0 n r \/ y_pc y0 t = Add1 n r -> t = U n) ->
  (forall t, no_scan (y_pc y0 t) = true) ->
  forallb local ls = true -> fires ls y0 = Some y1 ->
  y_pc y1 (C c) = Scan (KScan [] b all) -> go (C c) y1 = Some y2 -> y_pc y2 (C c) = Idle ->
  forall n, In n all -> is_running (y_uni y2 n) = false.
Proof.
  intros y0 ls y1 y2 c b all Re Lo Ns K E P G P2 n Hn.
  destruct (scans_run ls y0 y1 Re) as (Re1 & Lo1 & Sc); auto.
  - intros t m r H. apply (Lo t m r). destruct (y_pc y0 t); cbn [pending] in H; try contradiction; destruct H; subst; auto.
  - intros t. specialize (Ns t). destruct (y_pc y0 t) as [| | | | | | | | | | | |? []|? []|? []|? []|[]]; cbn in *; auto; discriminate.
  - specialize (Sc (C c)). rewrite P in Sc. cbn [scan_ok] in Sc. destruct (Sc n Hn) as [[]|Q].
    apply quiet_stops. eapply quiet_step; [exact Re1|exact Lo1| |exact Q|].
    + instantiate (1 := Go (C c)). reflexivity.
    + exact G.
Qed.
(** When an IP moves from a universe not yet looked at to one already passed, waiting
    for all of them returns although it is still running. *)
Definition c0 (k : nat) : list label := repeat (Go (C 0)) k.
Definition scan_race : list label :=
  Begin (C 0) (OAdd 1 0) :: c0 7 ++ Begin (C 0) (OScan [0; 1]) :: c0 4 ++
  u1 8 ++ Begin (U 1) (OMove 0 0) :: u1 7 ++ u1 7 ++ c0 4.
Theorem C73_refuted : exists y y', fires scan_race init = Some y /\
  y_pc y (C 0) = Scan (KScan [] false [0; 1]) /\
  fire (Go (C 0)) y = Some y' /\ y_pc y' (C 0) = Idle /\
  is_running (y_uni y' 0) = true /\ u_runners (y_uni y' 0) = [0] /\ y_stopped y' 0 = false.
Proof.
  assert (H : match fires scan_race init with
              | Some y => match y_pc y (C 0), fire (Go (C 0)) y with
                          | Scan (KScan [] false [0; 1]), Some y' =>
                              match y_pc y' (C 0), is_running (y_uni y' 0), u_runners (y_uni y' 0), y_stopped y' 0 with
                              | Idle, true, [0], false => true | _, _, _, _ => false end
                          | _, _ => false end
              | None => false end = true) by (vm_compute; reflexivity).
  destruct (fires scan_race init) as [y|]; [|discriminate].
  destruct (y_pc y (C 0)) as [| | | | | | | | | | | | | | | |[|[] [] [|[|] [|[|[|]] []]]]] eqn:E1; try discriminate.
  destruct (fire (Go (C 0)) y) as [y'|] eqn:E2; [|discriminate].
  destruct (y_pc y' (C 0)) eqn:E3; try discriminate. destruct (is_running (y_uni y' 0)) eqn:E4; [|discriminate].
  destruct (u_runners (y_uni y' 0)) as [|[|] []] eqn:E5; try discriminate. destruct (y_stopped y' 0) eqn:E6; [discriminate|].
  exists y, y'. auto 8.
Qed.
(** Two universes, one with an IP that adds another; both end and the wait returns. *)
Example C73_ex : exists y0 ls y1 y2, reachable y0 /\ (forall t, y_pc y0 t = Idle) /\ forallb local ls = true /\ fires ls y0 = Some y1 /\
  y_pc y1 (C 0) = Scan (KScan [] false [0; 1]) /\ go (C 0) y1 = Some y2 /\ y_pc y2 (C 0) = Idle /\
  y_freed y2 0 = true /\ y_freed y2 1 = true.
Proof.
  set (ls := Begin (C 0) (OScan [0; 1]) :: c0 3 ++ u0 8 ++ Begin (U 0) (OAdd 0 1) :: u0 7 ++ Stop 0 :: u0 8 ++
     Stop 0 :: u0 7 ++ c0 16).
  assert (H : match fires start_labels init with
              | Some y0 => match fires ls y0 with
                 | Some y1 => match y_pc y1 (C 0), go (C 0) y1 with
                     | Scan (KScan [] false [0; 1]), Some y2 => match y_pc y2 (C 0), y_freed y2 0, y_freed y2 1 with Idle, true, true => true | _, _, _ => false end
                     | _, _ => false end
                 | None => false end
              | None => false end = true) by (vm_compute; reflexivity).
  destruct (fires start_labels init) as [y0|] eqn:E0; [|discriminate]. destruct (fires ls y0) as [y1|] eqn:E1; [|discriminate].
  destruct (y_pc y1 (C 0)) as [| | | | | | | | | | | | | | | |[|[] [] [|[|] [|[|[|]] []]]]] eqn:E2; try discriminate.
  destruct (go (C 0) y1) as [y2|] eqn:E3; [|discriminate].
  destruct (y_pc y2 (C 0)) eqn:E4; try discriminate. destruct (y_freed y2 0) eqn:E5; [|discriminate]. destruct (y_freed y2 1) eqn:E6; [|discriminate].
  exists y0, ls, y1, y2. split; [now exists start_labels|].
  split; [rewrite start_fires in E0; injection E0 as <-; apply (fi_pc _ start_fine)|]. split; [vm_compute; reflexivity|]. auto 8.
Qed.

(** ** C38 *)

(** With native threads the main thread comes back from waiting only when the universe
    was killed or no IP is running any more. *)
Theorem C38_partial : forall y, nreachable y -> n_pc y WM = NWU -> n_run y = true ->
  n_threads y = [] /\ forall r, n_alive y r = false.
Proof.
  intros y Re E Ru. destruct (nreach_inv y Re) as [L I].
  pose proof (ni_wait _ I E) as W. unfold n_running in W. rewrite Ru in W.
  assert (T : n_threads y = []) by (destruct (n_threads y); [reflexivity|discriminate]). split; [exact T|].
  intros r. destruct (n_alive y r) eqn:A; [|reflexivity]. exfalso.
  destruct (ni_live _ I r A) as [K|[w K]]; [rewrite T in K; contradiction|].
  pose proof (nl_pc _ L WM) as H1. rewrite E in H1. specialize (H1 eq_refl).
  pose proof (nl_pc _ L w) as H2. rewrite K in H2. specialize (H2 eq_refl). congruence.
Qed.
(** But if it goes to sleep before the IPs end, it is never woken: nothing that can
    still happen, except a spurious wake-up, lets it go on. *)
Definition native_sleep : list nlabel :=
  [NBegAdd WM 0; NGo WM; NGo WM; NGo WM; NBegWait; NGo WM; NGo WM; NGo WU; NGo WU; NGo WU; NGo WU; NDone 0; NGo WU; NGo WU; NGo WU; NGo WU; NGo WU; NGo WU].
Theorem C38_refuted :
  (forall y ls y', nreachable y -> n_pc y WM = NWS -> n_asleep y = true -> (forall r, n_alive y r = false) ->
     ~ In NSpurious ls -> nfires ls y = Some y' -> n_pc y' WM = NWS /\ n_asleep y' = true) /\
  exists y, nfires native_sleep ninit = Some y /\ n_born y 0 = true /\ n_pc y WM = NWS /\ n_asleep y = true /\
    (forall r, n_alive y r = false) /\ n_threads y = [] /\ n_phase y = NAcq.
Proof.
  split.
  - intros y ls y' Re P A D. assert (S : Stuck y).
    { split; [exact P|]. split; [exact A|]. split; [exact D|]. intros r. destruct (nreach_inv y Re) as [_ I].
      destruct (n_pc y (WI r)) eqn:E; auto; exfalso; (pose proof (ni_ip _ I r) as K; rewrite E, D in K; specialize (K ltac:(discriminate)); discriminate). }
    clear Re P A D. revert y S. induction ls as [|x ls IH]; intros y S N H; cbn [nfires] in H.
    + injection H as <-. destruct S as (? & ? & _). auto.
    + destruct (nfire x y) as [y1|] eqn:E; [|discriminate]. apply (IH y1); auto.
      * apply (stuck_step x y y1 S); [|exact E]. intros ->. apply N. now left.
      * intros K. apply N. now right.
  - eexists. split; [vm_compute; reflexivity|]. cbn.
    repeat split. intros [|r]; reflexivity.
Qed.
(** The main thread adds an IP, waits, the IP ends and is joined before the main thread
    looks: it returns. *)
Example C38_ex : exists y, nreachable y /\ n_pc y WM = NWU /\ n_run y = true /\ n_born y 0 = true.
Proof.
  eexists. split; [exists [NBegAdd WM 0; NGo WM; NGo WM; NGo WM; NGo WU; NGo WU; NGo WU; NGo WU; NDone 0; NGo WU; NGo WU; NGo WU; NGo WU; NGo WU; NBegWait; NGo WM; NGo WM]; vm_compute; reflexivity|].
  cbn. auto.
Qed.

Print Assumptions C37_wakeup.
Print Assumptions C37_no_sleep.
Print Assumptions C37_waiter.
Print Assumptions C37_runs.
Print Assumptions C37_again.
Print Assumptions C37_return.
Print Assumptions C38_partial.
Print Assumptions C38_refuted.
Print Assumptions C72_partial.
Print Assumptions C72_refuted.
Print Assumptions C73_partial.
Print Assumptions C73_refuted.
