(** * C34, C35, C36: quitting, spawning and the round-robin schedule. *)

From Coq Require Import ZArith List Bool Lia.
From Verif Require Import Base BaseProofs VectorModel StackModel StackProofs FieldModel
  World IpModel LoadModel FingModel CoreModel UniModel IpProofs ExecProofs FlowProofs States
  PropsStack PropsFlow Effects SchedProofs.
Import ListNotations.
Open Scope Z_scope.

(** ** Starting a program gives one universe with one IP *)
Lemma boot_single F data c input fs rnd w : boot F data c (world0 input fs rnd) = Ok w -> Single w.
Proof.
  unfold boot. destruct (multi_create_file F data c (world0 input fs rnd)) as [w1|e] eqn:E1; [|discriminate].
  cbn [bind]. unfold multi_create_file in E1. destruct (loop _ _ _) as [name|e]; [|discriminate]. cbn [bind] in E1.
  destruct (f_parse _ _ _ _) as [df|e]; [|discriminate]. cbn [bind] in E1. cbv zeta in E1.
  match type of E1 with Ok ?x = Ok w1 => assert (E2 : w1 = x) by congruence end. clear E1. unfold create_runner.
  match goal with |- bind ?x _ = _ -> _ => destruct x as [r|e] eqn:Er; [|discriminate] end. cbn [bind].
  destruct (runner_new_id _ _ _ _ _ _ _ Er) as (I1 & I2 & _). rewrite E2 in I1. cbn in I1, I2.
  intros E. match type of E with Ok ?x = Ok w => assert (E3 : w = x) by congruence end. clear E. subst w.
  rewrite E2. clear E2 Er. unfold Single, Ids, queue.
  cbn. rewrite I1. repeat split.
  - destruct (Z.eqb_spec id 0); [|discriminate]. inversion H; subst. cbn. auto.
  - destruct (Z.eqb_spec id 0); [|discriminate]. lia.
  - constructor; [intros []|constructor].
  - intros [<-|[]]. rewrite Z.eqb_refl. eauto.
  - intros (r0 & H). destruct (Z.eqb_spec id 0); [auto|discriminate].
  - intros id r0 H. destruct (Z.eqb_spec id 0); [|discriminate]. inversion H; subst. cbn. auto.
Qed.

(** ** C36: round-robin *)

(** [Visits n sched w w' ids]: the run from [w] to [w'] in which the universes
    take turns as in [sched]; [ids] are the IPs universe [n] took from the front
    of its queue, in order: those it ticked, and the stopped ones it deleted. *)
Inductive Visits (F : positive) (D : nat) (n : nat) : list nat -> world -> world -> list Z -> Prop :=
| Visits_nil w : Visits F D n [] w w []
| Visits_here w w1 w' id q sched ids :
    queue w n = id :: q -> uni_step F D n w = Ok w1 -> Visits F D n sched w1 w' ids ->
    Visits F D n (n :: sched) w w' (id :: ids)
| Visits_idle w w' sched ids :
    queue w n = [] -> uni_step F D n w = Ok w -> Visits F D n sched w w' ids ->
    Visits F D n (n :: sched) w w' ids
| Visits_other m w w1 w' sched ids :
    m <> n -> (m < w_nuni w)%nat -> uni_step F D m w = Ok w1 -> Visits F D n sched w1 w' ids ->
    Visits F D n (m :: sched) w w' ids.

Lemma visits_nuni F D n sched w w' ids : Visits F D n sched w w' ids -> (n < w_nuni w)%nat -> (w_nuni w <= w_nuni w')%nat.
Proof.
  intros V. induction V as [w|w w1 w' id q sched ids Q E V IH|w w' sched ids Q E V IH|m w w1 w' sched ids Nm Lm E V IH];
    intros L; auto.
  - pose proof (step_nuni _ _ _ _ _ E L). specialize (IH ltac:(lia)). lia.
  - pose proof (step_nuni _ _ _ _ _ E Lm). specialize (IH ltac:(lia)). lia.
Qed.

(** First in, first out: the IPs visited, followed by those still queued, are those
    that were queued at the start, followed by those queued meanwhile, in order.  No
    instruction can jump the queue or drop an IP from it. *)
Theorem C36_fifo : forall F D n sched w w' ids,
  Visits F D n sched w w' ids -> (n < w_nuni w)%nat ->
  exists added, ids ++ queue w' n = queue w n ++ added.
Proof.
  intros F D n sched w w' ids V.
  induction V as [w|w w1 w' id q sched ids Q E V IH|w w' sched ids Q E V IH|m w w1 w' sched ids Nm Lm E V IH]; intros L.
  - exists []. now rewrite app_nil_r.
  - destruct (step_queue F D n w w1 id q E Q L) as (r & w2 & r1 & new & _ & _ & _ & _ & Q1).
    pose proof (step_nuni _ _ _ _ _ E L). destruct (IH ltac:(lia)) as (added & IHE).
    eexists. cbn [app]. rewrite IHE, Q1, Q. cbn [app]. rewrite <- !app_assoc. reflexivity.
  - apply IH. exact L.
  - pose proof (step_nuni _ _ _ _ _ E Lm). destruct (IH ltac:(lia)) as (added & IHE).
    destruct (step_other_queue _ _ _ _ _ n E Nm L Lm) as (q & Q1).
    rewrite IHE, Q1, <- app_assoc. eauto.
Qed.
(** An IP that is alive after its tick and still in the universe goes to the back,
    behind the IPs that were waiting and those spawned during its tick. *)
Theorem C36_requeue : forall F D n w w' id q,
  uni_step F D n w = Ok w' -> queue w n = id :: q -> (n < w_nuni w)%nat ->
  exists r1 new, queue w' n = q ++ new ++ (if Nat.eqb (r_uni r1) n && negb (r_stopped r1) then [id] else []) /\
    (r_stopped r1 = false -> w_run w' id = Some r1).
Proof.
  intros F D n w w' id q E Q L.
  destruct (step_queue F D n w w' id q E Q L) as (r & w1 & r1 & new & R & HR & _ & Q1 & Q').
  exists r1, new. split; auto.
  destruct (uni_step_inv F D n w w' id q E Q) as (r2 & w3 & r3 & R2 & HR2 & HS).
  assert (w3 = w1 /\ r3 = r1) as [-> ->].
  { rewrite R in R2. inversion R2; subst r2. unfold Ran in HR, HR2. destruct (r_stopped r).
    - destruct HR, HR2. subst. auto.
    - destruct HR as (s & T & -> & ->), HR2 as (s2 & T2 & -> & ->). rewrite T in T2. inversion T2. auto. }
  intros St. unfold Settled in HS. rewrite St in HS.
  assert (X : w_run w1 id = Some r1).
  { unfold Ran in HR. destruct (r_stopped r); [destruct HR; subst; auto|].
    destruct HR as (s & _ & -> & ->). apply upd_run_same. }
  destruct (Nat.eqb _ _); subst w'; exact X.
Qed.

Lemma split_at {A} (x : A) : forall l1 l2 r1 r2,
  l1 ++ x :: r1 = l2 ++ x :: r2 -> ~ In x l1 -> ~ In x l2 -> l1 = l2.
Proof.
  induction l1 as [|a l1 IH]; intros [|b l2] r1 r2 E N1 N2; cbn in *; auto.
  - inversion E; subst. tauto.
  - inversion E; subst. tauto.
  - inversion E; subst. f_equal. eapply IH; eauto.
Qed.

(** Between two consecutive ticks of an IP, the universe visits exactly the other
    IPs that were queued after the first of them: each once, in queue order. *)
Theorem C36_fair_partial : forall F D n w sched w' ids id others,
  (n < w_nuni w)%nat -> queue w n = others ++ [id] -> NoDup (queue w n) ->
  Visits F D n sched w w' ids -> ~ In id ids -> hd_error (queue w' n) = Some id ->
  ids = others.
Proof.
  intros F D n w sched w' ids id others L Q ND V NI HD.
  destruct (C36_fifo F D n sched w w' ids V L) as (added & E).
  destruct (queue w' n) as [|x q']; [discriminate|]. inversion HD; subst x.
  rewrite Q, <- app_assoc in E. cbn [app] in E. apply (split_at id _ _ _ _ E); auto.
  rewrite Q in ND. apply NoDup_remove_2 in ND. now rewrite app_nil_r in ND.
Qed.

(** In a program that stays in one universe the queue never holds an IP twice, so
    scheduling is fair in every execution. *)
Theorem C36_fair_single : forall F D data c input fs rnd w0 sched0 w sched w' ids id others,
  boot F data c (world0 input fs rnd) = Ok w0 ->
  (forall n, In n sched0 -> n = 0%nat) -> uni_run F D sched0 w0 = Ok w -> w_nuni w = 1%nat ->
  queue w 0 = others ++ [id] ->
  Visits F D 0 sched w w' ids -> ~ In id ids -> hd_error (queue w' 0) = Some id ->
  ids = others /\ NoDup (others ++ [id]).
Proof.
  intros F D data c input fs rnd w0 sched0 w sched w' ids id others B S0 R N Q V NI HD.
  assert (S : Single w) by (eapply run_single; eauto; eapply boot_single; eauto).
  destruct S as (_ & _ & ND & _). split; [|now rewrite <- Q].
  eapply C36_fair_partial; eauto. lia.
Qed.

(** The visits of a run, computed. *)
Fixpoint visits (F : positive) (D : nat) (n : nat) (sched : list nat) (w : world) : res (world * list Z) :=
  match sched with
  | [] => Ok (w, [])
  | m :: t =>
      w1 <-- uni_step F D m w ;;
      r <-- visits F D n t w1 ;;
      Ok (fst r, (if Nat.eqb m n then firstn 1 (queue w n) else []) ++ snd r)
  end.
Lemma visits_visits F D n sched : forall w w' ids, visits F D n sched w = Ok (w', ids) ->
  (forall m, In m sched -> m = n) -> Visits F D n sched w w' ids.
Proof.
  induction sched as [|m t IH]; intros w w' ids E B; cbn [visits] in E.
  - inversion E; subst. constructor.
  - destruct (uni_step F D m w) as [w1|e] eqn:E1; [|discriminate]. cbn [bind] in E.
    destruct (visits F D n t w1) as [[w2 l]|e] eqn:E2; [|discriminate]. cbn [bind fst snd] in E.
    inversion E; subst. rewrite (B m (or_introl eq_refl)) in *. rewrite Nat.eqb_refl.
    assert (V : Visits F D n t w1 w' l) by (apply IH; auto; intros x Hx; apply B; now right).
    destruct (queue w n) as [|id q] eqn:Q; cbn [firstn app].
    + pose proof (uni_step_idle _ _ _ _ _ E1 Q). subst w1. now apply Visits_idle.
    + now apply (Visits_here F D n w w1 w' id q).
Qed.

(** A program that spawns more and more IPs. *)
Definition ex_round_boot : res world :=
  boot 1000 [116; 116; 49; 36; 122; 122] (set_c_dims 2 (set_c_std STD_98 cfg_default))
    (world0 [] (fun _ => None) (fun _ => 0)).
Definition ex_round_w : world := the dummy_w (w <-- ex_round_boot ;; uni_run 100 2 (repeat 0%nat 8) w).
Example C36_ex : queue ex_round_w 0 = [2; 0; 1; 4] ++ [3] /\ w_nuni ex_round_w = 1%nat /\
  match visits 100 2 0 (repeat 0%nat 4) ex_round_w with
  | Ok (w', ids) => ids = [2; 0; 1; 4] /\ hd_error (queue w' 0) = Some 3
  | Bad _ => False
  end.
Proof. vm_compute. repeat split. Qed.
Print Assumptions C36_fifo.
Print Assumptions C36_requeue.
Print Assumptions C36_fair_partial.
Print Assumptions C36_fair_single.

(** ** C34: q *)

Definition inb (id : Z) (l : list Z) : bool := existsb (Z.eqb id) l.
Lemma inb_in id l : inb id l = true <-> In id l.
Proof.
  unfold inb. rewrite existsb_exists. split.
  - intros (x & H & E). apply Z.eqb_eq in E. now subst.
  - intros H. exists id. split; auto. apply Z.eqb_refl.
Qed.

(** Doing [f] to every IP of a list. *)
Lemma on_runners_run f : (forall r, f (f r) = f r) -> (forall r, r_id (f r) = r_id r) ->
  forall l s, (forall id, In id l -> id = r_id (s_r s) \/ exists r, w_run (s_w s) id = Some r) ->
  exists s', on_runners l f s = Ok (tt, s') /\
    s_r s' = (if inb (r_id (s_r s)) l then f (s_r s) else s_r s) /\
    (forall id, w_run (s_w s') id =
       if inb id l && negb (id =? r_id (s_r s)) then option_map f (w_run (s_w s) id) else w_run (s_w s) id) /\
    s_w s' = set_w_run (w_run (s_w s')) (s_w s).
Proof.
  intros FF FI. induction l as [|x l IH]; intros s A; cbn [on_runners].
  - exists s. split; [reflexivity|]. split; [reflexivity|]. split; [reflexivity|]. now destruct s as [[]].
  - assert (X : exists s1, on_runner x f s = Ok (tt, s1) /\
       s_r s1 = (if r_id (s_r s) =? x then f (s_r s) else s_r s) /\
       (forall id, w_run (s_w s1) id =
          if (id =? x) && negb (id =? r_id (s_r s)) then option_map f (w_run (s_w s) id) else w_run (s_w s) id) /\
       s_w s1 = set_w_run (w_run (s_w s1)) (s_w s)).
    { unfold on_runner. rewrite (Z.eqb_sym (r_id (s_r s)) x). destruct (Z.eqb_spec x (r_id (s_r s))) as [E|N].
      - eexists. split; [reflexivity|]. cbn [s_r s_w]. split; [reflexivity|]. split; [|now destruct s as [[]]].
        intros id. destruct (Z.eqb_spec id x); [|reflexivity]. subst. now rewrite Z.eqb_refl.
      - destruct (A x (or_introl eq_refl)) as [E|(r & E)]; [contradiction|]. rewrite E.
        eexists. split; [reflexivity|]. cbn [s_r s_w]. split; [reflexivity|]. split; [|now destruct s as [[]]].
        intros id. unfold upd_run. cbn [w_run set_w_run]. destruct (Z.eqb_spec id x) as [->|Nx]; [|reflexivity].
        destruct (Z.eqb_spec x (r_id (s_r s))); [contradiction|]. cbn [negb andb]. now rewrite E. }
    destruct X as (s1 & E1 & R1 & W1 & S1). rewrite (run_bind _ _ _ _ _ E1).
    assert (ID : r_id (s_r s1) = r_id (s_r s)) by (rewrite R1; destruct (_ =? x); auto).
    destruct (IH s1) as (s2 & E2 & R2 & W2 & S2).
    { intros id H. rewrite ID, W1. destruct (A id (or_intror H)) as [E|(r & E)]; [now left|]. right.
      destruct (_ && _); [|eauto]. rewrite E. cbn. eauto. }
    exists s2. split; [exact E2|]. rewrite ID in *. split; [|split].
    + rewrite R2, R1. cbn [inb existsb]. fold (inb (r_id (s_r s)) l).
      destruct (r_id (s_r s) =? x), (inb (r_id (s_r s)) l); cbn [orb]; auto.
    + intros id. rewrite W2, W1. cbn [inb existsb]. fold (inb id l).
      destruct (id =? x), (inb id l), (id =? r_id (s_r s)); cbn [orb andb negb]; auto.
      destruct (w_run (s_w s) id); cbn; [now rewrite FF|auto].
    + rewrite S2, S1. reflexivity.
Qed.

(** Every IP of universe [n] in world [w] is alive (a freed IP in the queue would be
    undefined behaviour), [me] being the executing one. *)
Definition All_alive (w : world) (n : nat) (me : Z) : Prop :=
  forall id, In id (queue w n) -> id = me \/ exists r, w_run w id = Some r.

(** [q] stops every IP of the universe, the executing one included, and sets the exit
    code to the popped value as an int; nothing else changes except the stack. *)
Theorem C34_quit : forall F D s l,
  Normal s 113 -> Holds s l -> In (r_id (s_r s)) (queue (s_w s) (r_uni (s_r s))) ->
  All_alive (s_w s) (r_uni (s_r s)) (r_id (s_r s)) ->
  exists s' s1 code, execute F (S D) 113 s = Ok (ENone, s') /\ Only_stack s s1 (tl l) /\
    -2147483648 <= code <= 2147483647 /\ (code - hd 0 l) mod 2 ^ 32 = 0 /\
    s_r s' = set_r_stopped true (s_r s1) /\
    (forall id, id <> r_id (s_r s) -> In id (queue (s_w s) (r_uni (s_r s))) ->
       exists r, w_run (s_w s) id = Some r /\ w_run (s_w s') id = Some (set_r_stopped true r)) /\
    (forall id, ~ In id (queue (s_w s) (r_uni (s_r s))) -> w_run (s_w s') id = w_run (s_w s) id) /\
    w_uni (s_w s') (r_uni (s_r s)) =
      set_u_running false (set_u_exit code (w_uni (s_w s) (r_uni (s_r s)))) /\
    (forall m, m <> r_uni (s_r s) -> w_uni (s_w s') m = w_uni (s_w s) m) /\
    s_w s' = set_w_run (w_run (s_w s')) (set_w_uni (w_uni (s_w s')) (s_w s)).
Proof.
  intros F D s l HN H Me AL. rewrite (execute_normal F D _ s _ _ HN eq_refl). cbn [run_meth].
  destruct (popS_plain s l H) as (s1 & E1 & C1). rewrite (run_bind _ _ _ _ _ E1).
  set (code := to_i32 (hd 0 l)). set (n := r_uni (s_r s)) in *.
  assert (W1 : s_w s1 = s_w s) by (eapply Only_stack_w; eauto).
  assert (R1 : r_id (s_r s1) = r_id (s_r s) /\ r_uni (s_r s1) = n)
    by (rewrite (Only_stack_r _ _ _ C1); split; reflexivity).
  destruct R1 as (R1 & U1).
  unfold killAll.
  set (s2 := {| s_w := upd_uni n (set_u_exit code) (s_w s); s_r := s_r s1 |}).
  assert (E2 : modU (set_u_exit code) s1 = Ok (tt, s2)) by (unfold modU, s2; now rewrite U1, W1).
  assert (Q2 : u_queue (w_uni (s_w s2) n) = queue (s_w s) n)
    by (unfold s2; cbn [s_w]; now rewrite upd_uni_same).
  destruct (on_runners_run (set_r_stopped true) (fun r => eq_refl) (fun r => eq_refl) (queue (s_w s) n) s2)
    as (s3 & E3 & R3 & W3 & S3).
  { intros id Hid. unfold s2. cbn [s_r s_w]. rewrite R1. exact (AL id Hid). }
  set (s4 := {| s_w := upd_uni n (set_u_running false) (s_w s3); s_r := s_r s3 |}).
  assert (I2 : r_id (s_r s2) = r_id (s_r s)) by exact R1.
  assert (R3' : s_r s3 = set_r_stopped true (s_r s1)).
  { rewrite R3, I2. apply inb_in in Me. rewrite Me. reflexivity. }
  exists s4, s1, code. split; [|split; [exact C1|]].
  { rewrite (run_bind _ _ s1 tt s4); [reflexivity|].
    rewrite (run_bind _ _ _ _ _ E2).
    assert (G : getU s2 = Ok (w_uni (s_w s2) n, s2)) by (unfold getU, s2; cbn [s_r]; now rewrite U1).
    rewrite (run_bind _ _ _ _ _ G), Q2. rewrite (run_bind _ _ _ _ _ E3).
    unfold modU. rewrite R3'. cbn [r_uni set_r_stopped]. rewrite U1. unfold s4. now rewrite R3'. }
  split; [apply to_i32_range|]. split; [apply (wrap_mod 32); lia|].
  split; [exact R3'|]. unfold s4. cbn [s_w]. split; [|split; [|split; [|split]]].
  - intros id N Hid. destruct (AL id Hid) as [X|(r & X)]; [contradiction|]. exists r. split; auto.
    change (w_run (upd_uni n (set_u_running false) (s_w s3)) id) with (w_run (s_w s3) id).
    rewrite W3, I2. apply inb_in in Hid. rewrite Hid. destruct (Z.eqb_spec id (r_id (s_r s))); [contradiction|].
    cbn [andb negb]. change (w_run (s_w s2) id) with (w_run (s_w s) id). now rewrite X.
  - intros id N. change (w_run (upd_uni n (set_u_running false) (s_w s3)) id) with (w_run (s_w s3) id).
    rewrite W3. destruct (inb id (queue (s_w s) n)) eqn:Ei; [apply inb_in in Ei; contradiction|]. reflexivity.
  - rewrite upd_uni_same. f_equal. rewrite S3. cbn [w_uni set_w_run]. unfold s2. cbn [s_w]. apply upd_uni_same.
  - intros m Nm. rewrite upd_uni_other by auto. rewrite S3. cbn [w_uni set_w_run]. unfold s2. cbn [s_w]. now apply upd_uni_other.
  - rewrite S3. reflexivity.
Qed.

(** The tick in which the IP at the front of the queue reaches [q]. *)
Theorem C34_tick : forall F D n w id q r J p l,
  let s := {| s_w := w; s_r := r |} in
  queue w n = id :: q -> NoDup (id :: q) -> w_run w id = Some r -> r_id r = id -> r_uni r = n ->
  (forall i, In i q -> exists r', w_run w i = Some r' /\ r_id r' = i /\ r_uni r' = n) ->
  Reaches (fun c => c = 32 \/ c = 9) s J 113 p -> Ticking s J -> (length J < Pos.to_nat F)%nat ->
  Normal s 113 -> Holds s l ->
  exists w' code, uni_step F (S D) n w = Ok w' /\
    -2147483648 <= code <= 2147483647 /\ (code - hd 0 l) mod 2 ^ 32 = 0 /\
    u_exit (w_uni w' n) = code /\ u_running (w_uni w' n) = false /\
    queue w' n = q /\ w_run w' id = None /\
    (forall i, In i q -> exists r', w_run w' i = Some r' /\ r_stopped r' = true /\ r_uni r' = n) /\
    w_out w' = w_out w /\ u_field (w_uni w' n) = u_field (w_uni w n).
Proof.
  intros F D n w id q r J p l s Q ND R Hid Hu Al HR HT L HN H.
  set (s0 := moved s p (r_delta (s_r s))).
  assert (A0 : All_alive (s_w s0) (r_uni (s_r s0)) (r_id (s_r s0))).
  { intros i Hi. change (In i (queue w (r_uni r))) in Hi. rewrite Hu, Q in Hi. destruct Hi as [<-|Hi].
    - left. symmetry. exact Hid.
    - right. destruct (Al i Hi) as (r' & X & _). exists r'. exact X. }
  assert (M0 : In (r_id (s_r s0)) (queue (s_w s0) (r_uni (s_r s0)))).
  { change (In (r_id r) (queue w (r_uni r))). rewrite Hu, Hid, Q. now left. }
  destruct (C34_quit F D s0 l HN H M0 A0) as (s' & s1 & code & E & C & CR & CM & Rs & Oth & _ & Uni & Um & FR).
  assert (T : tick F (S D) s = Ok (tt, s')).
  { apply (C66_tick F D s J 113 p s' s' HR HT L E). apply ipNext_stopped. rewrite Rs. reflexivity. }
  assert (RU : r_uni (s_r s') = n /\ r_stopped (s_r s') = true).
  { rewrite Rs. cbn. rewrite (Only_stack_r _ _ _ C). split; [exact Hu|reflexivity]. }
  destruct RU as (RU & RSt).
  change (r_uni (s_r s0)) with (r_uni r) in *. rewrite Hu in Uni, Um, Oth. change (s_w s0) with w in *.
  change (r_id (s_r s0)) with (r_id r) in Oth. rewrite Hid in Oth.
  assert (Q1 : u_queue (w_uni (s_w s') n) = id :: q).
  { rewrite Uni. exact Q. }
  eexists. exists code. split.
  { unfold uni_step. change (u_queue (w_uni w n)) with (queue w n). rewrite Q, R.
    assert (St : r_stopped r = false) by apply HT. rewrite St. unfold as_runner. rewrite R.
    change {| s_w := w; s_r := r |} with s. rewrite T. cbn [bind].
    match goal with |- context [w_run ?x id] => replace (w_run x id) with (Some (s_r s')) by (symmetry; apply (upd_run_same id (Some (s_r s')) (s_w s'))) end.
    rewrite RU, Nat.eqb_refl, RSt. reflexivity. }
  split; [exact CR|]. split; [exact CM|].
  unfold queue. cbn [upd_run set_w_run w_uni w_run w_out]. rewrite upd_uni_same.
  cbn [upd_run set_w_run w_uni u_exit u_running u_queue u_field set_u_queue]. rewrite Q1. rewrite Uni.
  split; [reflexivity|]. split; [reflexivity|]. split; [reflexivity|]. split; [now rewrite Z.eqb_refl|].
  split; [|split; [|reflexivity]].
  - intros i Hi. assert (Ni : i <> id) by (inversion ND; congruence).
    destruct (Oth i Ni) as (r' & X1 & X2); [rewrite Q; now right|].
    destruct (Z.eqb_spec i id); [contradiction|].
    change (w_run (upd_uni n (fun u => set_u_queue (tl (u_queue u)) u) (upd_run id (Some (s_r s')) (s_w s'))) i)
      with (w_run (upd_run id (Some (s_r s')) (s_w s')) i).
    rewrite upd_run_other by auto. exists (set_r_stopped true r'). split; [exact X2|]. split; [reflexivity|].
    destruct (Al i Hi) as (r2 & X3 & _ & X4). cbn. congruence.
  - cbn. rewrite FR. reflexivity.
Qed.

(** From then on the universe only deletes its stopped IPs, one per iteration: no
    instruction is executed, and the exit code stays. *)
Theorem C34_drain : forall F D n k w,
  NoDup (queue w n) ->
  (forall i, In i (queue w n) -> exists r, w_run w i = Some r /\ r_stopped r = true /\ r_uni r = n) ->
  exists w', uni_run F D (repeat n k) w = Ok w' /\
    w_uni w' n = set_u_queue (skipn k (queue w n)) (w_uni w n) /\
    (forall m, m <> n -> w_uni w' m = w_uni w m) /\
    (forall i, w_run w' i = if inb i (firstn k (queue w n)) then None else w_run w i) /\
    w' = set_w_run (w_run w') (set_w_uni (w_uni w') w).
Proof.
  intros F D n. induction k as [|k IH]; intros w ND A; cbn [repeat uni_run].
  - exists w. split; [reflexivity|]. split; [unfold queue; now destruct (w_uni w n)|].
    split; [reflexivity|]. split; [reflexivity|]. now destruct w.
  - destruct (queue w n) as [|id q] eqn:Q.
    + assert (E : uni_step F D n w = Ok w) by (unfold uni_step; unfold queue in Q; now rewrite Q).
      rewrite E. cbn [bind]. destruct (IH w) as (w' & E' & X1 & X2 & X3 & X4).
      { rewrite Q. exact ND. } { rewrite Q. exact A. }
      rewrite Q in X1, X3. rewrite skipn_nil in X1. rewrite firstn_nil in X3.
      exists w'. split; auto.
    + destruct (A id (or_introl eq_refl)) as (r & R & St & U).
      set (w2 := upd_uni n (fun u => set_u_queue (tl (u_queue u)) u) w).
      assert (E : uni_step F D n w = Ok (upd_run id None w2)).
      { unfold uni_step. unfold queue in Q. rewrite Q, R, St. cbn [bind]. cbv zeta. fold w2.
        change (w_run w2 id) with (w_run w id). rewrite R, U, Nat.eqb_refl, St. reflexivity. }
      rewrite E. cbn [bind].
      assert (Q2 : queue (upd_run id None w2) n = q).
      { unfold queue. cbn [upd_run set_w_run w_uni]. unfold w2. rewrite upd_uni_same. unfold queue in Q.
        cbn [u_queue set_u_queue]. now rewrite Q. }
      inversion ND as [|x y Nin ND2]; subst x y.
      destruct (IH (upd_run id None w2)) as (w' & E' & X1 & X2 & X3 & X4).
      * rewrite Q2. exact ND2.
      * rewrite Q2. intros i Hi. rewrite upd_run_other by congruence. apply A. now right.
      * exists w'. split; [exact E'|]. rewrite Q2 in X1, X3. cbn [skipn firstn]. split; [|split; [|split]].
        -- rewrite X1. cbn [upd_run set_w_run w_uni]. unfold w2. rewrite upd_uni_same. reflexivity.
        -- intros m Nm. rewrite X2 by auto. cbn [upd_run set_w_run w_uni]. unfold w2. now apply upd_uni_other.
        -- intros i. rewrite X3. cbn [inb existsb]. fold (inb i (firstn k q)).
           destruct (Z.eqb_spec i id) as [->|Ni]; cbn [orb].
           ++ destruct (inb id (firstn k q)); [reflexivity|]. apply upd_run_same.
           ++ destruct (inb i (firstn k q)); [reflexivity|]. now rewrite upd_run_other.
        -- rewrite X4. reflexivity.
Qed.

(** Whatever all universes do afterwards, in any order: an IP that was stopped never
    moves again; at most its stack is touched by others, until it is deleted. *)
Theorem C34_forever : forall F D sched w w' id r,
  Ids w -> w_run w id = Some r -> r_stopped r = true -> uni_run F D sched w = Ok w' ->
  w_run w' id = None \/
  exists r', w_run w' id = Some r' /\ r_stopped r' = true /\
    r_pos r' = r_pos r /\ r_delta r' = r_delta r /\ r_storage r' = r_storage r /\ r_uni r' = r_uni r /\
    r_sem r' = r_sem r.
Proof.
  intros F D sched w w' id r I R St E.
  assert (X : w_run w' id = None \/ exists r', w_run w' id = Some r' /\ Poked r r').
  { revert w w' r I R St E. induction sched as [|n t IH]; intros w w' r I R St E; cbn [uni_run] in E.
    - inversion E; subst. right. exists r. split; [auto|apply poked_refl].
    - destruct (uni_step F D n w) as [w1|e] eqn:E1; [|discriminate]. cbn [bind] in E.
      destruct (step_stopped _ _ _ _ _ _ _ E1 I R St) as [N|(r1 & R1 & P1)].
      + left. destruct (I _ _ R). pose proof (step_nrun _ _ _ _ _ E1).
        eapply run_freed; [exact E|eapply step_ids; eauto|lia|exact N].
      + assert (St1 : r_stopped r1 = true) by (destruct P1 as (x & b & -> & Hb & _); cbn; auto).
        destruct (IH _ _ _ (step_ids _ _ _ _ _ E1 I) R1 St1 E) as [N|(r2 & R2 & P2)]; [now left|].
        right. exists r2. split; auto. eapply poked_trans; eauto. }
  destruct X as [N|(r' & R' & (x & b & -> & Hb & _))]; [now left|]. right. eexists. split; [exact R'|].
  cbn. repeat split; auto.
Qed.

(** Program [t7q]: the parent quits with code 7 while its child is alive. *)
Definition ex_quit_w : world :=
  the dummy_w (w <-- boot 1000 [116; 55; 113; 122; 122; 122; 122] (set_c_dims 2 (set_c_std STD_98 cfg_default))
                       (world0 [] (fun _ => None) (fun _ => 0)) ;;
               uni_run 100 2 (repeat 0%nat 4) w).
Definition ex_quit_r : runner :=
  match w_run ex_quit_w 0 with Some r => r | None => s_r dummy end.
Definition ex_quit : st := {| s_w := ex_quit_w; s_r := ex_quit_r |}.
Example C34_ex_hyp :
  queue ex_quit_w 0 = [0; 1] /\ NoDup [0; 1] /\ w_run ex_quit_w 0 = Some ex_quit_r /\ r_id ex_quit_r = 0 /\
  r_uni ex_quit_r = 0%nat /\ (exists r', w_run ex_quit_w 1 = Some r' /\ r_id r' = 1 /\ r_uni r' = 0%nat) /\
  Reaches (fun c => c = 32 \/ c = 9) ex_quit [] 113 (mkvec [2]) /\ Ticking ex_quit [] /\
  Normal ex_quit 113 /\ Holds ex_quit [7].
Proof.
  split; [vm_compute; reflexivity|]. split.
  { constructor; [intros [H|[]]; discriminate|]. constructor; [intros []|constructor]. }
  split; [vm_compute; reflexivity|]. split; [vm_compute; reflexivity|]. split; [vm_compute; reflexivity|].
  split.
  { exists (match w_run ex_quit_w 1 with Some r => r | None => s_r dummy end).
    vm_compute. auto. }
  split.
  { split; [constructor|]. exists []. split; [vm_compute; reflexivity|].
    replace (r_pos (s_r ex_quit)) with (mkvec [2]) by (vm_compute; reflexivity). constructor. }
  split; [vm_compute; repeat split; intros []|]. split; vm_compute; repeat split; eauto.
Qed.
Example C34_ex :
  match uni_step 100 2 0 ex_quit_w with
  | Ok w => (u_exit (w_uni w 0), queue w 0, u_running (w_uni w 0)) = (7, [1], false)
  | _ => False end.
Proof. vm_compute. reflexivity. Qed.
Print Assumptions C34_quit.
Print Assumptions C34_tick.
Print Assumptions C34_drain.
Print Assumptions C34_forever.
