(** * Consequences of the elementary effects for IPs, queues and universes. *)

From Coq Require Import ZArith List Bool Lia.
From Verif Require Import Base BaseProofs VectorModel StackModel FieldModel
  World IpModel LoadModel FingModel CoreModel ExecProofs Effects.
Import ListNotations.
Open Scope Z_scope.

Lemma upd_uni_same n f w : w_uni (upd_uni n f w) n = f (w_uni w n).
Proof. unfold upd_uni, set_w_uni. cbn [w_uni]. now rewrite Nat.eqb_refl. Qed.
Lemma upd_uni_other n f w m : m <> n -> w_uni (upd_uni n f w) m = w_uni w m.
Proof. intros H. unfold upd_uni, set_w_uni. cbn [w_uni]. destruct (Nat.eqb_spec m n); congruence. Qed.
Lemma upd_run_same id r w : w_run (upd_run id r w) id = r.
Proof. unfold upd_run, set_w_run. cbn [w_run]. now rewrite Z.eqb_refl. Qed.
Lemma upd_run_other id r w i : i <> id -> w_run (upd_run id r w) i = w_run w i.
Proof. intros H. unfold upd_run, set_w_run. cbn [w_run]. destruct (Z.eqb_spec i id); congruence. Qed.

Definition queue (w : world) (n : nat) : list Z := u_queue (w_uni w n).

(** ** Numbers of universes and IPs only grow *)
Definition Grows (s s' : st) : Prop :=
  (w_nuni (s_w s) <= w_nuni (s_w s'))%nat /\ w_nrun (s_w s) <= w_nrun (s_w s').
Lemma eff_grows t s s' : eff t s s' -> Grows s s'.
Proof.
  intros E. destruct E; unfold Grows; cbn; try lia.
  destruct H as (_ & H1 & _ & H2 & _). rewrite H1, H2. lia.
Qed.
Lemma effs_grows t s s' : effs t s s' -> Grows s s'.
Proof.
  apply effs_preorder; unfold Grows; [intros; lia|intros; lia|apply eff_grows].
Qed.

(** ** Queues only get longer, at their end *)
Definition Longer (w w' : world) (n : nat) : Prop := exists q, queue w' n = queue w n ++ q.
Lemma longer_refl w n : Longer w w n.
Proof. exists []. now rewrite app_nil_r. Qed.
Lemma longer_trans w w1 w2 n : Longer w w1 n -> Longer w1 w2 n -> Longer w w2 n.
Proof. intros (q & E) (q1 & E1). exists (q ++ q1). rewrite E1, E, app_assoc. reflexivity. Qed.
Lemma longer_same w w' n : w_uni w' n = w_uni w n -> Longer w w' n.
Proof. intros E. exists []. unfold queue. now rewrite E, app_nil_r. Qed.
Lemma longer_upd w n m f : (u_queue (f (w_uni w n)) = queue w n) -> Longer w (upd_uni n f w) m.
Proof.
  intros E. destruct (Nat.eq_dec m n) as [->|N].
  - exists []. unfold queue. rewrite upd_uni_same, app_nil_r. exact E.
  - apply longer_same. now apply upd_uni_other.
Qed.
Lemma eff_longer t s s' n : eff t s s' -> (n < w_nuni (s_w s))%nat -> Longer (s_w s) (s_w s') n.
Proof.
  intros E L. destruct E; cbn [s_w s_r]; try apply longer_refl; try (apply longer_same; reflexivity).
  - destruct (Nat.eq_dec n n0) as [->|N].
    + exists [r_id (s_r s)]. unfold queue. now rewrite upd_uni_same.
    + apply longer_same. now apply upd_uni_other.
  - apply longer_upd. destruct (H (w_uni (s_w s) n0)) as (x & ->). reflexivity.
  - apply longer_upd. destruct (H (w_uni (s_w s) (r_uni (s_r s)))) as (m & d & ->). reflexivity.
  - apply longer_upd. reflexivity.
  - apply longer_upd. reflexivity.
  - apply longer_same. destruct H as (H & _). now rewrite H.
  - destruct (Nat.eq_dec n (r_uni (s_r s))) as [->|N].
    + exists [r_id r']. unfold queue, add_runner. rewrite upd_uni_same. reflexivity.
    + apply longer_same. unfold add_runner. now rewrite upd_uni_other.
  - apply longer_same. change (w_uni (upd_uni (w_nuni (s_w s)) (fun _ => u) (s_w s)) n = w_uni (s_w s) n).
    apply upd_uni_other. lia.
Qed.
Lemma effs_longer t s s' n : effs t s s' -> (n < w_nuni (s_w s))%nat -> Longer (s_w s) (s_w s') n.
Proof.
  intros E. induction E; intros L; [apply longer_refl|].
  eapply longer_trans; [eapply eff_longer; eauto|]. apply IHE. pose proof (eff_grows _ _ _ H) as (G & _). lia.
Qed.

(** ** One iteration of a universe *)

(** How the IP [id] at the front of universe [n] executes: stopped IPs do not. *)
Definition Ran (F : positive) (D : nat) (id : Z) (r : runner) (w : world) (w1 : world) (r1 : runner) : Prop :=
  if r_stopped r then w1 = w /\ r1 = r
  else exists s, tick F D {| s_w := w; s_r := r |} = Ok (tt, s) /\
                 w1 = upd_run id (Some (s_r s)) (s_w s) /\ r1 = s_r s.
(** What happens to it then. *)
Definition Settled (n : nat) (id : Z) (r1 : runner) (w1 w' : world) : Prop :=
  let w2 := upd_uni n (fun u => set_u_queue (tl (u_queue u)) u) w1 in
  if Nat.eqb (r_uni r1) n then
    if r_stopped r1 then w' = upd_run id None w2
    else w' = upd_uni n (fun u => set_u_queue (u_queue u ++ [id]) u) w2
  else w' = w2.

Lemma uni_step_inv F D n w w' id q : uni_step F D n w = Ok w' -> queue w n = id :: q ->
  exists r w1 r1, w_run w id = Some r /\ Ran F D id r w w1 r1 /\ Settled n id r1 w1 w'.
Proof.
  unfold uni_step. intros E Q. unfold queue in Q. rewrite Q in E.
  destruct (w_run w id) as [r|] eqn:R; [|discriminate].
  exists r. unfold Ran. destruct (r_stopped r) eqn:St.
  - cbn [bind] in E. exists w, r. split; auto. split; auto. unfold Settled. cbv zeta in E.
    match type of E with match w_run ?x _ with _ => _ end = _ => change (w_run x id) with (w_run w id) in E end.
    rewrite R in E. destruct (Nat.eqb (r_uni r) n); [destruct (r_stopped r)|]; congruence.
  - unfold as_runner in E. rewrite R in E.
    destruct (tick F D {| s_w := w; s_r := r |}) as [[[] s]|e]; [|discriminate]. cbn [bind] in E.
    exists (upd_run id (Some (s_r s)) (s_w s)), (s_r s). split; auto. split; [eauto|].
    unfold Settled. cbv zeta in E.
    match type of E with match w_run ?x _ with _ => _ end = _ => replace (w_run x id) with (Some (s_r s)) in E end.
    + destruct (Nat.eqb (r_uni (s_r s)) n); [destruct (r_stopped (s_r s))|]; congruence.
    + symmetry. apply (upd_run_same id (Some (s_r s)) (s_w s)).
Qed.
Lemma uni_step_idle F D n w w' : uni_step F D n w = Ok w' -> queue w n = [] -> w' = w.
Proof. unfold uni_step, queue. intros E Q. rewrite Q in E. congruence. Qed.

Lemma ran_grows F D id r w w1 r1 n : Ran F D id r w w1 r1 -> (n < w_nuni w)%nat ->
  (w_nuni w <= w_nuni w1)%nat /\ Longer w w1 n.
Proof.
  intros R L. unfold Ran in R. destruct (r_stopped r).
  - destruct R as (-> & _). split; [lia|apply longer_refl].
  - destruct R as (s & E & -> & _). apply tick_effs in E. split.
    + apply (effs_grows _ _ _ E).
    + exact (effs_longer _ _ _ n E L).
Qed.

(** The queue of universe [n] after one of its iterations: the rest, what was
    added meanwhile, and the IP itself if it stays. *)
Lemma step_queue F D n w w' id q : uni_step F D n w = Ok w' -> queue w n = id :: q -> (n < w_nuni w)%nat ->
  exists r w1 r1 new, w_run w id = Some r /\ Ran F D id r w w1 r1 /\ w_nuni w' = w_nuni w1 /\
    queue w1 n = id :: q ++ new /\
    queue w' n = q ++ new ++ (if Nat.eqb (r_uni r1) n && negb (r_stopped r1) then [id] else []).
Proof.
  intros E Q L. destruct (uni_step_inv F D n w w' id q E Q) as (r & w1 & r1 & R & HR & HS).
  destruct (ran_grows F D id r w w1 r1 n HR L) as (_ & (new & N)). rewrite Q in N.
  exists r, w1, r1, new. split; auto. split; auto.
  unfold Settled in HS. destruct (Nat.eqb (r_uni r1) n); [destruct (r_stopped r1)|]; cbn [andb negb]; subst w'.
  - split; [reflexivity|]. split; auto. unfold queue in *. unfold upd_run. cbn [w_uni set_w_run].
    rewrite upd_uni_same. cbn [u_queue set_u_queue]. rewrite N. cbn [tl app]. now rewrite app_nil_r.
  - split; [reflexivity|]. split; auto. unfold queue in *. rewrite upd_uni_same. cbn [u_queue set_u_queue].
    rewrite upd_uni_same. cbn [u_queue set_u_queue]. rewrite N. cbn [tl app]. now rewrite app_assoc.
  - split; [reflexivity|]. split; auto. unfold queue in *. rewrite upd_uni_same. cbn [u_queue set_u_queue].
    rewrite N. cbn [tl app]. now rewrite app_nil_r.
Qed.
Lemma step_nuni F D n w w' : uni_step F D n w = Ok w' -> (n < w_nuni w)%nat -> (w_nuni w <= w_nuni w')%nat.
Proof.
  intros E L. destruct (queue w n) as [|id q] eqn:Q.
  - rewrite (uni_step_idle _ _ _ _ _ E Q). lia.
  - destruct (step_queue F D n w w' id q E Q L) as (r & w1 & r1 & new & R & HR & N & _).
    destruct (ran_grows _ _ _ _ _ _ _ n HR L). lia.
Qed.
Lemma step_other_queue F D m w w' n : uni_step F D m w = Ok w' -> m <> n ->
  (n < w_nuni w)%nat -> (m < w_nuni w)%nat -> Longer w w' n.
Proof.
  intros E N Ln Lm. destruct (queue w m) as [|id q] eqn:Q.
  - rewrite (uni_step_idle _ _ _ _ _ E Q). apply longer_refl.
  - destruct (uni_step_inv F D m w w' id q E Q) as (r & w1 & r1 & R & HR & HS).
    destruct (ran_grows F D id r w w1 r1 n HR Ln) as (_ & G).
    eapply longer_trans; [exact G|]. apply longer_same.
    unfold Settled in HS. destruct (Nat.eqb (r_uni r1) m); [destruct (r_stopped r1)|]; subst w'.
    + unfold upd_run. cbn [w_uni set_w_run]. apply upd_uni_other. auto.
    + rewrite !upd_uni_other; auto.
    + rewrite !upd_uni_other; auto.
Qed.

(** ** Identities *)

(** Every live IP is stored under its own ID, below the next ID to hand out. *)
Definition Ids (w : world) : Prop :=
  forall id r, w_run w id = Some r -> r_id r = id /\ id < w_nrun w.
Definition IdsS (s : st) : Prop := Ids (s_w s) /\ r_id (s_r s) < w_nrun (s_w s).

Lemma eff_id t s s' : eff t s s' -> r_id (s_r s') = r_id (s_r s).
Proof. intros E. destruct E; cbn [s_r]; auto; [destruct H|destruct H2]; auto. Qed.
Lemma effs_id t s s' : effs t s s' -> r_id (s_r s') = r_id (s_r s).
Proof. intros E. induction E; auto. apply eff_id in H. congruence. Qed.
Lemma eff_ids t s s' : eff t s s' -> IdsS s -> IdsS s'.
Proof.
  intros E (I & O). unfold IdsS. rewrite (eff_id _ _ _ E). destruct E; cbn [s_w s_r] in *; try (split; [exact I|exact O]).
  - split; [|exact O]. intros i r0 E. destruct (Z.eq_dec i id) as [->|N].
    + rewrite upd_run_same in E. inversion E; subst. destruct (I _ _ H0). destruct (poked_same _ _ H1) as (X & _).
      split; [congruence|assumption].
    + rewrite upd_run_other in E by auto. apply (I _ _ E).
  - destruct H as (_ & _ & H1 & H2 & _). unfold Ids. rewrite H1, H2. auto.
  - split; [|cbn; lia]. intros i r0 E. unfold add_runner in E. cbn [w_run upd_uni set_w_uni] in E.
    change (w_nrun (add_runner (r_uni (s_r s)) r' (set_w_nrun (w_nrun (s_w s) + 1) (s_w s)))) with (w_nrun (s_w s) + 1).
    destruct (Z.eq_dec i (r_id r')) as [->|N].
    + rewrite upd_run_same in E. inversion E; subst. cbn. split; [reflexivity|lia].
    + rewrite upd_run_other in E by auto. destruct (I i r0 E). split; [auto|lia].
Qed.
Lemma effs_ids t s s' : effs t s s' -> IdsS s -> IdsS s'.
Proof. apply effs_invariant. apply eff_ids. Qed.
Lemma ran_ids F D id r w w1 r1 : Ran F D id r w w1 r1 -> w_run w id = Some r -> Ids w -> Ids w1 /\ r_id r1 = id /\ w_run w1 id = Some r1.
Proof.
  intros R E I. destruct (I _ _ E) as (Hid & Hn). unfold Ran in R. destruct (r_stopped r).
  - destruct R as (-> & ->). auto.
  - destruct R as (s & T & -> & ->). apply tick_effs in T.
    assert (X : IdsS s). { eapply effs_ids; [exact T|]. split; auto. cbn [s_r s_w]. rewrite Hid. exact Hn. }
    pose proof (effs_id _ _ _ T) as Y. cbn [s_r] in Y. rewrite Hid in Y. destruct X as (X1 & X2).
    split; [|split; [exact Y|apply upd_run_same]]. intros i r0 E0. destruct (Z.eq_dec i id) as [->|N].
    + rewrite upd_run_same in E0. inversion E0; subst. split; [auto|]. cbn. rewrite <- Y. exact X2.
    + rewrite upd_run_other in E0 by auto. apply (X1 _ _ E0).
Qed.
Lemma settled_run n id r1 w1 w' i r : Settled n id r1 w1 w' -> w_run w' i = Some r -> w_run w1 i = Some r.
Proof.
  unfold Settled. intros S E. destruct (Nat.eqb _ _); [destruct (r_stopped r1)|]; subst w'; try exact E.
  destruct (Z.eq_dec i id) as [->|N]; [rewrite upd_run_same in E; discriminate|].
  rewrite upd_run_other in E by auto. exact E.
Qed.
Lemma settled_nrun n id r1 w1 w' : Settled n id r1 w1 w' -> w_nrun w' = w_nrun w1 /\ w_nuni w' = w_nuni w1.
Proof. unfold Settled. intros S. destruct (Nat.eqb _ _); [destruct (r_stopped r1)|]; subst w'; auto. Qed.
Lemma step_ids F D n w w' : uni_step F D n w = Ok w' -> Ids w -> Ids w'.
Proof.
  intros E I. destruct (queue w n) as [|id q] eqn:Q.
  - rewrite (uni_step_idle _ _ _ _ _ E Q). auto.
  - destruct (uni_step_inv F D n w w' id q E Q) as (r & w1 & r1 & R & HR & HS).
    destruct (ran_ids _ _ _ _ _ _ _ HR R I) as (I1 & _). destruct (settled_nrun _ _ _ _ _ HS) as (N & _).
    intros i r0 E0. rewrite N. apply (I1 i r0). eapply settled_run; eauto.
Qed.

(** ** A stopped IP stays stopped *)

Lemma poked_refl r : Poked r r.
Proof. exists (r_ss r), (r_stopped r). split; [now destruct r|auto using touched_refl]. Qed.
Lemma poked_trans r r1 r2 : Poked r r1 -> Poked r1 r2 -> Poked r r2.
Proof.
  intros (x & b & -> & H & T) (y & c & -> & H1 & T1). exists y, c. split; [reflexivity|].
  split; [intros S; apply H1; cbn; auto|]. cbn in T1. eapply touched_trans; eauto.
Qed.
(** How the stored record of an IP other than the executing one changes. *)
Definition Kept (id : Z) (w w' : world) : Prop :=
  forall r, w_run w id = Some r -> exists r', w_run w' id = Some r' /\ Poked r r'.
Lemma eff_kept t s s' id : eff t s s' -> id <> r_id (s_r s) -> IdsS s -> Kept id (s_w s) (s_w s').
Proof.
  intros E N (I & _) r0 E0.
  destruct E; cbn [s_w s_r] in *; try (exists r0; split; [exact E0|apply poked_refl]).
  - destruct (Z.eq_dec id id0) as [->|N1].
    + rewrite upd_run_same. exists r'. split; auto. congruence.
    + rewrite upd_run_other by auto. exists r0. split; [auto|apply poked_refl].
  - destruct H as (_ & _ & H & _). rewrite H. exists r0. split; [auto|apply poked_refl].
  - exists r0. split; [|apply poked_refl]. unfold add_runner. cbn [w_run upd_uni set_w_uni].
    rewrite upd_run_other; [exact E0|]. destruct (I _ _ E0). lia.
Qed.
Lemma effs_kept t s s' id : effs t s s' -> id <> r_id (s_r s) -> IdsS s -> Kept id (s_w s) (s_w s').
Proof.
  intros E. induction E; intros N I r0 E0.
  - exists r0. split; [auto|apply poked_refl].
  - destruct (eff_kept _ _ _ _ H N I r0 E0) as (r1 & E1 & P1).
    rewrite <- (eff_id _ _ _ H) in N. destruct (IHE N (eff_ids _ _ _ H I) r1 E1) as (r2 & E2 & P2).
    exists r2. split; auto. eapply poked_trans; eauto.
Qed.
Lemma step_stopped F D n w w' id r : uni_step F D n w = Ok w' -> Ids w ->
  w_run w id = Some r -> r_stopped r = true ->
  w_run w' id = None \/ exists r', w_run w' id = Some r' /\ Poked r r'.
Proof.
  intros E I E0 St. destruct (queue w n) as [|h q] eqn:Q.
  - rewrite (uni_step_idle _ _ _ _ _ E Q). right. exists r. split; [auto|apply poked_refl].
  - destruct (uni_step_inv F D n w w' h q E Q) as (r0 & w1 & r1 & R & HR & HS).
    assert (K : exists r', w_run w1 id = Some r' /\ Poked r r').
    { unfold Ran in HR. destruct (r_stopped r0) eqn:St0.
      - destruct HR as (-> & _). exists r. split; [auto|apply poked_refl].
      - destruct HR as (s & T & -> & ->). apply tick_effs in T. destruct (I _ _ R) as (A1 & A2).
        assert (N : id <> h) by congruence. rewrite upd_run_other by auto.
        refine (effs_kept _ _ _ id T _ _ r E0); [cbn [s_r]; congruence|]. split; [exact I|]. cbn [s_r s_w]. lia. }
    destruct K as (r' & K1 & K2).
    unfold Settled in HS. destruct (Nat.eqb _ _); [destruct (r_stopped r1)|]; subst w'; try (right; exists r'; split; [exact K1|exact K2]).
    destruct (Z.eq_dec id h) as [->|N]; [left; apply upd_run_same|].
    right. exists r'. rewrite upd_run_other by auto. split; [exact K1|exact K2].
Qed.
Lemma step_freed F D n w w' id : uni_step F D n w = Ok w' -> Ids w -> id < w_nrun w ->
  w_run w id = None -> w_run w' id = None.
Proof.
  intros E I L E0. destruct (queue w n) as [|h q] eqn:Q.
  - now rewrite (uni_step_idle _ _ _ _ _ E Q).
  - destruct (uni_step_inv F D n w w' h q E Q) as (r0 & w1 & r1 & R & HR & HS).
    destruct (I _ _ R) as (A1 & A2).
    assert (K : w_run w1 id = None).
    { unfold Ran in HR. destruct (r_stopped r0) eqn:St0; [destruct HR as (-> & _); auto|].
      destruct HR as (s & T & -> & ->). apply tick_effs in T.
      rewrite upd_run_other by congruence.
      assert (X : forall s s', effs true s s' -> id < w_nrun (s_w s) -> w_run (s_w s) id = None -> w_run (s_w s') id = None).
      { clear. intros s s' E. induction E as [|s s1 s2 H E IH]; auto. intros L N.
        apply IH; [pose proof (eff_grows _ _ _ H) as (_ & G); lia|].
        destruct H; cbn [s_w s_r]; auto.
        - rewrite upd_run_other; auto. congruence.
        - destruct H as (_ & _ & H & _). now rewrite H.
        - unfold add_runner. cbn [w_run upd_uni set_w_uni]. rewrite upd_run_other by lia. exact N. }
      apply (X _ _ T); auto. }
    unfold Settled in HS. destruct (Nat.eqb _ _); [destruct (r_stopped r1)|]; subst w'; auto.
    destruct (Z.eq_dec id h) as [->|N]; [apply upd_run_same|]. now rewrite upd_run_other.
Qed.
Lemma step_nrun F D n w w' : uni_step F D n w = Ok w' -> w_nrun w <= w_nrun w'.
Proof.
  intros E. destruct (queue w n) as [|h q] eqn:Q.
  - rewrite (uni_step_idle _ _ _ _ _ E Q). lia.
  - destruct (uni_step_inv F D n w w' h q E Q) as (r0 & w1 & r1 & R & HR & HS).
    destruct (settled_nrun _ _ _ _ _ HS) as (N & _). rewrite N.
    unfold Ran in HR. destruct (r_stopped r0); [destruct HR as (-> & _); lia|].
    destruct HR as (s & T & -> & ->). apply tick_effs in T. pose proof (effs_grows _ _ _ T) as (_ & G). exact G.
Qed.
Lemma run_ids F D sched : forall w w', uni_run F D sched w = Ok w' -> Ids w -> Ids w'.
Proof.
  induction sched as [|n t IH]; intros w w' E I; cbn [uni_run] in E; [inversion E; now subst|].
  destruct (uni_step F D n w) as [w1|e] eqn:E1; [|discriminate]. cbn [bind] in E.
  eapply IH; [exact E|]. eapply step_ids; eauto.
Qed.
Lemma run_freed F D sched : forall w w' id, uni_run F D sched w = Ok w' -> Ids w -> id < w_nrun w ->
  w_run w id = None -> w_run w' id = None.
Proof.
  induction sched as [|n t IH]; intros w w' id E I L E0; cbn [uni_run] in E; [inversion E; now subst|].
  destruct (uni_step F D n w) as [w1|e] eqn:E1; [|discriminate]. cbn [bind] in E.
  pose proof (step_nrun _ _ _ _ _ E1).
  eapply IH; [exact E|eapply step_ids; eauto|lia|eapply step_freed; eauto].
Qed.

Lemma NoDup_app_one (l : list Z) x : NoDup l -> ~ In x l -> NoDup (l ++ [x]).
Proof.
  intros H N. apply NoDup_rev in H. rewrite <- (rev_involutive (l ++ [x])). apply NoDup_rev.
  rewrite rev_app_distr. cbn. constructor; auto. now rewrite <- in_rev.
Qed.

(** ** Programs that stay in one universe *)

(** There is one universe; its queue holds exactly the live IPs, once each. *)
Definition Single (w : world) : Prop :=
  w_nuni w = 1%nat /\ Ids w /\ NoDup (queue w 0) /\
  (forall id, In id (queue w 0) <-> exists r, w_run w id = Some r) /\
  (forall id r, w_run w id = Some r -> r_uni r = 0%nat).
Definition SingleS (s : st) : Prop :=
  Single (s_w s) /\ r_uni (s_r s) = 0%nat /\ In (r_id (s_r s)) (queue (s_w s) 0).

Lemma eff_single t s s' : eff t s s' -> SingleS s -> w_nuni (s_w s') = 1%nat -> SingleS s'.
Proof.
  intros E ((N1 & I & ND & A & U) & U0 & In0) N.
  assert (IS : IdsS s). { split; [exact I|]. apply A in In0. destruct In0 as (r & Er). apply (I _ _ Er). }
  destruct (eff_ids _ _ _ E IS) as (I' & _).
  assert (QX : forall n f w, (u_queue (f (w_uni w n)) = queue w n) -> queue (upd_uni n f w) 0 = queue w 0).
  { intros n f w X. unfold queue in *. destruct (Nat.eq_dec 0 n) as [<-|Y]; [now rewrite upd_uni_same|].
    now rewrite upd_uni_other. }
  assert (FR : s_r s' = s_r s -> queue (s_w s') 0 = queue (s_w s) 0 -> w_run (s_w s') = w_run (s_w s) -> SingleS s').
  { intros X1 X2 X3. unfold SingleS, Single. rewrite X1, X2, X3. repeat (split; auto). }
  destruct E; cbn [s_w s_r] in *.
  - destruct H as (X1 & X2 & _). split; [repeat (split; auto)|]. cbn [s_r s_w]. rewrite X1, X2. auto.
  - lia.
  - unfold SingleS, Single; cbn [s_w s_r]. split; [|split; auto].
    split; auto. split; auto. split; auto. split.
    + intros i. change (queue (upd_run id (Some r') (s_w s)) 0) with (queue (s_w s) 0).
      destruct (Z.eq_dec i id) as [->|NE].
      * rewrite upd_run_same. split; [eauto|]. intros _. apply A. eauto.
      * rewrite upd_run_other by auto. apply A.
    + intros i r0 E0. destruct (Z.eq_dec i id) as [->|NE].
      * rewrite upd_run_same in E0. inversion E0; subst. destruct (poked_same _ _ H1) as (_ & X & _). rewrite X. eauto.
      * rewrite upd_run_other in E0 by auto. eauto.
  - apply FR; [reflexivity| |reflexivity]. apply QX. destruct (H (w_uni (s_w s) n)) as (x & ->). reflexivity.
  - apply FR; [reflexivity| |reflexivity]. apply QX. destruct (H (w_uni (s_w s) (r_uni (s_r s)))) as (m & d & ->). reflexivity.
  - apply FR; [reflexivity| |reflexivity]. apply QX. reflexivity.
  - apply FR; [reflexivity| |reflexivity]. apply QX. reflexivity.
  - destruct H as (X1 & _ & X3 & _). apply FR; [reflexivity| |assumption]. unfold queue. now rewrite X1.
  - apply FR; auto.
  - apply FR; auto.
  - apply FR; auto.
  - apply FR; auto.
  - rewrite U0 in *.
    assert (Q : queue (add_runner 0 r' (set_w_nrun (w_nrun (s_w s) + 1) (s_w s))) 0 = queue (s_w s) 0 ++ [w_nrun (s_w s)]).
    { unfold queue, add_runner. rewrite upd_uni_same. cbn [u_queue set_u_queue]. change (r_id (run_setmode (c_mode (u_cfg (w_uni (set_w_nrun (w_nrun (s_w s) + 1) (s_w s)) 0))) r')) with (r_id r'). rewrite ?H0. reflexivity. }
    unfold SingleS, Single; cbn [s_w s_r].
    split; [|split; [auto|rewrite Q; apply in_or_app; auto]].
    split; [exact N1|]. split; [exact I'|]. rewrite Q. split; [|split].
    + apply NoDup_app_one; auto. intros X. apply A in X. destruct X as (r & X). destruct (I _ _ X). lia.
    + intros i. unfold add_runner. cbn [w_run upd_uni set_w_uni]. destruct (Z.eq_dec i (r_id r')) as [->|NE].
      * rewrite upd_run_same. split; [eauto|]. intros _. apply in_or_app. cbn. auto.
      * rewrite upd_run_other by auto. cbn [w_run set_w_nrun]. rewrite <- A. rewrite in_app_iff. cbn. split; [|tauto].
        intros [X|[X|[]]]; auto. congruence.
    + intros i r0 E0. unfold add_runner in E0. cbn [w_run upd_uni set_w_uni] in E0.
      destruct (Z.eq_dec i (r_id r')) as [->|NE].
      * rewrite upd_run_same in E0. inversion E0; subst. cbn. auto.
      * rewrite upd_run_other in E0 by auto. eauto.
  - cbn in N; lia.
  - apply FR; auto.
Qed.
Lemma effs_single t s s' : effs t s s' -> SingleS s -> w_nuni (s_w s') = 1%nat -> SingleS s'.
Proof.
  intros E. induction E; intros S N; auto.
  pose proof (effs_grows _ _ _ E) as (G & _). pose proof (eff_grows _ _ _ H) as (G1 & _).
  assert (N0 : w_nuni (s_w s) = 1%nat) by apply S.
  apply IHE; auto. eapply eff_single; eauto. lia.
Qed.
Lemma step_single F D n w w' : uni_step F D n w = Ok w' -> (n < w_nuni w)%nat -> Single w -> w_nuni w' = 1%nat -> Single w'.
Proof.
  intros E L S N. pose proof S as (N1 & I & ND & A & U). assert (n = 0%nat) by lia. subst n.
  destruct (queue w 0) as [|id q] eqn:Q.
  - now rewrite (uni_step_idle _ _ _ _ _ E Q).
  - destruct (uni_step_inv F D 0 w w' id q E Q) as (r & w1 & r1 & R & HR & HS).
    destruct (ran_ids _ _ _ _ _ _ _ HR R I) as (I1 & Hid & R1).
    destruct (settled_nrun _ _ _ _ _ HS) as (HN1 & HN2).
    assert (S1 : Single w1 /\ r_uni r1 = 0%nat).
    { unfold Ran in HR. destruct (r_stopped r); [destruct HR as (-> & ->); eauto|].
      destruct HR as (s & T & Ew & Er). apply tick_effs in T.
      assert (X : SingleS s).
      { eapply effs_single; [exact T| |].
        - unfold SingleS. cbn [s_w s_r]. split; auto. split; [eauto|]. rewrite Q. left. symmetry. apply (I _ _ R).
        - rewrite <- N, HN2, Ew. reflexivity. }
      destruct X as ((X1 & X2 & X3 & X4 & X5) & X6 & X7). subst w1 r1. split; [|exact X6].
      split; [exact X1|]. split; [exact I1|]. split; [exact X3|]. split.
      - intros i. change (queue (upd_run id (Some (s_r s)) (s_w s)) 0) with (queue (s_w s) 0).
        destruct (Z.eq_dec i id) as [->|NE].
        + rewrite upd_run_same. split; [eauto|]. intros _. rewrite <- Hid. exact X7.
        + rewrite upd_run_other by auto. apply X4.
      - intros i r0 E0. destruct (Z.eq_dec i id) as [->|NE].
        + rewrite upd_run_same in E0. inversion E0; now subst.
        + rewrite upd_run_other in E0 by auto. eauto. }
    destruct S1 as ((M1 & _ & ND1 & A1 & U1) & Ur).
    destruct (step_queue F D 0 w w' id q E Q L) as (r' & w1' & r1' & new & R' & HR' & _ & Q1' & Q').
    assert (EQ : w1' = w1 /\ r1' = r1).
    { rewrite R in R'. inversion R'; subst r'. unfold Ran in HR, HR'. destruct (r_stopped r).
      - destruct HR, HR'. subst. auto.
      - destruct HR as (s & T & -> & ->), HR' as (s2 & T2 & -> & ->). rewrite T in T2. inversion T2. auto. }
    destruct EQ as (-> & ->). rewrite Ur, Nat.eqb_refl in Q'. cbn [andb] in Q'.
    rewrite Q1' in ND1, A1. inversion ND1 as [|x l Nin ND2]; subst x l.
    split; [exact N|]. split; [now apply (step_ids F D 0 w)|]. rewrite Q'.
    unfold Settled in HS. rewrite Ur, Nat.eqb_refl in HS. destruct (r_stopped r1); subst w'; cbn [negb] in *.
    + rewrite app_nil_r. split; [exact ND2|]. split.
      * intros i. destruct (Z.eq_dec i id) as [->|NE].
        -- rewrite upd_run_same. split; [contradiction|intros (r0 & X); discriminate].
        -- rewrite upd_run_other by auto.
           change (w_run (upd_uni 0 (fun u => set_u_queue (tl (u_queue u)) u) w1) i) with (w_run w1 i).
           rewrite <- A1. cbn [In]. split; [auto|intros [X|X]; [congruence|auto]].
      * intros i r0 E0. destruct (Z.eq_dec i id) as [->|NE]; [rewrite upd_run_same in E0; discriminate|].
        rewrite upd_run_other in E0 by auto. eauto.
    + rewrite app_assoc. split; [now apply NoDup_app_one|]. split; [|exact U1].
      intros i. rewrite in_app_iff.
      change (w_run (upd_uni 0 (fun u => set_u_queue (u_queue u ++ [id]) u) (upd_uni 0 (fun u => set_u_queue (tl (u_queue u)) u) w1)) i) with (w_run w1 i).
      rewrite <- A1. cbn [In]. tauto.
Qed.
Lemma run_nuni F D sched : forall w w', uni_run F D sched w = Ok w' ->
  (forall n, In n sched -> (n < w_nuni w)%nat) -> (w_nuni w <= w_nuni w')%nat.
Proof.
  induction sched as [|n t IH]; intros w w' E B; cbn [uni_run] in E; [inversion E; subst; lia|].
  destruct (uni_step F D n w) as [w1|e] eqn:E1; [|discriminate]. cbn [bind] in E.
  assert (L : (w_nuni w <= w_nuni w1)%nat) by (eapply step_nuni; [exact E1|apply B; now left]).
  enough ((w_nuni w1 <= w_nuni w')%nat) by lia. apply IH; auto.
  intros m Hm. specialize (B m (or_intror Hm)). lia.
Qed.
Lemma run_single F D sched : forall w w', uni_run F D sched w = Ok w' ->
  (forall n, In n sched -> n = 0%nat) -> Single w -> w_nuni w' = 1%nat -> Single w'.
Proof.
  induction sched as [|n t IH]; intros w w' E B S N; cbn [uni_run] in E; [inversion E; now subst|].
  destruct (uni_step F D n w) as [w1|e] eqn:E1; [|discriminate]. cbn [bind] in E.
  assert (n = 0%nat) by (apply B; now left). subst n.
  assert (L : (0 < w_nuni w)%nat) by (destruct S as (-> & _); lia).
  pose proof (step_nuni _ _ _ _ _ E1 L) as G1.
  assert (G2 : (w_nuni w1 <= w_nuni w')%nat).
  { eapply run_nuni; [exact E|]. intros m Hm. rewrite (B m (or_intror Hm)). lia. }
  destruct S as (X & S') eqn:?. clear Heqs.
  apply (IH w1); auto. { intros m Hm. apply B. now right. }
  eapply step_single; eauto. lia.
Qed.
Lemma runner_new_id fl id n u p d r : runner_new fl id n u p d = Ok r ->
  r_id r = id /\ r_uni r = n /\ r_fld r = n /\ r_parent r = None.
Proof.
  unfold runner_new. destruct (_ || _); [discriminate|].
  destruct (strats_construct _ _ _ _) as [r1|e] eqn:Es; [|discriminate]. cbn [bind].
  destruct (same_id_strats _ _ _ _ _ Es) as (I1 & I2 & I3 & I4 & _).
  match goal with |- bind ?x _ = _ -> _ => destruct x as [d'|e]; [|discriminate] end. cbn [bind].
  intros E. inversion E; subst r. cbn.
  pose proof (same_ip_observe d' (set_r_delta d' (set_r_pos p r1))) as (O1 & O2 & O3 & O4 & _).
  cbn in O1, O2, O3, O4. rewrite O1, O2, O3, O4, I1, I2, I3, I4. repeat split.
Qed.
