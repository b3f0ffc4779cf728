(** * The meanings of characters in every reachable state

    Whatever a program does, every IP that is alive has for every character that
    is not an upper-case letter the meaning its strategies gave it. *)

From Coq Require Import ZArith List Bool Lia.
From Verif Require Import Base BaseProofs VectorModel TextModel RangeModel StackModel FieldModel
  World IpModel LoadModel FingModel CoreModel UniModel ExecProofs FlowProofs Effects SchedProofs.
Import ListNotations.
Open Scope Z_scope.

(** IP [r] has the strategies [l] and their meanings. *)
Definition Core (l : list strat) (r : runner) : Prop :=
  r_strats r = l /\ forall i, is_letter i = false -> r_sem r i = strat_sem l i.
Definition Cores (l : list strat) (w : world) : Prop := forall id r, w_run w id = Some r -> Core l r.
Definition CoresS (l : list strat) (s : st) : Prop := Cores l (s_w s) /\ Core l (s_r s).

Lemma core_same l r r' : Same_sem r r' -> Core l r -> Core l r'.
Proof. intros (A & B) (C & E). split; [congruence|]. intros i L. rewrite B, E; auto. Qed.
Lemma eff_cores l t s s' : eff t s s' -> CoresS l s -> CoresS l s'.
Proof.
  intros E (I & O). unfold CoresS. destruct E; cbn [s_w s_r] in *; try (split; [exact I|exact O]).
  - split; [exact I|]. destruct H as (_ & _ & _ & _ & _ & S). eapply core_same; eauto.
  - split; [exact I|]. destruct H2 as (_ & _ & _ & _ & _ & S). eapply core_same; eauto.
  - split; [|exact O]. intros i r0 E. destruct (Z.eq_dec i id) as [->|N].
    + rewrite upd_run_same in E. inversion E; subst. destruct (poked_same _ _ H1) as (_ & _ & _ & _ & _ & S).
      eapply core_same; eauto.
    + rewrite upd_run_other in E by auto. apply (I _ _ E).
  - destruct H as (_ & _ & H1 & _). unfold Cores. rewrite H1. auto.
  - split; [|exact O]. intros i r0 E. unfold add_runner in E. cbn [w_run upd_uni set_w_uni] in E.
    destruct (Z.eq_dec i (r_id r')) as [->|N].
    + rewrite upd_run_same in E. inversion E; subst. destruct O as (O1 & O2).
      split; [cbn; congruence|]. intros i L. cbn [r_sem run_setmode set_r_ss]. rewrite H6 by auto. congruence.
    + rewrite upd_run_other in E by auto. apply (I i r0 E).
Qed.
Lemma effs_cores l t s s' : effs t s s' -> CoresS l s -> CoresS l s'.
Proof. apply (effs_invariant t (CoresS l)). intros. eapply eff_cores; eauto. Qed.
Lemma step_cores l F D n w w' : uni_step F D n w = Ok w' -> Cores l w -> Cores l w'.
Proof.
  intros E I. destruct (queue w n) as [|id q] eqn:Q.
  - rewrite (uni_step_idle _ _ _ _ _ E Q). auto.
  - destruct (uni_step_inv F D n w w' id q E Q) as (r & w1 & r1 & R & HR & HS).
    assert (I1 : Cores l w1).
    { unfold Ran in HR. destruct (r_stopped r); [destruct HR as (-> & _); exact I|].
      destruct HR as (s & T & -> & _). apply tick_effs in T.
      destruct (effs_cores l _ _ _ T) as (X1 & X2); [split; [exact I|exact (I _ _ R)]|].
      intros i r0 E0. destruct (Z.eq_dec i id) as [->|N].
      - rewrite upd_run_same in E0. inversion E0; subst. exact X2.
      - rewrite upd_run_other in E0 by auto. apply (X1 _ _ E0). }
    intros i r0 E0. apply (I1 i r0). eapply settled_run; eauto.
Qed.
Lemma run_cores l F D sched : forall w w', uni_run F D sched w = Ok w' -> Cores l w -> Cores l w'.
Proof.
  induction sched as [|n sch IH]; intros w w' E I; cbn [uni_run] in E; [inversion E; subst; auto|].
  destruct (uni_step F D n w) as [w1|e] eqn:E1; [|discriminate]. cbn [bind] in E.
  eapply IH; eauto. eapply step_cores; eauto.
Qed.

(** A new IP. *)
Lemma runner_new_core fl id n u p d r : runner_new fl id n u p d = Ok r ->
  Core (strats_of (c_std (u_cfg u)) (c_dims (u_cfg u))) r.
Proof.
  unfold runner_new. destruct (_ || _); [discriminate|]. cbv zeta.
  destruct (strats_construct _ _ _ _) as [r1|e] eqn:Es; [|discriminate]. cbn [bind].
  destruct (strats_sem _ _ _ _ _ Es eq_refl) as (A & B).
  match goal with |- bind ?x _ = _ -> _ => destruct x as [d'|e]; [|discriminate] end. cbn [bind].
  intros E. inversion E; subst r. clear E.
  pose proof (same_ip_observe d' (set_r_delta d' (set_r_pos p r1))) as (_ & _ & _ & _ & _ & S).
  eapply core_same with (r := observe_delta d' (set_r_delta d' (set_r_pos p r1))); [split; reflexivity|].
  eapply core_same; [exact S|]. split; [exact A|exact B].
Qed.
Lemma boot_cores F data c w0 w : boot F data c w0 = Ok w -> (forall id, w_run w0 id = None) ->
  Cores (strats_of (c_std c) (c_dims (u_cfg (w_uni w (w_nuni w0))))) w.
Proof.
  unfold boot. destruct (multi_create_file F data c w0) as [w1|e] eqn:E1; [|discriminate].
  cbn [bind]. unfold multi_create_file in E1. destruct (loop _ _ _) as [name|e]; [|discriminate]. cbn [bind] in E1.
  destruct (f_parse _ _ _ _) as [df|e]; [|discriminate]. cbn [bind] in E1. cbv zeta in E1.
  match type of E1 with Ok ?x = Ok w1 => assert (E2 : w1 = x) by congruence end. clear E1. unfold create_runner.
  match goal with |- bind ?x _ = _ -> _ => destruct x as [r|e] eqn:Er; [|discriminate] end. cbn [bind].
  intros E N. match type of E with Ok ?x = Ok w => assert (E3 : w = x) by congruence end. clear E.
  apply runner_new_core in Er.
  assert (U : u_cfg (w_uni w (w_nuni w0)) = u_cfg (w_uni w1 (w_nuni w0))).
  { rewrite E3. unfold add_runner. rewrite upd_uni_same. reflexivity. }
  assert (U2 : c_std (u_cfg (w_uni w1 (w_nuni w0))) = c_std c).
  { rewrite E2. cbn [w_uni set_w_nuni]. change (w_uni (set_w_nuni ?a ?b)) with (w_uni b).
    cbn. rewrite Nat.eqb_refl. reflexivity. }
  rewrite U, <- U2. intros id r0 E. rewrite E3 in E. unfold add_runner in E. cbn [w_run upd_uni set_w_uni] in E.
  destruct (Z.eq_dec id (r_id r)) as [->|Ne].
  - rewrite upd_run_same in E. inversion E; subst r0. eapply core_same; [|exact Er]. split; reflexivity.
  - rewrite upd_run_other in E by auto. change (w_run w1 id = Some r0) in E. rewrite E2 in E.
    change (w_run w0 id = Some r0) in E. rewrite N in E. discriminate.
Qed.
