(** * C36, C39: in which queues an IP is.

    Ticks are atomic here; interleavings inside a tick are the subject of
    SchedModel. *)

From Coq Require Import ZArith List Bool Lia.
From Verif Require Import Base BaseProofs VectorModel StackModel FieldModel
  World IpModel LoadModel FingModel CoreModel UniModel ExecProofs FlowProofs States Effects SchedProofs PropsSched.
Import ListNotations.
Open Scope Z_scope.

(** Every live IP is queued in its own universe, once, and nowhere else. *)
Definition Owned (w : world) : Prop :=
  Ids w /\ (forall n, NoDup (queue w n)) /\
  (forall n id, In id (queue w n) <-> exists r, w_run w id = Some r /\ r_uni r = n) /\
  (forall id r, w_run w id = Some r -> (r_uni r < w_nuni w)%nat).

(** The same during a tick of universe [n0], whose queue still holds the executing
    IP; if it has moved it is in the queue of its new universe too. *)
Definition Mid (n0 : nat) (s : st) : Prop :=
  let me := r_id (s_r s) in let w := s_w s in
  IdsS s /\ (n0 < w_nuni w)%nat /\ (r_uni (s_r s) < w_nuni w)%nat /\
  (forall n, NoDup (queue w n)) /\
  (forall n id, id <> me -> In id (queue w n) <-> exists r, w_run w id = Some r /\ r_uni r = n) /\
  (forall n, In me (queue w n) <-> n = n0 \/ n = r_uni (s_r s)) /\
  (forall id r, id <> me -> w_run w id = Some r -> (r_uni r < w_nuni w)%nat).

Lemma mid_same n0 s s' : IdsS s' -> s_r s' = s_r s \/ Same_ip (s_r s) (s_r s') ->
  w_nuni (s_w s') = w_nuni (s_w s) -> (forall n, queue (s_w s') n = queue (s_w s) n) ->
  w_run (s_w s') = w_run (s_w s) -> Mid n0 s -> Mid n0 s'.
Proof.
  intros I R N Q W (_ & M1 & M2 & M3 & M4 & M5 & M6).
  assert (X : r_id (s_r s') = r_id (s_r s) /\ r_uni (s_r s') = r_uni (s_r s)).
  { destruct R as [R|(R1 & R2 & _)]; [now rewrite R|auto]. }
  destruct X as (X1 & X2). unfold Mid. rewrite X1, X2, N, W.
  split; [exact I|]. split; [exact M1|]. split; [exact M2|]. split; [intros n; rewrite Q; auto|].
  split; [intros n id Ne; rewrite Q; auto|]. split; [intros n; rewrite Q; auto|exact M6].
Qed.
Lemma queue_upd w k f : (u_queue (f (w_uni w k)) = queue w k) -> forall n, queue (upd_uni k f w) n = queue w n.
Proof.
  intros X n. unfold queue in *. destruct (Nat.eq_dec n k) as [->|Y]; [now rewrite upd_uni_same|].
  now rewrite upd_uni_other.
Qed.
Lemma queue_add w k x n : queue (upd_uni k (fun u => set_u_queue (u_queue u ++ [x]) u) w) n =
  if Nat.eqb n k then queue w n ++ [x] else queue w n.
Proof.
  unfold queue. destruct (Nat.eqb_spec n k) as [->|Y]; [now rewrite upd_uni_same|]. now rewrite upd_uni_other.
Qed.
Lemma queue_tl w k n : queue (upd_uni k (fun u => set_u_queue (tl (u_queue u)) u) w) n =
  if Nat.eqb n k then tl (queue w n) else queue w n.
Proof.
  unfold queue. destruct (Nat.eqb_spec n k) as [->|Y]; [now rewrite upd_uni_same|]. now rewrite upd_uni_other.
Qed.

Lemma eff_mid n0 s s' : eff false s s' -> Mid n0 s -> Mid n0 s'.
Proof.
  intros E M. pose proof M as (I & M1 & M2 & M3 & M4 & M5 & M6). pose proof (eff_ids _ _ _ E I) as I'.
  destruct E; cbn [s_w s_r] in *.
  - apply (mid_same n0 s); auto.
  - discriminate.
  - unfold Mid. cbn [s_w s_r]. split; [exact I'|]. split; [exact M1|]. split; [exact M2|]. split; [exact M3|].
    destruct (poked_same _ _ H1) as (_ & PU & _).
    assert (X : forall n i, i <> r_id (s_r s) ->
       (exists r0, w_run (upd_run id (Some r') (s_w s)) i = Some r0 /\ r_uni r0 = n) <->
       (exists r0, w_run (s_w s) i = Some r0 /\ r_uni r0 = n)).
    { intros n i Ni. destruct (Z.eq_dec i id) as [->|NE].
      - rewrite upd_run_same, H0. split; intros (r0 & A & B); inversion A; subst; eauto.
      - now rewrite upd_run_other. }
    split; [|split; [exact M5|]].
    + intros n i Ni. rewrite X by auto. now apply M4.
    + intros i r0 Ni E0. destruct (Z.eq_dec i id) as [->|NE].
      * rewrite upd_run_same in E0. inversion E0; subst. rewrite PU. eapply M6; eauto.
      * rewrite upd_run_other in E0 by auto. eapply M6; eauto.
  - apply (mid_same n0 s); auto. cbn [s_w]. apply queue_upd. destruct (H (w_uni (s_w s) n)) as (x & ->). reflexivity.
  - apply (mid_same n0 s); auto. cbn [s_w]. apply queue_upd. destruct (H (w_uni (s_w s) (r_uni (s_r s)))) as (m & d & ->). reflexivity.
  - apply (mid_same n0 s); auto. cbn [s_w]. apply queue_upd. reflexivity.
  - apply (mid_same n0 s); auto. cbn [s_w]. apply queue_upd. reflexivity.
  - destruct H as (X1 & X2 & X3 & _). apply (mid_same n0 s); auto. cbn [s_w]. unfold queue. now rewrite X1.
  - apply (mid_same n0 s); auto.
  - apply (mid_same n0 s); auto.
  - apply (mid_same n0 s); auto.
  - apply (mid_same n0 s); auto.
  - set (u := r_uni (s_r s)) in *. set (me := r_id (s_r s)) in *.
    destruct I as (I & Ime). cbn [s_w] in I. fold me in Ime.
    assert (Fr : forall n, ~ In (r_id r') (queue (s_w s) n)).
    { intros n X. rewrite H0 in X. apply M4 in X; [|lia]. destruct X as (r & X & _). destruct (I _ _ X). lia. }
    set (w1 := upd_run (r_id r') (Some (run_setmode (c_mode (u_cfg (w_uni (s_w s) u))) r')) (set_w_nrun (w_nrun (s_w s) + 1) (s_w s))).
    assert (Q : forall n, queue (add_runner u r' (set_w_nrun (w_nrun (s_w s) + 1) (s_w s))) n =
      if Nat.eqb n u then queue (s_w s) n ++ [r_id r'] else queue (s_w s) n).
    { intros n. unfold add_runner. exact (queue_add w1 u (r_id r') n). }
    assert (R : forall i, i <> r_id r' -> w_run (add_runner u r' (set_w_nrun (w_nrun (s_w s) + 1) (s_w s))) i = w_run (s_w s) i).
    { intros i Ni. unfold add_runner. cbn [w_run upd_uni set_w_uni]. now rewrite upd_run_other. }
    assert (R0 : w_run (add_runner u r' (set_w_nrun (w_nrun (s_w s) + 1) (s_w s))) (r_id r') =
      Some (run_setmode (c_mode (u_cfg (w_uni (s_w s) u))) r')).
    { unfold add_runner. cbn [w_run upd_uni set_w_uni]. now rewrite upd_run_same. }
    unfold Mid. cbn [s_w s_r]. fold u me. split; [exact I'|]. split; [exact M1|]. split; [exact M2|]. split; [|split; [|split]].
    + intros n. rewrite Q. destruct (Nat.eqb n u); auto. apply NoDup_app_one; auto.
    + intros n i Ni. rewrite Q. destruct (Z.eq_dec i (r_id r')) as [->|NE].
      * rewrite R0. split.
        -- destruct (Nat.eqb_spec n u) as [->|Nu]; [|intros X; exfalso; eapply Fr; eauto].
           intros _. eexists. split; [reflexivity|]. cbn. exact H1.
        -- intros (r0 & X & Y). inversion X; subst r0. cbn in Y. rewrite H1 in Y. subst n. rewrite Nat.eqb_refl.
           apply in_or_app. cbn. auto.
      * rewrite R by auto. rewrite <- (M4 n i Ni). destruct (Nat.eqb n u); [|tauto].
        rewrite in_app_iff. cbn. split; [intros [X|[X|[]]]; [auto|congruence]|auto].
    + intros n. rewrite Q. rewrite <- M5. destruct (Nat.eqb n u); [|tauto].
      rewrite in_app_iff. cbn. split; [intros [X|[X|[]]]; auto; lia|auto].
    + intros i r0 Ni E0. change (w_nuni (add_runner u r' (set_w_nrun (w_nrun (s_w s) + 1) (s_w s)))) with (w_nuni (s_w s)).
      destruct (Z.eq_dec i (r_id r')) as [->|NE].
      * rewrite R0 in E0. inversion E0; subst r0. cbn. rewrite H1. exact M2.
      * rewrite R in E0 by auto. eapply M6; eauto.
  - assert (Z0 : forall i, ~ In i (queue (s_w s) (w_nuni (s_w s)))).
    { intros i X. destruct (Z.eq_dec i (r_id (s_r s))) as [->|Ni].
      - apply M5 in X. lia.
      - apply M4 in X; auto. destruct X as (r & X & Y). specialize (M6 _ _ Ni X). lia. }
    set (w2 := set_w_nuni (S (w_nuni (s_w s))) (upd_uni (w_nuni (s_w s)) (fun _ => u) (s_w s))).
    assert (Q : forall n, queue w2 n = queue (s_w s) n).
    { intros n. change (queue w2 n) with (queue (upd_uni (w_nuni (s_w s)) (fun _ => u) (s_w s)) n).
      apply (queue_upd (s_w s)). rewrite H. destruct (queue (s_w s) (w_nuni (s_w s))) as [|x l] eqn:X; auto.
      exfalso. apply (Z0 x). left. reflexivity. }
    unfold Mid. cbn [s_w s_r]. fold w2. change (w_nuni w2) with (S (w_nuni (s_w s))). change (w_run w2) with (w_run (s_w s)).
    split; [exact I'|]. split; [lia|]. split; [lia|]. split; [intros; rewrite Q; auto|].
    split; [intros; rewrite Q; auto|]. split; [intros; rewrite Q; auto|].
    intros i r Ni X. specialize (M6 i r Ni X). lia.
  - apply (mid_same n0 s); auto.
Qed.
Lemma effs_mid n0 s s' : effs false s s' -> Mid n0 s -> Mid n0 s'.
Proof. apply effs_invariant. apply eff_mid. Qed.
Lemma eff_uni s s' : eff false s s' -> r_uni (s_r s') = r_uni (s_r s).
Proof. intros E. destruct E; cbn [s_r]; auto; [destruct H as (_ & H & _); auto|discriminate]. Qed.
Lemma effs_uni s s' : effs false s s' -> r_uni (s_r s') = r_uni (s_r s).
Proof. intros E. induction E; auto. apply eff_uni in H. congruence. Qed.

(** At most one transfer. *)
Definition Once (s s' : st) : Prop :=
  exists a b, effs false s a /\ (a = b \/ eff true a b) /\ effs false b s'.
Lemma once_effs s s' : effs false s s' -> Once s s'.
Proof. intros H. exists s', s'. split; [auto|]. split; [auto|apply effs_refl]. Qed.
Lemma once_before s s1 s' : effs false s s1 -> Once s1 s' -> Once s s'.
Proof. intros H (a & b & A & B & C). exists a, b. split; [eapply effs_trans; eauto|]. auto. Qed.
Lemma once_after s s1 s' : Once s s1 -> effs false s1 s' -> Once s s'.
Proof. intros (a & b & A & B & C) H. exists a, b. split; [auto|]. split; [auto|eapply effs_trans; eauto]. Qed.

Lemma once_mid n0 s s' : Once s s' -> Mid n0 s -> r_uni (s_r s) = n0 -> Mid n0 s'.
Proof.
  intros (a & b & A & B & C) M U. apply (effs_mid _ _ _ C). pose proof (effs_mid _ _ _ A M) as Ma.
  apply effs_uni in A. destruct B as [<-|E]; [exact Ma|].
  clear C s' M. rename Ma into M. rewrite U in A. clear U s. rename a into s, b into s', A into U.
  assert (E' : (exists n r', n <> r_uni (s_r s) /\ (n < w_nuni (s_w s))%nat /\ Same_ip (set_r_uni n (s_r s)) r' /\
     s' = {| s_w := upd_uni n (fun u => set_u_queue (u_queue u ++ [r_id (s_r s)]) u) (s_w s); s_r := r' |}) \/ eff false s s').
  { destruct E; [right|left|right|right|right|right|right|right|right|right|right|right|right|right|right];
      try (econstructor; eassumption). exists n, r'. auto. }
  destruct E' as [(n & r' & Nn & Ln & (X1 & X2 & _) & ->)|E']; [|now apply (eff_mid n0 s)].
  pose proof M as (I & M1 & M2 & M3 & M4 & M5 & M6). cbn in X1, X2.
  assert (NI : ~ In (r_id (s_r s)) (queue (s_w s) n)). { intros X. apply M5 in X. destruct X; congruence. }
  unfold Mid. cbn [s_w s_r]. rewrite X1, X2.
  split. { destruct I as (I1 & I2). split; [exact I1|]. cbn [s_w s_r]. rewrite X1. exact I2. }
  split; [exact M1|]. split; [exact Ln|]. split; [|split; [|split]].
  - intros k. rewrite queue_add. destruct (Nat.eqb_spec k n) as [->|]; auto. apply NoDup_app_one; auto.
  - intros k i Ni. rewrite queue_add.
    change (w_run (upd_uni n (fun u => set_u_queue (u_queue u ++ [r_id (s_r s)]) u) (s_w s)) i) with (w_run (s_w s) i).
    rewrite <- (M4 k i Ni). destruct (Nat.eqb k n); [|tauto]. rewrite in_app_iff. cbn. split; [intros [X|[X|[]]]; [auto|congruence]|auto].
  - intros k. rewrite queue_add. destruct (Nat.eqb_spec k n) as [->|Nk].
    + rewrite in_app_iff. cbn. tauto.
    + rewrite M5, U. split; [intros [X|X]; auto|]. intros [X|X]; [auto|congruence].
  - exact M6.
Qed.

(** ** Instructions outside k transfer at most once *)

Lemma once_transfer name (k : unit -> M err) s e s' : (forall u, does false (k u)) ->
  (w <- getW ;; match multi_find name w with
                     | None => reterr EUnspec
                     | Some n => mbind (transferRunner n) k
                     end) s = Ok (e, s') -> Once s s'.
Proof.
  intros K E. unfold mbind at 1 in E. unfold getW in E.
  destruct (multi_find name (s_w s)) as [n|] eqn:En.
  - apply run_bind_inv in E. destruct E as (x & s1 & E1 & E2). apply K in E2.
    apply multi_find_lt in En. unfold transferRunner, mbind, getR, getW in E1.
    destruct (Nat.eqb_spec (r_uni (s_r s)) n).
    + inversion E1; subst. now apply once_effs.
    + exists s, s1. split; [apply effs_refl|]. split; [|exact E2]. right. inversion E1; subst.
      apply (eff_transfer true s n); auto. split; [reflexivity|]. repeat split; auto.
  - inversion E; subst. apply once_effs, effs_refl.
Qed.
Lemma once_bind {A} (m : M A) (k : A -> M err) s e s' : own m ->
  (forall a s1, k a s1 = Ok (e, s') -> Once s1 s') -> mbind m k s = Ok (e, s') -> Once s s'.
Proof.
  intros O K E. apply run_bind_inv in E. destruct E as (a & s1 & E1 & E2).
  eapply once_before; [|eapply K; eauto]. eapply own_does; eauto.
Qed.
Lemma mvrs_once F c s e s' : mvrs_exec F c s = Ok (e, s') -> (c = 71 \/ c = 74 -> e <> ESkip /\ Once s s').
Proof.
  intros E C.
  assert (NS : e <> ESkip).
  { destruct C as [-> | ->]; unfold mvrs_exec in E; cbn [Z.eqb Pos.eqb] in E.
    - apply run_bind_inv in E. destruct E as (x & s1 & _ & E). apply run_bind_inv in E. destruct E as (y & s2 & _ & E).
      apply run_bind_inv in E. destruct E as (z & s3 & _ & E). unfold mbind at 1 in E. unfold getW in E.
      destruct (multi_find z (s_w s3)); [|inversion E; discriminate].
      apply run_bind_inv in E. destruct E as (u & s4 & _ & E). apply run_bind_inv in E. destruct E as (u1 & s5 & _ & E).
      apply run_bind_inv in E. destruct E as (u2 & s6 & _ & E). inversion E. discriminate.
    - apply run_bind_inv in E. destruct E as (z & s3 & _ & E). unfold mbind at 1 in E. unfold getW in E.
      destruct (multi_find z (s_w s3)); [|inversion E; discriminate].
      apply run_bind_inv in E. destruct E as (u & s4 & _ & E). inversion E. discriminate. }
  split; [exact NS|]. destruct C as [-> | ->]; unfold mvrs_exec in E; cbn [Z.eqb Pos.eqb] in E.
  - revert E. apply once_bind; [apply own_popVecLoop|intros d s1].
    apply once_bind; [apply own_popVecLoop|intros p s2]. apply once_bind; [apply own_popString|intros name s3 E].
    eapply once_transfer; [|exact E]. intros u. apply own_does. apply own_bind; [apply own_modR; intros; unfold Same_ip, Same_sem; cbn; auto 10|intros].
    apply own_bind; [apply own_ipSetDelta|intros; apply own_ret].
  - revert E. apply once_bind; [apply own_popString|]. intros name s1 E. eapply once_transfer; [|exact E].
    intros u. apply own_does, own_ret.
Qed.

(** Nothing is executed through k: the depth of nested executions is one. *)
Lemma execute_once F i s e s' : execute F 1 i s = Ok (e, s') -> effs false s s' \/ (e <> ESkip /\ Once s s').
Proof.
  intros E. cbn [execute] in E. apply run_bind_inv in E. destruct E as (r & s0 & E0 & E). inversion E0; subst s0. clear E0.
  destruct (r_string r) eqn:Es.
  - left. revert E. apply does_string.
  - unfold exec_normal in E. apply run_bind_inv in E. destruct E as (r' & s0 & E0 & E). inversion E0; subst s0. clear E0.
    destruct (sem_top i (r_sem r')) as [x|]; [|left; inversion E; subst; apply effs_refl].
    apply run_bind_inv in E. destruct E as (dive & s0 & E0 & E). inversion E0; subst s0. clear E0.
    match type of E with (if ?b then _ else _) _ = _ => destruct b end; [left; inversion E; subst; apply effs_refl|].
    assert (X : (exists fld c, sm_act x = AFing FP_MVRS fld c /\ (c = 71 \/ c = 74)) \/
      (forall n fld c, sm_act x = AFing n fld c -> n <> FP_MVRS \/ (c <> 71 /\ c <> 74))).
    { destruct (sm_act x) as [m|n fld c|]; [right; discriminate| |right; discriminate].
      destruct (Z.eq_dec n FP_MVRS) as [->|Nn]; [|right; intros ? ? ? Y; inversion Y; subst; auto].
      destruct (Z.eq_dec c 71) as [->|]; [left; eauto|]. destruct (Z.eq_dec c 74) as [->|]; [left; eauto|].
      right. intros ? ? ? Y. inversion Y; subst. auto. }
    destruct X as [(fld & c & X & C)|X].
    + right. rewrite X in E. cbn [run_act] in E. apply (mvrs_once F c); auto.
    + left. revert E. apply does_act; [|auto]. intros c. apply own_does, own_fail.
Qed.
Lemma handler_same e s e' s' : errorHandler e s = Ok (e', s') -> e' = e.
Proof.
  unfold errorHandler. destruct e; intros H; repeat (apply run_bind_inv in H; destruct H as (? & ? & _ & H));
    now inversion H.
Qed.
Lemma tick_step_once F s x s' : tick_step F 1 tt s = Ok (x, s') ->
  match x with inl _ => effs false s s' | inr _ => Once s s' end.
Proof.
  intros E. unfold tick_step in E. apply run_bind_inv in E. destruct E as (dbg & s0 & E0 & E). inversion E0; subst s0. clear E0.
  destruct dbg; [discriminate|]. apply run_bind_inv in E. destruct E as (i & s0 & E0 & E). inversion E0; subst s0. clear E0.
  apply run_bind_inv in E. destruct E as (e & s1 & E1 & E). apply execute_once in E1.
  apply run_bind_inv in E. destruct E as (r & s0 & E0 & E). inversion E0; subst s0. clear E0.
  apply run_bind_inv in E. destruct E as (e' & s2 & E2 & E3).
  assert (X : e' = e /\ effs false s1 s2).
  { destruct e; try (inversion E2; subst; split; [reflexivity|apply effs_refl]);
      (destruct (r_handler r); [split; [eapply handler_same; eauto|revert E2; apply own_does, own_errorHandler]|];
       apply run_bind_inv in E2; destruct E2 as ([] & s3 & X1 & X2); inversion X2; subst; split; [reflexivity|];
       revert X1; apply own_does, own_ipNext). }
  destruct X as (-> & X).
  assert (Y : effs false s2 s').
  { destruct e; try (inversion E3; subst; apply effs_refl);
      (apply run_bind_inv in E3; destruct E3 as ([] & s3 & X1 & X2); inversion X2; subst; revert X1; apply own_does, own_ipNext). }
  assert (Z : match x with inl _ => e = ESkip | inr _ => True end).
  { destruct e; try (inversion E3; subst; exact I);
      (apply run_bind_inv in E3; destruct E3 as ([] & s3 & X1 & X2); inversion X2; subst; auto). }
  pose proof (effs_trans _ _ _ _ X Y) as XY.
  destruct x as [u|u].
  - destruct E1 as [E1|(N & _)]; [|contradiction]. eapply effs_trans; eauto.
  - eapply once_after; [|exact XY]. destruct E1 as [E1|(_ & E1)]; [now apply once_effs|exact E1].
Qed.
Lemma tick_once F s s' : tick F 1 s = Ok (tt, s') -> Once s s'.
Proof.
  unfold tick, loopM. intros E.
  apply (loop_inv _ (fun x => effs false s (snd x)) (fun x => Once s (snd x)) _ (tt, s) _ (effs_refl _ s)) in E; auto.
  - intros [[] s1] x I. cbn [fst snd] in *. destruct (tick_step F 1 tt s1) as [[[a2|b2] s2]|e] eqn:Ef; intros X; inversion X; subst.
    cbn [snd]. apply tick_step_once in Ef. eapply effs_trans; eauto.
  - intros [[] s1] x I. cbn [fst snd] in *. destruct (tick_step F 1 tt s1) as [[[a2|b2] s2]|e] eqn:Ef; intros X; inversion X; subst.
    cbn [snd]. apply tick_step_once in Ef. eapply once_before; eauto.
Qed.

Lemma boot_other F data c input fs rnd w : boot F data c (world0 input fs rnd) = Ok w ->
  forall n, (0 < n)%nat -> queue w n = [].
Proof.
  unfold boot. destruct (multi_create_file F data c (world0 input fs rnd)) as [w1|e] eqn:E1; [|discriminate].
  cbn [bind]. unfold multi_create_file in E1. destruct (loop _ _ _) as [name|e]; [|discriminate]. cbn [bind] in E1.
  destruct (f_parse _ _ _ _) as [df|e]; [|discriminate]. cbn [bind] in E1. cbv zeta in E1.
  match type of E1 with Ok ?x = Ok w1 => assert (E2 : w1 = x) by congruence end. clear E1. unfold create_runner.
  match goal with |- bind ?x _ = _ -> _ => destruct x as [r|e] eqn:Er; [|discriminate] end. cbn [bind].
  intros E. match type of E with Ok ?x = Ok w => assert (E3 : w = x) by congruence end. clear E. subst w.
  rewrite E2. clear E2 Er. intros n Hn. unfold queue, add_runner.
  rewrite upd_uni_other by (cbn; lia). cbn. destruct n; [lia|reflexivity].
Qed.

(** ** Ticks keep every IP in one queue *)
Lemma step_owned F n w w' : uni_step F 1 n w = Ok w' -> Owned w -> Owned w'.
Proof.
  intros E (I & ND & A & U). destruct (queue w n) as [|id q] eqn:Q.
  { rewrite (uni_step_idle _ _ _ _ _ E Q). repeat (split; auto). }
  destruct (uni_step_inv F 1 n w w' id q E Q) as (r & w1 & r1 & R & HR & HS).
  pose proof (step_ids _ _ _ _ _ E I) as I'.
  destruct (ran_ids _ _ _ _ _ _ _ HR R I) as (I1 & Hid & R1). destruct (I _ _ R) as (Rid & Rn).
  assert (Ru : r_uni r = n).
  { destruct (proj1 (A n id)) as (r0 & X & Y); [rewrite Q; now left|]. congruence. }
  assert (Ln : (n < w_nuni w)%nat) by (rewrite <- Ru; eapply U; eauto).
  assert (M0 : Mid n {| s_w := w; s_r := r |}).
  { unfold Mid. cbn [s_w s_r]. rewrite Rid, Ru. split; [split; [exact I|cbn; lia]|]. split; [exact Ln|]. split; [exact Ln|].
    split; [exact ND|]. split; [intros; apply A|]. split; [|intros; eapply U; eauto].
    intros m. rewrite A. split; [intros (r0 & X & Y); left; congruence|intros X; exists r; split; [auto|destruct X; congruence]]. }
  assert (M1 : Mid n {| s_w := w1; s_r := r1 |} /\ exists new, queue w1 n = id :: q ++ new).
  { destruct (ran_grows _ _ _ _ _ _ _ n HR Ln) as (_ & (new & Nw)). rewrite Q in Nw.
    split; [|exists new; exact Nw].
    unfold Ran in HR. destruct (r_stopped r); [destruct HR as (-> & ->); exact M0|].
    destruct HR as (s & T & -> & ->). apply tick_once in T. pose proof (once_mid _ _ _ T M0 Ru) as M.
    destruct M as (X1 & X2 & X3 & X4 & X5 & X6 & X7). rewrite Hid in X5, X6, X7.
    unfold Mid. cbn [s_w s_r]. rewrite Hid.
    split. { split; [exact I1|]. cbn [s_r s_w]. destruct X1 as (_ & X1). exact X1. }
    split; [exact X2|]. split; [exact X3|]. split; [exact X4|]. split; [|split; [exact X6|]].
    - intros m i Ni. rewrite upd_run_other by auto. now apply X5.
    - intros i r0 Ni. rewrite upd_run_other by auto. now apply X7. }
  destruct M1 as ((_ & _ & L1 & ND1 & A1 & B1 & U1) & new & Q1). cbn [s_w s_r] in *. rewrite Hid in *.
  pose proof (ND1 n) as NDn. rewrite Q1 in NDn. inversion NDn as [|x l Nin NDt]; subst x l.
  unfold Settled in HS. destruct (Nat.eqb_spec (r_uni r1) n) as [Eu|Nu].
  - destruct (r_stopped r1); subst w'.
    + (* deleted *)
      set (w2 := upd_uni n (fun u => set_u_queue (tl (u_queue u)) u) w1) in *.
      assert (Q2 : forall k, queue (upd_run id None w2) k = if Nat.eqb k n then tl (queue w1 k) else queue w1 k)
        by (intros k; apply (queue_tl w1 n k)).
      split; [exact I'|]. split; [|split].
      * intros k. rewrite Q2. destruct (Nat.eqb_spec k n) as [->|]; auto. rewrite Q1. exact NDt.
      * intros k i. rewrite Q2. destruct (Z.eq_dec i id) as [->|Ni].
        -- rewrite upd_run_same. split; [|intros (r0 & X & _); discriminate].
           destruct (Nat.eqb_spec k n) as [->|Nk]; [rewrite Q1; cbn [tl]; contradiction|].
           intros X. apply B1 in X. destruct X; congruence.
        -- rewrite upd_run_other by auto. change (w_run w2 i) with (w_run w1 i). rewrite <- (A1 k i Ni).
           destruct (Nat.eqb_spec k n) as [->|Nk]; [|tauto]. rewrite Q1. cbn [tl In].
           split; [auto|intros [X|X]; [congruence|auto]].
      * intros i r0 X. destruct (Z.eq_dec i id) as [->|Ni]; [rewrite upd_run_same in X; discriminate|].
        rewrite upd_run_other in X by auto. eapply U1; eauto.
    + (* queued again *)
      set (w2 := upd_uni n (fun u => set_u_queue (tl (u_queue u)) u) w1) in *.
      assert (Q2 : forall k, queue (upd_uni n (fun u => set_u_queue (u_queue u ++ [id]) u) w2) k =
        if Nat.eqb k n then tl (queue w1 k) ++ [id] else queue w1 k).
      { intros k. rewrite queue_add. unfold w2. rewrite queue_tl. destruct (Nat.eqb k n); reflexivity. }
      assert (R2 : forall i, w_run (upd_uni n (fun u => set_u_queue (u_queue u ++ [id]) u) w2) i = w_run w1 i) by reflexivity.
      split; [exact I'|]. split; [|split].
      * intros k. rewrite Q2. destruct (Nat.eqb_spec k n) as [->|]; auto. rewrite Q1. cbn [tl]. now apply NoDup_app_one.
      * intros k i. rewrite Q2, R2. destruct (Z.eq_dec i id) as [->|Ni].
        -- destruct (Nat.eqb_spec k n) as [->|Nk].
           ++ split; [intros _; eauto|intros _; apply in_or_app; cbn; auto].
           ++ rewrite B1. split; [intros [X|X]; congruence|intros (r0 & X & Y); right; congruence].
        -- rewrite <- (A1 k i Ni). destruct (Nat.eqb_spec k n) as [->|Nk]; [|tauto]. rewrite Q1. cbn [tl].
           rewrite in_app_iff. cbn [In]. split; [intros [X|[X|[]]]; [auto|congruence]|intros [X|X]; [congruence|auto]].
      * intros i r0 X. rewrite R2 in X. destruct (Z.eq_dec i id) as [->|Ni]; [|eapply U1; eauto].
        rewrite R1 in X. inversion X; subst r0. exact L1.
  - (* moved to another universe *)
    subst w'. set (w2 := upd_uni n (fun u => set_u_queue (tl (u_queue u)) u) w1) in *.
    assert (Q2 : forall k, queue w2 k = if Nat.eqb k n then tl (queue w1 k) else queue w1 k)
      by (intros k; apply (queue_tl w1 n k)).
    split; [exact I'|]. split; [|split].
    + intros k. rewrite Q2. destruct (Nat.eqb_spec k n) as [->|]; auto. rewrite Q1. exact NDt.
    + intros k i. rewrite Q2. change (w_run w2 i) with (w_run w1 i). destruct (Z.eq_dec i id) as [->|Ni].
      * destruct (Nat.eqb_spec k n) as [->|Nk].
        -- rewrite Q1. cbn [tl]. split; [contradiction|]. intros (r0 & X & Y). exfalso. apply Nu. congruence.
        -- rewrite B1. split; [intros [X|X]; [congruence|subst k; eauto]|intros (r0 & X & Y); right; congruence].
      * rewrite <- (A1 k i Ni). destruct (Nat.eqb_spec k n) as [->|Nk]; [|tauto]. rewrite Q1. cbn [tl In].
        split; [auto|intros [X|X]; [congruence|auto]].
    + intros i r0 X. change (w_run w2 i) with (w_run w1 i) in X. destruct (Z.eq_dec i id) as [->|Ni]; [|eapply U1; eauto].
      rewrite R1 in X. inversion X; subst r0. exact L1.
Qed.
Lemma run_owned F sched : forall w w', uni_run F 1 sched w = Ok w' -> Owned w -> Owned w'.
Proof.
  induction sched as [|n t IH]; intros w w' E O; cbn [uni_run] in E; [inversion E; now subst|].
  destruct (uni_step F 1 n w) as [w1|e] eqn:E1; [|discriminate]. cbn [bind] in E.
  eapply IH; [exact E|]. eapply step_owned; eauto.
Qed.
Lemma boot_owned F data c input fs rnd w : boot F data c (world0 input fs rnd) = Ok w -> Owned w.
Proof.
  intros B. pose proof (boot_other F data c input fs rnd w B) as O. apply boot_single in B. destruct B as (N & I & ND & A & U).
  split; [exact I|]. split; [|split].
  - intros n. destruct n as [|n]; [exact ND|]. rewrite O by lia. constructor.
  - intros n id. destruct n as [|n].
    + rewrite A. split; [intros (r & X); exists r; split; eauto|intros (r & X & _); eauto].
    + rewrite O by lia. split; [intros []|]. intros (r & X & Y). rewrite (U _ _ X) in Y. discriminate.
  - intros id r X. rewrite (U _ _ X), N. lia.
Qed.

(** ** The theorems *)

(** However a program runs, if no instruction is executed through [k] (the depth of
    nested executions stays 1), every live IP is always in the queue of exactly one
    universe, its own, and only once. *)
Theorem C39_partial : forall F data c input fs rnd w0 sched w,
  boot F data c (world0 input fs rnd) = Ok w0 -> uni_run F 1 sched w0 = Ok w ->
  (forall n, NoDup (queue w n)) /\
  (forall n m id, In id (queue w n) -> In id (queue w m) -> n = m) /\
  (forall id r, w_run w id = Some r -> In id (queue w (r_uni r))) /\
  (forall n id, In id (queue w n) -> exists r, w_run w id = Some r /\ r_uni r = n).
Proof.
  intros F data c input fs rnd w0 sched w B E. apply boot_owned in B.
  destruct (run_owned _ _ _ _ E B) as (I & ND & A & U). split; [exact ND|]. split; [|split].
  - intros n m id X Y. apply A in X, Y. destruct X as (r & X & X1), Y as (r2 & Y & Y1). congruence.
  - intros id r X. apply A. eauto.
  - intros n id X. now apply A.
Qed.
(** Hence fairness (C36) in every universe of such programs. *)
Theorem C36_fair_universes_partial : forall F data c input fs rnd w0 sched0 w n sched w' ids id others,
  boot F data c (world0 input fs rnd) = Ok w0 -> uni_run F 1 sched0 w0 = Ok w -> (n < w_nuni w)%nat ->
  queue w n = others ++ [id] ->
  Visits F 1 n sched w w' ids -> ~ In id ids -> hd_error (queue w' n) = Some id ->
  ids = others.
Proof.
  intros F data c input fs rnd w0 sched0 w n sched w' ids id others B R L Q V NI HD.
  destruct (C39_partial _ _ _ _ _ _ _ _ _ B R) as (ND & _).
  eapply C36_fair_partial; eauto.
Qed.

(** Program ["SRVM"4(0"b"000BNN0"b"2kJt5z<]: creates a universe named b, then moves
    there and back within one tick. *)
Definition hop : bytes :=
  [34; 83; 82; 86; 77; 34; 52; 40; 48; 34; 98; 34; 48; 48; 48; 66; 78; 78; 48; 34; 98; 34; 50; 107; 74; 116; 53; 122; 60].
(** The same without the trip back: ["SRVM"4(0"b"000B0"b"J]. *)
Definition hop1 : bytes :=
  [34; 83; 82; 86; 77; 34; 52; 40; 48; 34; 98; 34; 48; 48; 48; 66; 48; 34; 98; 34; 74].
Definition hop_boot (p : bytes) : world :=
  the dummy_w (boot 1000 p (set_c_name [97] (set_c_dims 2 (set_c_std STD_98 cfg_default)))
                 (world0 [] (fun _ => None) (fun _ => 0))).
Lemma hop_booted : boot 1000 hop (set_c_name [97] (set_c_dims 2 (set_c_std STD_98 cfg_default)))
                     (world0 [] (fun _ => None) (fun _ => 0)) = Ok (hop_boot hop).
Proof. vm_compute. reflexivity. Qed.
Example C39_ex : match uni_run 1000 1 (repeat 0%nat 21) (hop_boot hop1) with
                 | Ok w => (w_nuni w, queue w 0, queue w 1) = (2%nat, [], [0])
                 | _ => False end.
Proof. vm_compute. reflexivity. Qed.

(** Through [k] an IP can be in two universes' queues at once, twice in one. *)
Theorem C39_refuted : exists F D data c input fs rnd w0 sched w id,
  boot F data c (world0 input fs rnd) = Ok w0 /\ uni_run F D sched w0 = Ok w /\
  In id (queue w 1) /\ queue w 0 = [id; id].
Proof.
  exists 1000%positive, 2%nat, hop, (set_c_name [97] (set_c_dims 2 (set_c_std STD_98 cfg_default))), [], (fun _ => None), (fun _ => 0),
    (hop_boot hop), (repeat 0%nat 24),
    (the dummy_w (uni_run 1000 2 (repeat 0%nat 24) (hop_boot hop))), 0.
  split; [exact hop_booted|]. split; [vm_compute; reflexivity|]. split; [vm_compute; auto|vm_compute; reflexivity].
Qed.
(** ... and is then ticked twice in a row while another live IP of the universe waits. *)
Theorem C36_refuted : exists F D data c input fs rnd w0 sched w w' id other r r',
  boot F data c (world0 input fs rnd) = Ok w0 /\ uni_run F D sched w0 = Ok w /\
  Visits F D 0 [0%nat; 0%nat] w w' [id; id] /\ other <> id /\
  In other (queue w 0) /\ In other (queue w' 0) /\
  w_run w other = Some r /\ r_stopped r = false /\ w_run w' other = Some r' /\ r_stopped r' = false.
Proof.
  set (w := the dummy_w (uni_run 1000 2 (repeat 0%nat 28) (hop_boot hop))).
  set (w' := the dummy_w (uni_run 1000 2 (repeat 0%nat 2) w)).
  exists 1000%positive, 2%nat, hop, (set_c_name [97] (set_c_dims 2 (set_c_std STD_98 cfg_default))), [], (fun _ => None), (fun _ => 0),
    (hop_boot hop), (repeat 0%nat 28), w, w', 0, 1,
    (match w_run w 1 with Some r => r | None => s_r dummy end),
    (match w_run w' 1 with Some r => r | None => s_r dummy end).
  split; [exact hop_booted|]. split; [vm_compute; reflexivity|].
  split. { apply visits_visits; [vm_compute; reflexivity|]. intros m [<-|[<-|[]]]; reflexivity. }
  split; [discriminate|]. split; [vm_compute; auto|]. split; [vm_compute; auto|].
  split; [vm_compute; reflexivity|]. split; [vm_compute; reflexivity|]. split; vm_compute; reflexivity.
Qed.
Print Assumptions C39_partial.
Print Assumptions C36_fair_universes_partial.
Print Assumptions C39_refuted.
Print Assumptions C36_refuted.
