(** * The elementary effects of executing instructions

    Every change of the interpreter's state made while an IP executes one tick is
    a sequence of the elementary effects listed in [eff]; [tick_effs] proves it
    for all instructions, all fingerprints and all states.  Properties about
    everything a program may do (permissions, scheduling, identity of IPs) follow
    by checking the elementary effects.

    [t] says whether moving to another universe is allowed: only MVRS does it. *)

From Coq Require Import ZArith List Bool Lia.
From Verif Require Import Base BaseProofs VectorModel TextModel RangeModel StackModel FieldModel
  World IpModel LoadModel FingModel CoreModel ExecProofs FlowProofs.
Import ListNotations.
Open Scope Z_scope.

(** The configuration of the universe the executing IP is in. *)
Definition my_cfg (s : st) : cfg := u_cfg (w_uni (s_w s) (r_uni (s_r s))).
Definition logged (e : event) (w : world) : world := set_w_log (e :: w_log w) w.

(** [w'] differs from [w] at most in standard input and output and the number of
    oracle answers used. *)
Definition Same_core (w w' : world) : Prop :=
  w_uni w' = w_uni w /\ w_nuni w' = w_nuni w /\ w_run w' = w_run w /\ w_nrun w' = w_nrun w /\
  w_log w' = w_log w /\ w_fs w' = w_fs w /\ w_fl w' = w_fl w /\ w_refs w' = w_refs w.

(** The meanings of everything but the 26 letters fingerprints may bind. *)
Definition Same_sem (r r' : runner) : Prop :=
  r_strats r' = r_strats r /\ forall i, is_letter i = false -> r_sem r' i = r_sem r i.
(** Two runners with the same identity. *)
Definition Same_id (r r' : runner) : Prop :=
  r_id r' = r_id r /\ r_uni r' = r_uni r /\ r_fld r' = r_fld r /\ r_parent r' = r_parent r /\
  (r_stopped r = true -> r_stopped r' = true).
(** Two runners with the same identity and the same core instructions. *)
Definition Same_ip (r r' : runner) : Prop :=
  r_id r' = r_id r /\ r_uni r' = r_uni r /\ r_fld r' = r_fld r /\ r_parent r' = r_parent r /\
  (r_stopped r = true -> r_stopped r' = true) /\ Same_sem r r'.
(** The meanings the strategies [l] give, before any fingerprint. *)
Definition strat_table (s : strat) : list (Z * sem) :=
  match s with
  | SU93 => table_u93 | SU98 => table_u98 | SB93 => table_b93 | SB98 => table_b98 | ST98 => table_t98
  end.
Definition strat_sem (l : list strat) : Z -> list sem :=
  fold_left (fun t s => sem_pushes (strat_table s) t) l (fun _ => []).

(** A stack is as it was, or its count of operations is higher. *)
Definition Aged (k k' : stk) : Prop :=
  (s_list k' = s_list k /\ s_ops k' = s_ops k) \/ s_ops k < s_ops k'.
Definition Touched (x x' : sstk) : Prop :=
  ss_sel x' = ss_sel x /\ Forall2 Aged (ss_list x) (ss_list x').
(** Another IP only has its stacks changed, with the count of operations recording that, or
    is stopped. *)
Definition Poked (r r' : runner) : Prop :=
  exists x b, r' = set_r_ss x (set_r_stopped b r) /\ (r_stopped r = true -> b = true) /\
    Touched (r_ss r) x.

Inductive eff (t : bool) : st -> st -> Prop :=
(* anything about the executing IP but its identity *)
| eff_own s r' : Same_ip (s_r s) r' -> eff t s {| s_w := s_w s; s_r := r' |}
(* it moves to another universe and is queued there *)
| eff_transfer s n r' : t = true ->
    n <> r_uni (s_r s) -> (n < w_nuni (s_w s))%nat -> Same_ip (set_r_uni n (s_r s)) r' ->
    eff t s {| s_w := upd_uni n (fun u => set_u_queue (u_queue u ++ [r_id (s_r s)]) u) (s_w s);
             s_r := r' |}
(* the stacks of another IP, or stopping it *)
| eff_other s id r r' :
    id <> r_id (s_r s) -> w_run (s_w s) id = Some r -> Poked r r' ->
    eff t s {| s_w := upd_run id (Some r') (s_w s); s_r := s_r s |}
(* the contents of a Funge-space *)
| eff_field s n f : (forall u, exists x, f u = set_u_field x u) ->
    eff t s {| s_w := upd_uni n f (s_w s); s_r := s_r s |}
(* the modes and the dimensions of the IP's universe *)
| eff_cfg s f :
    (forall u, exists m d, f u = set_u_cfg (set_c_mode m (set_c_dims d (u_cfg u))) u) ->
    eff t s {| s_w := upd_uni (r_uni (s_r s)) f (s_w s); s_r := s_r s |}
(* its exit code and its being stopped *)
| eff_exit s x :
    eff t s {| s_w := upd_uni (r_uni (s_r s)) (set_u_exit x) (s_w s); s_r := s_r s |}
| eff_halt s :
    eff t s {| s_w := upd_uni (r_uni (s_r s)) (set_u_running false) (s_w s); s_r := s_r s |}
(* input, output, random numbers, clocks *)
| eff_world s w' : Same_core (s_w s) w' -> eff t s {| s_w := w'; s_r := s_r s |}
(* directories *)
| eff_dir s e : (exists p, e = EvChdir p \/ e = EvMkdir p \/ e = EvRmdir p) ->
    eff t s {| s_w := logged e (s_w s); s_r := s_r s |}
(* files, with permission *)
| eff_read s p : c_fs (my_cfg s) = true ->
    eff t s {| s_w := logged (EvRead p) (s_w s); s_r := s_r s |}
| eff_write s p data : c_fs (my_cfg s) = true ->
    eff t s {| s_w := set_w_fs (fun q => if bytes_eqb q p then Some data else w_fs (s_w s) q)
                      (logged (EvWrite p data) (s_w s)); s_r := s_r s |}
(* commands, with permission *)
| eff_system s cmd : c_exec (my_cfg s) = true ->
    eff t s {| s_w := logged (EvSystem cmd) (s_w s); s_r := s_r s |}
(* a new IP in the same universe, with permission *)
| eff_clone s r' : c_conc (my_cfg s) = true ->
    r_id r' = w_nrun (s_w s) -> r_uni r' = r_uni (s_r s) -> r_fld r' = r_uni (s_r s) ->
    r_parent r' = Some (r_id (s_r s)) -> r_stopped r' = r_stopped (s_r s) ->
    r_strats r' = r_strats (s_r s) ->
    (forall i, is_letter i = false -> r_sem r' i = strat_sem (r_strats (s_r s)) i) ->
    eff t s {| s_w := add_runner (r_uni (s_r s)) r' (set_w_nrun (w_nrun (s_w s) + 1) (s_w s));
             s_r := s_r s |}
(* a new universe, under a new name *)
| eff_universe s u : u_queue u = [] -> u_running u = true ->
    multi_find (c_name (u_cfg u)) (s_w s) = None ->
    eff t s {| s_w := set_w_nuni (S (w_nuni (s_w s)))
                      (upd_uni (w_nuni (s_w s)) (fun _ => u) (s_w s)); s_r := s_r s |}
(* a new reference *)
| eff_ref s x v : assoc x (w_refs (s_w s)) = None ->
    eff t s {| s_w := set_w_refs ((x, v) :: w_refs (s_w s)) (s_w s); s_r := s_r s |}.

Section Effs.
Variable t : bool.

Inductive effs : st -> st -> Prop :=
| effs_refl s : effs s s
| effs_step s s1 s2 : eff t s s1 -> effs s1 s2 -> effs s s2.

Lemma effs_one s s' : eff t s s' -> effs s s'.
Proof. intros H. eapply effs_step; [exact H|apply effs_refl]. Qed.
Lemma effs_trans s s1 s2 : effs s s1 -> effs s1 s2 -> effs s s2.
Proof. induction 1; intros; auto. eapply effs_step; eauto. Qed.

(** A reflexive and transitive relation that holds for every elementary effect
    holds for every sequence of them. *)
Lemma effs_preorder (R : st -> st -> Prop) :
  (forall s, R s s) -> (forall s s1 s2, R s s1 -> R s1 s2 -> R s s2) ->
  (forall s s', eff t s s' -> R s s') -> forall s s', effs s s' -> R s s'.
Proof. intros H1 H2 H3 s s' H. induction H; eauto. Qed.
Lemma effs_invariant (I : st -> Prop) :
  (forall s s', eff t s s' -> I s -> I s') -> forall s s', effs s s' -> I s -> I s'.
Proof. intros H s s' E. induction E; eauto. Qed.

(** ** Computations and their effects *)

Definition does {A} (m : M A) : Prop := forall s a s', m s = Ok (a, s') -> effs s s'.
(** [m] only changes the executing IP, but not its identity. *)
Definition own {A} (m : M A) : Prop := forall s a s', m s = Ok (a, s') ->
  s_w s' = s_w s /\ Same_ip (s_r s) (s_r s').

Lemma same_ip_refl r : Same_ip r r.
Proof. unfold Same_ip, Same_sem. auto 8. Qed.
Lemma same_ip_trans r r1 r2 : Same_ip r r1 -> Same_ip r1 r2 -> Same_ip r r2.
Proof.
  unfold Same_ip, Same_sem. intros (?&?&?&?&?&?&E1) (?&?&?&?&?&?&E2).
  repeat split; try congruence; auto. intros i L. now rewrite E2, E1.
Qed.
Lemma same_id_trans r r1 r2 : Same_id r r1 -> Same_id r1 r2 -> Same_id r r2.
Proof. unfold Same_id. intros (?&?&?&?&?) (?&?&?&?&?). repeat split; try congruence; auto. Qed.
Lemma same_ip_id r r' : Same_ip r r' -> Same_id r r'.
Proof. unfold Same_id. intros (?&?&?&?&?&_). auto 6. Qed.
Lemma own_does {A} (m : M A) : own m -> does m.
Proof.
  intros H s a s' E. destruct (H s a s' E) as (W & I). destruct s' as [w' r'].
  cbn [s_w s_r] in *. subst w'. apply effs_one. now apply eff_own.
Qed.
Lemma does_bind {A B} (m : M A) (k : A -> M B) : does m -> (forall a, does (k a)) -> does (mbind m k).
Proof.
  intros H1 H2 s b s' E. apply run_bind_inv in E. destruct E as (a & s1 & E1 & E2).
  eapply effs_trans; [eapply H1|eapply H2]; eauto.
Qed.
Lemma own_bind {A B} (m : M A) (k : A -> M B) : own m -> (forall a, own (k a)) -> own (mbind m k).
Proof.
  intros H1 H2 s b s' E. apply run_bind_inv in E. destruct E as (a & s1 & E1 & E2).
  destruct (H1 _ _ _ E1) as (W1 & I1). destruct (H2 _ _ _ _ E2) as (W2 & I2).
  split; [congruence|]. eapply same_ip_trans; eauto.
Qed.
Lemma own_ret {A} (a : A) : own (ret a).
Proof. intros s b s' E. inversion E; subst. split; [reflexivity|apply same_ip_refl]. Qed.
Lemma own_fail {A} b : own (A := A) (fail b).
Proof. intros s a s' E. discriminate. Qed.
Lemma own_lift {A} (x : res A) : own (lift x).
Proof. intros s a s' E. unfold lift in E. destruct x; inversion E; subst. split; [reflexivity|apply same_ip_refl]. Qed.
Lemma own_getR : own getR.
Proof. intros s b s' E. inversion E; subst. split; [reflexivity|apply same_ip_refl]. Qed.
Lemma own_getW : own getW.
Proof. intros s b s' E. inversion E; subst. split; [reflexivity|apply same_ip_refl]. Qed.
Lemma own_getU : own getU.
Proof. intros s b s' E. inversion E; subst. split; [reflexivity|apply same_ip_refl]. Qed.
Lemma own_getC : own getC.
Proof. apply own_bind; [apply own_getU|intros; apply own_ret]. Qed.
Lemma own_fget n p : own (fget n p).
Proof. intros s b s' E. inversion E; subst. split; [reflexivity|apply same_ip_refl]. Qed.
Lemma own_modR f : (forall r, Same_ip r (f r)) -> own (modR f).
Proof. intros H s b s' E. inversion E; subst. split; [reflexivity|apply H]. Qed.
Lemma own_onStack {A} at_ (f : stk -> A * stk) : own (onStack at_ f).
Proof.
  intros s b s' E. unfold onStack in E. destruct (ss_at _ _); inversion E; subst.
  split; [reflexivity|]. unfold Same_ip, Same_sem. cbn. auto 10.
Qed.
Lemma own_find_runner id : own (find_runner id).
Proof.
  intros s b s' E. unfold find_runner in E.
  destruct (id =? _); [|destruct (w_run _ _)]; inversion E; subst; (split; [reflexivity|apply same_ip_refl]).
Qed.
Lemma loop_inv {S R} (f : S -> res (S + R)) (I : S -> Prop) (Q : R -> Prop) F s r :
  I s -> (forall s s', I s -> f s = Ok (inl s') -> I s') ->
  (forall s r, I s -> f s = Ok (inr r) -> Q r) -> loop f F s = Ok r -> Q r.
Proof.
  intros H0 H1 H2. rewrite loop_loopNr. revert s H0.
  induction (Pos.to_nat F) as [|n IH]; intros s H0 E; [discriminate|].
  rewrite loopNr_unfold in E. destruct (f s) as [[s'|b]|e] eqn:Ef.
  - eapply IH; [|exact E]. eauto.
  - inversion E; subst. eauto.
  - discriminate.
Qed.
Lemma does_loopM {A B} F (f : A -> M (A + B)) a : (forall a, does (f a)) -> does (loopM F f a).
Proof.
  intros H s b s' E. unfold loopM in E.
  apply (loop_inv _ (fun x => effs s (snd x)) (fun x => effs s (snd x)) _ (a, s) _ (effs_refl s)) in E; auto.
  - intros [a1 s1] x I. cbn [fst snd] in *. destruct (f a1 s1) as [[[a2|b2] s2]|e] eqn:Ef; intros X; inversion X; subst.
    cbn [snd]. eapply effs_trans; [exact I|eapply H; exact Ef].
  - intros [a1 s1] x I. cbn [fst snd] in *. destruct (f a1 s1) as [[[a2|b2] s2]|e] eqn:Ef; intros X; inversion X; subst.
    cbn [snd]. eapply effs_trans; [exact I|eapply H; exact Ef].
Qed.
Lemma does_rangeM F a b body : (forall p, does (body p)) -> does (rangeM F a b body).
Proof.
  intros H s x s' E. unfold rangeM, range_fold in E.
  destruct (range_make a b) as [r|e]; [|discriminate]. cbn [bind] in E.
  match type of E with context [loop ?f F ?s0] => destruct (loop f F s0) as [s1|e] eqn:L end; [|discriminate].
  inversion E; subst s1 x. clear E.
  apply (loop_inv _ (fun x => effs s (snd x)) (fun x => effs s x) _ (r, s) _ (effs_refl s)) in L; auto.
  - intros [r1 s1] y I. cbn [snd] in *. unfold range_step. destruct (veqb _ _); [discriminate|].
    destruct (body (vr_cur r1) s1) as [[[] s2]|e] eqn:Eb; [|discriminate]. cbn [bind].
    destruct (range_incr r1); [|discriminate]. cbn [bind]. intros X; inversion X; subst. cbn [snd].
    eapply effs_trans; [exact I|eapply H; exact Eb].
  - intros [r1 s1] y I. cbn [snd] in *. unfold range_step. destruct (veqb _ _).
    + intros X; inversion X; subst. exact I.
    + destruct (body (vr_cur r1) s1) as [[[] s2]|e]; [|discriminate]. cbn [bind].
      destruct (range_incr r1); discriminate.
Qed.
Lemma does_repM n m : does m -> does (repM n m).
Proof.
  intros H. induction n as [|n IH]; cbn [repM]; [apply own_does, own_ret|].
  apply does_bind; auto.
Qed.

Lemma own_popNAt at_ n : own (popNAt at_ n).
Proof.
  induction n as [|n IH]; cbn [popNAt]; [apply own_ret|].
  apply own_bind; [apply own_onStack|intros]. apply own_bind; auto. intros; apply own_ret.
Qed.
Lemma own_pushLAt at_ l : own (pushLAt at_ l).
Proof.
  induction l as [|x l IH]; cbn [pushLAt]; [apply own_ret|].
  apply own_bind; [apply own_onStack|auto].
Qed.
Lemma own_popVecLoop at_ n : forall v, own (popVecLoop at_ n v).
Proof.
  induction n as [|n IH]; intros v; cbn [popVecLoop]; [apply own_ret|].
  apply own_bind; [apply own_onStack|auto].
Qed.
Lemma own_pushVecAt at_ v : own (pushVecAt at_ v).
Proof.
  apply own_bind; [apply own_getC|intros c]. apply own_bind; [apply own_onStack|intros; apply own_ret].
Qed.
Lemma own_popVecAt at_ : own (popVecAt at_).
Proof. apply own_bind; [apply own_getC|intros c]. apply own_popVecLoop. Qed.
Lemma own_pushVec v : own (pushVec v).
Proof. apply own_bind; [apply own_pushVecAt|intros; apply own_ret]. Qed.

(** Changes of the executing IP. *)
Lemma same_ip_observe d r : Same_ip r (observe_delta d r).
Proof. unfold observe_delta. destruct (r_fish r) as [[b c]|]; [destruct (_ && _)|]; repeat split; auto. Qed.
Ltac same_ip := intros; unfold Same_ip, Same_sem; cbn; auto 10.
Lemma own_ipNext : own ipNext.
Proof.
  apply own_bind; [apply own_getR|intros r]. apply own_bind; [apply own_getU|intros u].
  destruct (r_stopped r); [apply own_ret|]. apply own_bind; [apply own_lift|intros pd].
  apply own_modR. same_ip.
Qed.
Lemma own_ipSetDelta v : own (ipSetDelta v).
Proof.
  apply own_bind; [apply own_getR|intros r]. apply own_bind; [apply own_getU|intros u].
  apply own_bind; [destruct (testmode _ _); [apply own_lift|apply own_ret]|intros d].
  apply own_modR. intros r'. eapply same_ip_trans; [|apply same_ip_observe]. same_ip.
Qed.
Lemma own_ipTurn f : own (ipTurn f).
Proof.
  apply own_bind; [apply own_getR|intros r]. apply own_bind; [apply own_lift|intros d].
  apply own_modR. same_ip.
Qed.
Lemma own_modSS f : own (modSS f).
Proof.
  apply own_bind; [apply own_getR|intros r]. apply own_bind; [apply own_lift|intros d].
  apply own_modR. same_ip.
Qed.

(** Changes of the world. *)
Lemma does_world f : (forall w, Same_core w (f w)) -> does (modW f).
Proof. intros H s a s' E. inversion E; subst. apply effs_one, eff_world, H. Qed.
Lemma does_fput n p v : does (fput n p v).
Proof. intros s a s' E. inversion E; subst. apply effs_one, eff_field. eauto. Qed.
Lemma does_getchar : does getchar.
Proof.
  intros s a s' E. unfold getchar in E. destruct (w_in (s_w s)); inversion E; subst; [apply effs_refl|].
  apply effs_one, eff_world. repeat split.
Qed.
Lemma does_rnd : does rnd.
Proof. intros s a s' E. inversion E; subst. apply effs_one, eff_world. repeat split. Qed.
Lemma does_clock : does clock.
Proof. intros s a s' E. inversion E; subst. apply effs_one, eff_world. repeat split. Qed.
Lemma does_localtime : does localtime.
Proof. intros s a s' E. inversion E; subst. apply effs_one, eff_world. repeat split. Qed.
Lemma does_dir e : (exists p, e = EvChdir p \/ e = EvMkdir p \/ e = EvRmdir p) -> does (log e).
Proof. intros H s a s' E. inversion E; subst. apply effs_one. now apply eff_dir. Qed.
Lemma poked_same r r' : Poked r r' -> Same_ip r r'.
Proof. intros (x & b & -> & H & _). unfold Same_ip, Same_sem. cbn. auto 10. Qed.
Lemma aged_refl k : Aged k k.
Proof. left. auto. Qed.
Lemma aged_trans k k1 k2 : Aged k k1 -> Aged k1 k2 -> Aged k k2.
Proof.
  intros [(A & B)|A] [(C & D)|C]; [left; split; congruence| | |]; right; lia.
Qed.
Lemma touched_refl x : Touched x x.
Proof. split; [reflexivity|]. induction (ss_list x); constructor; auto using aged_refl. Qed.
Lemma touched_trans x x1 x2 : Touched x x1 -> Touched x1 x2 -> Touched x x2.
Proof.
  intros (A & B) (C & D). split; [congruence|]. clear A C. revert D. generalize (ss_list x2).
  induction B; intros l2 D; inversion D; subst; constructor; eauto using aged_trans.
Qed.
Lemma touched_set x k k' : ss_top x = Ok k -> Aged k k' -> Touched x (ss_set x (ss_sel x) k').
Proof.
  intros E A. split; [reflexivity|]. unfold ss_top, ss_at in E. cbn [ss_set ss_list].
  destruct (nth_error (ss_list x) (ss_sel x)) as [k0|] eqn:N; [|discriminate]. inversion E; subst. clear E.
  revert N. generalize (ss_sel x). induction (ss_list x) as [|y l IH]; intros n N; destruct n; try discriminate.
  - inversion N; subst. constructor; [exact A|]. clear. induction l; constructor; auto using aged_refl.
  - constructor; [apply aged_refl|]. apply IH. exact N.
Qed.
Lemma touched_setmode m x : Touched x (ss_setmode m x).
Proof.
  split; [reflexivity|]. unfold ss_setmode. cbn [ss_list]. induction (ss_list x); constructor; auto. left. auto.
Qed.
Lemma poked_ss x r : Touched (r_ss r) x -> Poked r (set_r_ss x r).
Proof. intros T. exists x, (r_stopped r). destruct r. auto. Qed.
Lemma poked_stop r : Poked r (set_r_stopped true r).
Proof. exists (r_ss r), true. destruct r. auto using touched_refl. Qed.
Lemma does_on_runner id f : (forall r, Poked r (f r)) -> does (on_runner id f).
Proof.
  intros H s a s' E. unfold on_runner in E. destruct (Z.eqb_spec id (r_id (s_r s))).
  - inversion E; subst. apply effs_one, eff_own, poked_same, H.
  - destruct (w_run (s_w s) id) as [r|] eqn:Er; inversion E; subst. apply effs_one. now apply (eff_other t s id r).
Qed.
Lemma does_on_runners f : (forall r, Poked r (f r)) -> forall l, does (on_runners l f).
Proof.
  intros H. induction l as [|x l IH]; cbn [on_runners]; [apply own_does, own_ret|].
  apply does_bind; auto. now apply does_on_runner.
Qed.
Lemma does_changeMode f : does (changeMode f).
Proof.
  apply does_bind.
  - intros s a s' E. inversion E; subst. apply effs_one, eff_cfg.
    intros [c f0 q r x]. destruct c. exists (f c_mode), c_dims. reflexivity.
  - intros []. apply does_bind; [apply own_does, own_getU|intros u].
    apply does_on_runners. intros. apply poked_ss, touched_setmode.
Qed.
Lemma does_killAll x : does (killAll x).
Proof.
  apply does_bind; [intros s a s' E; inversion E; subst; apply effs_one, eff_exit|intros []].
  apply does_bind; [apply own_does, own_getU|intros u].
  apply does_bind; [apply does_on_runners; intros; apply poked_stop|intros []].
  intros s a s' E; inversion E; subst; apply effs_one, eff_halt.
Qed.
Lemma does_grow_dims d : does (grow_dims d).
Proof.
  intros s a s' E. inversion E; subst. apply effs_one, eff_cfg.
  intros u. destruct (Nat.ltb (c_dims (u_cfg u)) d).
  - exists (c_mode (u_cfg u)), d. now destruct u as [[]].
  - exists (c_mode (u_cfg u)), (c_dims (u_cfg u)). now destruct u as [[]].
Qed.

Lemma find_uni_lt k : forall i name w n, find_uni k i name w = Some n -> (n < i + k)%nat.
Proof.
  induction k as [|k IH]; intros i name w n E; cbn [find_uni] in E; [discriminate|].
  destruct (bytes_eqb _ _); [inversion E; lia|]. apply IH in E. lia.
Qed.
Lemma multi_find_lt name w n : multi_find name w = Some n -> (n < w_nuni w)%nat.
Proof. intros H. apply find_uni_lt in H. lia. Qed.

Lemma transfer_effs n s a s' : t = true -> (n < w_nuni (s_w s))%nat -> transferRunner n s = Ok (a, s') -> effs s s'.
Proof.
  intros T L E. unfold transferRunner, mbind, getR, getW in E.
  destruct (Nat.eqb_spec (r_uni (s_r s)) n).
  - inversion E; subst. apply effs_refl.
  - inversion E; subst. apply effs_one. apply (eff_transfer t s n); auto. same_ip.
Qed.
Lemma does_transfer name (k : unit -> M err) : t = true -> (forall u, does (k u)) ->
  does (w <- getW ;; match multi_find name w with
                     | None => reterr EUnspec
                     | Some n => mbind (transferRunner n) k
                     end).
Proof.
  intros T K s a s' E. unfold mbind at 1 in E. unfold getW in E.
  destruct (multi_find name (s_w s)) as [n|] eqn:En.
  - apply run_bind_inv in E. destruct E as (x & s1 & E1 & E2).
    eapply effs_trans; [eapply transfer_effs; [exact T| |exact E1]|eapply K; exact E2].
    eapply multi_find_lt; eauto.
  - inversion E; subst. apply effs_refl.
Qed.

Lemma name_loop F w name0 nm nm' : loop (name_step name0 w) F nm = Ok nm' -> multi_find nm' w = None.
Proof.
  apply (loop_inv (name_step name0 w) (fun _ => True) (fun r => multi_find r w = None)); auto.
  intros x r _. unfold name_step. destruct (multi_find x w) eqn:E; intros X; inversion X; subst. exact E.
Qed.
Lemma does_create F c : does (w <- getW ;; w' <- lift (multi_create F c w) ;; modW (fun _ => w') ;;; ok).
Proof.
  intros s a s' E. unfold mbind at 1 in E. unfold getW in E. apply run_bind_inv in E.
  destruct E as (w' & s1 & E1 & E2). unfold lift in E1.
  destruct (multi_create F c (s_w s)) as [w1|e] eqn:Ec; inversion E1; subst.
  inversion E2; subst. apply effs_one. unfold multi_create in Ec.
  destruct (loop _ _ _) as [name|e] eqn:El; [|discriminate]. cbn [bind] in Ec. inversion Ec; subst.
  apply eff_universe; [reflexivity|reflexivity|]. cbn. eapply name_loop. exact El.
Qed.

(** The instructions that need a permission. *)
Lemma own_popString : own popString. Proof. apply own_onStack. Qed.
Lemma own_perm {A} (g : cfg -> bool) (x : M A) s a s' :
  own x -> x s = Ok (a, s') -> g (my_cfg s) = true -> g (my_cfg s') = true.
Proof.
  intros H E G. destruct (H _ _ _ E) as (W & I & U & _). unfold my_cfg in *. now rewrite W, U.
Qed.
Lemma system_effs cmd s a s' : c_exec (my_cfg s) = true -> system cmd s = Ok (a, s') -> effs s s'.
Proof.
  intros P E. inversion E; subst. eapply effs_step; [apply (eff_system t s (cstr cmd) P)|].
  apply effs_one. apply (eff_world t {| s_w := logged (EvSystem (cstr cmd)) (s_w s); s_r := s_r s |}). repeat split.
Qed.
(** [m] has only allowed effects when [g] holds of the configuration. *)
Definition doesIf {A} (g : cfg -> bool) (m : M A) : Prop :=
  forall s a s', g (my_cfg s) = true -> m s = Ok (a, s') -> effs s s'.
Lemma does_if {A} g (m : M A) (e : M A) : doesIf g m -> does e ->
  does (c <- getC ;; if g c then m else e).
Proof.
  intros H1 H2 s a s' E. change (mbind getC (fun c => if g c then m else e) s)
    with ((if g (my_cfg s) then m else e) s) in E.
  destruct (g (my_cfg s)) eqn:G; [eapply H1|eapply H2]; eauto.
Qed.
Lemma doesIf_own {A B} g (m : M A) (k : A -> M B) : own m -> (forall a, doesIf g (k a)) -> doesIf g (mbind m k).
Proof.
  intros O H s b s' G E. apply run_bind_inv in E. destruct E as (a & s1 & E1 & E2).
  eapply effs_trans; [eapply own_does; eauto|]. eapply H; [|exact E2]. eapply own_perm; eauto.
Qed.
Lemma doesIf_bind {A B} g (m : M A) (k : A -> M B) : doesIf g m -> (forall a, does (k a)) -> doesIf g (mbind m k).
Proof.
  intros O H s b s' G E. apply run_bind_inv in E. destruct E as (a & s1 & E1 & E2).
  eapply effs_trans; [eapply O; eauto|]. eapply H; eauto.
Qed.
Lemma doesIf_does {A} g (m : M A) : does m -> doesIf g m.
Proof. intros H s a s' _ E. eapply H; eauto. Qed.
Lemma doesIf_system cmd : doesIf c_exec (system cmd).
Proof. intros s a s' P E. eapply system_effs; eauto. Qed.

(** ** The automatic part *)
Create HintDb own discriminated.
#[local] Hint Resolve own_ret own_fail own_lift own_getR own_getW own_getU own_getC own_fget own_onStack
  own_find_runner own_popNAt own_pushLAt own_popVecLoop own_pushVecAt own_popVecAt own_pushVec own_ipNext
  own_ipSetDelta own_ipTurn own_modSS own_popString : own.
Ltac own_ :=
  match goal with
  | |- own (mbind _ _) => apply own_bind; [own_|intros; own_]
  | |- own (if ?b then _ else _) => destruct b; own_
  | |- own (match ?x with _ => _ end) => destruct x; own_
  | |- own (modR _) => apply own_modR; same_ip
  | |- own _ => solve [auto with own] || (progress (unfold ok, reterr, popS, pushS, popAt, pushAt, popVec, popVecN, pushString, sizeS, getS, ageS, clearS,
      ipGet, ipSetPos, ipSetStorage, ipReflect, ipLeft, ipRight, ipStop, isMode, getDelta, getPos, getStorage, popL, pushL, pushBack, runnerPush, modSem, set_fisher, fish_state); own_)
  end.

Create HintDb does discriminated.
#[local] Hint Resolve does_fput does_getchar does_rnd does_clock does_localtime does_changeMode does_killAll
  does_grow_dims : does.
Ltac does_ :=
  match goal with
  | |- does (mbind _ _) => apply does_bind; [does_|intros; does_]
  | |- does (if ?b then _ else _) => destruct b; does_
  | |- does (match ?x with _ => _ end) => destruct x; does_
  | |- does (modW _) => apply does_world; intros; repeat split
  | |- does (repM _ _) => apply does_repM; does_
  | |- does (loopM _ _ _) => apply does_loopM; intros; does_
  | |- does (rangeM _ _ _ _) => apply does_rangeM; intros; does_
  | |- does _ => solve [auto with does] || solve [apply own_does; own_] || (progress (cbv beta delta [out toggleMode setMode clearMode ipPut binop unop]); does_)
  end.

(** Fingerprints. *)
Lemma does_binop f : does (binop f). Proof. unfold binop. does_. Qed.
Lemma does_unop f : does (unop f). Proof. unfold unop. does_. Qed.
#[local] Hint Resolve does_binop does_unop : does.
Lemma does_bitw c : does (bitw_exec c). Proof. unfold bitw_exec. does_. Qed.
Lemma does_bool c : does (bool_exec c). Proof. unfold bool_exec. does_. Qed.
Lemma does_base c : does (base_exec c).
Proof. unfold base_exec, cin_word. does_. Qed.
Lemma does_cpli c : does (cpli_exec c).
Proof. unfold cpli_exec, cpli_op, popComplex, pushComplex. does_. Qed.
Lemma does_dirf c : does (dirf_exec c).
Proof.
  unfold dirf_exec.
  assert (D : forall p, does (log (EvChdir p)) /\ does (log (EvMkdir p)) /\ does (log (EvRmdir p)))
    by (intros p; repeat split; apply does_dir; eauto).
  destruct (c =? 67); [|destruct (c =? 77); [|destruct (c =? 82); [|does_]]].
  - apply does_bind; [does_|intros d]. apply does_bind; [does_|intros w].
    destruct (w_dir w d); [|does_]. apply does_bind; [apply D|intros; does_].
  - apply does_bind; [does_|intros d]. apply does_bind; [apply D|intros; does_].
  - apply does_bind; [does_|intros d]. apply does_bind; [does_|intros w].
    destruct (w_dir w d); [|does_]. apply does_bind; [apply D|intros; does_].
Qed.
Lemma sem_pop_other a f i : is_letter a = true -> is_letter i = false -> sem_pop a f i = f i.
Proof. intros A I. unfold sem_pop. destruct (Z.eqb_spec i a); [congruence|reflexivity]. Qed.
Lemma sem_push_other a x f i : is_letter a = true -> is_letter i = false -> sem_push a x f i = f i.
Proof. intros A I. unfold sem_push. destruct (Z.eqb_spec i a); [congruence|reflexivity]. Qed.
Lemma does_sem_pop a : is_letter a = true -> does (modSem (sem_pop a)).
Proof.
  intros A. apply own_does, own_modR. intros r. unfold Same_ip, Same_sem. cbn.
  repeat split; auto. intros i I. now apply sem_pop_other.
Qed.
Lemma does_sem_push a x : is_letter a = true -> does (modSem (sem_push a x)).
Proof.
  intros A. apply own_does, own_modR. intros r. unfold Same_ip, Same_sem. cbn.
  repeat split; auto. intros i I. now apply sem_push_other.
Qed.
#[local] Hint Resolve does_sem_pop does_sem_push : does.
Lemma does_fing c : does (fing_exec c).
Proof.
  unfold fing_exec. cbv zeta.
  destruct (c =? 88); [|destruct (c =? 89); [|destruct (c =? 90); [|does_]]];
    (apply does_bind; [does_|intros a]);
    destruct (is_letter (fing_letter a)) eqn:A; cbn [negb]; try solve [does_];
    (apply does_bind; [does_|intros b]);
    destruct (is_letter (fing_letter b)) eqn:B; does_.
Qed.
Lemma does_set_fisher b : does (set_fisher b).
Proof.
  apply own_does. unfold set_fisher. apply own_modR. intros r. destruct (r_fish r) as [[]|]; same_ip.
Qed.
Lemma does_modSel f : does (modSel f).
Proof. unfold modSel. does_. Qed.
#[local] Hint Resolve does_set_fisher does_modSel : does.
Lemma does_fish c : does (fish_exec c).
Proof. unfold fish_exec. does_. Qed.
Lemma does_fixp c : does (fixp_exec c).
Proof. unfold fixp_exec, uniform. does_. Qed.
Lemma does_frth c : does (frth_exec c).
Proof. unfold frth_exec, vla. does_. Qed.
Lemma does_hrti c : does (hrti_exec c).
Proof. unfold hrti_exec. does_. Qed.
Lemma does_on_other {A} id (f : stk -> A * stk) : (forall k, Aged k (snd (f k))) -> does (on_other_top id f).
Proof.
  intros Ag s a s' E. unfold on_other_top in E. apply run_bind_inv in E. destruct E as (r & s1 & E1 & E).
  unfold find_runner in E1. apply run_bind_inv in E. destruct E as (ar & s2 & E2 & E).
  unfold lift, run_top in E2. destruct (ss_top (r_ss r)) as [k|e] eqn:Ek; [|discriminate]. cbn [bind] in E2.
  inversion E2; subst ar s2. clear E2. apply run_bind_inv in E. destruct E as ([] & s3 & E3 & E).
  inversion E; subst. clear E. unfold on_runner in E3. cbn [fst snd] in *.
  destruct (Z.eqb_spec id (r_id (s_r s))).
  - inversion E1; subst. rewrite Z.eqb_refl in E3. inversion E3; subst. apply effs_one, eff_own. same_ip.
  - destruct (w_run (s_w s) id) as [r0|] eqn:Er; inversion E1; subst.
    destruct (Z.eqb_spec id (r_id (s_r s1))); [contradiction|]. rewrite Er in E3. inversion E3; subst.
    apply effs_one. apply (eff_other t s1 id r); auto. apply poked_ss, (touched_set _ k); auto.
Qed.
Lemma aged_pop k : Aged k (snd (stk_pop k)).
Proof. right. unfold stk_pop. destruct (s_list k); [|destruct (Z.testbit _ _)]; cbn; lia. Qed.
Lemma does_pop_other id : does (on_other_top id stk_pop).
Proof. apply does_on_other, aged_pop. Qed.
Lemma does_peek_other id : does (on_other_top id (fun k => (stk_peek k, k))).
Proof. apply does_on_other. intros. apply aged_refl. Qed.
Lemma does_push_other id x : does (on_other_top id (fun k => (tt, stk_push x k))).
Proof. apply does_on_other. intros. right. cbn. lia. Qed.
#[local] Hint Resolve does_pop_other does_peek_other does_push_other : does.
Lemma does_iipc c : does (iipc_exec c).
Proof. unfold iipc_exec, getRunner. does_. Qed.
Lemma does_jstr_get n : forall fld p v, does (jstr_get n fld p v).
Proof. induction n as [|n IH]; intros; cbn [jstr_get]; [does_|]. does_; auto. Qed.
Lemma does_jstr_put n : forall fld p v, does (jstr_put n fld p v).
Proof. induction n as [|n IH]; intros; cbn [jstr_put]; [does_|]. does_; auto. Qed.
#[local] Hint Resolve does_jstr_get does_jstr_put : does.
Lemma does_jstr fld c : does (jstr_exec fld c).
Proof. unfold jstr_exec. does_. Qed.
Lemma does_long c : does (long_exec c).
Proof. unfold long_exec, long_op, popLong, pushLong. does_. Qed.
Lemma does_mode c : does (mode_exec c).
Proof. unfold mode_exec. does_. Qed.
Lemma does_mvrs_copy F us a b ud c : does (mvrs_copy F us a b ud c).
Proof. unfold mvrs_copy. does_. Qed.
#[local] Hint Resolve does_mvrs_copy : does.
Lemma does_mvrs F c : t = true \/ (c <> 71 /\ c <> 74) -> does (mvrs_exec F c).
Proof.
  intros T. unfold mvrs_exec. cbv zeta.
  destruct (c =? 66).
  { assert (G : forall name dim std mode,
      does (if (dim <? 0) || (2 ^ 32 <=? dim) then fail BadThrow
            else w <- getW ;;
                 w' <- lift (multi_create F (mvrs_cfg name (Z.to_nat dim) std mode) w) ;;
                 modW (fun _ => w') ;;; ok)).
    { intros. destruct (_ || _); [apply own_does, own_fail|]. apply does_create. }
    apply does_bind; [does_|intros d0]. apply does_bind; [does_|intros lng].
    apply does_bind; [does_|intros f0]. apply does_bind; [does_|intros name].
    apply does_bind; [does_|intros cf]. destruct (_ && _); [does_|].
    destruct (lng =? 0); [apply G|]. destruct (lng =? 1); [apply G|]. destruct (lng =? 2); [apply G|does_]. }
  destruct (c =? 67); [does_|]. destruct (c =? 70); [does_|].
  destruct (Z.eqb_spec c 71).
  { destruct T as [T|[T _]]; [|contradiction]. apply does_bind; [does_|intros d]. apply does_bind; [does_|intros p]. apply does_bind; [does_|intros name].
    apply does_transfer; auto. intros _. does_. }
  destruct (Z.eqb_spec c 74).
  { destruct T as [T|[_ T]]; [|contradiction]. apply does_bind; [does_|intros name]. apply does_transfer; auto. intros _. does_. }
  does_.
Qed.
Lemma does_nfun c : does (nfun_exec c).
Proof. unfold nfun_exec, nfun_inv, nfun_if, nfun_axis, nfun_go. does_. Qed.
Lemma does_orth fld c : does (orth_exec fld c).
Proof. unfold orth_exec. does_. Qed.
Lemma does_perl c : does (perl_exec c).
Proof.
  unfold perl_exec.
  destruct (c =? 69); [|destruct (c =? 73); [|does_]].
  - apply does_if; [|does_]. apply doesIf_own; [own_|intros code].
    apply doesIf_bind; [|intros; does_]. apply doesIf_bind; [apply doesIf_system|intros; does_].
  - apply does_if; [|does_]. apply doesIf_own; [own_|intros code].
    apply doesIf_bind; [|intros; does_]. apply doesIf_bind; [apply doesIf_system|intros; does_].
Qed.
Lemma does_refc F c : does (refc_exec F c).
Proof.
  unfold refc_exec. destruct (c =? 82); [|does_].
  apply does_bind; [does_|intros v]. intros s e s' E. apply run_bind_inv in E. destruct E as (x & s1 & E1 & E2).
  assert (D : does (loopM F refc_try tt)) by (unfold refc_try; cbv zeta; does_).
  assert (N : assoc x (w_refs (s_w s1)) = None).
  { unfold loopM in E1.
    refine (loop_inv _ (fun _ => True) (fun y => assoc (fst y) (w_refs (s_w (snd y))) = None) _ _ _ I _ _ E1); [auto|].
    intros [a2 s2] y _. cbn [fst snd]. unfold refc_try, mbind, rnd, getW, ret.
    cbn [s_w]. match goal with |- context [assoc ?z ?l] => destruct (assoc z l) eqn:Ea end; [discriminate|].
    intros X. inversion X; subst. exact Ea. }
  eapply effs_trans; [exact (D _ _ _ E1)|].
  apply run_bind_inv in E2. destruct E2 as (a & s2 & E3 & E4). unfold modW in E3. inversion E3; subst.
  eapply effs_step; [apply (eff_ref t s1 x v N)|].
  assert (K : does (pushS x ;;; ok)) by does_. exact (K _ _ _ E4).
Qed.
Lemma does_strn_put fld str : forall va, does (strn_put fld va str).
Proof. induction str as [|x t0 IH]; intros; cbn [strn_put]; [does_|]. does_; auto. Qed.
#[local] Hint Resolve does_strn_put : does.
Lemma does_strn F fld c : does (strn_exec F fld c).
Proof. unfold strn_exec, strn_get_step. cbv zeta. does_. Qed.
Lemma does_subr c : does (subr_exec c).
Proof. unfold subr_exec, subr_offset, vla. does_. Qed.
Lemma does_toys_fold n f : forall a, does (toys_fold n f a).
Proof. induction n as [|n IH]; intros; cbn [toys_fold]; [does_|]. does_; auto. Qed.
#[local] Hint Resolve does_toys_fold : does.
Lemma does_toys F fld c : does (toys_exec F fld c).
Proof. unfold toys_exec, toys_copy_instr, toys_copy, toys_side, toys_inc. cbv zeta. does_. Qed.

Lemma does_fpdp c : does (fpdp_exec c).
Proof. unfold fpdp_exec. cbv zeta. does_. Qed.
Lemma does_fpsp c : does (fpsp_exec c).
Proof. unfold fpsp_exec. does_. Qed.
Lemma does_fprt c : does (fprt_exec c).
Proof. unfold fprt_exec. cbv zeta. does_. Qed.

Lemma does_fp F n fld c : t = true \/ n <> FP_MVRS \/ (c <> 71 /\ c <> 74) -> does (fp_exec F n fld c).
Proof.
  intros T. unfold fp_exec.
  repeat match goal with |- does (if ?b then _ else _) => destruct b eqn:? end;
    try (apply does_mvrs; destruct T as [T|[T|T]]; auto; exfalso; apply T; now apply Z.eqb_eq);
    auto using does_base, does_bitw, does_bool, does_cpli, does_dirf, does_fing, does_fish, does_fixp, does_fpdp, does_fpsp, does_fprt, does_frth,
      does_hrti, does_iipc, does_jstr, does_long, does_mode, does_nfun, does_orth, does_perl, does_refc,
      does_strn, does_subr, does_toys.
  apply own_does, own_fail.
Qed.

(** Core instructions. *)
Lemma does_pushStrings l : does (pushStrings l).
Proof. induction l as [|b t0 IH]; cbn [pushStrings]; [does_|]. apply does_bind; [does_|intros]. apply does_bind; [auto|intros; does_]. Qed.
Lemma does_push_sizes k : does (push_sizes k).
Proof.
  induction k as [|k IH]; cbn [push_sizes]; [does_|]. apply does_bind; [does_|intros]. apply does_bind; [does_|intros].
  apply does_bind; [does_|intros]. apply does_bind; [auto|intros; does_].
Qed.
#[local] Hint Resolve does_pushStrings does_push_sizes : does.
Lemma does_sysInfo n : does (sysInfo n).
Proof. unfold sysInfo, pushAll. cbv zeta. does_. Qed.
Lemma does_popFing n : forall a, does (popFing n a).
Proof. induction n as [|n IH]; intros; cbn [popFing]; [does_|]. does_; auto. Qed.
#[local] Hint Resolve does_sysInfo does_popFing : does.
(** Fingerprints only bind letters. *)
Lemma fp_letters_letters n l : fp_letters n = Some l -> Forall (fun c => is_letter c = true) l.
Proof.
  assert (H : forall bs, forallb (fun e => forallb is_letter (snd e)) bs = true ->
    assoc n bs = Some l -> Forall (fun c => is_letter c = true) l).
  { induction bs as [|[m x] bs IH]; cbn [assoc forallb snd]; intros B E; [discriminate|].
    apply andb_prop in B. destruct B as (B1 & B2). destruct (m =? n); [|now apply IH].
    inversion E; subst. apply Forall_forall. intros c I. rewrite forallb_forall in B1. now apply B1. }
  apply H. vm_compute. reflexivity.
Qed.
Lemma sem_pushes_other l i : is_letter i = false -> Forall (fun e => is_letter (fst e) = true) l ->
  forall f, sem_pushes l f i = f i.
Proof.
  intros I. induction 1 as [|e l E _ IH]; intros f; [reflexivity|]. unfold sem_pushes in *. cbn [fold_left].
  rewrite IH. now apply sem_push_other.
Qed.
Lemma fp_activate_other n fld f i : is_letter i = false -> fp_activate n fld f i = f i.
Proof.
  intros I. unfold fp_activate. destruct (n =? FP_DBUG); [reflexivity|].
  destruct (fp_letters n) as [l|] eqn:E; [|reflexivity]. apply sem_pushes_other; auto.
  apply fp_letters_letters in E. rewrite Forall_forall in *. intros e H. apply in_map_iff in H.
  destruct H as (c & <- & H). cbn [fst]. auto.
Qed.
Lemma sem_pops_other l i : is_letter i = false -> Forall (fun c => is_letter c = true) l ->
  forall f, fold_left (fun f c => sem_pop c f) l f i = f i.
Proof.
  intros I. induction 1 as [|e l E _ IH]; intros f; [reflexivity|]. cbn [fold_left].
  rewrite IH. now apply sem_pop_other.
Qed.
Lemma same_ip_sem r f : (forall i, is_letter i = false -> f i = r_sem r i) -> Same_ip r (set_r_sem f r).
Proof. intros H. unfold Same_ip, Same_sem. cbn [r_id r_uni r_fld r_parent r_stopped r_strats r_sem set_r_sem]. auto 10. Qed.
Lemma same_ip_construct n r : Same_ip r (fp_construct n r).
Proof.
  unfold fp_construct. repeat match goal with |- context [if ?b then _ else _] => destruct b end;
  unfold Same_ip, Same_sem; cbn; auto 10.
Qed.
Lemma does_fp_load : forall fl n r br, fp_load fl n r = Ok br -> Same_ip r (snd br).
Proof.
  intros fl n r br E. unfold fp_load in E. destruct (assoc n (r_avail r)) as [fld|].
  { inversion E; subst. clear E. cbn [snd].
    eapply same_ip_trans; [|apply same_ip_sem; intros i I; rewrite fp_activate_other by exact I; reflexivity].
    unfold Same_ip, Same_sem; cbn; auto 10. }
  destruct (fl n); [discriminate|]. destruct (fp_letters n).
  - inversion E; subst. clear E. cbn [snd].
    eapply same_ip_trans; [|apply same_ip_sem; intros i I; rewrite fp_activate_other by exact I; reflexivity].
    eapply same_ip_trans; [apply (same_ip_construct n)|]. unfold Same_ip, Same_sem; cbn; auto 10.
  - inversion E; subst. apply same_ip_refl.
Qed.
Lemma same_ip_unload n r : Same_ip r (snd (fp_unload n r)).
Proof.
  unfold fp_unload. destruct (assoc n (r_avail r)), (fp_letters n) eqn:E; try solve [apply same_ip_refl].
  cbn [snd]. eapply same_ip_trans;
    [apply same_ip_sem; intros i I; apply sem_pops_other; [exact I|eapply fp_letters_letters; exact E]|].
  unfold Same_ip, Same_sem; cbn; auto 10.
Qed.
Lemma does_load : does load_.
Proof.
  unfold load_. apply does_bind; [does_|intros c]. apply does_bind; [|intros; unfold switchPut; does_].
  destruct (c_fing c); [|does_]. apply does_bind; [does_|intros count]. apply does_bind; [does_|intros n].
  intros s a s' E. unfold mbind at 1 in E. unfold getR in E. unfold mbind at 1 in E. unfold getW in E.
  apply run_bind_inv in E. destruct E as (br & s1 & E1 & E). unfold lift in E1.
  destruct (fp_load (w_fl (s_w s)) n (s_r s)) as [br'|e] eqn:El; inversion E1; subst br' s1. clear E1.
  apply run_bind_inv in E. destruct E as ([] & s1 & E1 & E). inversion E1; subst s1.
  eapply effs_step; [apply eff_own; eapply does_fp_load; exact El|]. revert E.
  assert (D : does (if fst br then pushS (to_i64 n) ;;; pushS 1 ;;; ok else reterr EUnspec)) by does_.
  intros E. eapply D; exact E.
Qed.
Lemma does_unload : does unload_.
Proof.
  unfold unload_. apply does_bind; [does_|intros c]. apply does_bind; [|intros; unfold switchPut; does_].
  destruct (c_fing c); [|does_]. apply does_bind; [does_|intros count]. apply does_bind; [does_|intros n].
  intros s a s' E. unfold mbind at 1 in E. unfold getR in E.
  apply run_bind_inv in E. destruct E as ([] & s1 & E1 & E). inversion E1; subst s1.
  eapply effs_step; [apply eff_own; apply same_ip_unload|]. revert E.
  assert (D : does (if fst (fp_unload n (s_r s)) then ok else reterr EUnspec)) by does_.
  intros E. eapply D; exact E.
Qed.

Lemma same_ip_loads fl l : forall r r', fp_loads fl l r = Ok r' -> Same_ip r r'.
Proof.
  induction l as [|n l IH]; intros r r' E; cbn [fp_loads] in E.
  - inversion E; subst. apply same_ip_refl.
  - destruct (fp_load fl n r) as [br|e] eqn:El; [|discriminate]. cbn [bind] in E.
    eapply same_ip_trans; [eapply does_fp_load; exact El|]. now apply IH.
Qed.
Lemma same_id_strats fl fs l : forall r r', strats_construct fl fs l r = Ok r' -> Same_id r r'.
Proof.
  induction l as [|s l IH]; intros r r' E; cbn [strats_construct] in E.
  - inversion E; subst. apply same_ip_id, same_ip_refl.
  - destruct (strat_construct fl fs s r) as [r1|e] eqn:Es; [|discriminate]. cbn [bind] in E.
    eapply same_id_trans; [|apply IH; exact E].
    destruct s; cbn [strat_construct] in Es; try solve [inversion Es; subst; unfold Same_id; cbn; auto].
    destruct (fp_loads fl fs r) as [r2|e] eqn:Ef; [|discriminate]. cbn [bind] in Es. inversion Es; subst.
    eapply same_id_trans; [eapply same_ip_id, same_ip_loads; exact Ef|]. unfold Same_id; cbn; auto.
Qed.
(** The strategies give everything but the letters its core meaning, whatever
    fingerprints are loaded meanwhile. *)
Lemma sem_pushes_ext l i : forall f g, f i = g i -> sem_pushes l f i = sem_pushes l g i.
Proof.
  induction l as [|e l IH]; intros f g H; [exact H|]. unfold sem_pushes in *. cbn [fold_left].
  apply IH. unfold sem_push. destruct (Z.eqb_spec i (fst e)); [subst; now f_equal|exact H].
Qed.
Lemma strats_sem_from fl fs l : forall r r', strats_construct fl fs l r = Ok r' ->
  r_strats r' = r_strats r /\ forall g i, is_letter i = false -> r_sem r i = g i ->
    r_sem r' i = fold_left (fun f s => sem_pushes (strat_table s) f) l g i.
Proof.
  induction l as [|s l IH]; intros r r' E; cbn [strats_construct fold_left] in *.
  - inversion E; subst. auto.
  - destruct (strat_construct fl fs s r) as [r1|e] eqn:Es; [|discriminate]. cbn [bind] in E.
    destruct (IH _ _ E) as (I1 & I2).
    assert (G : r_strats r1 = r_strats r /\ forall g i, is_letter i = false -> r_sem r i = g i ->
      r_sem r1 i = sem_pushes (strat_table s) g i).
    { destruct s; cbn [strat_construct strat_table] in *;
        try solve [inversion Es; subst; split; [reflexivity|]; intros g i _ H; cbn [r_sem push_table set_r_sem set_r_handler];
                   unfold push_table; cbn [r_sem set_r_sem]; now apply sem_pushes_ext].
      destruct (fp_loads fl fs r) as [r2|e] eqn:Ef; [|discriminate]. cbn [bind] in Es. inversion Es; subst.
      destruct (same_ip_loads _ _ _ _ Ef) as (_ & _ & _ & _ & _ & S1 & S2).
      split; [exact S1|]. intros g i L H. unfold push_table. cbn [r_sem set_r_sem].
      apply sem_pushes_ext. now rewrite S2. }
    destruct G as (G1 & G2). split; [congruence|]. intros g i L H. apply I2; auto.
Qed.
Lemma strats_sem fl fs l r r' : strats_construct fl fs l r = Ok r' -> r_sem r = (fun _ => []) ->
  r_strats r' = r_strats r /\ forall i, is_letter i = false -> r_sem r' i = strat_sem l i.
Proof.
  intros E H. destruct (strats_sem_from _ _ _ _ _ E) as (A & B). split; [exact A|].
  intros i L. apply B; auto. now rewrite H.
Qed.
(** What construction leaves alone, besides the identity. *)
Definition Same_place (r r' : runner) : Prop :=
  r_pos r' = r_pos r /\ r_delta r' = r_delta r /\ r_storage r' = r_storage r /\ r_stopped r' = r_stopped r /\
  r_ss r' = r_ss r.
Lemma same_place_load fl n r br : fp_load fl n r = Ok br -> Same_place r (snd br).
Proof.
  intros E. unfold fp_load in E. destruct (assoc n (r_avail r)); [inversion E; subst; repeat split|].
  destruct (fl n); [discriminate|]. destruct (fp_letters n).
  - inversion E; subst. unfold fp_construct.
    repeat match goal with |- context [if ?b then _ else _] => destruct b end; repeat split.
  - inversion E; subst. repeat split.
Qed.
Lemma same_place_trans r r1 r2 : Same_place r r1 -> Same_place r1 r2 -> Same_place r r2.
Proof. unfold Same_place. intros (?&?&?&?&?) (?&?&?&?&?). repeat split; congruence. Qed.
Lemma same_place_loads fl l : forall r r', fp_loads fl l r = Ok r' -> Same_place r r'.
Proof.
  induction l as [|n l IH]; intros r r' E; cbn [fp_loads] in E.
  - inversion E; subst. repeat split.
  - destruct (fp_load fl n r) as [br|e] eqn:El; [|discriminate]. cbn [bind] in E.
    eapply same_place_trans; [eapply same_place_load; exact El|]. now apply IH.
Qed.
Lemma same_place_strats fl fs l : forall r r', strats_construct fl fs l r = Ok r' -> Same_place r r'.
Proof.
  induction l as [|s l IH]; intros r r' E; cbn [strats_construct] in E.
  - inversion E; subst. repeat split.
  - destruct (strat_construct fl fs s r) as [r1|e] eqn:Es; [|discriminate]. cbn [bind] in E.
    eapply same_place_trans; [|apply IH; exact E].
    destruct s; cbn [strat_construct] in Es; try solve [inversion Es; subst; repeat split].
    destruct (fp_loads fl fs r) as [r2|e] eqn:Ef; [|discriminate]. cbn [bind] in Es. inversion Es; subst.
    eapply same_place_trans; [eapply same_place_loads; exact Ef|]. repeat split.
Qed.
Lemma clone_fields fl id u o r : runner_clone fl id u o = Ok r ->
  r_id r = id /\ r_uni r = r_uni o /\ r_fld r = r_uni o /\ r_parent r = Some (r_id o) /\
  r_stopped r = r_stopped o /\ r_storage r = r_storage o /\
  r_ss r = ss_setmode (c_mode (u_cfg u)) (ss_copy (r_ss o)) /\
  r_strats r = r_strats o /\ (forall i, is_letter i = false -> r_sem r i = strat_sem (r_strats o) i) /\
  exists d, vrev (r_delta o) = Ok d /\
    (if r_stopped o then Ok (r_pos o, d)
     else ip_next (c_torus (u_cfg u)) (c_dims (u_cfg u)) (u_field u) (r_pos o) d) = Ok (r_pos r, r_delta r).
Proof.
  intros E. unfold runner_clone in E.
  match type of E with context [strats_construct fl (r_loaded o) (r_strats o) ?b] => set (b0 := b) in E end.
  destruct (strats_construct fl (r_loaded o) (r_strats o) b0) as [r1|e] eqn:Es; [|discriminate]. cbn [bind] in E.
  pose proof (same_id_strats _ _ _ _ _ Es) as (I1 & I2 & I3 & I4 & _).
  destruct (strats_sem _ _ _ _ _ Es eq_refl) as (Q1 & Q2).
  destruct (same_place_strats _ _ _ _ _ Es) as (P1 & P2 & P3 & P4 & P5).
  subst b0. cbn in I1, I2, I3, I4, Q1, P1, P2, P3, P4, P5.
  rewrite P1, P2, P4 in E.
  destruct (vrev (r_delta o)) as [d|e] eqn:Ev; [|discriminate]. cbn [bind] in E.
  match type of E with bind ?x _ = _ => destruct x as [[p' d']|e] eqn:Ex; [|discriminate] end.
  cbn [bind] in E. inversion E; subst r. clear E. cbn.
  repeat split; auto; try congruence.
  exists d. split; auto.
Qed.
Lemma does_thread : does (c <- getC ;; if c_conc c then cloneRunner ;;; ok else reterr ENotAvail).
Proof.
  apply does_if; [|does_]. intros s a s' P E. unfold cloneRunner in E.
  apply run_bind_inv in E. destruct E as ([] & s1 & E & E2). inversion E2; subst s1 a. clear E2.
  unfold mbind, getR, getU, getW, lift in E.
  destruct (runner_clone _ _ _ _) as [r'|e] eqn:Ec; [|discriminate]. inversion E; subst.
  destruct (clone_fields _ _ _ _ _ Ec) as (A1 & A2 & A3 & A4 & A5 & _ & _ & A8 & A9 & _).
  apply effs_one. now apply eff_clone.
Qed.
Lemma does_fileIn : does fileIn.
Proof.
  unfold fileIn. apply does_if; [|does_].
  apply doesIf_own; [own_|intros path]. apply doesIf_own; [own_|intros flags]. apply doesIf_own; [own_|intros va0].
  apply doesIf_own; [own_|intros st']. apply doesIf_own; [own_|intros va]. apply doesIf_own; [own_|intros w].
  destruct (w_fs w path); [|apply doesIf_does; does_].
  apply doesIf_bind. { intros s a s' P E. inversion E; subst. apply effs_one. now apply eff_read. }
  intros _. apply does_bind; [does_|intros r]. apply does_bind; [does_|intros df].
  apply does_bind; [|intros; does_].
  intros s a s' E. inversion E; subst. apply effs_one, eff_field. eauto.
Qed.
Lemma does_fileOut F : does (fileOut F).
Proof.
  unfold fileOut. apply does_if; [|does_].
  apply doesIf_own; [own_|intros path]. apply doesIf_own; [own_|intros flags]. apply doesIf_own; [own_|intros va0].
  apply doesIf_own; [own_|intros st']. apply doesIf_own; [own_|intros va]. apply doesIf_own; [own_|intros vb].
  apply doesIf_own; [own_|intros w].
  destruct (w_wr w path); [|apply doesIf_does; does_].
  apply doesIf_own; [own_|intros r]. apply doesIf_own; [own_|intros data].
  intros s a s' P E. inversion E; subst. apply effs_one. exact (eff_write t s path data P).
Qed.
#[local] Hint Resolve does_load does_unload does_thread does_fileIn does_fileOut : does.

Lemma does_numIn : does numIn. Proof. unfold numIn. does_. Qed.
Lemma does_charIn : does charIn. Proof. unfold charIn. does_. Qed.
Lemma does_jumpOver F : does (jumpOver F). Proof. unfold jumpOver, jump_over_step. does_. Qed.
Lemma does_iterate F ex : (forall c, does (ex c)) -> does (iterate F ex).
Proof.
  intros H. unfold iterate, exec_again. cbv zeta.
  apply does_bind; [does_|intros v]. apply does_bind; [does_|intros]. apply does_bind; [does_|intros].
  apply does_bind; [does_|intros]. apply does_bind; [unfold iter_step, iter_semi_step; does_|intros c].
  apply does_bind; [does_|intros]. apply does_bind; [does_|intros].
  apply does_bind; [|intros; does_]. apply does_repM. apply does_bind; [auto|intros; does_].
Qed.
Lemma does_exec : does (c <- getC ;; if c_exec c then
     cmd <- popString ;; x <- system cmd ;; pushS (to_i32 x) ;;; ok else reterr ENotAvail).
Proof.
  apply does_if; [|does_]. apply doesIf_own; [own_|intros cmd].
  apply doesIf_bind; [apply doesIf_system|intros; does_].
Qed.
#[local] Hint Resolve does_numIn does_charIn does_jumpOver does_exec : does.
Lemma does_meth F ex m : (forall c, does (ex c)) -> does (run_meth F ex m).
Proof.
  intros H. destruct m; cbn [run_meth]; cbv zeta; try solve [does_]; try solve [now apply does_iterate];
    unfold ifDelta, uniform, under, begin_, end_, switchPut; does_.
Qed.
Lemma does_string i : does (exec_string i).
Proof. unfold exec_string. cbv zeta. does_. Qed.
Lemma does_act F ex a : (forall c, does (ex c)) ->
  t = true \/ (forall n fld c, a = AFing n fld c -> n <> FP_MVRS \/ (c <> 71 /\ c <> 74)) ->
  does (run_act F ex a).
Proof.
  intros H T. destruct a as [m|n fld c|]; cbn [run_act]; [now apply does_meth| |does_].
  apply does_fp. destruct T as [T|T]; [auto|right]. eapply T; eauto.
Qed.
Lemma own_errorHandler e : own (errorHandler e).
Proof. unfold errorHandler. destruct e; own_. Qed.
Lemma does_execute F D : t = true -> forall i, does (execute F D i).
Proof.
  intros T. induction D as [|D IH]; intros i; cbn [execute]; [apply own_does, own_fail|].
  apply does_bind; [does_|intros r]. destruct (r_string r); [apply does_string|].
  unfold exec_normal. apply does_bind; [does_|intros r']. destruct (sem_top i (r_sem r')) as [x|]; [|does_].
  apply does_bind; [does_|intros dive]. destruct (dive && negb (sm_move x)); [does_|].
  apply does_act; auto.
Qed.
Lemma does_tick F D : t = true -> does (tick F D).
Proof.
  intros T. apply does_loopM. intros []. unfold tick_step. apply does_bind; [does_|intros dbg]. destruct dbg; [does_|].
  apply does_bind; [does_|intros i]. apply does_bind; [now apply does_execute|intros e].
  apply does_bind; [does_|intros r]. apply does_bind; [|intros; does_].
  destruct e; try does_; unfold errorHandler; does_.
Qed.

End Effs.

(** Everything a tick does is a sequence of elementary effects. *)
Theorem tick_effs F D s s' : tick F D s = Ok (tt, s') -> effs true s s'.
Proof. now apply does_tick. Qed.
Theorem execute_effs F D i s e s' : execute F D i s = Ok (e, s') -> effs true s s'.
Proof. now apply does_execute. Qed.
