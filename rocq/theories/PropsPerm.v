(** * C46: what a program without permissions cannot do. *)

From Coq Require Import ZArith List Bool Lia.
From Verif Require Import Base BaseProofs VectorModel StackModel FieldModel
  World IpModel LoadModel FingModel CoreModel UniModel ExecProofs FlowProofs States Effects SchedProofs PropsSched.
Import ListNotations.
Open Scope Z_scope.

(** What universe 0 permits. *)
Definition permits (w : world) : bool * bool * bool :=
  let c := u_cfg (w_uni w 0) in (c_exec c, c_fs c, c_conc c).
Definition needs (e : event) (w : world) : Prop :=
  let c := u_cfg (w_uni w 0) in
  match e with
  | EvSystem _ => c_exec c = true
  | EvRead _ | EvWrite _ _ => c_fs c = true
  | _ => True
  end.
(** [w'] follows [w] with the same permissions, and what happened in between was
    permitted. *)
Definition Permitted (w w' : world) : Prop :=
  permits w' = permits w /\
  (forall e, In e (w_log w') -> In e (w_log w) \/ needs e w) /\
  (c_fs (u_cfg (w_uni w 0)) = false -> w_fs w' = w_fs w) /\
  (c_conc (u_cfg (w_uni w 0)) = false -> w_nrun w' = w_nrun w).

Lemma permitted_refl w : Permitted w w.
Proof. repeat split; auto. Qed.
Lemma permits_inv w w' : permits w' = permits w ->
  c_exec (u_cfg (w_uni w' 0)) = c_exec (u_cfg (w_uni w 0)) /\
  c_fs (u_cfg (w_uni w' 0)) = c_fs (u_cfg (w_uni w 0)) /\
  c_conc (u_cfg (w_uni w' 0)) = c_conc (u_cfg (w_uni w 0)).
Proof. unfold permits. intros H. inversion H. auto. Qed.
Lemma permitted_trans w w1 w2 : Permitted w w1 -> Permitted w1 w2 -> Permitted w w2.
Proof.
  intros (P1 & L1 & F1 & C1) (P2 & L2 & F2 & C2). pose proof (permits_inv _ _ P1) as (X1 & X2 & X3).
  split; [congruence|]. split; [|split].
  - intros e He. destruct (L2 e He) as [H|H]; [auto|right]. unfold needs in *. destruct e; congruence || auto.
  - intros Z. rewrite F2 by congruence. auto.
  - intros Z. rewrite C2 by congruence. auto.
Qed.
Lemma permitted_uni w n f : (forall u, exists c x q b e, f u = {| u_cfg := c; u_field := x; u_queue := q; u_running := b; u_exit := e |} /\
    c_exec c = c_exec (u_cfg u) /\ c_fs c = c_fs (u_cfg u) /\ c_conc c = c_conc (u_cfg u)) -> Permitted w (upd_uni n f w).
Proof.
  intros H. split; [|split; [|split]]; auto.
  unfold permits. destruct (Nat.eq_dec 0 n) as [<-|N]; [rewrite upd_uni_same|now rewrite upd_uni_other].
  destruct (H (w_uni w 0)) as (c & x & q & b & e & -> & X1 & X2 & X3). cbn [u_cfg]. congruence.
Qed.
Ltac uni_part := let u := fresh "u" in intros u; destruct u; do 5 eexists; split; [reflexivity|cbn; auto].

Lemma eff_permitted t s s' : eff t s s' -> r_uni (s_r s) = 0%nat -> w_nuni (s_w s') = 1%nat -> w_nuni (s_w s) = 1%nat ->
  Permitted (s_w s) (s_w s').
Proof.
  intros E U N' N. assert (X : my_cfg s = u_cfg (w_uni (s_w s) 0)) by (unfold my_cfg; now rewrite U).
  destruct E; cbn [s_w s_r] in *; rewrite ?X in *; try (apply permitted_refl).
  - apply permitted_uni. uni_part.
  - repeat split; auto.
  - apply permitted_uni. intros u. destruct (H u) as (x & ->). destruct u. do 5 eexists. split; [reflexivity|auto].
  - apply permitted_uni. intros u. destruct (H u) as (m & d & ->). destruct u. do 5 eexists. split; [reflexivity|cbn; auto].
  - apply permitted_uni. uni_part.
  - apply permitted_uni. uni_part.
  - destruct H as (H1 & H2 & H3 & H4 & H5 & H6 & _). unfold Permitted, permits. rewrite H1, H4, H5, H6. auto.
  - split; [reflexivity|]. split; [|auto]. intros e0 [<-|He]; [|auto]. right. destruct H as (p & [->|[->| ->]]); exact I.
  - split; [reflexivity|]. split; [|auto]. intros e0 [<-|He]; [|auto]. right. exact H.
  - split; [reflexivity|]. split; [|split; [congruence|auto]]. intros e0 [<-|He]; [|auto]. right. exact H.
  - split; [reflexivity|]. split; [|auto]. intros e0 [<-|He]; [|auto]. right. exact H.
  - split; [|split; [auto|split; [auto|congruence]]].
    unfold permits, add_runner. destruct (Nat.eq_dec 0 (r_uni (s_r s))) as [Y|Y];
      [rewrite <- Y, upd_uni_same|rewrite upd_uni_other by auto]; reflexivity.
  - cbn in N'. lia.
  - repeat split; auto.
Qed.
Lemma effs_permitted t s s' : effs t s s' -> SingleS s -> w_nuni (s_w s') = 1%nat -> Permitted (s_w s) (s_w s').
Proof.
  intros E. induction E as [|s s1 s2 H E IH]; intros S N; [apply permitted_refl|].
  pose proof (effs_grows _ _ _ E) as (G & _). pose proof (eff_grows _ _ _ H) as (G1 & _).
  assert (N0 : w_nuni (s_w s) = 1%nat) by apply S. assert (N1 : w_nuni (s_w s1) = 1%nat) by lia.
  eapply permitted_trans; [eapply eff_permitted; eauto; apply S|]. apply IH; auto. eapply eff_single; eauto.
Qed.
Lemma settled_permitted n id r1 w1 w' : Settled n id r1 w1 w' -> Permitted w1 w'.
Proof.
  unfold Settled. intros H.
  assert (T : Permitted w1 (upd_uni n (fun u => set_u_queue (tl (u_queue u)) u) w1)) by (apply permitted_uni; uni_part).
  destruct (Nat.eqb _ _); [destruct (r_stopped r1)|]; subst w'; auto; (eapply permitted_trans; [exact T|]).
  apply permitted_uni; uni_part.
Qed.
Lemma step_permitted F D n w w' : uni_step F D n w = Ok w' -> (n < w_nuni w)%nat -> Single w -> w_nuni w' = 1%nat -> Permitted w w'.
Proof.
  intros E L S N. pose proof S as (N1 & I & ND & A & U). assert (n = 0%nat) by lia. subst n.
  destruct (queue w 0) as [|id q] eqn:Q; [rewrite (uni_step_idle _ _ _ _ _ E Q); apply permitted_refl|].
  destruct (uni_step_inv F D 0 w w' id q E Q) as (r & w1 & r1 & R & HR & HS).
  destruct (settled_nrun _ _ _ _ _ HS) as (_ & HN). eapply permitted_trans; [|eapply settled_permitted; exact HS].
  unfold Ran in HR. destruct (r_stopped r); [destruct HR as (-> & _); apply permitted_refl|].
  destruct HR as (s & T & Ew & Er). apply tick_effs in T. subst w1.
  eapply permitted_trans; [|unfold upd_run; repeat split; auto].
  apply (effs_permitted _ {| s_w := w; s_r := r |} s T).
  - split; [exact S|]. cbn [s_w s_r]. split; [eauto|]. rewrite Q. left. symmetry. apply (I _ _ R).
  - rewrite <- N, HN. reflexivity.
Qed.
Lemma run_permitted F D sched : forall w w', uni_run F D sched w = Ok w' ->
  (forall n, In n sched -> n = 0%nat) -> Single w -> w_nuni w' = 1%nat -> Permitted w w'.
Proof.
  induction sched as [|n t IH]; intros w w' E B S N; cbn [uni_run] in E; [inversion E; apply permitted_refl|].
  destruct (uni_step F D n w) as [w1|e] eqn:E1; [|discriminate]. cbn [bind] in E.
  assert (n = 0%nat) by (apply B; now left). subst n.
  assert (L : (0 < w_nuni w)%nat) by (destruct S as (-> & _); lia).
  pose proof (step_nuni _ _ _ _ _ E1 L) as G1.
  assert (G2 : (w_nuni w1 <= w_nuni w')%nat).
  { eapply run_nuni; [exact E|]. intros m Hm. rewrite (B m (or_intror Hm)). lia. }
  assert (N1 : w_nuni w1 = 1%nat) by lia.
  eapply permitted_trans; [eapply step_permitted; eauto|].
  apply IH; [exact E|intros m Hm; apply B; now right|eapply step_single; eauto|exact N].
Qed.
Lemma boot_permits F data c input fs rnd w : boot F data c (world0 input fs rnd) = Ok w ->
  permits w = (c_exec c, c_fs c, c_conc c) /\ w_log w = [] /\ w_fs w = fs /\ w_nrun w = 1 /\
  forall id, id <> 0 -> w_run w id = None.
Proof.
  unfold boot. destruct (multi_create_file F data c (world0 input fs rnd)) as [w1|e] eqn:E1; [|discriminate].
  cbn [bind]. unfold multi_create_file in E1. destruct (loop _ _ _) as [name|e]; [|discriminate]. cbn [bind] in E1.
  destruct (f_parse _ _ _ _) as [df|e]; [|discriminate]. cbn [bind] in E1. cbv zeta in E1.
  match type of E1 with Ok ?x = Ok w1 => assert (E2 : w1 = x) by congruence end. clear E1. unfold create_runner.
  match goal with |- bind ?x _ = _ -> _ => destruct x as [r|e] eqn:Er; [|discriminate] end. cbn [bind].
  intros E. match type of E with Ok ?x = Ok w => assert (E3 : w = x) by congruence end. clear E. subst w.
  destruct (runner_new_id _ _ _ _ _ _ _ Er) as (I1 & _). rewrite E2 in I1. cbn in I1.
  rewrite E2. clear E2 Er. repeat split. intros id Ne. unfold add_runner. cbn. rewrite I1.
  destruct (Z.eqb_spec id 0); [contradiction|reflexivity].
Qed.

(** For every program, input, environment and number of steps, as long as the program
    has created no other universe: without execute permission it has run no command,
    without file permission it has opened no file and changed none, and without
    concurrency it has created no IP. *)
Theorem C46_partial : forall F D data c input fs rnd w0 sched w,
  boot F data c (world0 input fs rnd) = Ok w0 -> (forall n, In n sched -> n = 0%nat) ->
  uni_run F D sched w0 = Ok w -> w_nuni w = 1%nat ->
  (c_exec c = false -> forall cmd, ~ In (EvSystem cmd) (w_log w)) /\
  (c_fs c = false -> w_fs w = fs /\ (forall p, ~ In (EvRead p) (w_log w)) /\ (forall p d, ~ In (EvWrite p d) (w_log w))) /\
  (c_conc c = false -> w_nrun w = 1 /\ forall id r, w_run w id = Some r -> id = 0).
Proof.
  intros F D data c input fs rnd w0 sched w B S0 E N.
  destruct (boot_permits _ _ _ _ _ _ _ B) as (P & L & Fs & Nr & Only). apply boot_single in B.
  destruct (run_permitted _ _ _ _ _ E S0 B N) as (_ & PL & PF & PC). unfold permits in P. inversion P as [[P1 P2 P3]].
  rewrite L in PL. split; [|split].
  - intros X cmd Hc. destruct (PL _ Hc) as [[]|Y]. unfold needs in Y. congruence.
  - intros X. split; [rewrite PF, Fs by congruence; auto|]. split.
    + intros p Hc. destruct (PL _ Hc) as [[]|Y]. unfold needs in Y. congruence.
    + intros p d Hc. destruct (PL _ Hc) as [[]|Y]. unfold needs in Y. congruence.
  - intros X. rewrite PC by congruence. split; [exact Nr|]. intros id r R.
    pose proof (run_single _ _ _ _ _ E S0 B N) as (_ & I & _). destruct (I _ _ R) as (_ & Y).
    rewrite PC in Y by congruence. rewrite Nr in Y. destruct (Z.eq_dec id 0) as [|Ne]; [auto|].
    rewrite (run_freed _ _ _ _ _ id E) in R; [discriminate|apply B|lia|auto].
Qed.

(** ** False in general *)

(** ["SRVM"4(0"b"000B 0"b"0000099*0P 0"b"J 0"sl"=t@]: makes a universe, copies the program
    there, moves there, and runs a command: a new universe has all permissions. *)
Definition escape : bytes :=
  [34; 83; 82; 86; 77; 34; 52; 40; 48; 34; 98; 34; 48; 48; 48; 66;
   48; 34; 98; 34; 48; 48; 48; 48; 48; 57; 57; 42; 48; 80;
   48; 34; 98; 34; 74; 48; 34; 115; 108; 34; 61; 116; 64].
Definition no_perm : cfg :=
  set_c_conc false (set_c_exec false (set_c_fs false (set_c_dims 2 (set_c_name [97] (set_c_std STD_98 cfg_default))))).
Definition ex_boot (p : bytes) : world :=
  the dummy_w (boot 1000 p no_perm (world0 [] (fun _ => None) (fun _ => 0))).
Definition ex_run (p : bytes) (sched : list nat) : world := the dummy_w (uni_run 1000 1 sched (ex_boot p)).
Theorem C46_refuted : exists F D data c input fs rnd w0 sched w,
  boot F data c (world0 input fs rnd) = Ok w0 /\ uni_run F D sched w0 = Ok w /\
  c_exec c = false /\ c_conc c = false /\
  In (EvSystem [108; 115]) (w_log w) /\ w_nrun w = 2.
Proof.
  exists 1000%positive, 1%nat, escape, no_perm, [], (fun _ => None), (fun _ => 0), (ex_boot escape),
    (repeat 0%nat 35 ++ repeat 1%nat 7), (ex_run escape (repeat 0%nat 35 ++ repeat 1%nat 7)).
  split; [vm_compute; reflexivity|]. split; [vm_compute; reflexivity|]. split; [reflexivity|]. split; [reflexivity|].
  split; [vm_compute; auto|vm_compute; reflexivity].
Qed.
(** ["FRID"4(0"d"M@]: makes a directory without file permission. *)
Definition mkdir : bytes := [34; 70; 82; 73; 68; 34; 52; 40; 48; 34; 100; 34; 77; 64].
Theorem C46_directories_refuted : exists F D data c input fs rnd w0 sched w,
  boot F data c (world0 input fs rnd) = Ok w0 /\ uni_run F D sched w0 = Ok w /\ w_nuni w = 1%nat /\
  c_fs c = false /\ c_exec c = false /\ In (EvMkdir [100]) (w_log w).
Proof.
  exists 1000%positive, 1%nat, mkdir, no_perm, [], (fun _ => None), (fun _ => 0), (ex_boot mkdir),
    (repeat 0%nat 13), (ex_run mkdir (repeat 0%nat 13)).
  split; [vm_compute; reflexivity|]. split; [vm_compute; reflexivity|]. split; [vm_compute; reflexivity|].
  split; [reflexivity|]. split; [reflexivity|]. vm_compute; auto.
Qed.
(** The hypotheses of [C46_partial] are met by a program that tries: [0"ls"=t@]. *)
Definition tries : bytes := [48; 34; 115; 108; 34; 61; 116; 64].
Example C46_ex : boot 1000 tries no_perm (world0 [] (fun _ => None) (fun _ => 0)) = Ok (ex_boot tries) /\
  uni_run 1000 1 (repeat 0%nat 6) (ex_boot tries) = Ok (ex_run tries (repeat 0%nat 6)) /\
  w_nuni (ex_run tries (repeat 0%nat 6)) = 1%nat /\ w_log (ex_run tries (repeat 0%nat 6)) = [] /\
  match w_run (ex_run tries (repeat 0%nat 6)) 0 with Some r => r_delta r = mkvec [-1] | None => False end.
Proof. split; [vm_compute; reflexivity|]. split; [vm_compute; reflexivity|]. split; [vm_compute; reflexivity|].
  split; vm_compute; reflexivity. Qed.
Print Assumptions C46_partial.
Print Assumptions C46_refuted.
Print Assumptions C46_directories_refuted.
