(** * Property C129: whole programs.  From the text of a program file and its
    input to everything it prints and its exit code, for programs and inputs of
    every length. *)

From Coq Require Import ZArith Lia String List Bool.
From Verif Require Import Base BaseProofs VectorModel VectorProofs TextModel TextProofs
  StackModel StackProofs FieldModel FieldProofs World IpModel IpProofs LoadModel FingModel CoreModel
  UniModel OptModel ExecProofs States FlowProofs PropsStack PropsIO Effects PropsString PropsTurn PropsFlow PropsFileIO.
Import ListNotations.
Open Scope Z_scope.

(** Funge-98, two dimensions, all options at their defaults. *)
Definition c98 : cfg := set_c_dims 2 (set_c_std STD_98 cfg_default).

(** ** A text of one row *)

Fixpoint row_put (x : Z) (l : bytes) (f : field) : field :=
  match l with
  | [] => f
  | c :: t => row_put (x + 1) t (if c =? 32 then f else f_put [x] c f)
  end.
Definition plain_char (c : Z) : Prop := 32 <= c <= 255.

Lemma vset1 x y : vset [x] 0 y = [y].
Proof. unfold vset. cbn. destruct y; reflexivity. Qed.

Lemma parse_row l : forall dims x mx last f, Forall plain_char l ->
  in64 x -> x + Z.of_nat (length l) <= INT64_MAX ->
  (exists z, mx = [z] /\ in64 z) ->
  exists z, parse_loop false dims [0] l [x] mx last f = Ok ([z], row_put x l f) /\ in64 z.
Proof.
  induction l as [|c t IH]; intros dims x mx last f HP Hx Hl (z & -> & Hz); [exists z; split; [reflexivity|exact Hz]|].
  inversion HP as [|? ? Hc HP']; subst. unfold plain_char in Hc.
  cbn [parse_loop]. destruct (Z.eqb_spec c 10); [lia|]. destruct (Z.eqb_spec c 13); [lia|].
  destruct (Z.eqb_spec c 12); [lia|]. destruct (Z.eqb_spec c 11); [lia|]. cbn [orb andb].
  cbn [length] in Hl. unfold f_increment, add64. change (vget [x] 0) with x.
  rewrite chk64_ok by (unfold in64, INT64_MIN, INT64_MAX in *; lia). cbn [bind fst snd].
  rewrite !vset1. cbn [row_put]. apply IH; auto.
  - unfold in64, INT64_MIN, INT64_MAX in *. lia.
  - lia.
  - change (vget [x + 1] 0) with (x + 1). destruct (vget [z] 0 <? x + 1); eexists; (split; [reflexivity|]);
      [unfold in64, INT64_MIN, INT64_MAX in *; lia|exact Hz].
Qed.

Lemma row_put_char l : forall x f, f_char (row_put x l f) = f_char f.
Proof.
  induction l as [|c t IH]; intros x f; [reflexivity|]. cbn [row_put]. rewrite IH.
  destruct (c =? 32); [reflexivity|apply f_put_char].
Qed.
Lemma same1 x y : same [x] [y] -> x = y.
Proof. intros H. exact (H 0%nat). Qed.
Lemma row_put_left l : forall x f p, (forall k, x <= k -> ~ same [k] p) -> f_get (row_put x l f) p = f_get f p.
Proof.
  induction l as [|c t IH]; intros x f p H; [reflexivity|]. cbn [row_put]. rewrite IH by (intros; apply H; lia).
  destruct (c =? 32); [reflexivity|]. apply f_get_put_other. apply H. lia.
Qed.
Lemma row_put_get l : forall x f k, f_char f = false -> (k < length l)%nat ->
  (forall j, x <= j -> f_get f [j] = 32) ->
  f_get (row_put x l f) [x + Z.of_nat k] = nth k l 32.
Proof.
  induction l as [|c t IH]; intros x f k HC Hk HB; [cbn in Hk; lia|]. cbn [row_put].
  set (f1 := if c =? 32 then f else f_put [x] c f).
  assert (HC1 : f_char f1 = false) by (unfold f1; destruct (c =? 32); [exact HC|rewrite f_put_char; exact HC]).
  destruct k as [|k]; cbn [nth].
  - rewrite Z.add_0_r. rewrite row_put_left.
    + unfold f1. destruct (Z.eqb_spec c 32) as [->|N]; [apply HB; lia|].
      rewrite f_get_put_same by (intros ?; reflexivity). unfold cellval. now rewrite HC.
    + intros j Hj Q. apply same1 in Q. lia.
  - cbn [length] in Hk. replace (x + Z.of_nat (S k)) with (x + 1 + Z.of_nat k) by lia.
    apply IH; [exact HC1|lia|]. intros j Hj. unfold f1. destruct (c =? 32); [apply HB; lia|].
    rewrite f_get_put_other; [apply HB; lia|]. intros Q. apply same1 in Q. lia.
Qed.
Lemma row_put_good l : forall x f, covered f -> origin_in f -> keys_nonempty f ->
  covered (row_put x l f) /\ origin_in (row_put x l f) /\ keys_nonempty (row_put x l f).
Proof.
  induction l as [|c t IH]; intros x f C O K; [auto|]. cbn [row_put]. destruct (Z.eqb_spec c 32); [auto|].
  apply IH; [now apply covered_put|apply origin_put; auto; apply C|apply keys_put; [discriminate|exact K]].
Qed.

(** The field of a loaded one-row program. *)
Definition prog_field (l : bytes) : field := row_put 0 l (field_empty 2 false).
Lemma prog_get l k : (k < length l)%nat -> f_get (prog_field l) [Z.of_nat k] = nth k l 32.
Proof.
  intros H. change (Z.of_nat k) with (0 + Z.of_nat k). apply row_put_get; [reflexivity|exact H|reflexivity].
Qed.
Lemma prog_good l : covered (prog_field l) /\ origin_in (prog_field l) /\ keys_nonempty (prog_field l).
Proof.
  apply row_put_good.
  - split; [reflexivity|]. intros k v [].
  - intros [|[|i]]; vm_compute; split; discriminate.
  - intros k v [].
Qed.
Lemma row_put_dims l : forall x f, f_dims (row_put x l f) = f_dims f.
Proof.
  induction l as [|c t IH]; intros x f; [reflexivity|]. cbn [row_put]. rewrite IH.
  destruct (c =? 32); [reflexivity|]. unfold f_put. destruct (c =? 32); reflexivity.
Qed.

(** A step within the program. *)
Definition In_row (l : bytes) (x : Z) : Prop := 0 <= x < Z.of_nat (length l).
Lemma in_row_inside l x : l <> [] -> last l 32 <> 32 -> In_row l x -> in_field 2 (prog_field l) [x] = true.
Proof.
  intros Hne Hl Hx. apply in_field_spec. intros i Hi.
  destruct (prog_good l) as (C & O & K).
  assert (Q : f_get (prog_field l) [Z.of_nat (length l - 1)] <> 32).
  { rewrite prog_get by (unfold In_row in Hx; lia).
    destruct (exists_last Hne) as (t & z & ->). rewrite last_last in Hl. rewrite app_length. cbn [length].
    replace (length t + 1 - 1)%nat with (length t) by lia. rewrite app_nth2, Nat.sub_diag by lia. exact Hl. }
  pose proof (covered_dim0 _ _ C K Q) as B. change (vget [?a] 0) with a in B. unfold In_row in Hx.
  pose proof (O i) as Oi.
  destruct i as [|[|i]]; [|exact Oi|lia]. change (vget [x] 0) with x.
  change (vget [Z.of_nat (length l - 1)] 0) with (Z.of_nat (length l - 1)) in B. lia.
Qed.
Lemma vadd1 x d : in64 (x + d) -> vadd [x] [d] = Ok [x + d].
Proof.
  intros H. unfold vadd. cbn [vsize length Nat.max forN]. unfold add64. change (vget [x] 0) with x.
  change (vget [d] 0) with d. rewrite chk64_ok by exact H. cbn [bind]. now rewrite vset1.
Qed.
Definition Next (f : field) (x dx x' : Z) : Prop := ip_next false 2 f [x] [dx] = Ok ([x'], [dx]).
Lemma next_row l x d : l <> [] -> last l 32 <> 32 -> In_row l (x + d) -> in64 (x + d) ->
  Next (prog_field l) x d (x + d).
Proof.
  intros N L I B. unfold Next, ip_next. rewrite vadd1 by exact B. cbn [bind]. unfold lahey_wrap.
  rewrite in_row_inside by auto. reflexivity.
Qed.

(** ** The state of a one-row program with one IP *)

Definition r98 : runner :=
  match runner_new (fun _ => false) 0 0
          {| u_cfg := set_c_dims 2 (set_c_name [] c98); u_field := field_empty 2 false;
             u_queue := []; u_running := true; u_exit := 0 |} [0] [1] with
  | Ok r => r
  | Bad _ => runner_blank 0 0 ss_new []
  end.

(** The IP is at column [x], heading [dx] columns per step, reading a string
    ([q], with [pv] the previous character of it) or not, with the cells [l] on
    its stack; [i] is the input still unread and [o] what was printed. *)
Record Run (f : field) (x dx : Z) (q : bool) (pv : Z) (l : list Z) (i o : bytes) (s : st) : Prop := {
  R_cfg : exists name args env,
    u_cfg (w_uni (s_w s) 0) = set_c_dims 2 (set_c_name name (set_c_args args (set_c_env env c98)));
  R_field : u_field (w_uni (s_w s) 0) = f;
  R_queue : u_queue (w_uni (s_w s) 0) = [0];
  R_exit : u_exit (w_uni (s_w s) 0) = 0;
  R_uni : r_uni (s_r s) = 0%nat;
  R_fld : r_fld (s_r s) = 0%nat;
  R_storage : r_storage (s_r s) = [0];
  R_stopped : r_stopped (s_r s) = false;
  R_handler : r_handler (s_r s) = true;
  R_strats : r_strats (s_r s) = r_strats r98;
  R_sem : r_sem (s_r s) = r_sem r98;
  R_pos : r_pos (s_r s) = [x];
  R_delta : r_delta (s_r s) = [dx];
  R_string : r_string (s_r s) = q;
  R_end : q = true -> r_end (s_r s) = 34;
  R_prev : r_prev (s_r s) = pv;
  R_stack : Holds s l;
  R_in : w_in (s_w s) = i;
  R_out : w_out (s_w s) = o }.

Lemma run_stack_step f x dx q pv l i o s s' l' :
  Run f x dx q pv l i o s -> Only_stack s s' l' -> Run f x dx q pv l' i o s'.
Proof.
  intros H C. pose proof (Only_stack_holds _ _ _ _ (R_stack _ _ _ _ _ _ _ _ _ H) C) as HS.
  pose proof (Only_stack_w _ _ _ C) as W. pose proof (Only_stack_r _ _ _ C) as R.
  destruct H. constructor; rewrite ?W, ?R; cbn; auto.
Qed.
Lemma run_moved f x dx q pv l i o s x' :
  Run f x dx q pv l i o s -> Run f x' dx q pv l i o (moved s [x'] [dx]).
Proof. intros H. destruct H. constructor; cbn; auto. Qed.
Lemma run_delta f x dx q pv l i o s s' d :
  Run f x dx q pv l i o s -> Only_delta s s' [d] -> Run f x d q pv l i o s'.
Proof. intros H (fish & ->). destruct H. constructor; cbn; auto. Qed.
Lemma run_world f x dx q pv l i o s s' i' o' l' w' :
  Run f x dx q pv l i o s -> World_and_stack s s' w' l' ->
  w_uni w' 0 = w_uni (s_w s) 0 -> w_in w' = i' -> w_out w' = o' -> Run f x dx q pv l' i' o' s'.
Proof.
  intros H (W & s1 & C & R) U I O.
  pose proof (run_stack_step _ _ _ _ _ _ _ _ _ _ _ H C) as H1. destruct H, H1.
  constructor; rewrite ?W, ?R, ?U; auto.
  destruct R_stack1 as (k & A & B). exists k. unfold mySS in *. rewrite R. auto.
Qed.

Lemma run_normal f x dx pv l i o s c : Run f x dx false pv l i o s ->
  sem_top c (r_sem r98) = std_sem c -> Normal s c.
Proof.
  intros H E. destruct H. destruct R_cfg0 as (nm & ar & en & R_cfg0). split; [assumption|]. rewrite R_uni0. unfold testmode. rewrite R_cfg0.
  split; [reflexivity|]. now rewrite R_sem0.
Qed.
Lemma run_nohover f x dx q pv l i o s : Run f x dx q pv l i o s -> NoHover s.
Proof. intros H. destruct H. destruct R_cfg0 as (nm & ar & en & R_cfg0). unfold NoHover. rewrite R_uni0. unfold testmode. rewrite R_cfg0. reflexivity. Qed.
Lemma run_nodebug f x dx q pv l i o s : Run f x dx q pv l i o s -> no_debug s.
Proof. intros H. destruct H. destruct R_cfg0 as (nm & ar & en & R_cfg0). unfold no_debug. rewrite R_uni0. unfold testmode. rewrite R_cfg0. reflexivity. Qed.
Lemma run_cell f x dx q pv l i o s : Run f x dx q pv l i o s ->
  f_get (space s) (r_pos (s_r s)) = f_get f [x].
Proof. intros H. destruct H. unfold space. rewrite R_uni0, R_field0, R_pos0. reflexivity. Qed.
Lemma run_next f x dx q pv l i o s x' : Run f x dx q pv l i o s -> Next f x dx x' ->
  exists s', ipNext s = Ok (tt, s') /\ Run f x' dx q pv l i o s'.
Proof.
  intros H N. exists (moved s [x'] [dx]). split; [|now apply (run_moved f x)].
  destruct H. destruct R_cfg0 as (nm & ar & en & R_cfg0). apply ipNext_run; [assumption|]. unfold next_of. rewrite R_uni0, R_field0, R_cfg0, R_pos0, R_delta0.
  exact N.
Qed.

(** ** Ticks *)

Lemma tick_one F D f x dx q pv l i o s c s1 x1 dx1 q1 pv1 l1 i1 o1 x2 :
  Run f x dx q pv l i o s -> f_get f [x] = c -> execute F (S D) c s = Ok (ENone, s1) ->
  Run f x1 dx1 q1 pv1 l1 i1 o1 s1 -> Next f x1 dx1 x2 ->
  exists s2, tick F (S D) s = Ok (tt, s2) /\ Run f x2 dx1 q1 pv1 l1 i1 o1 s2.
Proof.
  intros H C E H1 N. destruct (run_next _ _ _ _ _ _ _ _ _ _ H1 N) as (s2 & E2 & H2).
  exists s2. split; [|exact H2]. apply loopM_inr.
  rewrite (tick_step_exec F (S D) s c ENone s1);
    [|exact (run_nodebug _ _ _ _ _ _ _ _ _ H)|rewrite (run_cell _ _ _ _ _ _ _ _ _ H); exact C|exact E].
  unfold mbind, ret. rewrite E2. reflexivity.
Qed.

(** One iteration of the universe when its only IP makes a tick. *)
Definition RunW f x dx q pv l i o (w : world) : Prop :=
  exists r, w_run w 0 = Some r /\ Run f x dx q pv l i o {| s_w := w; s_r := r |}.

Lemma uni_updated n g w : w_uni (upd_uni n g w) n = g (w_uni w n).
Proof. unfold upd_uni. cbn. now rewrite Nat.eqb_refl. Qed.

Lemma world_step F D f x dx q pv l i o w x1 dx1 q1 pv1 l1 i1 o1 :
  RunW f x dx q pv l i o w ->
  (forall s, Run f x dx q pv l i o s ->
     exists s2, tick F D s = Ok (tt, s2) /\ Run f x1 dx1 q1 pv1 l1 i1 o1 s2) ->
  exists w', run_step F D 0 w = Ok (inl w') /\ RunW f x1 dx1 q1 pv1 l1 i1 o1 w'.
Proof.
  intros (r & R & H) T. destruct (T _ H) as (s2 & E & H2).
  unfold run_step, uni_step. pose proof (R_queue _ _ _ _ _ _ _ _ _ H) as Q. cbn [s_w] in Q. rewrite Q, R.
  pose proof (R_stopped _ _ _ _ _ _ _ _ _ H) as ST. cbn [s_r] in ST. rewrite ST. unfold as_runner. rewrite R, E.
  cbn [bind].
  pose proof (R_uni _ _ _ _ _ _ _ _ _ H2) as U2. pose proof (R_stopped _ _ _ _ _ _ _ _ _ H2) as ST2.
  pose proof (R_queue _ _ _ _ _ _ _ _ _ H2) as Q2.
  cbn [w_run upd_uni upd_run]. cbn. rewrite U2, ST2. cbn. eexists. split; [reflexivity|].
  exists (s_r s2). split; [reflexivity|]. destruct H2. constructor; cbn; auto. rewrite Q2. reflexivity.
Qed.

(** The end of the last IP. *)
Lemma world_end F D f x dx pv l i o w :
  RunW f x dx false pv l i o w -> f_get f [x] = 64 ->
  exists w', run_step F (S D) 0 w = Ok (inl w') /\ run_step F (S D) 0 w' = Ok (inr w') /\
    w_out w' = o /\ u_exit (w_uni w' 0) = 0.
Proof.
  intros (r & R & H) C.
  set (s := {| s_w := w; s_r := r |}) in *.
  set (s1 := {| s_w := w; s_r := set_r_stopped true r |}).
  assert (T : tick F (S D) s = Ok (tt, s1)).
  { apply loopM_inr. rewrite (tick_step_exec F (S D) s 64 ENone s1);
      [|exact (run_nodebug _ _ _ _ _ _ _ _ _ H)|rewrite (run_cell _ _ _ _ _ _ _ _ _ H); exact C|].
    - unfold mbind, ret. rewrite ipNext_stopped by reflexivity. reflexivity.
    - rewrite (execute_normal F D _ s _ _ (run_normal _ _ _ _ _ _ _ _ 64 H eq_refl) eq_refl). reflexivity. }
  destruct H. cbn [s_w s_r s] in *.
  unfold run_step at 1, uni_step. rewrite R_queue0, R, R_stopped0. unfold as_runner. rewrite R. fold s. rewrite T.
  cbn. rewrite R_uni0. cbn. eexists. split; [reflexivity|]. split.
  - unfold run_step. cbn. rewrite R_queue0. reflexivity.
  - cbn. auto.
Qed.

(** ** Several iterations *)

Inductive Goes (F : positive) (D : nat) : nat -> world -> world -> Prop :=
| goes_0 w : Goes F D 0 w w
| goes_S n w w1 w2 : run_step F D 0 w = Ok (inl w1) -> Goes F D n w1 w2 -> Goes F D (S n) w w2.
Lemma goes_trans F D n m w w1 w2 : Goes F D n w w1 -> Goes F D m w1 w2 -> Goes F D (n + m) w w2.
Proof. induction 1; intros H2; cbn; [exact H2|]. econstructor; eauto. Qed.
Lemma goes_one F D w w1 : run_step F D 0 w = Ok (inl w1) -> Goes F D 1 w w1.
Proof. intros H. econstructor; [exact H|constructor]. Qed.
Lemma goes_loop F D n w w' k : Goes F D n w w' ->
  loopNr (run_step F D 0) (n + k) w = loopNr (run_step F D 0) k w'.
Proof. induction 1; [reflexivity|]. cbn [Nat.add]. rewrite loopNr_unfold, H. exact IHGoes. Qed.

(** A program that gets to an @ in [n] iterations ends there. *)
Lemma goes_ends F D n f x dx pv l i o w w' :
  Goes F (S D) n w w' -> RunW f x dx false pv l i o w' -> f_get f [x] = 64 ->
  (n + 2 <= Pos.to_nat F)%nat ->
  exists w2, run_universe F (S D) 0 w = Ok w2 /\ w_out w2 = o /\ u_exit (w_uni w2 0) = 0.
Proof.
  intros G H C L. destruct (world_end F D _ _ _ _ _ _ _ _ H C) as (w2 & E1 & E2 & O & X).
  exists w2. split; [|auto]. unfold run_universe. rewrite loop_loopNr.
  replace (Pos.to_nat F) with (n + (S (S (Pos.to_nat F - n - 2))))%nat by lia.
  rewrite (goes_loop _ _ _ _ _ _ G). rewrite !loopNr_unfold, E1, loopNr_unfold, E2. reflexivity.
Qed.

(** ** The beginning *)

Lemma r98_new f : runner_new (fun _ => false) 0 0
    {| u_cfg := set_c_dims 2 (set_c_name [] c98); u_field := f;
       u_queue := []; u_running := true; u_exit := 0 |} [0] [1] = Ok r98.
Proof.
  unfold r98, runner_new. cbn [u_cfg].
  destruct (strats_construct _ _ _ _) as [r|e] eqn:E; [reflexivity|].
  exfalso. revert E. vm_compute. discriminate.
Qed.
Lemma r98_facts : r_id r98 = 0 /\ r_uni r98 = 0%nat /\ r_fld r98 = 0%nat /\ r_storage r98 = [0] /\ r_stopped r98 = false /\ r_handler r98 = true /\
  r_pos r98 = [0] /\ r_delta r98 = [1] /\ r_string r98 = false /\ r_prev r98 = 0 /\
  exists k, ss_top (ss_setmode 0 (r_ss r98)) = Ok k /\ plain k /\ s_list k = [].
Proof.
  repeat split; try (vm_compute; reflexivity).
  destruct (ss_top (ss_setmode 0 (r_ss r98))) as [k|e] eqn:T; [|exfalso; revert T; vm_compute; discriminate].
  exists k. split; [reflexivity|]. revert T. vm_compute. intros T; inversion T. repeat split; reflexivity.
Qed.

Lemma started f nm ar en input r w :
  (r_id r = 0 /\ r_uni r = 0%nat /\ r_fld r = 0%nat /\ r_storage r = [0] /\ r_stopped r = false /\ r_handler r = true /\
   r_pos r = [0] /\ r_delta r = [1] /\ r_string r = false /\ r_prev r = 0 /\
   exists k, ss_top (ss_setmode 0 (r_ss r)) = Ok k /\ plain k /\ s_list k = []) ->
  r_strats r = r_strats r98 -> r_sem r = r_sem r98 ->
  w_uni w 0 = {| u_cfg := set_c_dims 2 (set_c_name nm (set_c_args ar (set_c_env en c98))); u_field := f;
                 u_queue := []; u_running := true; u_exit := 0 |} ->
  w_in w = input -> w_out w = [] ->
  RunW f 0 1 false 0 [] input [] (add_runner 0 r w).
Proof.
  intros (I & U & FL & SO & S & H & P & DL & SG & PV & K) ST SM WU WI WO.
  exists (run_setmode 0 r). split.
  - unfold add_runner. rewrite I. cbn. rewrite WU. reflexivity.
  - unfold run_setmode in *. constructor;
    cbn [s_w s_r r_uni r_fld r_storage r_stopped r_handler r_strats r_sem r_pos r_delta r_string r_end r_prev set_r_ss];
    auto; unfold add_runner; rewrite ?uni_updated, ?I; cbn; rewrite ?WU; auto; [exists nm, ar, en; reflexivity|discriminate].
Qed.

Lemma boots F l input : Forall plain_char l -> Z.of_nat (length l) <= INT64_MAX ->
  exists w, boot F l c98 (world0 input (fun _ => None) (fun _ => 0)) = Ok w /\
    RunW (prog_field l) 0 1 false 0 [] input [] w.
Proof.
  intros HP HL. destruct (parse_row l 2 0 [0] 0 (field_empty 2 false) HP) as (z & E & Hz);
    [unfold in64, INT64_MIN, INT64_MAX; lia|lia|exists 0; split; [reflexivity|unfold in64, INT64_MIN, INT64_MAX; lia]|].
  unfold boot, multi_create_file.
  assert (L : loop (name_step (c_name c98) (world0 input (fun _ => None) (fun _ => 0))) F (c_name c98) = Ok []).
  { rewrite loop_loopNr. replace (Pos.to_nat F) with (S (Pos.to_nat F - 1)) by lia. rewrite loopNr_unfold. reflexivity. }
  rewrite L. cbn [bind]. unfold f_parse. change (mkvec [0]) with [0]. change (c_dims c98) with 2%nat.
  change (c_char c98) with false. change (f_dims (field_empty 2 false)) with 2%nat.
  change (f_parse [0] l false (field_empty 2 false)) with
    (r <-- parse_loop false 2 [0] l [0] [0] 0 (field_empty 2 false) ;;
     d <-- vsub (fst r) [0] ;; Ok (d, f_fixdims (snd r))).
  rewrite E. cbn [bind fst snd]. fold (prog_field l).
  assert (V : exists d, vsub [z] [0] = Ok d).
  { unfold vsub. cbn [vsize length Nat.max forN]. unfold sub64. change (vget [z] 0) with z.
    change (vget [0] 0) with 0. rewrite Z.sub_0_r, chk64_ok by exact Hz. cbn [bind]. eauto. }
  destruct V as (d & V). rewrite V. cbn [bind snd].
  replace (f_fixdims (prog_field l)) with (prog_field l)
    by (unfold f_fixdims, prog_field; rewrite row_put_dims; reflexivity).
  unfold create_runner. change (w_nuni (world0 input (fun _ => None) (fun _ => 0))) with 0%nat.
  match goal with |- context [runner_new _ _ _ ?u _ _] =>
    change u with {| u_cfg := set_c_dims 2 (set_c_name [] c98); u_field := prog_field l;
                     u_queue := []; u_running := true; u_exit := 0 |} end.
  match goal with |- context [runner_new ?fl ?id _ _ _ _] =>
    change fl with (fun _ : Z => false); change id with 0 end.
  change (mkvec [1]) with [1]. rewrite r98_new. cbn [bind]. eexists. split; [reflexivity|].
  apply (started _ [] [] []); [exact r98_facts|reflexivity|reflexivity|reflexivity|reflexivity|reflexivity].
Qed.

(** ** Instructions *)

Definition Does F D c f x dx q pv l i o x1 dx1 q1 pv1 l1 i1 o1 : Prop :=
  forall s, Run f x dx q pv l i o s ->
  exists s1, execute F (S D) c s = Ok (ENone, s1) /\ Run f x1 dx1 q1 pv1 l1 i1 o1 s1.

Lemma step_gen F D c f x dx q pv l i o x1 dx1 q1 pv1 l1 i1 o1 x2 w :
  RunW f x dx q pv l i o w -> f_get f [x] = c ->
  Does F D c f x dx q pv l i o x1 dx1 q1 pv1 l1 i1 o1 -> Next f x1 dx1 x2 ->
  exists w', Goes F (S D) 1 w w' /\ RunW f x2 dx1 q1 pv1 l1 i1 o1 w'.
Proof.
  intros H C DO N.
  destruct (world_step F (S D) f x dx q pv l i o w x2 dx1 q1 pv1 l1 i1 o1 H) as (w' & E & H').
  - intros s HS. destruct (DO s HS) as (s1 & E1 & H1). exact (tick_one F D _ _ _ _ _ _ _ _ _ _ _ _ _ _ _ _ _ _ _ HS C E1 H1 N).
  - exists w'. split; [now apply goes_one|exact H'].
Qed.

Lemma X_open F D f x dx pv l i o : Does F D 34 f x dx false pv l i o x dx true pv l i o.
Proof.
  intros s H. destruct (C17_open F D s (run_normal _ _ _ _ _ _ _ _ 34 H eq_refl)) as (s1 & E & W & R).
  exists s1. split; [exact E|]. destruct H. constructor; rewrite ?W, ?R; cbn; auto.
  destruct R_stack0 as (k & A & B). exists k. unfold mySS in *. rewrite R. auto.
Qed.
Lemma X_close F D f x dx pv l i o : Does F D 34 f x dx true pv l i o x dx false 0 l i o.
Proof.
  intros s H. destruct H. exists {| s_w := s_w s; s_r := set_r_string false (set_r_prev 0 (s_r s)) |}. split.
  - cbn [execute]. unfold mbind at 1, getR at 1. rewrite R_string0. unfold exec_string.
    unfold mbind at 1, getR at 1. rewrite R_end0 by reflexivity. reflexivity.
  - constructor; cbn; auto.
Qed.
Lemma X_char F D f x dx c pv l i o : plain_char c -> c <> 34 -> (c = 32 -> pv <> 32) -> (pv = 0 \/ plain_char pv) ->
  Does F D c f x dx true pv l i o x dx true c (c :: l) i o.
Proof.
  intros HC NQ NB HP s H.
  assert (E0 : exists s1, runnerPush c s = Ok (tt, s1) /\ Only_stack s s1 (c :: l)).
  { destruct (pushS_plain s l c (R_stack _ _ _ _ _ _ _ _ _ H)) as (s1 & E & C). exists s1. split; [|exact C].
    unfold runnerPush, mbind, getR. rewrite (R_strats _ _ _ _ _ _ _ _ _ H). exact E. }
  destruct E0 as (s1 & E & C). pose proof (run_stack_step _ _ _ _ _ _ _ _ _ _ _ H C) as H1.
  exists {| s_w := s_w s1; s_r := set_r_prev c (s_r s1) |}. split.
  - cbn [execute]. unfold mbind at 1, getR at 1. rewrite (R_string _ _ _ _ _ _ _ _ _ H). unfold exec_string.
    unfold mbind at 1, getR at 1. rewrite (R_end _ _ _ _ _ _ _ _ _ H) by reflexivity.
    destruct (Z.eqb_spec c 34); [contradiction|].
    destruct (R_cfg _ _ _ _ _ _ _ _ _ H) as (nm & ar & en & RC).
    unfold mbind at 1, getC, getU. unfold mbind at 1, ret at 1. rewrite (R_uni _ _ _ _ _ _ _ _ _ H), RC.
    change (c_str (set_c_dims 2 (set_c_name nm (set_c_args ar (set_c_env en c98))))) with StrSgml. cbv iota.
    unfold plain_char in *.
    assert (L1 : lift (isspace_ub c) s = Ok (isspace c, s))
      by (unfold lift; rewrite isspace_byte by (unfold ubyte; lia); reflexivity).
    rewrite (run_bind _ _ _ _ _ L1).
    assert (L2 : (if isspace c then s2 <- lift (isspace_ub (r_prev (s_r s))) ;; ret (negb s2) else ret true) s = Ok (true, s)).
    { destruct (isspace c) eqn:IS; [|reflexivity].
      rewrite (R_prev _ _ _ _ _ _ _ _ _ H). unfold mbind, lift. rewrite isspace_byte by (unfold ubyte; lia).
      cbn. unfold ret. assert (c = 32) by (unfold isspace in IS; lia). specialize (NB H0).
      replace (isspace pv) with false; [reflexivity|]. unfold isspace. lia. }
    rewrite (run_bind _ _ _ _ _ L2). rewrite (run_bind _ _ _ _ _ E). reflexivity.
  - destruct H1. constructor; cbn; auto.
Qed.
Lemma X_dup F D f x dx a l i o : Does F D 58 f x dx false 0 (a :: l) i o x dx false 0 (a :: a :: l) i o.
Proof.
  intros s H. destruct (C20_stack_ops F D s _ (R_stack _ _ _ _ _ _ _ _ _ H)) as (_ & Q & _).
  destruct (Q (run_normal _ _ _ _ _ _ _ _ 58 H eq_refl)) as (s1 & E & C). exists s1. split; [exact E|].
  exact (run_stack_step _ _ _ _ _ _ _ _ _ _ _ H C).
Qed.
Lemma X_dup0 F D f x dx i o : Does F D 58 f x dx false 0 [] i o x dx false 0 [0; 0] i o.
Proof.
  intros s H. destruct (C20_stack_ops F D s _ (R_stack _ _ _ _ _ _ _ _ _ H)) as (_ & Q & _).
  destruct (Q (run_normal _ _ _ _ _ _ _ _ 58 H eq_refl)) as (s1 & E & C). exists s1. split; [exact E|].
  exact (run_stack_step _ _ _ _ _ _ _ _ _ _ _ H C).
Qed.
Lemma X_east F D f x dx l i o : Does F D 62 f x dx false 0 l i o x 1 false 0 l i o.
Proof.
  intros s H. destruct (setdelta_plain s VEAST (run_nohover _ _ _ _ _ _ _ _ _ H)) as (s1 & E & C).
  exists s1. rewrite (execute_normal F D _ s _ _ (run_normal _ _ _ _ _ _ _ _ 62 H eq_refl) eq_refl). cbn [run_meth].
  rewrite (run_bind _ _ _ _ _ E). split; [reflexivity|]. exact (run_delta _ _ _ _ _ _ _ _ _ _ _ H C).
Qed.
Lemma X_if F D f x dx a l i o :
  Does F D 95 f x dx false 0 (a :: l) i o x (if a =? 0 then 1 else -1) false 0 l i o.
Proof.
  intros s H. rewrite (execute_normal F D _ s _ _ (run_normal _ _ _ _ _ _ _ _ 95 H eq_refl) eq_refl). cbn [run_meth].
  unfold ifDelta. destruct (popS_plain s _ (R_stack _ _ _ _ _ _ _ _ _ H)) as (s0 & E0 & C0). cbn [hd tl] in *.
  rewrite (run_bind _ _ _ _ _ E0). pose proof (run_stack_step _ _ _ _ _ _ _ _ _ _ _ H C0) as H0.
  destruct (setdelta_plain s0 (if a =? 0 then VEAST else VWEST) (run_nohover _ _ _ _ _ _ _ _ _ H0)) as (s1 & E & C).
  rewrite (run_bind _ _ _ _ _ E). exists s1. split; [reflexivity|].
  destruct (a =? 0); exact (run_delta _ _ _ _ _ _ _ _ _ _ _ H0 C).
Qed.
Lemma X_out F D f x dx a l i o :
  Does F D 44 f x dx false 0 (a :: l) i o x dx false 0 l i (o ++ [a mod 256]).
Proof.
  intros s H. destruct (C127_out F D s a l (run_normal _ _ _ _ _ _ _ _ 44 H eq_refl) (R_stack _ _ _ _ _ _ _ _ _ H)) as (s1 & E & C).
  exists s1. split; [exact E|]. apply (run_world _ _ _ _ _ _ _ _ _ _ _ _ _ _ H C); [reflexivity| |].
  - exact (R_in _ _ _ _ _ _ _ _ _ H).
  - cbn. now rewrite (R_out _ _ _ _ _ _ _ _ _ H).
Qed.
Lemma X_in F D f x dx a l i o : a <> 13 ->
  Does F D 126 f x dx false 0 l (a :: i) o x dx false 0 (a :: l) i o.
Proof.
  intros N s H. destruct (C127_in F D s a i l (run_normal _ _ _ _ _ _ _ _ 126 H eq_refl) (R_stack _ _ _ _ _ _ _ _ _ H) N
    (R_in _ _ _ _ _ _ _ _ _ H)) as (s1 & E & C).
  exists s1. split; [exact E|]. apply (run_world _ _ _ _ _ _ _ _ _ _ _ _ _ _ H C); [reflexivity|reflexivity|].
  exact (R_out _ _ _ _ _ _ _ _ _ H).
Qed.
Lemma X_tramp F D f x dx l i o x' : Next f x dx x' ->
  Does F D 35 f x dx false 0 l i o x' dx false 0 l i o.
Proof.
  intros N s H. destruct (run_next _ _ _ _ _ _ _ _ _ _ H N) as (s1 & E & H1). exists s1. split; [|exact H1].
  rewrite (execute_normal F D _ s _ _ (run_normal _ _ _ _ _ _ _ _ 35 H eq_refl) eq_refl). cbn [run_meth].
  rewrite (run_bind _ _ _ _ _ E). reflexivity.
Qed.
(** At the end of the input ~ turns the IP round. *)
Lemma step_eof F D f x dx l o x' w : RunW f x dx false 0 l [] o w -> f_get f [x] = 126 ->
  in64 (- dx) -> Next f x (- dx) x' ->
  exists w', Goes F (S D) 1 w w' /\ RunW f x' (- dx) false 0 l [] o w'.
Proof.
  intros H C B N.
  destruct (world_step F (S D) f x dx false 0 l [] o w x' (- dx) false 0 l [] o H) as (w' & E & H').
  - intros s HS. pose proof (C127_end F D s (run_normal _ _ _ _ _ _ _ _ 126 HS eq_refl) (R_in _ _ _ _ _ _ _ _ _ HS)) as E.
    set (s0 := {| s_w := s_w s; s_r := set_r_delta [- dx] (s_r s) |}).
    assert (H0 : Run f x (- dx) false 0 l [] o s0) by (destruct HS; constructor; cbn; auto).
    assert (E0 : ipReflect s = Ok (tt, s0)).
    { unfold ipReflect, ipTurn, mbind, getR, lift. rewrite (R_delta _ _ _ _ _ _ _ _ _ HS).
      assert (V : vrev [dx] = Ok [- dx]).
      { unfold vrev. cbn [vsize length vrev_loop Nat.ltb Nat.leb]. change (vget [dx] 0) with dx.
        unfold neg64. rewrite chk64_ok by exact B. cbn [bind]. rewrite vset1. reflexivity. }
      rewrite V. reflexivity. }
    destruct (run_next _ _ _ _ _ _ _ _ _ _ H0 N) as (s1 & E1 & H1). exists s1. split; [|exact H1].
    apply loopM_inr. rewrite (tick_step_exec F (S D) s 126 EUnspec s);
      [|exact (run_nodebug _ _ _ _ _ _ _ _ _ HS)|rewrite (run_cell _ _ _ _ _ _ _ _ _ HS); exact C|exact E].
    rewrite (R_handler _ _ _ _ _ _ _ _ _ HS). unfold errorHandler, mbind. rewrite E0, E1. reflexivity.
  - exists w'. split; [now apply goes_one|exact H'].
Qed.

(** ** C129 Whole programs *)

(** The program  #@~,  copies its input to its output and ends at the end of the
    input. *)
Definition cat_prog : bytes := [35; 64; 126; 44].

Lemma cat_next : Next (prog_field cat_prog) 0 1 1 /\ Next (prog_field cat_prog) 1 1 2 /\
  Next (prog_field cat_prog) 2 1 3 /\ Next (prog_field cat_prog) 3 1 0 /\ Next (prog_field cat_prog) 2 (-1) 1.
Proof. unfold Next. vm_compute. repeat split; reflexivity. Qed.
Lemma cat_loop F D input : Forall (fun c => 0 <= c <= 255 /\ c <> 13) input -> forall o w,
  RunW (prog_field cat_prog) 2 1 false 0 [] input o w ->
  exists w', Goes F (S D) (3 * length input) w w' /\
    RunW (prog_field cat_prog) 2 1 false 0 [] [] (o ++ input) w'.
Proof.
  destruct cat_next as (N0 & N1 & N2 & N3 & _).
  induction input as [|a t IH]; intros HI o w H.
  - exists w. split; [constructor|]. now rewrite app_nil_r.
  - inversion HI as [|? ? (Ha & Hn) HI']; subst.
    destruct (step_gen F D 126 _ _ _ _ _ _ _ _ _ _ _ _ _ _ _ 3 w H eq_refl (X_in F D _ _ _ a [] t o Hn) N2)
      as (w1 & G1 & H1).
    destruct (step_gen F D 44 _ _ _ _ _ _ _ _ _ _ _ _ _ _ _ 0 w1 H1 eq_refl (X_out F D _ _ _ a [] t o) N3)
      as (w2 & G2 & H2).
    destruct (step_gen F D 35 _ _ _ _ _ _ _ _ _ _ _ _ _ _ _ 2 w2 H2 eq_refl
                (X_tramp F D _ _ _ [] t _ 1 N0) N1) as (w3 & G3 & H3).
    rewrite Z.mod_small in H3 by lia.
    destruct (IH HI' _ _ H3) as (w4 & G4 & H4). exists w4. split.
    + replace (3 * length (a :: t))%nat with (1 + (1 + (1 + 3 * length t)))%nat by (cbn [length]; lia).
      eapply goes_trans; [exact G1|]. eapply goes_trans; [exact G2|]. eapply goes_trans; [exact G3|exact G4].
    + rewrite <- app_assoc in H4. exact H4.
Qed.

(** The program in universe 0 of [w] runs to its end, having printed [o]. *)
Definition Prints F D (w : world) (o : bytes) : Prop :=
  exists w', run_universe F D 0 w = Ok w' /\ w_out w' = o /\ u_exit (w_uni w' 0) = 0.
Lemma cat_runs F D input w0 :
  Forall (fun c => 0 <= c <= 255 /\ c <> 13) input -> 3 * Z.of_nat (length input) + 4 <= Z.pos F ->
  RunW (prog_field cat_prog) 0 1 false 0 [] input [] w0 -> Prints F (S D) w0 input.
Proof.
  intros HI HF H0. destruct cat_next as (N0 & N1 & _ & _ & N4).
  destruct (step_gen F D 35 _ _ _ _ _ _ _ _ _ _ _ _ _ _ _ 2 w0 H0 eq_refl
              (X_tramp F D _ _ _ [] input [] 1 N0) N1) as (w1 & G1 & H1).
  destruct (cat_loop F D input HI _ _ H1) as (w2 & G2 & H2). cbn [app] in H2.
  destruct (step_eof F D _ 2 1 [] input 1 w2 H2 eq_refl) as (w3 & G3 & H3).
  { unfold in64, INT64_MIN, INT64_MAX; lia. }
  { exact N4. }
  destruct (goes_ends F D (1 + (3 * length input + 1)) _ _ _ _ _ _ _ _ _
              (goes_trans _ _ _ _ _ _ _ G1 (goes_trans _ _ _ _ _ _ _ G2 G3)) H3 eq_refl ltac:(lia))
    as (w4 & E4 & O & X).
  exists w4. auto.
Qed.
Lemma cat_plain : Forall plain_char cat_prog /\ Z.of_nat (length cat_prog) <= INT64_MAX.
Proof. split; [unfold cat_prog, plain_char; repeat constructor; lia|unfold INT64_MAX; cbn; lia]. Qed.
Theorem C129_cat : forall F D input,
  Forall (fun c => 0 <= c <= 255 /\ c <> 13) input -> 3 * Z.of_nat (length input) + 4 <= Z.pos F ->
  run_program F (S D) c98 cat_prog input = Ok (input, 0).
Proof.
  intros F D input HI HF. unfold run_program. destruct cat_plain as [P1 P2].
  destruct (boots F cat_prog input P1 P2) as (w0 & E0 & H0). rewrite E0. cbn [bind].
  destruct (cat_runs F D input w0 HI HF H0) as (w4 & E4 & O & X). rewrite E4. cbn [bind]. now rewrite O, X.
Qed.

(** The program  "TEXT BACKWARDS">:#,_@  prints the text. *)
Definition print_end : bytes := [34; 62; 58; 35; 44; 95; 64].
Definition print_prog (t : bytes) : bytes := 34 :: rev t ++ print_end.

Section Print.
  Variable F : positive.
  Variable D : nat.
  Variable t : bytes.
  Hypothesis HT : Forall (fun c => 32 <= c <= 255 /\ c <> 34) t.
  Hypothesis HB : ~ exists a b, t = a ++ [32; 32] ++ b.
  Hypothesis HL : Z.of_nat (length t) + 8 <= INT64_MAX.
  Let n := Z.of_nat (length t).
  Let f := prog_field (print_prog t).

  Lemma print_len : Z.of_nat (length (print_prog t)) = n + 8.
  Proof. unfold print_prog, n. cbn [length]. rewrite app_length, rev_length. cbn [print_end length]. lia. Qed.
  Lemma print_next x d : 0 <= x + d < n + 8 -> Next f x d (x + d).
  Proof.
    intros H. apply next_row.
    - discriminate.
    - unfold print_prog, print_end. change [34; 62; 58; 35; 44; 95; 64] with ([34; 62; 58; 35; 44; 95] ++ [64]).
      rewrite app_assoc, app_comm_cons, last_last. discriminate.
    - unfold In_row. rewrite print_len. exact H.
    - unfold in64, n, INT64_MIN, INT64_MAX in *. lia.
  Qed.
  Lemma print_cell k : (k < 7)%nat -> f_get f [n + 1 + Z.of_nat k] = nth k print_end 32.
  Proof.
    intros H. replace (n + 1 + Z.of_nat k) with (Z.of_nat (S (length (rev t) + k))) by (rewrite rev_length; unfold n; lia).
    unfold f. rewrite prog_get.
    - unfold print_prog. cbn [nth]. rewrite app_nth2_plus. reflexivity.
    - unfold print_prog. cbn [length]. rewrite app_length. cbn [print_end length]. lia.
  Qed.
  Lemma print_text pre c suf : rev t = pre ++ c :: suf -> f_get f [1 + Z.of_nat (length pre)] = c.
  Proof.
    intros E. replace (1 + Z.of_nat (length pre)) with (Z.of_nat (S (length pre))) by lia. unfold f. rewrite prog_get.
    - unfold print_prog. cbn [nth]. rewrite E, <- app_assoc, app_nth2, Nat.sub_diag by lia. reflexivity.
    - unfold print_prog. rewrite E. cbn [length]. rewrite !app_length. cbn [length]. lia.
  Qed.

  Lemma print_string : forall suf pre i o w, rev t = pre ++ suf ->
    RunW f (1 + Z.of_nat (length pre)) 1 true (last pre 0) (rev pre) i o w ->
    exists w', Goes F (S D) (length suf) w w' /\ RunW f (1 + n) 1 true (last (rev t) 0) t i o w'.
  Proof.
    induction suf as [|c suf IH]; intros pre i o w E H.
    - rewrite app_nil_r in E. exists w. split; [constructor|]. rewrite <- E in H. rewrite rev_involutive, rev_length in H. exact H.
    - assert (IN : Forall (fun c => 32 <= c <= 255 /\ c <> 34) (rev t)) by now apply Forall_rev.
      assert (Hc : 32 <= c <= 255 /\ c <> 34).
      { rewrite Forall_forall in IN. apply IN. rewrite E. apply in_app_iff. right. left. reflexivity. }
      assert (Hp : (pre = [] \/ exists q p, pre = q ++ [p])).
      { destruct pre as [|p0 pre0] using rev_ind; eauto. }
      assert (NB : c = 32 -> last pre 0 <> 32).
      { intros -> Q. destruct Hp as [->|(q & p & ->)]; [discriminate Q|]. rewrite last_last in Q. subst p.
        apply HB. exists (rev suf), (rev q). rewrite <- (rev_involutive t), E, <- app_assoc. cbn [app].
        rewrite rev_app_distr. cbn [rev]. rewrite <- !app_assoc. reflexivity. }
      assert (PV : last pre 0 = 0 \/ plain_char (last pre 0)).
      { destruct Hp as [->|(q & p & ->)]; [left; reflexivity|right]. rewrite last_last.
        rewrite Forall_forall in IN. apply IN. rewrite E. rewrite <- app_assoc. apply in_app_iff. right. left. reflexivity. }
      assert (LE : Z.of_nat (length pre) + 1 <= n).
      { unfold n. rewrite <- (rev_length t), E, app_length. cbn [length]. lia. }
      destruct (step_gen F D c _ _ _ _ _ _ _ _ _ _ _ _ _ _ _ _ w H (print_text _ _ _ E)
                  (X_char F D _ _ _ c _ _ i o (proj1 Hc) (proj2 Hc) NB PV)
                  (print_next (1 + Z.of_nat (length pre)) 1 ltac:(lia))) as (w1 & G1 & H1).
      destruct (IH (pre ++ [c]) i o w1) as (w2 & G2 & H2).
      + rewrite E, <- app_assoc. reflexivity.
      + rewrite last_last, rev_app_distr, app_length. cbn [rev app length].
        replace (1 + Z.of_nat (length pre + 1)) with (1 + Z.of_nat (length pre) + 1) by lia. exact H1.
      + exists w2. split; [|exact H2]. exact (goes_trans _ _ 1 _ _ _ _ G1 G2).
  Qed.

  Lemma print_loop : forall u, Forall (fun c => 32 <= c <= 255 /\ c <> 34) u -> forall i o w,
    RunW f (n + 2) 1 false 0 u i o w \/ RunW f (n + 2) (-1) false 0 u i o w ->
    exists w', Goes F (S D) (6 * length u + 4) w w' /\ RunW f (n + 7) 1 false 0 [0] i (o ++ u) w'.
  Proof.
    assert (N0 : 0 <= n) by (unfold n; lia).
    assert (EAST : forall u i o w,
      RunW f (n + 2) 1 false 0 u i o w \/ RunW f (n + 2) (-1) false 0 u i o w ->
      exists w', Goes F (S D) 1 w w' /\ RunW f (n + 3) 1 false 0 u i o w').
    { intros u i o w H. replace (n + 3) with (n + 2 + 1) by lia.
      assert (C : f_get f [n + 2] = 62) by (replace (n + 2) with (n + 1 + Z.of_nat 1) by lia; now rewrite print_cell by lia).
      destruct H as [H|H];
        (eapply step_gen; [exact H|exact C|apply X_east|apply print_next; lia]). }
    assert (C3 : f_get f [n + 3] = 58) by (replace (n + 3) with (n + 1 + Z.of_nat 2) by lia; now rewrite print_cell by lia).
    assert (C4 : f_get f [n + 4] = 35) by (replace (n + 4) with (n + 1 + Z.of_nat 3) by lia; now rewrite print_cell by lia).
    assert (C5 : f_get f [n + 5] = 44) by (replace (n + 5) with (n + 1 + Z.of_nat 4) by lia; now rewrite print_cell by lia).
    assert (C6 : f_get f [n + 6] = 95) by (replace (n + 6) with (n + 1 + Z.of_nat 5) by lia; now rewrite print_cell by lia).
    assert (NX : forall x d y, y = x + d -> 0 <= y < n + 8 -> Next f x d y).
    { intros x d y -> Hy. now apply print_next. }
    induction u as [|a u IH]; intros HU i o w H.
    - destruct (EAST _ _ _ _ H) as (w1 & G1 & H1).
      destruct (step_gen F D 58 _ _ _ _ _ _ _ _ _ _ _ _ _ _ _ (n + 4) w1 H1 C3 (X_dup0 F D _ _ _ i o) (NX (n + 3) 1 (n + 4) ltac:(lia) ltac:(lia)))
        as (w2 & G2 & H2).
      destruct (step_gen F D 35 _ _ _ _ _ _ _ _ _ _ _ _ _ _ _ (n + 6) w2 H2 C4
        (X_tramp F D _ _ _ _ i o (n + 5) (NX (n + 4) 1 (n + 5) ltac:(lia) ltac:(lia))) (NX (n + 5) 1 (n + 6) ltac:(lia) ltac:(lia))) as (w3 & G3 & H3).
      destruct (step_gen F D 95 _ _ _ _ _ _ _ _ _ _ _ _ _ _ _ (n + 7) w3 H3 C6 (X_if F D _ _ _ 0 [0] i o)
        (NX (n + 6) 1 (n + 7) ltac:(lia) ltac:(lia))) as (w4 & G4 & H4).
      exists w4. split; [|rewrite app_nil_r; exact H4].
      exact (goes_trans _ _ 1 3 _ _ _ G1 (goes_trans _ _ 1 2 _ _ _ G2 (goes_trans _ _ 1 1 _ _ _ G3 G4))).
    - inversion HU as [|? ? (Ha & _) HU']; subst. destruct (EAST _ _ _ _ H) as (w1 & G1 & H1).
      destruct (step_gen F D 58 _ _ _ _ _ _ _ _ _ _ _ _ _ _ _ (n + 4) w1 H1 C3 (X_dup F D _ _ _ a u i o) (NX (n + 3) 1 (n + 4) ltac:(lia) ltac:(lia)))
        as (w2 & G2 & H2).
      destruct (step_gen F D 35 _ _ _ _ _ _ _ _ _ _ _ _ _ _ _ (n + 6) w2 H2 C4
        (X_tramp F D _ _ _ _ i o (n + 5) (NX (n + 4) 1 (n + 5) ltac:(lia) ltac:(lia))) (NX (n + 5) 1 (n + 6) ltac:(lia) ltac:(lia))) as (w3 & G3 & H3).
      assert (A0 : (a =? 0) = false) by (apply Z.eqb_neq; lia).
      pose proof (X_if F D f (n + 6) 1 a (a :: u) i o) as XI. rewrite A0 in XI.
      destruct (step_gen F D 95 _ _ _ _ _ _ _ _ _ _ _ _ _ _ _ (n + 5) w3 H3 C6 XI
        (NX (n + 6) (-1) (n + 5) ltac:(lia) ltac:(lia))) as (w4 & G4 & H4).
      destruct (step_gen F D 44 _ _ _ _ _ _ _ _ _ _ _ _ _ _ _ (n + 4) w4 H4 C5 (X_out F D _ _ _ a u i o)
        (NX (n + 5) (-1) (n + 4) ltac:(lia) ltac:(lia))) as (w5 & G5 & H5).
      destruct (step_gen F D 35 _ _ _ _ _ _ _ _ _ _ _ _ _ _ _ (n + 2) w5 H5 C4
        (X_tramp F D _ _ _ _ i _ (n + 3) (NX (n + 4) (-1) (n + 3) ltac:(lia) ltac:(lia))) (NX (n + 3) (-1) (n + 2) ltac:(lia) ltac:(lia))) as (w6 & G6 & H6).
      rewrite Z.mod_small in H6 by lia.
      destruct (IH HU' _ _ _ (or_intror H6)) as (w7 & G7 & H7). exists w7. split.
      + replace (6 * length (a :: u) + 4)%nat with (1 + (1 + (1 + (1 + (1 + (1 + (6 * length u + 4)))))))%nat by (cbn [length]; lia).
        exact (goes_trans _ _ _ _ _ _ _ G1 (goes_trans _ _ _ _ _ _ _ G2 (goes_trans _ _ _ _ _ _ _ G3
          (goes_trans _ _ _ _ _ _ _ G4 (goes_trans _ _ _ _ _ _ _ G5 (goes_trans _ _ _ _ _ _ _ G6 G7)))))).
      + rewrite <- app_assoc in H7. exact H7.
  Qed.

  Lemma print_plain : Forall plain_char (print_prog t) /\ Z.of_nat (length (print_prog t)) <= INT64_MAX.
  Proof.
    split.
    { unfold print_prog. constructor; [unfold plain_char; lia|]. apply Forall_app. split.
      - apply Forall_rev. eapply Forall_impl; [|exact HT]. unfold plain_char. cbn. intros; lia.
      - unfold print_end, plain_char. repeat constructor; lia. }
    { rewrite print_len. exact HL. }
  Qed.
  Lemma print_runs input w0 : 7 * n + 8 <= Z.pos F ->
    RunW (prog_field (print_prog t)) 0 1 false 0 [] input [] w0 -> Prints F (S D) w0 t.
  Proof.
    intros HF H0. assert (N0 : 0 <= n) by (unfold n; lia).
    destruct (step_gen F D 34 _ _ _ _ _ _ _ _ _ _ _ _ _ _ _ 1 w0 H0 (prog_get (print_prog t) 0 ltac:(cbn; lia)) (X_open F D _ _ _ _ _ _ _)
      (print_next 0 1 ltac:(lia))) as (w1 & G1 & H1).
    destruct (print_string (rev t) [] input [] w1 eq_refl H1) as (w2 & G2 & H2).
    assert (C1 : f_get f [1 + n] = 34)
      by (replace (1 + n) with (n + 1 + Z.of_nat 0) by lia; now rewrite print_cell by lia).
    assert (N1 : Next f (1 + n) 1 (n + 2)) by (replace (n + 2) with (1 + n + 1) by lia; apply print_next; lia).
    destruct (step_gen F D 34 _ _ _ _ _ _ _ _ _ _ _ _ _ _ _ (n + 2) w2 H2 C1 (X_close F D _ _ _ _ _ _ _) N1)
      as (w3 & G3 & H3).
    destruct (print_loop t HT _ _ _ (or_introl H3)) as (w4 & G4 & H4).
    rewrite rev_length in G2. cbn [app] in H4.
    destruct (goes_ends F D (1 + (length t + (1 + (6 * length t + 4)))) _ _ _ _ _ _ _ _ _
      (goes_trans _ _ _ _ _ _ _ G1 (goes_trans _ _ _ _ _ _ _ G2 (goes_trans _ _ _ _ _ _ _ G3 G4))) H4) as (w5 & E5 & O & X).
    { replace (n + 7) with (n + 1 + Z.of_nat 6) by lia. now rewrite print_cell by lia. }
    { unfold n in HF. lia. }
    exists w5. auto.
  Qed.
  Lemma print_all input : 7 * n + 8 <= Z.pos F -> run_program F (S D) c98 (print_prog t) input = Ok (t, 0).
  Proof.
    intros HF. unfold run_program. destruct print_plain as [P1 P2].
    destruct (boots F (print_prog t) input P1 P2) as (w0 & E0 & H0). rewrite E0. cbn [bind].
    destruct (print_runs input w0 HF H0) as (w4 & E4 & O & X). rewrite E4. cbn [bind]. now rewrite O, X.
  Qed.
End Print.

Theorem C129_print : forall F D t input,
  Forall (fun c => 32 <= c <= 255 /\ c <> 34) t -> (~ exists a b, t = a ++ [32; 32] ++ b) ->
  Z.of_nat (length t) + 8 <= INT64_MAX -> 7 * Z.of_nat (length t) + 8 <= Z.pos F ->
  run_program F (S D) c98 (34 :: rev t ++ [34; 62; 58; 35; 44; 95; 64]) input = Ok (t, 0).
Proof. intros F D t input HT HB HL HF. now apply print_all. Qed.

(** Examples: the hypotheses hold, and the programs run. *)
Example C129_cat_ex : Forall (fun c => 0 <= c <= 255 /\ c <> 13) [72; 10; 0; 255] /\
  run_program 16 1 c98 cat_prog [72; 10; 0; 255] = Ok ([72; 10; 0; 255], 0).
Proof. split; [repeat constructor; lia|vm_compute; reflexivity]. Qed.
Example C129_print_ex : Forall (fun c => 32 <= c <= 255 /\ c <> 34) (lit "Hello, World!") /\
  (~ exists a b, lit "Hello, World!" = a ++ [32; 32] ++ b) /\
  run_program 99 1 c98 (34 :: lit "!dlroW ,olleH" ++ [34] ++ lit ">:#,_@") [7] = Ok (lit "Hello, World!", 0).
Proof.
  split.
  { let x := eval vm_compute in (lit "Hello, World!") in change (lit "Hello, World!") with x.
    repeat (apply Forall_cons; [lia|]). apply Forall_nil. }
  split; [|vm_compute; reflexivity].
  intros (a & b & E). assert (N : forall k, nth k (lit "Hello, World!") 0 = 32 -> k = 6%nat).
  { intros k H. do 14 (destruct k as [|k]; [cbn in H; try discriminate H; reflexivity|]). destruct k; discriminate H. }
  assert (A : length a = 6%nat) by (apply N; rewrite E, app_nth2, Nat.sub_diag by lia; reflexivity).
  assert (B : S (length a) = 6%nat).
  { apply N. rewrite E, app_nth2 by lia. replace (S (length a) - length a)%nat with 1%nat by lia. reflexivity. }
  lia.
Qed.
(** The hypotheses matter: adjacent blanks are merged, and a carriage return is
    lost. *)
Example C129_needed :
  run_program 99 1 c98 (34 :: lit "b  a" ++ [34] ++ lit ">:#,_@") [] = Ok (lit "a b", 0) /\
  run_program 99 1 c98 cat_prog [65; 13; 66] = Ok ([65; 66], 0).
Proof. vm_compute. split; reflexivity. Qed.
Print Assumptions C129_cat.
Print Assumptions C129_print.

(** ** C130 Arithmetic expressions *)

(** Expressions over the digits 0 to f and the arithmetic instructions, and
    their postfix code. *)
Inductive expr := Num (n : Z) | Not (a : expr) | Bin (op : Z) (a b : expr).
Fixpoint code (e : expr) : bytes :=
  match e with
  | Num n => [if n <? 10 then 48 + n else 87 + n]
  | Not a => code a ++ [33]
  | Bin op a b => code a ++ code b ++ [op]
  end.
Fixpoint value (e : expr) : Z :=
  match e with
  | Num n => n
  | Not a => if value a =? 0 then 1 else 0
  | Bin op a b => arith op (value a) (value b)
  end.
Fixpoint Written (e : expr) : Prop :=
  match e with
  | Num n => 0 <= n <= 15
  | Not a => Written a
  | Bin op a b => In op [43; 45; 42; 47; 37; 96] /\ Written a /\ Written b
  end.
(** Every operation is one C++ defines. *)
Fixpoint Defined (e : expr) : Prop :=
  match e with
  | Num _ => True
  | Not a => Defined a
  | Bin op a b => Defined a /\ Defined b /\ ~ undefined op (value a) (value b)
  end.

Lemma defined_dec op b a : undefined op b a \/ ~ undefined op b a.
Proof.
  unfold undefined.
  destruct (in64b (arith op b a)) eqn:E; [apply in64b_true in E|apply in64b_false in E];
  destruct (Z.eq_dec op 43), (Z.eq_dec op 45), (Z.eq_dec op 42), (Z.eq_dec op 47), (Z.eq_dec op 37),
    (Z.eq_dec b INT64_MIN), (Z.eq_dec a (-1)); try tauto; try lia.
Qed.
Lemma arith_in64 op b a : In op [43; 45; 42; 47; 37; 96] -> in64 b -> in64 a -> ~ undefined op b a -> in64 (arith op b a).
Proof.
  intros H B A U.
  assert (P : (op = 43 \/ op = 45 \/ op = 42) -> in64 (arith op b a)).
  { intros Q. destruct (in64b (arith op b a)) eqn:E; [now apply in64b_true|]. apply in64b_false in E.
    exfalso. apply U. left. auto. }
  assert (Z1 : in64 0 /\ in64 1) by (unfold in64, INT64_MIN, INT64_MAX; lia).
  repeat (destruct H as [<-|H]); [ | | | | | |contradiction]; try (apply P; lia).
  - unfold arith. cbn [Z.eqb Pos.eqb]. destruct (Z.eqb_spec a 0); [apply Z1|]. apply quot_in64; auto.
    intros Q. apply U. right. auto.
  - unfold arith. cbn [Z.eqb Pos.eqb]. destruct (Z.eqb_spec a 0); [apply Z1|].
    pose proof (Z.rem_bound_abs b a n) as R. unfold in64, INT64_MIN, INT64_MAX in *. lia.
  - unfold arith. cbn [Z.eqb Pos.eqb]. destruct (b >? a); apply Z1.
Qed.
Lemma value_in64 e : Written e -> Defined e -> in64 (value e).
Proof.
  induction e as [n|a IH|op a IHa b IHb]; cbn [Written Defined value].
  - intros H _. unfold in64, INT64_MIN, INT64_MAX. lia.
  - intros _ _. destruct (value a =? 0); unfold in64, INT64_MIN, INT64_MAX; lia.
  - intros (H & A & B) (DA & DB & U). apply arith_in64; auto.
Qed.

Lemma X_num F D f x dx n l i o : 0 <= n <= 15 ->
  Does F D (if n <? 10 then 48 + n else 87 + n) f x dx false 0 l i o x dx false 0 (n :: l) i o.
Proof.
  intros H s HR. destruct (pushS_plain s l n (R_stack _ _ _ _ _ _ _ _ _ HR)) as (s1 & E & C).
  exists s1. split; [|exact (run_stack_step _ _ _ _ _ _ _ _ _ _ _ HR C)].
  assert (Q : n = 0 \/ n = 1 \/ n = 2 \/ n = 3 \/ n = 4 \/ n = 5 \/ n = 6 \/ n = 7 \/ n = 8 \/ n = 9 \/ n = 10 \/
    n = 11 \/ n = 12 \/ n = 13 \/ n = 14 \/ n = 15) by lia.
  repeat (destruct Q as [->|Q]); try subst n;
    match goal with |- execute _ _ ?c _ = _ => let c' := eval cbn in c in change c with c' end;
    erewrite execute_normal; try (eapply run_normal; [exact HR|reflexivity]); try reflexivity;
    cbn [run_meth]; rewrite (run_bind _ _ _ _ _ E); reflexivity.
Qed.
Lemma X_not F D f x dx a l i o :
  Does F D 33 f x dx false 0 (a :: l) i o x dx false 0 ((if a =? 0 then 1 else 0) :: l) i o.
Proof.
  intros s H. destruct (C19_not F D s _ (run_normal _ _ _ _ _ _ _ _ 33 H eq_refl) (R_stack _ _ _ _ _ _ _ _ _ H)) as (s1 & E & C).
  exists s1. split; [exact E|]. exact (run_stack_step _ _ _ _ _ _ _ _ _ _ _ H C).
Qed.
Lemma op_normal f x dx l i o s op : In op [43; 45; 42; 47; 37; 96] -> Run f x dx false 0 l i o s -> Normal s op.
Proof.
  intros H HR. repeat (destruct H as [<-|H]); [ | | | | | |contradiction]; (eapply run_normal; [exact HR|reflexivity]).
Qed.
Lemma X_bin F D f x dx op a b l i o : In op [43; 45; 42; 47; 37; 96] -> in64 a -> in64 b -> ~ undefined op b a ->
  Does F D op f x dx false 0 (a :: b :: l) i o x dx false 0 (arith op b a :: l) i o.
Proof.
  intros Ho A B U s H.
  destruct (C19_arith F D op s _ Ho (op_normal _ _ _ _ _ _ _ _ Ho H) (R_stack _ _ _ _ _ _ _ _ _ H) A B) as (Q & _).
  destruct (Q U) as (s1 & E & C). exists s1. split; [exact E|]. exact (run_stack_step _ _ _ _ _ _ _ _ _ _ _ H C).
Qed.
Lemma step_undefined F D f x dx op a b l i o w : RunW f x dx false 0 (a :: b :: l) i o w -> f_get f [x] = op ->
  In op [43; 45; 42; 47; 37; 96] -> in64 a -> in64 b -> undefined op b a ->
  run_step F (S D) 0 w = Bad BadOverflow \/ run_step F (S D) 0 w = Bad BadDiv.
Proof.
  intros (r & R & H) C Ho A B U. set (s := {| s_w := w; s_r := r |}) in *.
  destruct (C19_arith F D op s _ Ho (op_normal _ _ _ _ _ _ _ _ Ho H) (R_stack _ _ _ _ _ _ _ _ _ H) A B) as (_ & Q).
  assert (T : forall e, execute F (S D) op s = Bad e -> run_step F (S D) 0 w = Bad e).
  { intros e E. assert (TK : tick F (S D) s = Bad e).
    { apply loopM_err. unfold tick_step, isMode, getU, mbind. unfold ret at 1.
      pose proof (run_nodebug _ _ _ _ _ _ _ _ _ H) as ND. unfold no_debug in ND. rewrite ND.
      change (ipGet s) with (Ok (f_get (space s) (r_pos (s_r s)), s) : res (Z * st)). cbv beta iota.
      rewrite (run_cell _ _ _ _ _ _ _ _ _ H), C, E. reflexivity. }
    unfold run_step, uni_step. pose proof (R_queue _ _ _ _ _ _ _ _ _ H) as Qu. cbn [s_w s] in Qu. rewrite Qu, R.
    pose proof (R_stopped _ _ _ _ _ _ _ _ _ H) as ST. cbn [s_r s] in ST. rewrite ST. unfold as_runner. rewrite R.
    fold s. rewrite TK. reflexivity. }
  destruct (Q U) as [E|E]; [left|right]; now apply T.
Qed.
Lemma X_numout F D f x dx a l i o :
  Does F D 46 f x dx false 0 (a :: l) i o x dx false 0 l i (o ++ dec (to_i32 a) ++ [32]).
Proof.
  intros s H. destruct (numout_run F D s _ (run_normal _ _ _ _ _ _ _ _ 46 H eq_refl) (R_stack _ _ _ _ _ _ _ _ _ H)) as (s1 & E & C).
  cbn [hd tl] in C. exists s1. split; [exact E|]. apply (run_world _ _ _ _ _ _ _ _ _ _ _ _ _ _ H C); [reflexivity| |].
  - exact (R_in _ _ _ _ _ _ _ _ _ H).
  - cbn. now rewrite (R_out _ _ _ _ _ _ _ _ _ H).
Qed.

Lemma row_cell p pre c suf : p = pre ++ c :: suf -> f_get (prog_field p) [Z.of_nat (length pre)] = c.
Proof.
  intros ->. rewrite prog_get by (rewrite app_length; cbn [length]; lia).
  now rewrite app_nth2, Nat.sub_diag by lia.
Qed.
Lemma row_next p pre c d suf : p = pre ++ c :: d :: suf -> last p 32 <> 32 -> Z.of_nat (length p) <= INT64_MAX ->
  Next (prog_field p) (Z.of_nat (length pre)) 1 (Z.of_nat (length (pre ++ [c]))).
Proof.
  intros E L B. rewrite app_length. cbn [length].
  replace (Z.of_nat (length pre + 1)) with (Z.of_nat (length pre) + 1) by lia.
  assert (K : (length p = length pre + 2 + length suf)%nat) by (rewrite E, app_length; cbn [length]; lia).
  apply next_row.
  - intros ->. destruct pre; discriminate E.
  - exact L.
  - unfold In_row. lia.
  - unfold in64, INT64_MIN, INT64_MAX in *. lia.
Qed.

Lemma code_runs F D e : forall p pre d suf l i o w, Written e ->
  p = pre ++ code e ++ d :: suf -> last p 32 <> 32 -> Z.of_nat (length p) <= INT64_MAX ->
  RunW (prog_field p) (Z.of_nat (length pre)) 1 false 0 l i o w ->
  (Defined e -> exists w', Goes F (S D) (length (code e)) w w' /\
     RunW (prog_field p) (Z.of_nat (length (pre ++ code e))) 1 false 0 (value e :: l) i o w') /\
  (~ Defined e -> exists n w', Goes F (S D) n w w' /\ (n < length (code e))%nat /\
     (run_step F (S D) 0 w' = Bad BadOverflow \/ run_step F (S D) 0 w' = Bad BadDiv)).
Proof.
  induction e as [n|a IH|op a IHa b IHb]; intros p pre d suf l i o w HW E L B H;
    cbn [Written Defined value] in *.
  - split; [intros _|tauto].
    exact (step_gen F D _ _ _ _ _ _ _ _ _ _ _ _ _ _ _ _ _ w H (row_cell _ _ _ _ E) (X_num F D _ _ _ n l i o HW)
             (row_next _ _ _ _ _ E L B)).
  - cbn [code] in E |- *. rewrite <- app_assoc in E. cbn [app] in E.
    destruct (IH p pre 33 (d :: suf) l i o w HW E L B H) as (IH1 & IH2). split.
    + intros HD. destruct (IH1 HD) as (w1 & G1 & H1).
      rewrite app_assoc in E.
      destruct (step_gen F D 33 _ _ _ _ _ _ _ _ _ _ _ _ _ _ _ _ w1 H1 (row_cell _ _ _ _ E) (X_not F D _ _ _ (value a) l i o)
        (row_next _ _ _ _ _ E L B)) as (w2 & G2 & H2).
      exists w2. split; [rewrite app_length; exact (goes_trans _ _ _ _ _ _ _ G1 G2)|].
      rewrite app_assoc. exact H2.
    + intros ND. destruct (IH2 ND) as (n & w1 & G & N & R). exists n, w1. rewrite app_length. split; [exact G|].
      split; [cbn [length]; lia|exact R].
  - destruct HW as (Ho & WA & WB). cbn [code] in E |- *.
    assert (E1 : p = pre ++ code a ++ (code b ++ op :: d :: suf)) by (rewrite E, <- !app_assoc; reflexivity).
    assert (E2 : p = (pre ++ code a) ++ code b ++ op :: d :: suf) by (rewrite E1, <- !app_assoc; reflexivity).
    assert (E3 : p = ((pre ++ code a) ++ code b) ++ op :: d :: suf) by (rewrite E1, <- !app_assoc; reflexivity).
    destruct (code b ++ op :: d :: suf) as [|d1 suf1] eqn:E0; [destruct (code b); discriminate E0|].
    destruct (IHa p pre d1 suf1 l i o w WA E1 L B H) as (A1 & A2).
    assert (DA : Defined a \/ ~ Defined a).
    { clear. induction a as [n|a IH|op a IHa b IHb]; cbn [Defined]; [tauto|tauto|].
      destruct (defined_dec op (value a) (value b)); tauto. }
    destruct DA as [DA|DA].
    2:{ split; [tauto|]. intros _. destruct (A2 DA) as (n & w1 & G & N & R). exists n, w1. rewrite app_length.
        split; [exact G|]. split; [lia|exact R]. }
    destruct (A1 DA) as (w1 & G1 & H1). 
    rewrite <- E0 in E2.
    destruct (IHb p (pre ++ code a) op (d :: suf) (value a :: l) i o w1 WB E2 L B H1) as (B1 & B2).
    assert (DB : Defined b \/ ~ Defined b).
    { clear. induction b as [n|a IH|op a IHa b IHb]; cbn [Defined]; [tauto|tauto|].
      destruct (defined_dec op (value a) (value b)); tauto. }
    destruct DB as [DB|DB].
    2:{ split; [tauto|]. intros _. destruct (B2 DB) as (n & w2 & G & N & R).
        exists (length (code a) + n)%nat, w2. split; [exact (goes_trans _ _ _ _ _ _ _ G1 G)|].
        rewrite !app_length. split; [lia|exact R]. }
    destruct (B1 DB) as (w2 & G2 & H2).
    pose proof (value_in64 a WA DA) as VA. pose proof (value_in64 b WB DB) as VB.
    split.
    + intros (_ & _ & U).
      destruct (step_gen F D op _ _ _ _ _ _ _ _ _ _ _ _ _ _ _ _ w2 H2 (row_cell _ _ _ _ E3)
        (X_bin F D _ _ _ op _ _ l i o Ho VB VA U) (row_next _ _ _ _ _ E3 L B)) as (w3 & G3 & H3).
      exists w3. split.
      * rewrite !app_length. exact (goes_trans _ _ _ _ _ _ _ G1 (goes_trans _ _ _ _ _ _ _ G2 G3)).
      * rewrite !app_assoc. exact H3.
    + intros ND. exists (length (code a) + length (code b))%nat, w2. split; [exact (goes_trans _ _ _ _ _ _ _ G1 G2)|].
      rewrite !app_length. split; [cbn [length]; lia|].
      apply (step_undefined F D _ _ _ op _ _ _ _ _ w2 H2 (row_cell _ _ _ _ E3) Ho VB VA).
      destruct (defined_dec op (value a) (value b)); tauto.
Qed.
Lemma code_plain e : Written e -> Forall plain_char (code e).
Proof.
  unfold plain_char. induction e as [n|a IH|op a IHa b IHb]; cbn [Written code].
  - intros H. constructor; [destruct (Z.ltb_spec n 10); lia|constructor].
  - intros H. apply Forall_app. split; [auto|]. repeat constructor; lia.
  - intros (H & A & B). apply Forall_app. split; [auto|]. apply Forall_app. split; [auto|].
    constructor; [|constructor]. repeat (destruct H as [<-|H]); [lia|lia|lia|lia|lia|lia|contradiction].
Qed.

Lemma expr_plain e : Written e -> Z.of_nat (length (code e)) + 2 <= INT64_MAX ->
  Forall plain_char (code e ++ [46; 64]) /\ Z.of_nat (length (code e ++ [46; 64])) <= INT64_MAX.
Proof.
  intros HW HL. split; [|rewrite app_length; cbn [length]; lia].
  apply Forall_app. split; [now apply code_plain|]. unfold plain_char. repeat constructor; lia.
Qed.
Lemma expr_runs F D e input w0 : Written e -> Defined e ->
  -2147483648 <= value e <= 2147483647 ->
  Z.of_nat (length (code e)) + 3 <= Z.pos F -> Z.of_nat (length (code e)) + 2 <= INT64_MAX ->
  RunW (prog_field (code e ++ [46; 64])) 0 1 false 0 [] input [] w0 ->
  Prints F (S D) w0 (dec (value e) ++ [32]).
Proof.
  intros HW HD HV HF HL. set (p := code e ++ [46; 64]). intros H0.
  assert (LP : Z.of_nat (length p) <= INT64_MAX) by (unfold p; rewrite app_length; cbn [length]; lia).
  assert (LL : last p 32 <> 32).
  { unfold p. change [46; 64] with ([46] ++ [64]). rewrite app_assoc, last_last. discriminate. }
  destruct (code_runs F D e p [] 46 [64] [] input [] w0 HW eq_refl LL LP H0) as (Q & _).
  destruct (Q HD) as (w1 & G1 & H1). cbn [app] in H1.
  destruct (step_gen F D 46 _ _ _ _ _ _ _ _ _ _ _ _ _ _ _ _ w1 H1 (row_cell p (code e) 46 [64] eq_refl)
    (X_numout F D _ _ _ (value e) [] input []) (row_next p (code e) 46 64 [] eq_refl LL LP)) as (w2 & G2 & H2).
  destruct (goes_ends F D (length (code e) + 1) _ _ _ _ _ _ _ _ _ (goes_trans _ _ _ _ _ _ _ G1 G2) H2) as (w3 & E3 & O & X).
  - apply row_cell with (suf := []). unfold p. rewrite <- app_assoc. reflexivity.
  - lia.
  - exists w3. split; [exact E3|]. split; [|exact X]. rewrite O. cbn [app]. now rewrite to_i32_id by lia.
Qed.
(** The code of an expression followed by  .@  prints the expression's value in
    decimal and a blank, and ends. *)
Theorem C130_expr_partial : forall F D e input, Written e -> Defined e ->
  -2147483648 <= value e <= 2147483647 ->
  Z.of_nat (length (code e)) + 3 <= Z.pos F -> Z.of_nat (length (code e)) + 2 <= INT64_MAX ->
  exists text, decimal (value e) text /\
    run_program F (S D) c98 (code e ++ [46; 64]) input = Ok (text ++ [32], 0).
Proof.
  intros F D e input HW HD HV HF HL. exists (dec (value e)). split; [apply dec_decimal|].
  unfold run_program. destruct (expr_plain e HW HL) as [P1 P2].
  destruct (boots F _ input P1 P2) as (w0 & E0 & H0). rewrite E0. cbn [bind].
  destruct (expr_runs F D e input w0 HW HD HV HF HL H0) as (w4 & E4 & O & X). rewrite E4. cbn [bind]. now rewrite O, X.
Qed.
(** If some operation of the expression is one C++ does not define, running the
    program is undefined. *)
Theorem C130_undefined : forall F D e input, Written e -> ~ Defined e ->
  Z.of_nat (length (code e)) + 3 <= Z.pos F -> Z.of_nat (length (code e)) + 2 <= INT64_MAX ->
  run_program F (S D) c98 (code e ++ [46; 64]) input = Bad BadOverflow \/
  run_program F (S D) c98 (code e ++ [46; 64]) input = Bad BadDiv.
Proof.
  intros F D e input HW HD HF HL. unfold run_program. set (p := code e ++ [46; 64]).
  assert (LP : Z.of_nat (length p) <= INT64_MAX) by (unfold p; rewrite app_length; cbn [length]; lia).
  assert (LL : last p 32 <> 32).
  { unfold p. change [46; 64] with ([46] ++ [64]). rewrite app_assoc, last_last. discriminate. }
  destruct (boots F p input) as (w0 & E0 & H0); [|exact LP|].
  { apply Forall_app. split; [now apply code_plain|]. unfold plain_char. repeat constructor; lia. }
  rewrite E0. cbn [bind].
  destruct (code_runs F D e p [] 46 [64] [] input [] w0 HW eq_refl LL LP H0) as (_ & Q).
  destruct (Q HD) as (n & w1 & G1 & N & R).
  assert (T : forall e', run_step F (S D) 0 w1 = Bad e' -> run_universe F (S D) 0 w0 = Bad e').
  { intros e' E. unfold run_universe. rewrite loop_loopNr.
    replace (Pos.to_nat F) with (n + S (Pos.to_nat F - n - 1))%nat by lia.
    rewrite (goes_loop _ _ _ _ _ _ G1), loopNr_unfold, E. reflexivity. }
  destruct R as [R|R]; rewrite (T _ R); [left|right]; reflexivity.
Qed.
(** But a value that needs more than 32 bits is printed wrongly: 8 to the 11th
    power, 8589934592, is printed as 0. *)
Definition C130_wide : expr :=
  let p2 := Bin 42 (Num 8) (Num 8) in
  let p5 := Bin 42 (Bin 42 p2 p2) (Num 8) in
  Bin 42 (Bin 42 p5 p5) (Num 8).
Theorem C130_wide_refuted : Written C130_wide /\ Defined C130_wide /\ value C130_wide = 8589934592 /\
  run_program 99 1 c98 (code C130_wide ++ [46; 64]) [] = Ok ([48; 32], 0) /\ ~ decimal 8589934592 [48].
Proof.
  split; [vm_compute; intuition discriminate|]. split.
  { assert (K : forall b a, in64 (b * a) -> ~ undefined 42 b a).
    { intros b a H [[_ U]|[[U|U] _]]; [exact (U H)|discriminate U|discriminate U]. }
    cbn [Defined C130_wide]. repeat split; apply K; vm_compute; split; discriminate. }
  split; [reflexivity|]. split; [vm_compute; reflexivity|].
  intros (ds & A & _ & _ & V & _). cbn in A. subst ds. discriminate V.
Qed.
(** Example: (3 - f) / 5 * 9 plus the negation of 2 > 7. *)
Definition C130_e : expr := Bin 43 (Bin 42 (Bin 47 (Bin 45 (Num 3) (Num 15)) (Num 5)) (Num 9)) (Not (Bin 96 (Num 2) (Num 7))).
Example C130_ex : Written C130_e /\ Defined C130_e /\ value C130_e = -17 /\
  code C130_e = lit "3f-5/9*27`!+" /\
  run_program 99 1 c98 (lit "3f-5/9*27`!+.@") [] = Ok (lit "-17 ", 0).
Proof.
  split; [vm_compute; intuition discriminate|]. split.
  { cbn [Defined C130_e]. repeat split; intros [[[U|[U|U]] N]|[[U|U] [N _]]]; try discriminate U;
      try discriminate N; apply N; vm_compute; split; discriminate. }
  repeat split; vm_compute; reflexivity.
Qed.
(** Example of the undefined kind: 8 multiplied 22 times. *)
Definition C130_big : expr :=
  let p3 := Bin 42 (Bin 42 (Num 8) (Num 8)) (Num 8) in let p9 := Bin 42 (Bin 42 p3 p3) p3 in
  Bin 42 (Bin 42 p9 p9) p3.
Example C130_undefined_ex : Written C130_big /\ ~ Defined C130_big /\
  run_program 99 1 c98 (code C130_big ++ [46; 64]) [] = Bad BadOverflow.
Proof.
  split; [vm_compute; intuition discriminate|]. split; [|vm_compute; reflexivity].
  intros (_ & _ & U). apply U. left. split; [auto|]. intros (_ & Q). vm_compute in Q. apply Q. reflexivity.
Qed.
Print Assumptions C130_expr_partial.
Print Assumptions C130_undefined.
Print Assumptions C130_wide_refuted.
