(** * Properties C131 and C132: whole ><> and *><> programs.  From the text of a
    program file and its input to everything it prints and its exit code, for
    programs and inputs of every length. *)

From Coq Require Import ZArith Lia String List Bool SpecFloat.
From Verif Require Import Base BaseProofs VectorModel VectorProofs TextModel TextProofs
  StackModel StackProofs FieldModel FieldProofs World IpModel IpProofs LoadModel FingModel CoreModel
  UniModel OptModel ExecProofs States FlowProofs PropsBlocks PropsIO Effects SchedProofs PropsSched PropsTurn
  DblModel DblProofs FishModel FishProofs FishSafe PropsFish PropsFishRun PropsWhole.
Import ListNotations.
Open Scope Z_scope.

(** ** The state of a one-row program *)

(** The IP is at column [x], heading [dx] columns per step, reading a string
    ([q]) or not, with the whole numbers [l] on its stack; [i] is the input still
    unread and [o] what was printed. *)
Record FRun (star : bool) (f : field) (x dx : Z) (q : bool) (l : list Z) (i o : bytes) (s : st) : Prop := {
  K_cfg : u_cfg (w_uni (s_w s) 0) = set_c_dims 2 (set_c_name [] (fish_cfg star));
  K_field : u_field (w_uni (s_w s) 0) = f;
  K_queue : u_queue (w_uni (s_w s) 0) = [0];
  K_exit : u_exit (w_uni (s_w s) 0) = 0;
  K_uni : r_uni (s_r s) = 0%nat;
  K_id : r_id (s_r s) = 0;
  K_stopped : r_stopped (s_r s) = false;
  K_pos : r_pos (s_r s) = [x];
  K_delta : r_delta (s_r s) = [dx];
  K_string : r_string (s_r s) = q;
  K_end : q = true -> r_end (s_r s) = 34;
  K_stack : exists cs, Holds s cs /\ Forall2 num cs l;
  K_small : Forall small l;
  K_in : w_in (s_w s) = i;
  K_out : w_out (s_w s) = o }.

Lemma frun_stack star f x dx q l i o s s' cs l' :
  FRun star f x dx q l i o s -> Only_stack s s' cs -> Forall2 num cs l' -> Forall small l' ->
  FRun star f x dx q l' i o s'.
Proof.
  intros H C N S. destruct (K_stack _ _ _ _ _ _ _ _ _ H) as (c0 & H0 & _).
  pose proof (Only_stack_holds _ _ _ _ H0 C) as HS.
  pose proof (Only_stack_w _ _ _ C) as W. pose proof (Only_stack_r _ _ _ C) as R.
  destruct H. constructor; rewrite ?W, ?R; cbn; eauto.
Qed.
Lemma frun_moved star f x dx q l i o s x' :
  FRun star f x dx q l i o s -> FRun star f x' dx q l i o (moved s [x'] [dx]).
Proof. intros H. destruct H. constructor; cbn; auto. Qed.
Lemma frun_delta star f x dx q l i o s s' d :
  FRun star f x dx q l i o s -> Only_delta s s' [d] -> FRun star f x d q l i o s'.
Proof. intros H (fish & ->). destruct H. constructor; cbn; auto. Qed.
Lemma frun_ready star f x dx l i o s : FRun star f x dx false l i o s -> Ready s.
Proof.
  intros H. destruct H. split; [assumption|]. rewrite K_uni0. unfold testmode. rewrite K_cfg0.
  destruct star; reflexivity.
Qed.
Lemma frun_nohover star f x dx q l i o s : FRun star f x dx q l i o s -> NoHover s.
Proof.
  intros H. destruct H. unfold NoHover. rewrite K_uni0. unfold testmode. rewrite K_cfg0. destruct star; reflexivity.
Qed.
Lemma frun_nodebug star f x dx q l i o s : FRun star f x dx q l i o s -> debugging s = false.
Proof.
  intros H. destruct H. unfold debugging. rewrite K_uni0. unfold testmode. rewrite K_cfg0. destruct star; reflexivity.
Qed.
Lemma frun_here star f x dx q l i o s : FRun star f x dx q l i o s -> here s = f_get f [x].
Proof. intros H. destruct H. unfold here. now rewrite K_uni0, K_field0, K_pos0. Qed.
Lemma frun_style star f x dx q l i o s : FRun star f x dx q l i o s -> string_style s = StrMultispace.
Proof. intros H. destruct H. unfold string_style. rewrite K_uni0, K_cfg0. destruct star; reflexivity. Qed.
Lemma frun_next_of star f x dx q l i o s x' : FRun star f x dx q l i o s -> Next f x dx x' ->
  next_of s = Ok ([x'], [dx]).
Proof.
  intros H N. destruct H. unfold next_of. rewrite K_uni0, K_field0, K_cfg0, K_pos0, K_delta0.
  destruct star; exact N.
Qed.
Lemma frun_next star f x dx q l i o s x' : FRun star f x dx q l i o s -> Next f x dx x' ->
  exists s', ipNext s = Ok (tt, s') /\ FRun star f x' dx q l i o s'.
Proof.
  intros H N. exists (moved s [x'] [dx]). split; [|now apply (frun_moved star f x)].
  apply ipNext_run; [exact (K_stopped _ _ _ _ _ _ _ _ _ H)|]. exact (frun_next_of _ _ _ _ _ _ _ _ _ _ H N).
Qed.

(** ** Ticks *)

Inductive FGoes (star : bool) (F : positive) : nat -> st -> st -> Prop :=
| fgoes_0 s : FGoes star F 0 s s
| fgoes_S n s s1 s2 : r_stopped (s_r s) = false -> fish_tick star F fx0 s = Ok (fx0, s1) ->
    FGoes star F n s1 s2 -> FGoes star F (S n) s s2.
Lemma fgoes_trans star F n m s s1 s2 : FGoes star F n s s1 -> FGoes star F m s1 s2 -> FGoes star F (n + m) s s2.
Proof. induction 1; intros H2; cbn; [exact H2|]. econstructor; eauto. Qed.
Lemma fgoes_ends star F n s s' : FGoes star F n s s' -> r_stopped (s_r s') = true -> (n < Pos.to_nat F)%nat ->
  fish_run star F fx0 s = Ok (fx0, s').
Proof.
  intros G ST L. unfold fish_run, loopM. rewrite loop_loopNr.
  assert (Q : forall k, loopNr (fun as_ : fx * st =>
     match fish_run_step star F (fst as_) (snd as_) with
     | Ok (inl a', s') => Ok (inl (a', s'))
     | Ok (inr b, s') => Ok (inr (b, s'))
     | Bad e => Bad e
     end) (n + S k) (fx0, s) = Ok (fx0, s')).
  { clear L. intros k. induction G as [s|n s s1 s2 S0 T G IH].
    - cbn [Nat.add]. rewrite loopNr_unfold. cbn [fst snd]. unfold fish_run_step, mbind, getR. rewrite ST. reflexivity.
    - cbn [Nat.add]. rewrite loopNr_unfold. cbn [fst snd]. unfold fish_run_step, mbind, getR. rewrite S0, T.
      unfold ret. exact (IH ST). }
  replace (Pos.to_nat F) with (n + S (Pos.to_nat F - n - 1))%nat by lia. exact (Q _).
Qed.

Definition FDoes (star : bool) c f x dx q l i o x1 dx1 q1 l1 i1 o1 : Prop :=
  forall s, FRun star f x dx q l i o s ->
  exists s1, fish_execute star c fx0 s = Ok ((ENone, fx0), s1) /\ FRun star f x1 dx1 q1 l1 i1 o1 s1.

Lemma fstep star F c f x dx q l i o x1 dx1 q1 l1 i1 o1 x2 s :
  FRun star f x dx q l i o s -> f_get f [x] = c ->
  FDoes star c f x dx q l i o x1 dx1 q1 l1 i1 o1 -> Next f x1 dx1 x2 ->
  exists s', FGoes star F 1 s s' /\ FRun star f x2 dx1 q1 l1 i1 o1 s'.
Proof.
  intros H C DO N. destruct (DO s H) as (s1 & E & H1).
  destruct (frun_next _ _ _ _ _ _ _ _ _ _ H1 N) as (s2 & E2 & H2).
  exists s2. split; [|exact H2]. apply (fgoes_S star F 0 s s2 s2); [exact (K_stopped _ _ _ _ _ _ _ _ _ H)| |constructor].
  rewrite <- C, <- (frun_here _ _ _ _ _ _ _ _ _ H) in E.
  rewrite (tick_ok star F fx0 s fx0 s1 (frun_nodebug _ _ _ _ _ _ _ _ _ H) E), E2. reflexivity.
Qed.
(** An error ends the program with exit code 1. *)
Lemma ferror star F c f x dx q l i o s s1 q1 l1 i1 o1 x1 dx1 : FRun star f x dx q l i o s -> f_get f [x] = c ->
  fish_execute star c fx0 s = Ok ((EUnspec, fx0), s1) -> FRun star f x1 dx1 q1 l1 i1 o1 s1 ->
  exists s', FGoes star F 1 s s' /\ r_stopped (s_r s') = true /\ w_out (s_w s') = o1 /\
    r_uni (s_r s') = 0%nat /\ u_exit (w_uni (s_w s') 0) = 1.
Proof.
  intros H C E H1. rewrite <- C, <- (frun_here _ _ _ _ _ _ _ _ _ H) in E.
  assert (Q : queue (s_w s1) (r_uni (s_r s1)) = [0]).
  { unfold queue. rewrite (K_uni _ _ _ _ _ _ _ _ _ H1). exact (K_queue _ _ _ _ _ _ _ _ _ H1). }
  destruct (C76_error star F fx0 s fx0 s1 EUnspec (frun_nodebug _ _ _ _ _ _ _ _ _ H) E (or_introl eq_refl))
    as (s' & T & R & _ & _ & U & _ & W).
  - rewrite Q, (K_id _ _ _ _ _ _ _ _ _ H1). left. reflexivity.
  - intros id Hin. rewrite Q in Hin. destruct Hin as [<-|[]]. left. symmetry. exact (K_id _ _ _ _ _ _ _ _ _ H1).
  - exists s'. split.
    { apply (fgoes_S star F 0 s s' s'); [exact (K_stopped _ _ _ _ _ _ _ _ _ H)|exact T|constructor]. }
    split; [rewrite R; reflexivity|]. split; [rewrite W; exact (K_out _ _ _ _ _ _ _ _ _ H1)|].
    rewrite (K_uni _ _ _ _ _ _ _ _ _ H1) in U.
    split; [rewrite R; exact (K_uni _ _ _ _ _ _ _ _ _ H1)|]. rewrite U. reflexivity.
Qed.
(** [;] ends it with the exit code it has. *)
Lemma fend star F f x dx l i o s : FRun star f x dx false l i o s -> f_get f [x] = 59 ->
  exists s', FGoes star F 1 s s' /\ r_stopped (s_r s') = true /\ w_out (s_w s') = o /\
    r_uni (s_r s') = 0%nat /\ u_exit (w_uni (s_w s') 0) = 0.
Proof.
  intros H C. pose proof (frun_here _ _ _ _ _ _ _ _ _ H) as Hh. rewrite C in Hh.
  pose proof (C80_end star F fx0 s (frun_nodebug _ _ _ _ _ _ _ _ _ H) (frun_ready _ _ _ _ _ _ _ _ H) Hh) as T.
  eexists. split; [apply (fgoes_S star F 0 s _ _ (K_stopped _ _ _ _ _ _ _ _ _ H) T); constructor|].
  destruct H. cbn. auto.
Qed.

(** ** The beginning *)

Lemma fstarted star f input r w :
  (r_id r = 0 /\ r_uni r = 0%nat /\ r_stopped r = false /\
   r_pos r = [0] /\ r_delta r = [1] /\ r_string r = false /\
   exists k, ss_top (ss_setmode 0 (ss_setmode 0 (r_ss r))) = Ok k /\ plain k /\ s_list k = []) ->
  w_uni w 0 = {| u_cfg := set_c_dims 2 (set_c_name [] (fish_cfg star)); u_field := f;
                 u_queue := []; u_running := true; u_exit := 0 |} ->
  w_in w = input -> w_out w = [] ->
  FRun star f 0 1 false [] input [] {| s_w := add_runner 0 (run_setmode 0 r) w; s_r := run_setmode 0 (run_setmode 0 r) |}.
Proof.
  intros (I & U & S & P & DL & SG & K) WU WI WO. unfold run_setmode. unfold run_setmode in *. constructor;
    cbn [s_w s_r r_uni r_id r_stopped r_pos r_delta r_string r_end set_r_ss];
    auto; unfold add_runner; rewrite ?uni_updated, ?I; cbn; rewrite ?WU, ?I; auto.
  - discriminate.
  - destruct K as (k & K1 & K2 & K3). exists []. split; [|constructor]. exists k. auto.
Qed.

Lemma fish_runner_new star f :
  exists r, fish_runner star 0 0
    {| u_cfg := set_c_dims 2 (set_c_name [] (fish_cfg star)); u_field := f;
       u_queue := []; u_running := true; u_exit := 0 |} [0] [1] = Ok (run_setmode 0 r) /\
  r_id r = 0 /\ r_uni r = 0%nat /\ r_stopped r = false /\
  r_pos r = [0] /\ r_delta r = [1] /\ r_string r = false /\
  exists k, ss_top (ss_setmode 0 (ss_setmode 0 (r_ss r))) = Ok k /\ plain k /\ s_list k = [].
Proof.
  unfold fish_runner. cbn [u_cfg]. destruct star.
  - eexists. split; [reflexivity|]. repeat split; try reflexivity.
    eexists. split; [reflexivity|]. repeat split; reflexivity.
  - eexists. split; [reflexivity|]. repeat split; try reflexivity.
    eexists. split; [reflexivity|]. repeat split; reflexivity.
Qed.
Lemma fboots star F l input : Forall plain_char l -> Z.of_nat (length l) <= INT64_MAX ->
  exists s, fish_boot star F l (fish_cfg star) (world0 input (fun _ => None) (fun _ => 0)) = Ok s /\
    FRun star (prog_field l) 0 1 false [] input [] s.
Proof.
  intros HP HL. destruct (parse_row l 2 0 [0] 0 (field_empty 2 false) HP) as (z & E & Hz);
    [unfold in64, INT64_MIN, INT64_MAX; lia|lia|exists 0; split; [reflexivity|unfold in64, INT64_MIN, INT64_MAX; lia]|].
  unfold fish_boot, multi_create_file.
  assert (CN : c_name (fish_cfg star) = []) by (destruct star; reflexivity).
  assert (CD : c_dims (fish_cfg star) = 2%nat) by (destruct star; reflexivity).
  assert (CC : c_char (fish_cfg star) = false) by (destruct star; reflexivity).
  assert (CM : c_mode (fish_cfg star) = 0) by (destruct star; reflexivity).
  rewrite CN, CD, CC.
  assert (L : loop (name_step [] (world0 input (fun _ => None) (fun _ => 0))) F [] = Ok []).
  { rewrite loop_loopNr. replace (Pos.to_nat F) with (S (Pos.to_nat F - 1)) by lia. rewrite loopNr_unfold. reflexivity. }
  rewrite L. cbn [bind]. change (mkvec [0]) with [0].
  change (f_parse [0] l false (field_empty 2 false)) with
    (r <-- parse_loop false 2 [0] l [0] [0] 0 (field_empty 2 false) ;;
     d <-- vsub (fst r) [0] ;; Ok (d, f_fixdims (snd r))).
  rewrite E. cbn [bind fst snd]. fold (prog_field l).
  assert (V : exists d, vsub [z] [0] = Ok d).
  { unfold vsub. cbn [vsize length Nat.max forN]. unfold sub64. change (vget [z] 0) with z.
    change (vget [0] 0) with 0. rewrite Z.sub_0_r, chk64_ok by exact Hz. cbn [bind]. eauto. }
  destruct V as (d & V). rewrite V. cbn [bind snd].
  replace (f_fixdims (prog_field l)) with (prog_field l)
    by (unfold f_fixdims, prog_field; rewrite row_put_dims; reflexivity).
  change (w_nuni (world0 input (fun _ => None) (fun _ => 0))) with 0%nat.
  set (u := {| u_cfg := set_c_dims 2 (set_c_name [] (fish_cfg star)); u_field := prog_field l;
               u_queue := []; u_running := true; u_exit := 0 |}).
  set (w1 := set_w_nuni 1 (upd_uni 0 (fun _ => u) (world0 input (fun _ => None) (fun _ => 0)))).
  change (w_uni w1 0) with u. change (w_nrun w1) with 0. change (mkvec [1]) with [1].
  destruct (fish_runner_new star (prog_field l)) as (r & ER & FR). fold u in ER. rewrite ER. cbn [bind].
  eexists. split; [reflexivity|].
  assert (CU : c_mode (u_cfg (w_uni (add_runner 0 (run_setmode 0 r) (set_w_nrun (0 + 1) w1)) 0)) = 0).
  { unfold add_runner. rewrite uni_updated. cbn. exact CM. }
  rewrite CU. apply fstarted; [exact FR|reflexivity|reflexivity|reflexivity].
Qed.

(** ** Instructions *)

Lemma small_byte c : 0 <= c <= 255 -> small c.
Proof. unfold small. lia. Qed.
Lemma frun_world star f x dx q l i o s s1 cs l' w' i' o' :
  FRun star f x dx q l i o s -> Only_stack s s1 cs -> Forall2 num cs l' -> Forall small l' ->
  w_uni w' 0 = w_uni (s_w s) 0 -> w_in w' = i' -> w_out w' = o' ->
  FRun star f x dx q l' i' o' {| s_w := w'; s_r := s_r s1 |}.
Proof.
  intros H C N S U I O. pose proof (frun_stack _ _ _ _ _ _ _ _ _ _ _ _ H C N S) as H1.
  destruct H, H1. constructor; cbn [s_w s_r]; rewrite ?U; auto.
Qed.

Lemma fish_digit star d f x dx l i o : 0 <= d <= 15 ->
  FDoes star (if d <? 10 then 48 + d else 87 + d) f x dx false l i o x dx false (d :: l) i o.
Proof.
  intros Hd s H. destruct (K_stack _ _ _ _ _ _ _ _ _ H) as (cs & HS & N).
  destruct (C74_digit star (if d <? 10 then 48 + d else 87 + d) s fx0 cs d) as (s' & z & E & O & Z0);
    [destruct (Z.ltb_spec d 10); lia|exact (frun_ready _ _ _ _ _ _ _ _ H)|exact HS|].
  exists s'. split; [exact E|]. eapply frun_stack; [exact H|exact O|constructor; assumption|].
  constructor; [unfold small; lia|exact (K_small _ _ _ _ _ _ _ _ _ H)].
Qed.
Lemma fish_binary star c a b r f x dx l i o : fish_op c b a = Some r -> small r ->
  FDoes star c f x dx false (a :: b :: l) i o x dx false (r :: l) i o.
Proof.
  intros Op Sr s H. destruct (K_stack _ _ _ _ _ _ _ _ _ H) as (cs & HS & N).
  inversion N as [|x1 ? cs1 ? Nx N1]; subst. inversion N1 as [|y1 ? cs2 ? Ny N2]; subst.
  pose proof (K_small _ _ _ _ _ _ _ _ _ H) as S. inversion S as [|? ? Sa S1]; subst. inversion S1 as [|? ? Sb S2]; subst.
  destruct (C74_integer star c s fx0 x1 y1 cs2 a b r (frun_ready _ _ _ _ _ _ _ _ H) HS Nx Ny Sa Sb Op Sr)
    as (s' & z & E & O & Z0).
  exists s'. split; [exact E|]. eapply frun_stack; [exact H|exact O|constructor; assumption|].
  constructor; assumption.
Qed.
Lemma fish_dup star a f x dx l i o : FDoes star 58 f x dx false (a :: l) i o x dx false (a :: a :: l) i o.
Proof.
  intros s H. destruct (K_stack _ _ _ _ _ _ _ _ _ H) as (cs & HS & N).
  inversion N as [|x1 ? cs1 ? Nx N1]; subst.
  destruct (C75_shuffle star 58 s fx0 (x1 :: cs1) (x1 :: x1 :: cs1) (frun_ready _ _ _ _ _ _ _ _ H) HS eq_refl)
    as (s' & E & O).
  exists s'. split; [exact E|]. eapply frun_stack; [exact H|exact O|constructor; assumption|].
  pose proof (K_small _ _ _ _ _ _ _ _ _ H) as S. inversion S; subst. constructor; assumption.
Qed.
Lemma fish_outchar star a f x dx l i o :
  FDoes star 111 f x dx false (a :: l) i o x dx false l i (o ++ [a mod 256]).
Proof.
  intros s H. destruct (K_stack _ _ _ _ _ _ _ _ _ H) as (cs & HS & N).
  inversion N as [|x1 ? cs1 ? Nx N1]; subst.
  pose proof (K_small _ _ _ _ _ _ _ _ _ H) as S. inversion S as [|? ? Sa S1]; subst.
  destruct (C74_print star s fx0 x1 cs1 a (frun_ready _ _ _ _ _ _ _ _ H) HS Nx Sa) as (s1 & O & _ & E).
  eexists. split; [exact E|].
  eapply frun_world; [exact H|exact O|exact N1|exact S1|reflexivity| |];
    cbn; [exact (K_in _ _ _ _ _ _ _ _ _ H)|now rewrite (K_out _ _ _ _ _ _ _ _ _ H)].
Qed.
Lemma fish_outint star a f x dx l i o :
  FDoes star 110 f x dx false (a :: l) i o x dx false l i (o ++ dec a).
Proof.
  intros s H. destruct (K_stack _ _ _ _ _ _ _ _ _ H) as (cs & HS & N).
  inversion N as [|x1 ? cs1 ? Nx N1]; subst.
  pose proof (K_small _ _ _ _ _ _ _ _ _ H) as S. inversion S as [|? ? Sa S1]; subst.
  destruct (C74_print star s fx0 x1 cs1 a (frun_ready _ _ _ _ _ _ _ _ H) HS Nx Sa) as (s1 & O & E & _).
  eexists. split; [exact E|].
  eapply frun_world; [exact H|exact O|exact N1|exact S1|reflexivity| |];
    cbn; [exact (K_in _ _ _ _ _ _ _ _ _ H)|now rewrite (K_out _ _ _ _ _ _ _ _ _ H)].
Qed.
(** [i]: the next character, or -1. *)
Definition read_of (i : bytes) : Z := match i with [] => -1 | c :: _ => c end.
Lemma fish_read star f x dx l i o : small (read_of i) ->
  FDoes star 105 f x dx false l i o x dx false (read_of i :: l) (tl i) o.
Proof.
  intros Sc s H. destruct (K_stack _ _ _ _ _ _ _ _ _ H) as (cs & HS & N).
  set (s0 := {| s_w := set_w_in (tl i) (s_w s); s_r := s_r s |}).
  assert (H0 : FRun star f x dx false l (tl i) o s0).
  { destruct H. constructor; cbn; auto. }
  assert (HS0 : Holds s0 cs) by exact HS.
  destruct (pushS_plain s0 cs (bits_of_dbl (dbl_of_int (read_of i))) HS0) as (s1 & E1 & O).
  exists s1. split.
  - rewrite (fish_letter star 105 s fx0 false fishIn (frun_ready _ _ _ _ _ _ _ _ H)) by (destruct star; reflexivity).
    unfold fishIn. cbn [fx_file fx0].
    assert (G : getchar s = Ok (match i with [] => None | c :: _ => Some c end, s0)).
    { unfold getchar. rewrite (K_in _ _ _ _ _ _ _ _ _ H). unfold s0. destruct i; [|reflexivity]. cbn [tl].
      f_equal. f_equal. destruct s as [w r]. cbn [s_w s_r] in *. f_equal.
      pose proof (K_in _ _ _ _ _ _ _ _ _ H) as W. cbn [s_w] in W. destruct w; cbn in W |- *. now rewrite W. }
    rewrite (run_bind _ _ _ _ _ G).
    assert (P : check_selected 0 (pushI (read_of i) ;;; ok) s0 = Ok (ENone, s1)).
    { rewrite (check_selected_holds s0 cs _ HS0). unfold pushI, pushIAt. change (pushAt TOP) with pushS.
      rewrite (run_bind _ _ _ _ _ E1). reflexivity. }
    replace (match match i with [] => None | c :: _ => Some c end with Some c => c | None => -1 end)
      with (read_of i) by (destruct i; reflexivity).
    rewrite (run_bind _ _ _ _ _ P). reflexivity.
  - eapply frun_stack; [exact H0|exact O|constructor; [apply num_int; exact Sc|exact N]|].
    constructor; [exact Sc|exact (K_small _ _ _ _ _ _ _ _ _ H)].
Qed.
Lemma fish_east star f x dx l i o : FDoes star 62 f x dx false l i o x 1 false l i o.
Proof.
  intros s H. destruct (setdelta_plain s (mkvec [1; 0]) (frun_nohover _ _ _ _ _ _ _ _ _ H)) as (s1 & E & C).
  exists s1. rewrite (fish_move star 62 s fx0 (ipSetDelta (mkvec [1; 0]) ;;; ok) (K_string _ _ _ _ _ _ _ _ _ H))
    by (destruct star; reflexivity).
  rewrite (run_bind _ _ _ _ _ E). split; [reflexivity|]. exact (frun_delta _ _ _ _ _ _ _ _ _ _ _ H C).
Qed.
Lemma fish_west star f x dx l i o : FDoes star 60 f x dx false l i o x (-1) false l i o.
Proof.
  intros s H. destruct (setdelta_plain s (mkvec [-1; 0]) (frun_nohover _ _ _ _ _ _ _ _ _ H)) as (s1 & E & C).
  exists s1. rewrite (fish_move star 60 s fx0 (ipSetDelta (mkvec [-1; 0]) ;;; ok) (K_string _ _ _ _ _ _ _ _ _ H))
    by (destruct star; reflexivity).
  rewrite (run_bind _ _ _ _ _ E). split; [reflexivity|]. exact (frun_delta _ _ _ _ _ _ _ _ _ _ _ H C).
Qed.
(** [?] makes one step and, if the popped number is 0, another. *)
Lemma fish_if star F a f x dx l i o x1 x2 s : FRun star f x dx false (a :: l) i o s -> f_get f [x] = 63 ->
  Next f x dx x1 -> Next f x1 dx x2 ->
  exists s', FGoes star F 1 s s' /\ FRun star f (if a =? 0 then x2 else x1) dx false l i o s'.
Proof.
  intros H C N1 N2. destruct (K_stack _ _ _ _ _ _ _ _ _ H) as (cs & HS & N).
  inversion N as [|c1 ? cs1 ? Nx NN]; subst.
  pose proof (K_small _ _ _ _ _ _ _ _ _ H) as S. inversion S as [|? ? Sa S1]; subst.
  pose proof (frun_here _ _ _ _ _ _ _ _ _ H) as Hh. rewrite C in Hh.
  pose proof (frun_moved _ _ _ _ _ _ _ _ _ x1 H) as HM.
  destruct (C80_conditional star F fx0 s c1 a cs1 [x1] [dx] [x2] [dx] (frun_nodebug _ _ _ _ _ _ _ _ _ H)
    (frun_ready _ _ _ _ _ _ _ _ H) (K_stopped _ _ _ _ _ _ _ _ _ H) Hh HS Nx Sa
    (frun_next_of _ _ _ _ _ _ _ _ _ _ H N1) (frun_next_of _ _ _ _ _ _ _ _ _ _ HM N2)) as (s1 & O & T).
  pose proof (frun_stack _ _ _ _ _ _ _ _ _ _ _ _ H O NN S1) as H1.
  eexists. split; [apply (fgoes_S star F 0 s _ _ (K_stopped _ _ _ _ _ _ _ _ _ H) T); constructor|].
  destruct (a =? 0); [|now apply (frun_moved star f x)].
  apply (frun_moved star f x1). now apply (frun_moved star f x).
Qed.
Lemma fish_quote star f x dx l i o : FDoes star 34 f x dx false l i o x dx true l i o.
Proof.
  intros s H. eexists. split.
  - rewrite (fish_letter_pure star 34 s fx0 false (modR (fun r => set_r_string true (set_r_end 34 r)) ;;; ok)
      (frun_ready _ _ _ _ _ _ _ _ H)) by (destruct star; reflexivity). reflexivity.
  - destruct H. constructor; cbn; auto.
Qed.
Lemma fish_unquote star f x dx l i o : FDoes star 34 f x dx true l i o x dx false l i o.
Proof.
  intros s H. eexists. split.
  - unfold fish_execute. unfold mbind at 1. unfold getR at 1. rewrite (K_string _ _ _ _ _ _ _ _ _ H).
    unfold fish_string. unfold mbind at 1. unfold mbind at 1. unfold getR at 1.
    rewrite (K_end _ _ _ _ _ _ _ _ _ H eq_refl). rewrite Z.eqb_refl. reflexivity.
  - destruct H. constructor; cbn; auto.
Qed.
Lemma fish_char star c f x dx l i o : 0 <= c <= 255 -> c <> 34 ->
  FDoes star c f x dx true l i o x dx true (c :: l) i o.
Proof.
  intros Hc Nq s H. destruct (K_stack _ _ _ _ _ _ _ _ _ H) as (cs & HS & N).
  destruct (pushS_plain s cs (bits_of_dbl (dbl_of_int c)) HS) as (s1 & E1 & O). exists s1. split.
  - unfold fish_execute. unfold mbind at 1. unfold getR at 1. rewrite (K_string _ _ _ _ _ _ _ _ _ H).
    assert (Fs : fish_string c s = Ok (ENone, s1)).
    { unfold fish_string. unfold mbind at 1. unfold getR at 1. rewrite (K_end _ _ _ _ _ _ _ _ _ H eq_refl).
      destruct (Z.eqb_spec c 34); [contradiction|]. unfold getC. unfold mbind at 1. unfold mbind at 1. unfold getU at 1.
      unfold ret at 1. change (c_str (u_cfg (w_uni (s_w s) (r_uni (s_r s))))) with (string_style s).
      rewrite (frun_style _ _ _ _ _ _ _ _ _ H). unfold pushI, pushIAt. change (pushAt TOP) with pushS.
      rewrite (run_bind _ _ _ _ _ E1). reflexivity. }
    rewrite (run_bind _ _ _ _ _ Fs). reflexivity.
  - eapply frun_stack; [exact H|exact O|constructor; [apply num_int; apply small_byte; exact Hc|exact N]|].
    constructor; [apply small_byte; exact Hc|exact (K_small _ _ _ _ _ _ _ _ _ H)].
Qed.

(** ** C131 Copying the input, and printing a text *)

Lemma fish_result star F n data input s s' o e :
  fish_boot star F data (fish_cfg star) (world0 input (fun _ => None) (fun _ => 0)) = Ok s ->
  FGoes star F n s s' ->
  r_stopped (s_r s') = true /\ w_out (s_w s') = o /\ r_uni (s_r s') = 0%nat /\ u_exit (w_uni (s_w s') 0) = e ->
  (n < Pos.to_nat F)%nat -> fish_program star F data input = Ok (o, e).
Proof.
  intros B G (ST & O & U & X) L. unfold fish_program. rewrite B. cbn [bind].
  rewrite (fgoes_ends _ _ _ _ _ G ST L), U, O, X. reflexivity.
Qed.

(** The program  i:0(?;o  *)
Definition fcat_prog : bytes := [105; 58; 48; 40; 63; 59; 111].
Lemma fcat_next : Next (prog_field fcat_prog) 0 1 1 /\ Next (prog_field fcat_prog) 1 1 2 /\
  Next (prog_field fcat_prog) 2 1 3 /\ Next (prog_field fcat_prog) 3 1 4 /\ Next (prog_field fcat_prog) 4 1 5 /\
  Next (prog_field fcat_prog) 5 1 6 /\ Next (prog_field fcat_prog) 6 1 0.
Proof. unfold Next. vm_compute. repeat split; reflexivity. Qed.
Lemma fcat_head star F i o s : small (read_of i) -> FRun star (prog_field fcat_prog) 0 1 false [] i o s ->
  exists s', FGoes star F 5 s s' /\
    FRun star (prog_field fcat_prog) (if read_of i <? 0 then 5 else 6) 1 false [read_of i] (tl i) o s'.
Proof.
  intros Sc H. destruct fcat_next as (N0 & N1 & N2 & N3 & N4 & N5 & N6).
  destruct (fstep star F 105 _ _ _ _ _ _ _ _ _ _ _ _ _ _ s H eq_refl (fish_read star _ _ _ _ _ _ Sc) N0) as (s1 & G1 & H1).
  destruct (fstep star F 58 _ _ _ _ _ _ _ _ _ _ _ _ _ _ s1 H1 eq_refl (fish_dup star _ _ _ _ _ _ _) N1) as (s2 & G2 & H2).
  destruct (fstep star F 48 _ _ _ _ _ _ _ _ _ _ _ _ _ _ s2 H2 eq_refl (fish_digit star 0 _ _ _ _ _ _ ltac:(lia)) N2)
    as (s3 & G3 & H3).
  destruct (fstep star F 40 _ _ _ _ _ _ _ _ _ _ _ _ _ _ s3 H3 eq_refl
    (fish_binary star 40 0 (read_of i) (if read_of i <? 0 then 1 else 0) _ _ _ _ _ _ eq_refl
       ltac:(unfold small; destruct (read_of i <? 0); lia)) N3) as (s4 & G4 & H4).
  destruct (fish_if star F _ _ _ _ _ _ _ _ _ s4 H4 eq_refl N4 N5) as (s5 & G5 & H5).
  exists s5. split.
  - exact (fgoes_trans _ _ 1 4 _ _ _ G1 (fgoes_trans _ _ 1 3 _ _ _ G2 (fgoes_trans _ _ 1 2 _ _ _ G3
      (fgoes_trans _ _ 1 1 _ _ _ G4 G5)))).
  - destruct (read_of i <? 0); exact H5.
Qed.
Lemma fcat_loop star F input : Forall (fun c => 0 <= c <= 255) input -> forall o s,
  FRun star (prog_field fcat_prog) 0 1 false [] input o s ->
  exists s', FGoes star F (6 * length input) s s' /\
    FRun star (prog_field fcat_prog) 0 1 false [] [] (o ++ input) s'.
Proof.
  destruct fcat_next as (_ & _ & _ & _ & _ & _ & N6).
  induction input as [|a t IH]; intros HI o s H.
  - exists s. split; [constructor|]. now rewrite app_nil_r.
  - inversion HI as [|? ? Ha HI']; subst.
    destruct (fcat_head star F (a :: t) _ _ (small_byte a Ha) H) as (s1 & G1 & H1). cbn [read_of tl] in H1.
    destruct (Z.ltb_spec a 0) as [?|_]; [lia|].
    destruct (fstep star F 111 _ _ _ _ _ _ _ _ _ _ _ _ _ _ s1 H1 eq_refl (fish_outchar star _ _ _ _ _ _ _) N6)
      as (s2 & G2 & H2).
    rewrite Z.mod_small in H2 by lia. destruct (IH HI' _ _ H2) as (s3 & G3 & H3). exists s3. split.
    + replace (6 * length (a :: t))%nat with (5 + (1 + 6 * length t))%nat by (cbn [length]; lia).
      exact (fgoes_trans _ _ _ _ _ _ _ G1 (fgoes_trans _ _ _ _ _ _ _ G2 G3)).
    + rewrite <- app_assoc in H3. exact H3.
Qed.
(** It copies its input, any bytes whatever, to its output, ends at the end of
    the input, and the exit code is 0. *)
Theorem C131_cat : forall star F input,
  Forall (fun c => 0 <= c <= 255) input -> 6 * Z.of_nat (length input) + 7 <= Z.pos F ->
  fish_program star F [105; 58; 48; 40; 63; 59; 111] input = Ok (input, 0).
Proof.
  intros star F input HI HF. destruct (fboots star F fcat_prog input) as (s0 & B & H0).
  { unfold fcat_prog, plain_char. repeat constructor; lia. }
  { unfold INT64_MAX. cbn. lia. }
  destruct (fcat_loop star F input HI _ _ H0) as (s1 & G1 & H1). cbn [app] in H1.
  destruct (fcat_head star F [] _ _ ltac:(unfold small; cbn; lia) H1) as (s2 & G2 & H2). cbn [read_of Z.ltb tl] in H2.
  destruct (fend star F _ _ _ _ _ _ _ H2 eq_refl) as (s3 & G3 & Q).
  apply (fish_result star F (6 * length input + (5 + 1)) fcat_prog input s0 s3 _ _ B); [|exact Q|lia].
  exact (fgoes_trans _ _ _ _ _ _ _ G1 (fgoes_trans _ _ _ _ _ _ _ G2 G3)).
Qed.

(** The program  "TEXT BACKWARDS">o<  *)
Definition fprint_end : bytes := [34; 62; 111; 60].
Definition fprint_prog (t : bytes) : bytes := 34 :: rev t ++ fprint_end.
Section FPrint.
  Variable star : bool.
  Variable F : positive.
  Variable t : bytes.
  Hypothesis HT : Forall (fun c => 32 <= c <= 255 /\ c <> 34) t.
  Hypothesis HL : Z.of_nat (length t) + 5 <= INT64_MAX.
  Let n := Z.of_nat (length t).
  Let f := prog_field (fprint_prog t).

  Lemma fprint_len : Z.of_nat (length (fprint_prog t)) = n + 5.
  Proof. unfold fprint_prog, n. cbn [length]. rewrite app_length, rev_length. cbn [fprint_end length]. lia. Qed.
  Lemma fprint_next x d y : y = x + d -> 0 <= y < n + 5 -> Next f x d y.
  Proof.
    intros -> H. apply next_row.
    - discriminate.
    - unfold fprint_prog, fprint_end. change [34; 62; 111; 60] with ([34; 62; 111] ++ [60]).
      rewrite app_assoc, app_comm_cons, last_last. discriminate.
    - unfold In_row. rewrite fprint_len. exact H.
    - unfold in64, n, INT64_MIN, INT64_MAX in *. lia.
  Qed.
  Lemma fprint_cell k : (k < 4)%nat -> f_get f [n + 1 + Z.of_nat k] = nth k fprint_end 32.
  Proof.
    intros H. replace (n + 1 + Z.of_nat k) with (Z.of_nat (S (length (rev t) + k))) by (rewrite rev_length; unfold n; lia).
    unfold f. rewrite prog_get.
    - unfold fprint_prog. cbn [nth]. rewrite app_nth2_plus. reflexivity.
    - unfold fprint_prog. cbn [length]. rewrite app_length. cbn [fprint_end length]. lia.
  Qed.
  Lemma fprint_text pre c suf : rev t = pre ++ c :: suf -> f_get f [1 + Z.of_nat (length pre)] = c.
  Proof.
    intros E. replace (1 + Z.of_nat (length pre)) with (Z.of_nat (S (length pre))) by lia. unfold f. rewrite prog_get.
    - unfold fprint_prog. cbn [nth]. rewrite E, <- app_assoc, app_nth2, Nat.sub_diag by lia. reflexivity.
    - unfold fprint_prog. rewrite E. cbn [length]. rewrite !app_length. cbn [length]. lia.
  Qed.
  Lemma fprint_string : forall suf pre i o s, rev t = pre ++ suf ->
    FRun star f (1 + Z.of_nat (length pre)) 1 true (rev pre) i o s ->
    exists s', FGoes star F (length suf) s s' /\ FRun star f (1 + n) 1 true t i o s'.
  Proof.
    induction suf as [|c suf IH]; intros pre i o s E H.
    - rewrite app_nil_r in E. exists s. split; [constructor|]. rewrite <- E in H. rewrite rev_involutive, rev_length in H. exact H.
    - assert (Hc : 32 <= c <= 255 /\ c <> 34).
      { assert (IN : Forall (fun c => 32 <= c <= 255 /\ c <> 34) (rev t)) by now apply Forall_rev.
        rewrite Forall_forall in IN. apply IN. rewrite E. apply in_app_iff. right. left. reflexivity. }
      assert (LE : Z.of_nat (length pre) + 1 <= n).
      { unfold n. rewrite <- (rev_length t), E, app_length. cbn [length]. lia. }
      destruct (fstep star F c _ _ _ _ _ _ _ _ _ _ _ _ _ _ s H (fprint_text _ _ _ E)
                  (fish_char star c _ _ _ _ i o ltac:(lia) (proj2 Hc))
                  (fprint_next (1 + Z.of_nat (length pre)) 1 (1 + Z.of_nat (length pre) + 1) eq_refl ltac:(lia)))
        as (s1 & G1 & H1).
      destruct (IH (pre ++ [c]) i o s1) as (s2 & G2 & H2).
      + rewrite E, <- app_assoc. reflexivity.
      + rewrite rev_app_distr, app_length. cbn [rev app length].
        replace (1 + Z.of_nat (length pre + 1)) with (1 + Z.of_nat (length pre) + 1) by lia. exact H1.
      + exists s2. split; [|exact H2]. exact (fgoes_trans _ _ 1 _ _ _ _ G1 G2).
  Qed.
  Lemma fprint_loop : forall u, Forall (fun c => 32 <= c <= 255 /\ c <> 34) u -> forall i o s dx,
    dx = 1 \/ dx = -1 -> FRun star f (n + 3) dx false u i o s ->
    exists s' dx', FGoes star F (2 * length u) s s' /\ FRun star f (n + 3) dx' false [] i (o ++ u) s'.
  Proof.
    assert (N0 : 0 <= n) by (unfold n; lia).
    assert (C2 : f_get f [n + 2] = 62) by (replace (n + 2) with (n + 1 + Z.of_nat 1) by lia; now rewrite fprint_cell by lia).
    assert (C3 : f_get f [n + 3] = 111) by (replace (n + 3) with (n + 1 + Z.of_nat 2) by lia; now rewrite fprint_cell by lia).
    assert (C4 : f_get f [n + 4] = 60) by (replace (n + 4) with (n + 1 + Z.of_nat 3) by lia; now rewrite fprint_cell by lia).
    induction u as [|a u IH]; intros HU i o s dx HD H.
    - exists s, dx. split; [constructor|]. now rewrite app_nil_r.
    - inversion HU as [|? ? Ha HU']; subst.
      assert (ST : exists s2 dx2, FGoes star F 2 s s2 /\ (dx2 = 1 \/ dx2 = -1) /\
        FRun star f (n + 3) dx2 false u i (o ++ [a mod 256]) s2).
      { destruct HD as [-> | ->].
        - destruct (fstep star F 111 _ _ _ _ _ _ _ _ _ _ _ _ _ _ s H C3 (fish_outchar star _ _ _ _ _ _ _)
            (fprint_next (n + 3) 1 (n + 4) ltac:(lia) ltac:(lia))) as (s1 & G1 & H1).
          destruct (fstep star F 60 _ _ _ _ _ _ _ _ _ _ _ _ _ _ s1 H1 C4 (fish_west star _ _ _ _ _ _)
            (fprint_next (n + 4) (-1) (n + 3) ltac:(lia) ltac:(lia))) as (s2 & G2 & H2).
          exists s2, (-1). split; [exact (fgoes_trans _ _ 1 1 _ _ _ G1 G2)|]. split; [lia|exact H2].
        - destruct (fstep star F 111 _ _ _ _ _ _ _ _ _ _ _ _ _ _ s H C3 (fish_outchar star _ _ _ _ _ _ _)
            (fprint_next (n + 3) (-1) (n + 2) ltac:(lia) ltac:(lia))) as (s1 & G1 & H1).
          destruct (fstep star F 62 _ _ _ _ _ _ _ _ _ _ _ _ _ _ s1 H1 C2 (fish_east star _ _ _ _ _ _)
            (fprint_next (n + 2) 1 (n + 3) ltac:(lia) ltac:(lia))) as (s2 & G2 & H2).
          exists s2, 1. split; [exact (fgoes_trans _ _ 1 1 _ _ _ G1 G2)|]. split; [lia|exact H2]. }
      destruct ST as (s2 & dx2 & G2 & D2 & H2). rewrite Z.mod_small in H2 by lia.
      destruct (IH HU' _ _ _ _ D2 H2) as (s3 & dx3 & G3 & H3). exists s3, dx3. split.
      + replace (2 * length (a :: u))%nat with (2 + 2 * length u)%nat by (cbn [length]; lia).
        exact (fgoes_trans _ _ _ _ _ _ _ G2 G3).
      + rewrite <- app_assoc in H3. exact H3.
  Qed.
  Lemma fprint_all input : 3 * n + 5 <= Z.pos F -> fish_program star F (fprint_prog t) input = Ok (t, 1).
  Proof.
    intros HF. assert (N0 : 0 <= n) by (unfold n; lia).
    destruct (fboots star F (fprint_prog t) input) as (s0 & B & H0).
    { unfold fprint_prog. constructor; [unfold plain_char; lia|]. apply Forall_app. split.
      - apply Forall_rev. eapply Forall_impl; [|exact HT]. unfold plain_char. cbn. intros; lia.
      - unfold fprint_end, plain_char. repeat constructor; lia. }
    { rewrite fprint_len. exact HL. }
    destruct (fstep star F 34 _ _ _ _ _ _ _ _ _ _ _ _ _ _ s0 H0 (prog_get (fprint_prog t) 0 ltac:(cbn; lia))
      (fish_quote star _ _ _ _ _ _) (fprint_next 0 1 1 ltac:(lia) ltac:(lia))) as (s1 & G1 & H1).
    destruct (fprint_string (rev t) [] input [] s1 eq_refl H1) as (s2 & G2 & H2). rewrite rev_length in G2.
    assert (C1 : f_get f [1 + n] = 34)
      by (replace (1 + n) with (n + 1 + Z.of_nat 0) by lia; now rewrite fprint_cell by lia).
    assert (C2 : f_get f [n + 2] = 62) by (replace (n + 2) with (n + 1 + Z.of_nat 1) by lia; now rewrite fprint_cell by lia).
    assert (C3 : f_get f [n + 3] = 111) by (replace (n + 3) with (n + 1 + Z.of_nat 2) by lia; now rewrite fprint_cell by lia).
    destruct (fstep star F 34 _ _ _ _ _ _ _ _ _ _ _ _ _ _ s2 H2 C1 (fish_unquote star _ _ _ _ _ _)
      (fprint_next (1 + n) 1 (n + 2) ltac:(lia) ltac:(lia))) as (s3 & G3 & H3).
    destruct (fstep star F 62 _ _ _ _ _ _ _ _ _ _ _ _ _ _ s3 H3 C2 (fish_east star _ _ _ _ _ _)
      (fprint_next (n + 2) 1 (n + 3) ltac:(lia) ltac:(lia))) as (s4 & G4 & H4).
    destruct (fprint_loop t HT _ _ _ 1 (or_introl eq_refl) H4) as (s5 & dx & G5 & H5). cbn [app] in H5.
    assert (E : fish_execute star 111 fx0 s5 = Ok ((EUnspec, fx0), s5)).
    { destruct (K_stack _ _ _ _ _ _ _ _ _ H5) as (cs & HS & N). inversion N; subst.
      rewrite (fish_letter_pure star 111 s5 fx0 false fishOutChar (frun_ready _ _ _ _ _ _ _ _ H5)
        ltac:(destruct star; reflexivity)).
      unfold fishOutChar. rewrite (check_stack_holds s5 [] 1 _ HS). reflexivity. }
    destruct (ferror star F 111 _ _ _ _ _ _ _ s5 s5 _ _ _ _ _ _ H5 C3 E H5) as (s6 & G6 & Q).
    apply (fish_result star F (1 + (length t + (1 + (1 + (2 * length t + 1))))) (fprint_prog t) input s0 s6 _ _ B);
      [|exact Q|unfold n in HF; lia].
    exact (fgoes_trans _ _ _ _ _ _ _ G1 (fgoes_trans _ _ _ _ _ _ _ G2 (fgoes_trans _ _ _ _ _ _ _ G3
      (fgoes_trans _ _ _ _ _ _ _ G4 (fgoes_trans _ _ _ _ _ _ _ G5 G6))))).
  Qed.
End FPrint.
(** It prints the text, with every blank in it, and then ends with an error, exit
    code 1, because there is nothing left to print. *)
Theorem C131_print : forall star F t input,
  Forall (fun c => 32 <= c <= 255 /\ c <> 34) t ->
  Z.of_nat (length t) + 5 <= INT64_MAX -> 3 * Z.of_nat (length t) + 5 <= Z.pos F ->
  fish_program star F (34 :: rev t ++ [34; 62; 111; 60]) input = Ok (t, 1).
Proof. intros star F t input HT HL HF. now apply fprint_all. Qed.

Example C131_cat_ex : Forall (fun c => 0 <= c <= 255) [72; 13; 10; 0; 255] /\
  fish_program false 37 (lit "i:0(?;o") [72; 13; 10; 0; 255] = Ok ([72; 13; 10; 0; 255], 0) /\
  fish_program true 37 (lit "i:0(?;o") [72; 13; 10; 0; 255] = Ok ([72; 13; 10; 0; 255], 0).
Proof. split; [repeat constructor; lia|split; vm_compute; reflexivity]. Qed.
Example C131_print_ex : Forall (fun c => 32 <= c <= 255 /\ c <> 34) (lit "a  'b") /\
  fish_program false 20 ([34] ++ lit "b'  a" ++ [34] ++ lit ">o<") [7] = Ok (lit "a  'b", 1) /\
  fish_program true 20 ([34] ++ lit "b'  a" ++ [34] ++ lit ">o<") [7] = Ok (lit "a  'b", 1).
Proof.
  split; [|split; vm_compute; reflexivity].
  let x := eval vm_compute in (lit "a  'b") in change (lit "a  'b") with x.
  repeat (apply Forall_cons; [lia|]). apply Forall_nil.
Qed.
Print Assumptions C131_cat.
Print Assumptions C131_print.

(** ** C132 Arithmetic expressions *)

(** Expressions over the digits 0 to f and the arithmetic and comparison
    instructions, and their postfix code. *)
Inductive fexpr := FNum (n : Z) | FBin (op : Z) (a b : fexpr).
Fixpoint fcode (e : fexpr) : bytes :=
  match e with
  | FNum n => [if n <? 10 then 48 + n else 87 + n]
  | FBin op a b => fcode a ++ fcode b ++ [op]
  end.
Fixpoint FWritten (e : fexpr) : Prop :=
  match e with
  | FNum n => 0 <= n <= 15
  | FBin op a b => In op [43; 45; 42; 44; 37; 61; 40; 41] /\ FWritten a /\ FWritten b
  end.
(** Its outcome, worked out from left to right: a whole number of at most 2^53 in
    size, a division by zero, or anything else (a fraction or a larger number). *)
Inductive foutcome := FValue (v : Z) | FByZero | FElse.
Definition fapply (op x y : Z) : foutcome :=
  if ((op =? 44) || (op =? 37)) && (y =? 0) then FByZero
  else match fish_op op x y with
       | Some v => if (- 2 ^ 53 <=? v) && (v <=? 2 ^ 53) then FValue v else FElse
       | None => FElse
       end.
Fixpoint feval (e : fexpr) : foutcome :=
  match e with
  | FNum n => FValue n
  | FBin op a b =>
      match feval a with
      | FValue x => match feval b with FValue y => fapply op x y | r => r end
      | r => r
      end
  end.

Lemma fapply_value op x y v : fapply op x y = FValue v -> fish_op op x y = Some v /\ small v.
Proof.
  unfold fapply. destruct (_ && _); [discriminate|]. destruct (fish_op op x y) as [z|]; [|discriminate].
  destruct (_ && _) eqn:E; [|discriminate]. intros Q. injection Q as <-. split; [reflexivity|].
  apply andb_true_iff in E. destruct E as [E1 E2]. apply Z.leb_le in E1, E2. unfold small. lia.
Qed.
Lemma fapply_zero op x y : fapply op x y = FByZero -> (op = 44 \/ op = 37) /\ y = 0.
Proof.
  unfold fapply. destruct (((op =? 44) || (op =? 37)) && (y =? 0)) eqn:E.
  - intros _. lia.
  - clear E. destruct (fish_op op x y) as [z|]; [|intros Q; discriminate Q].
    destruct ((- 2 ^ 53 <=? z) && (z <=? 2 ^ 53)); intros Q; discriminate Q.
Qed.

(** What happens when the code of [e], followed by [d] and [suf], is run. *)
Definition Runs_code (star : bool) (F : positive) (e : fexpr) : Prop :=
  forall p pre d suf l i o s, p = pre ++ fcode e ++ d :: suf -> last p 32 <> 32 -> Z.of_nat (length p) <= INT64_MAX ->
  FRun star (prog_field p) (Z.of_nat (length pre)) 1 false l i o s ->
  (forall v, feval e = FValue v -> exists s', FGoes star F (length (fcode e)) s s' /\
     FRun star (prog_field p) (Z.of_nat (length (pre ++ fcode e))) 1 false (v :: l) i o s') /\
  (feval e = FByZero -> exists n s', FGoes star F n s s' /\ (n <= length (fcode e))%nat /\
     r_stopped (s_r s') = true /\ w_out (s_w s') = o /\ r_uni (s_r s') = 0%nat /\ u_exit (w_uni (s_w s') 0) = 1).

Lemma fcode_runs star F e : FWritten e -> Runs_code star F e.
Proof.
  induction e as [n|op a IHa b IHb]; intros HW p pre d suf l i o s E L B H; cbn [FWritten feval] in *.
  - split; [|discriminate]. intros v Q. injection Q as <-.
    exact (fstep star F _ _ _ _ _ _ _ _ _ _ _ _ _ _ _ s H (row_cell _ _ _ _ E) (fish_digit star n _ _ _ l i o HW)
             (row_next _ _ _ _ _ E L B)).
  - destruct HW as (Ho & WA & WB). cbn [fcode] in E |- *.
    assert (E1 : p = pre ++ fcode a ++ (fcode b ++ op :: d :: suf)) by (rewrite E, <- !app_assoc; reflexivity).
    assert (E2 : p = (pre ++ fcode a) ++ fcode b ++ op :: d :: suf) by (rewrite E1, <- !app_assoc; reflexivity).
    assert (E3 : p = ((pre ++ fcode a) ++ fcode b) ++ op :: d :: suf) by (rewrite E1, <- !app_assoc; reflexivity).
    destruct (fcode b ++ op :: d :: suf) as [|d1 suf1] eqn:E0; [destruct (fcode b); discriminate E0|].
    destruct (IHa WA p pre d1 suf1 l i o s E1 L B H) as (A1 & A2). rewrite <- E0 in E2.
    destruct (feval a) as [x| |].
    2:{ split; [discriminate|]. intros _. destruct (A2 eq_refl) as (n & s1 & G & N & R). exists n, s1. rewrite app_length.
        split; [exact G|]. split; [lia|exact R]. }
    2:{ split; discriminate. }
    destruct (A1 x eq_refl) as (s1 & G1 & H1).
    destruct (IHb WB p (pre ++ fcode a) op (d :: suf) (x :: l) i o s1 E2 L B H1) as (B1 & B2).
    destruct (feval b) as [y| |].
    2:{ split; [discriminate|]. intros _. destruct (B2 eq_refl) as (n & s2 & G & N & R).
        exists (length (fcode a) + n)%nat, s2. split; [exact (fgoes_trans _ _ _ _ _ _ _ G1 G)|].
        rewrite !app_length. split; [lia|exact R]. }
    2:{ split; discriminate. }
    destruct (B1 y eq_refl) as (s2 & G2 & H2). split.
    + intros v Q. apply fapply_value in Q. destruct Q as (Q & Sv).
      destruct (fstep star F op _ _ _ _ _ _ _ _ _ _ _ _ _ _ s2 H2 (row_cell _ _ _ _ E3)
        (fish_binary star op _ _ v _ _ _ l i o Q Sv) (row_next _ _ _ _ _ E3 L B)) as (s3 & G3 & H3).
      exists s3. split.
      * rewrite !app_length. exact (fgoes_trans _ _ _ _ _ _ _ G1 (fgoes_trans _ _ _ _ _ _ _ G2 G3)).
      * rewrite !app_assoc. exact H3.
    + intros Q. apply fapply_zero in Q. destruct Q as (Q & ->).
      destruct (K_stack _ _ _ _ _ _ _ _ _ H2) as (cs & HS & N).
      inversion N as [|x1 ? cs1 ? Nx N1]; subst. inversion N1 as [|y1 ? cs2 ? Ny N2]; subst.
      pose proof (K_small _ _ _ _ _ _ _ _ _ H2) as S. inversion S as [|? ? Sa S1]; subst. inversion S1 as [|? ? Sb S2]; subst.
      destruct (C74_zero star op s2 fx0 x1 y1 cs2 Q (frun_ready _ _ _ _ _ _ _ _ H2) HS Nx (fun _ => ex_intro _ x (conj Ny Sb)))
        as (s3 & E4 & O).
      pose proof (frun_stack _ _ _ _ _ _ _ _ _ _ _ _ H2 O N2 S2) as H3.
      destruct (ferror star F op _ _ _ _ _ _ _ s2 s3 _ _ _ _ _ _ H2 (row_cell _ _ _ _ E3) E4 H3) as (s4 & G4 & R).
      exists (length (fcode a) + (length (fcode b) + 1))%nat, s4.
      split; [exact (fgoes_trans _ _ _ _ _ _ _ G1 (fgoes_trans _ _ _ _ _ _ _ G2 G4))|].
      rewrite !app_length. split; [cbn [length]; lia|exact R].
Qed.
Lemma fcode_plain e : FWritten e -> Forall plain_char (fcode e).
Proof.
  unfold plain_char. induction e as [n|op a IHa b IHb]; cbn [FWritten fcode].
  - intros H. constructor; [destruct (Z.ltb_spec n 10); lia|constructor].
  - intros (H & A & B). apply Forall_app. split; [auto|]. apply Forall_app. split; [auto|].
    constructor; [|constructor]. repeat (destruct H as [<-|H]); [lia|lia|lia|lia|lia|lia|lia|lia|contradiction].
Qed.

(** The code of an expression followed by  n;  prints the expression's value in
    decimal and ends with exit code 0; after a division by zero it prints nothing
    and the exit code is 1. *)
Theorem C132_expr_partial : forall star F e input, FWritten e ->
  Z.of_nat (length (fcode e)) + 3 <= Z.pos F -> Z.of_nat (length (fcode e)) + 2 <= INT64_MAX ->
  (forall v, feval e = FValue v ->
     exists text, decimal v text /\ fish_program star F (fcode e ++ [110; 59]) input = Ok (text, 0)) /\
  (feval e = FByZero -> fish_program star F (fcode e ++ [110; 59]) input = Ok ([], 1)).
Proof.
  intros star F e input HW HF HL. set (p := fcode e ++ [110; 59]).
  assert (LP : Z.of_nat (length p) <= INT64_MAX) by (unfold p; rewrite app_length; cbn [length]; lia).
  assert (LL : last p 32 <> 32).
  { unfold p. change [110; 59] with ([110] ++ [59]). rewrite app_assoc, last_last. discriminate. }
  destruct (fboots star F p input) as (s0 & B & H0); [|exact LP|].
  { apply Forall_app. split; [now apply fcode_plain|]. unfold plain_char. repeat constructor; lia. }
  destruct (fcode_runs star F e HW p [] 110 [59] [] input [] s0 eq_refl LL LP H0) as (Q1 & Q2). split.
  - intros v V. destruct (Q1 v V) as (s1 & G1 & H1). cbn [app] in H1.
    exists (dec v). split; [apply dec_decimal|].
    destruct (fstep star F 110 _ _ _ _ _ _ _ _ _ _ _ _ _ _ s1 H1 (row_cell p (fcode e) 110 [59] eq_refl)
      (fish_outint star v _ _ _ [] input []) (row_next p (fcode e) 110 59 [] eq_refl LL LP)) as (s2 & G2 & H2).
    destruct (fend star F _ _ _ _ _ _ _ H2) as (s3 & G3 & Q).
    { apply row_cell with (suf := []). unfold p. rewrite <- app_assoc. reflexivity. }
    apply (fish_result star F (length (fcode e) + (1 + 1)) p input s0 s3 _ _ B); [|exact Q|lia].
    exact (fgoes_trans _ _ _ _ _ _ _ G1 (fgoes_trans _ _ _ _ _ _ _ G2 G3)).
  - intros V. destruct (Q2 V) as (n & s1 & G & N & Q).
    apply (fish_result star F n p input s0 s1 _ _ B G Q). lia.
Qed.
(** Whole numbers beyond 2^53 are not exact: 2^53 + 1 is printed as 2^53. *)
Definition C132_big : fexpr :=
  let p2 := FBin 42 (FNum 8) (FNum 8) in
  let p4 := FBin 42 p2 p2 in
  let p8 := FBin 42 p4 p4 in
  FBin 43 (FBin 42 (FBin 42 p8 p8) (FBin 42 (FNum 8) (FNum 4))) (FNum 1).
Theorem C132_large_refuted : FWritten C132_big /\
  8 ^ 16 * (8 * 4) + 1 = 2 ^ 53 + 1 /\ feval C132_big = FElse /\
  fish_program false 99 (fcode C132_big ++ [110; 59]) [] = Ok (lit "9007199254740992", 0).
Proof. split; [vm_compute; intuition discriminate|]. split; [reflexivity|]. split; vm_compute; reflexivity. Qed.
(** Examples: (3 - f) , 4 * 9 + (2 < 7), and 1 , (5 % 5). *)
Definition C132_e : fexpr :=
  FBin 43 (FBin 42 (FBin 44 (FBin 45 (FNum 3) (FNum 15)) (FNum 4)) (FNum 9)) (FBin 40 (FNum 2) (FNum 7)).
Definition C132_z : fexpr := FBin 44 (FNum 1) (FBin 37 (FNum 5) (FNum 5)).
Example C132_ex : FWritten C132_e /\ feval C132_e = FValue (-26) /\ fcode C132_e = lit "3f-4,9*27(+" /\
  fish_program true 14 (lit "3f-4,9*27(+n;") [] = Ok (lit "-26", 0) /\
  FWritten C132_z /\ feval C132_z = FByZero /\ fish_program false 99 (lit "155%,n;") [] = Ok ([], 1).
Proof.
  split; [vm_compute; intuition discriminate|]. split; [vm_compute; reflexivity|]. split; [vm_compute; reflexivity|].
  split; [vm_compute; reflexivity|]. split; [vm_compute; intuition discriminate|].
  split; [vm_compute; reflexivity|]. vm_compute. reflexivity.
Qed.
Print Assumptions C132_expr_partial.
Print Assumptions C132_large_refuted.
