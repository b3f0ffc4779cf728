(** * Running the code of a library: rules for its instructions and the proof that
    the model of a library call follows them. *)

From Coq Require Import ZArith List Bool Lia.
From Verif Require Import Base BaseProofs VectorModel TextModel StackModel StackProofs FieldModel
  World IpModel LoadModel FingModel CoreModel OptModel FileModel LibModel ExecProofs.
Import ListNotations.
Open Scope Z_scope.

(** ** Configurations of the library IP and the rules of its instructions *)

(** Position, delta, contents of the selected stack (top first), string mode and
    the last character of the string, output so far, stopped. *)
Record conf := { k_pos : vec; k_delta : vec; k_list : list Z; k_str : bool; k_prev : Z;
                 k_out : bytes; k_stop : bool }.
Definition kL (l : list Z) (c : conf) : conf :=
  {| k_pos := k_pos c; k_delta := k_delta c; k_list := l; k_str := k_str c; k_prev := k_prev c;
     k_out := k_out c; k_stop := k_stop c |}.
Definition kD (d : vec) (c : conf) : conf :=
  {| k_pos := k_pos c; k_delta := d; k_list := k_list c; k_str := k_str c; k_prev := k_prev c;
     k_out := k_out c; k_stop := k_stop c |}.
Definition kP (p d : vec) (c : conf) : conf :=
  {| k_pos := p; k_delta := d; k_list := k_list c; k_str := k_str c; k_prev := k_prev c;
     k_out := k_out c; k_stop := k_stop c |}.
Definition kS (b : bool) (x : Z) (c : conf) : conf :=
  {| k_pos := k_pos c; k_delta := k_delta c; k_list := k_list c; k_str := b; k_prev := x;
     k_out := k_out c; k_stop := k_stop c |}.
Definition kO (o : bytes) (c : conf) : conf :=
  {| k_pos := k_pos c; k_delta := k_delta c; k_list := k_list c; k_str := k_str c;
     k_prev := k_prev c; k_out := k_out c ++ o; k_stop := k_stop c |}.
Definition kStop (c : conf) : conf :=
  {| k_pos := k_pos c; k_delta := k_delta c; k_list := k_list c; k_str := k_str c;
     k_prev := k_prev c; k_out := k_out c; k_stop := true |}.

Definition push_val (i : Z) : option Z :=
  if (48 <=? i) && (i <=? 57) then Some (i - 48)
  else if (97 <=? i) && (i <=? 102) then Some (i - 87) else None.
Definition dir_val (i : Z) : option vec :=
  if i =? 60 then Some VWEST else if i =? 62 then Some VEAST
  else if i =? 94 then Some VNORTH else if i =? 118 then Some VSOUTH else None.
Definition blank (x : Z) : bool := (x =? 32) || ((9 <=? x) && (x <=? 13)).

Section Rules.
  (** The Funge-space of the library and its number of dimensions. *)
  Context (f : field) (dims : nat).
  Definition nxt (p d : vec) : res (vec * vec) := ip_next false dims f p d.
  Fixpoint nxts (j : nat) (p d : vec) : res (vec * vec) :=
    match j with
    | O => Ok (p, d)
    | S j' => pd <-- nxt p d ;; nxts j' (fst pd) (snd pd)
    end.

  (** [Does i c e c']: instruction [i] takes [c] to [c'] with result [e]. *)
  Inductive Does : Z -> conf -> err -> conf -> Prop :=
  | D_space c : k_str c = false -> Does 32 c ESkip c
  | D_push i v c : k_str c = false -> push_val i = Some v -> Does i c ENone (kL (v :: k_list c) c)
  | D_dup x t c : k_str c = false -> k_list c = x :: t -> Does 58 c ENone (kL (x :: x :: t) c)
  | D_pop c : k_str c = false -> Does 36 c ENone (kL (tl (k_list c)) c)
  | D_swap x y t c : k_str c = false -> k_list c = x :: y :: t ->
      Does 92 c ENone (kL (y :: x :: t) c)
  | D_add x y t c : k_str c = false -> k_list c = x :: y :: t -> in64 (y + x) ->
      Does 43 c ENone (kL (y + x :: t) c)
  | D_sub x y t c : k_str c = false -> k_list c = x :: y :: t -> in64 (y - x) ->
      Does 45 c ENone (kL (y - x :: t) c)
  | D_mul x y t c : k_str c = false -> k_list c = x :: y :: t -> in64 (y * x) ->
      Does 42 c ENone (kL (y * x :: t) c)
  | D_div x y t c : k_str c = false -> k_list c = x :: y :: t -> x <> 0 ->
      in64 (Z.quot y x) -> Does 47 c ENone (kL (Z.quot y x :: t) c)
  | D_rem x y t c : k_str c = false -> k_list c = x :: y :: t -> x <> 0 ->
      in64 (Z.quot y x) -> Does 37 c ENone (kL (Z.rem y x :: t) c)
  | D_gt x y t c : k_str c = false -> k_list c = x :: y :: t ->
      Does 96 c ENone (kL (bz (y >? x) :: t) c)
  | D_dir i d c : k_str c = false -> dir_val i = Some d -> Does i c ENone (kD d c)
  | D_ifh x t c : k_str c = false -> k_list c = x :: t ->
      Does 95 c ENone (kD (if x =? 0 then VEAST else VWEST) (kL t c))
  | D_ifv x t c : k_str c = false -> k_list c = x :: t ->
      Does 124 c ENone (kD (if x =? 0 then VSOUTH else VNORTH) (kL t c))
  | D_tramp p d c : k_str c = false -> nxt (k_pos c) (k_delta c) = Ok (p, d) ->
      Does 35 c ENone (kP p d c)
  | D_jump x t p d c : k_str c = false -> k_list c = x :: t -> 0 <= x < 2147483648 ->
      nxts (Z.to_nat x) (k_pos c) (k_delta c) = Ok (p, d) ->
      Does 106 c ENone (kP p d (kL t c))
  | D_stop c : k_str c = false -> Does 64 c ENone (kStop c)
  | D_fetch p d c : k_str c = false -> nxt (k_pos c) (k_delta c) = Ok (p, d) ->
      Does 39 c ENone (kP p d (kL (to_i32 (f_get f p) :: k_list c) c))
  | D_char x t c : k_str c = false -> k_list c = x :: t ->
      Does 44 c ENone (kO [to_u8 x] (kL t c))
  | D_num x t c : k_str c = false -> k_list c = x :: t ->
      Does 46 c ENone (kO (dec (to_i32 x) ++ [32]) (kL t c))
  | D_pick u t c : k_str c = false -> k_list c = u :: t -> 0 <= u < Z.of_nat (length t) ->
      in64 (u + 1) -> Does 75 c ENone (kL (nth (Z.to_nat u) t 0 :: t) c)
  | D_quote c : k_str c = false -> Does 34 c ENone (kS true (k_prev c) c)
  | D_unquote c : k_str c = true -> Does 34 c ENone (kS false 0 c)
  | D_text i c : k_str c = true -> i <> 34 -> 0 <= i < 256 -> 0 <= k_prev c < 256 ->
      blank i = false \/ blank (k_prev c) = false ->
      Does i c ENone (kS true i (kL (i :: k_list c) c)).

  (** A tick of so many iterations: instructions that are skipped cost no time. *)
  Inductive Tick : nat -> conf -> conf -> Prop :=
  | T_last c c' : Does (f_get f (k_pos c)) c ENone c' -> k_stop c' = true -> Tick 1 c c'
  | T_go c c1 p d : Does (f_get f (k_pos c)) c ENone c1 -> k_stop c1 = false ->
      nxt (k_pos c1) (k_delta c1) = Ok (p, d) -> Tick 1 c (kP p d c1)
  | T_skip m c c1 p d c' : Does (f_get f (k_pos c)) c ESkip c1 -> k_stop c1 = false ->
      nxt (k_pos c1) (k_delta c1) = Ok (p, d) -> Tick m (kP p d c1) c' -> Tick (S m) c c'.
  (** Any number of ticks. *)
  Inductive Run : nat -> conf -> conf -> Prop :=
  | R_refl c : Run 0 c c
  | R_step m N c c1 c' : k_stop c = false -> Tick m c c1 -> Run N c1 c' -> Run (m + N) c c'.
  Definition Runs (c c' : conf) : Prop := exists N, Run N c c'.

  Lemma Run_trans N a b : Run N a b -> forall M c, Run M b c -> Run (N + M) a c.
  Proof.
    induction 1 as [|m N a b c St T R IH]; intros M d R2; auto.
    rewrite <- Nat.add_assoc. econstructor; eauto.
  Qed.
  Lemma Runs_trans a b c : Runs a b -> Runs b c -> Runs a c.
  Proof. intros (N & A) (M & B). exists (N + M)%nat. eapply Run_trans; eauto. Qed.
  Lemma Runs_refl c : Runs c c.
  Proof. exists 0%nat. constructor. Qed.
  Lemma Tick_pos m c c' : Tick m c c' -> (1 <= m)%nat.
  Proof. destruct 1; lia. Qed.
End Rules.

(** Where an instruction starts. *)
Definition conf_at (cmd : Z) (l : list Z) : conf :=
  {| k_pos := mkvec [0; 0; cmd - 65]; k_delta := mkvec [1]; k_list := l; k_str := false;
     k_prev := 0; k_out := []; k_stop := false |}.

(** ** The model follows the rules *)

(** The semantics of a new IP of a library. *)
Definition lib_sem : Z -> list sem :=
  sem_pushes table_t98 (sem_pushes table_b98 (sem_pushes table_b93
    (sem_pushes table_u98 (sem_pushes table_u93 (fun _ => []))))).

Definition Ip (n : nat) (main : Z) (c : conf) (r : runner) : Prop :=
  r_id r = main /\ r_uni r = n /\ r_pos r = k_pos c /\ r_delta r = k_delta c /\
  r_stopped r = k_stop c /\ r_string r = k_str c /\ r_end r = 34 /\ r_prev r = k_prev c /\
  r_fish r = None /\ r_handler r = true /\ r_strats r <> [] /\ r_sem r = lib_sem.

(** [x] is [ss0] with contents [l] of the selected stack. *)
Definition Shape (ss0 : sstk) (l : list Z) (x : sstk) : Prop :=
  exists ops, x = ss_set ss0 (ss_sel ss0) {| s_mode := 0; s_list := l; s_ops := ops |}.

(** A universe as FingerprintFungeLib makes it. *)
Definition Library (f : field) (dims : nat) (u : universe) : Prop :=
  u_field u = f /\ c_dims (u_cfg u) = dims /\ c_torus (u_cfg u) = false /\
  c_mode (u_cfg u) = 0 /\ c_str (u_cfg u) = StrSgml.

Section Follow.
  Context (f : field) (dims n : nat) (cid main : Z) (F : positive) (D : nat).
  Context (W : world) (ss0 : sstk).
  Context (HU : Library f dims (w_uni W n)) (HT : exists k, ss_top ss0 = Ok k).
  (* a section: these are premises of every lemma below *)

  Definition View (c : conf) (s : st) : Prop :=
    Ip n main c (s_r s) /\ Shape ss0 (k_list c) (mySS s) /\
    s_w s = set_w_out (w_out W ++ k_out c) W.

  Lemma view_holds c s : View c s -> Holds s (k_list c).
  Proof.
    intros (_ & (ops & E) & _). destruct HT as (k & K).
    exists {| s_mode := 0; s_list := k_list c; s_ops := ops |}. split; [|split; [split; reflexivity|reflexivity]].
    rewrite E. apply (ss_top_set _ _ k); auto.
  Qed.
  Lemma view_uni c s : View c s -> w_uni (s_w s) (r_uni (s_r s)) = w_uni W n.
  Proof. intros ((_ & E & _) & _ & ->). rewrite E. reflexivity. Qed.
  Lemma view_mode c s b : View c s -> testmode b (w_uni (s_w s) (r_uni (s_r s))) = false.
  Proof.
    intros V. rewrite (view_uni _ _ V). destruct HU as (_ & _ & _ & E & _).
    unfold testmode. rewrite E. apply Z.testbit_0_l.
  Qed.
  Lemma view_stack c s s' l : View c s -> Only_stack s s' l -> View (kL l c) s'.
  Proof.
    intros (I & (ops & E) & Ew) O. split; [|split].
    - rewrite (Only_stack_r _ _ _ O). exact I.
    - destruct O as (k & k' & T & M & L & ->). rewrite mySS_setSS.
      destruct HT as (k0 & K). rewrite E, (ss_top_set _ _ k0) in T by auto. injection T as <-.
      cbn [s_mode] in M. destruct k' as [m' l' ops']. cbn in M, L. subst m' l'.
      exists ops'. rewrite E. unfold ss_set. cbn [ss_sel ss_list]. now rewrite lupd_lupd.
    - rewrite (Only_stack_w _ _ _ O). exact Ew.
  Qed.
  Lemma view_next c s p d : View c s -> k_stop c = false ->
    nxt f dims (k_pos c) (k_delta c) = Ok (p, d) ->
    ipNext s = Ok (tt, moved s p d) /\ View (kP p d c) (moved s p d).
  Proof.
    intros V St E. pose proof V as ((I1 & I2 & I3 & I4 & I5 & I) & V2 & V3). split.
    - apply ipNext_run; [congruence|]. unfold next_of. rewrite (view_uni _ _ V).
      destruct HU as (-> & -> & -> & _). rewrite I3, I4. exact E.
    - split; [|split; [exact V2|exact V3]]. unfold Ip. cbn -[mkvec]. auto 12.
  Qed.
  Lemma view_get c s : View c s -> ipGet s = Ok (f_get f (k_pos c), s).
  Proof.
    intros V. unfold ipGet, mbind, getR, fget. rewrite (view_uni _ _ V).
    destruct HU as (-> & _). destruct V as ((_ & _ & -> & _) & _). reflexivity.
  Qed.

  Lemma exec_base c s i m mv : View c s -> k_str c = false ->
    sem_top i lib_sem = Some {| sm_act := ABase m; sm_move := mv |} ->
    lib_execute cid main F (S D) i s = run_meth F (lib_execute cid main F D) m s.
  Proof.
    intros V NS E. pose proof V as ((_ & _ & _ & _ & _ & I & _ & _ & _ & _ & _ & IS) & _).
    cbn [lib_execute]. unfold mbind at 1, getR at 1. rewrite I, NS, IS, E.
    unfold exec_normal. unfold mbind at 1. unfold getR at 1. rewrite IS, E.
    unfold isMode. unfold mbind at 1. unfold mbind at 1. unfold getU at 1. unfold ret at 1.
    rewrite (view_mode _ _ _ V). reflexivity.
  Qed.
  Lemma view_delta c s d : View c s ->
    ipSetDelta d s = Ok (tt, {| s_w := s_w s; s_r := set_r_delta d (s_r s) |}) /\
    View (kD d c) {| s_w := s_w s; s_r := set_r_delta d (s_r s) |}.
  Proof.
    intros V. rewrite ipSetDelta_run by apply (view_mode _ _ _ V).
    pose proof V as ((I1 & I2 & I3 & I4 & I5 & I6 & I7 & I8 & I9 & I) & V2 & V3).
    rewrite observe_nofish by exact I9. split; [reflexivity|].
    split; [|split; [exact V2|exact V3]]. unfold Ip. cbn -[mkvec]. auto 15.
  Qed.
  Lemma view_out c s o : View c s ->
    out o s = Ok (tt, {| s_w := set_w_out (w_out (s_w s) ++ o) (s_w s); s_r := s_r s |}) /\
    View (kO o c) {| s_w := set_w_out (w_out (s_w s) ++ o) (s_w s); s_r := s_r s |}.
  Proof.
    intros (V1 & V2 & V3). split; [reflexivity|]. split; [exact V1|split; [exact V2|]].
    cbn [s_w]. rewrite V3. cbn [w_out set_w_out kO k_out]. rewrite app_assoc. reflexivity.
  Qed.

  Lemma jumps c t : k_stop c = false -> forall j p0 d0 s p d, View (kP p0 d0 (kL t c)) s ->
    nxts f dims j p0 d0 = Ok (p, d) ->
    exists s', repM j ipNext s = Ok (tt, s') /\ View (kP p d (kL t c)) s'.
  Proof.
    intros St. induction j as [|j IH]; intros p0 d0 s p d V E; cbn [nxts repM] in *.
    - inversion E; subst. exists s. auto.
    - apply bind_ok in E. destruct E as ((p1 & d1) & E1 & E2). cbn [fst snd] in E2.
      destruct (view_next _ _ _ _ V St E1) as (EN & V1).
      rewrite (run_bind _ _ _ _ _ EN). exact (IH p1 d1 _ p d V1 E2).
  Qed.

  Lemma does_sim i c e c' s : k_stop c = false -> Does f dims i c e c' -> View c s ->
    exists s', lib_execute cid main F (S D) i s = Ok (e, s') /\ View c' s'.
  Proof.
    intros St Do V. pose proof (view_holds _ _ V) as H.
    destruct Do as [c NS|i v c NS E|x t c NS E|c NS|x y t c NS E|x y t c NS E R|x y t c NS E R
      |x y t c NS E R|x y t c NS E N0 N1|x y t c NS E N0 N1|x y t c NS E|i d c NS E|x t c NS E
      |x t c NS E|p d c NS E|x t p d c NS E R J|c NS|p d c NS E|x t c NS E|x t c NS E
      |u t c NS E R R1|c NS|c NS|i c NS N34 RI RP BL];
      try rewrite E in H.
    - rewrite (exec_base _ _ 32 MSkip false V NS eq_refl). eexists. split; [reflexivity|exact V].
    - assert (HS : sem_top i lib_sem = Some {| sm_act := ABase (MPush v); sm_move := false |}).
      { unfold push_val in E. destruct ((48 <=? i) && (i <=? 57)) eqn:E1.
        - apply andb_true_iff in E1. destruct E1 as [L1 L2]. apply Z.leb_le in L1, L2. injection E as <-.
          assert (C : i = 48 \/ i = 49 \/ i = 50 \/ i = 51 \/ i = 52 \/ i = 53 \/ i = 54 \/ i = 55 \/ i = 56 \/ i = 57) by lia.
          repeat (destruct C as [->|C]; [reflexivity|]). subst i. reflexivity.
        - destruct ((97 <=? i) && (i <=? 102)) eqn:E2; [|discriminate].
          apply andb_true_iff in E2. destruct E2 as [L1 L2]. apply Z.leb_le in L1, L2. injection E as <-.
          assert (C : i = 97 \/ i = 98 \/ i = 99 \/ i = 100 \/ i = 101 \/ i = 102) by lia.
          repeat (destruct C as [->|C]; [reflexivity|]). subst i. reflexivity. }
      rewrite (exec_base _ _ _ _ _ V NS HS). cbn [run_meth].
      xpush. eexists. split; [reflexivity|]. eapply view_stack; [exact V|]. os_finish.
    - rewrite (exec_base _ _ 58 MDup false V NS eq_refl). cbn [run_meth].
      xpop. xpush. xpush. eexists. split; [reflexivity|]. eapply view_stack; [exact V|]. os_finish.
    - rewrite (exec_base _ _ 36 MPop false V NS eq_refl). cbn [run_meth].
      xpop. eexists. split; [reflexivity|]. eapply view_stack; [exact V|]. os_finish.
    - rewrite (exec_base _ _ 92 MSwap false V NS eq_refl). cbn [run_meth].
      xpop. xpop. xpush. xpush. eexists. split; [reflexivity|]. eapply view_stack; [exact V|]. os_finish.
    - rewrite (exec_base _ _ 43 MAdd false V NS eq_refl). cbn [run_meth]. unfold binop.
      xpop. xpop. cbn [hd tl]. rewrite (run_bind (lift (add64 y x)) _ _ (y + x) s1);
        [|unfold lift; unfold add64; now rewrite chk64_ok].
      xpush. eexists. split; [reflexivity|]. eapply view_stack; [exact V|]. os_finish.
    - rewrite (exec_base _ _ 45 MSub false V NS eq_refl). cbn [run_meth]. unfold binop.
      xpop. xpop. cbn [hd tl]. rewrite (run_bind (lift (sub64 y x)) _ _ (y - x) s1);
        [|unfold lift; unfold sub64; now rewrite chk64_ok].
      xpush. eexists. split; [reflexivity|]. eapply view_stack; [exact V|]. os_finish.
    - rewrite (exec_base _ _ 42 MMul false V NS eq_refl). cbn [run_meth]. unfold binop.
      xpop. xpop. cbn [hd tl]. rewrite (run_bind (lift (mul64 y x)) _ _ (y * x) s1);
        [|unfold lift; unfold mul64; now rewrite chk64_ok].
      xpush. eexists. split; [reflexivity|]. eapply view_stack; [exact V|]. os_finish.
    - rewrite (exec_base _ _ 47 MDiv false V NS eq_refl). cbn [run_meth]. unfold binop.
      xpop. xpop. cbn [hd tl].
      rewrite (run_bind (lift _) _ _ (Z.quot y x) s1);
        [|unfold lift; rewrite (proj2 (Z.eqb_neq x 0)) by auto; unfold div64; rewrite (proj2 (in64b_true _)) by auto; reflexivity].
      xpush. eexists. split; [reflexivity|]. eapply view_stack; [exact V|]. os_finish.
    - rewrite (exec_base _ _ 37 MRem false V NS eq_refl). cbn [run_meth]. unfold binop.
      xpop. xpop. cbn [hd tl].
      rewrite (run_bind (lift _) _ _ (Z.rem y x) s1);
        [|unfold lift; rewrite (proj2 (Z.eqb_neq x 0)) by auto; unfold rem64; rewrite (proj2 (in64b_true _)) by auto; reflexivity].
      xpush. eexists. split; [reflexivity|]. eapply view_stack; [exact V|]. os_finish.
    - rewrite (exec_base _ _ 96 MGt false V NS eq_refl). cbn [run_meth]. unfold binop, pure2.
      xpop. xpop. cbn [hd tl]. rewrite (run_bind (lift _) _ _ (bz (y >? x)) s1) by reflexivity.
      xpush. eexists. split; [reflexivity|]. eapply view_stack; [exact V|]. os_finish.
    - assert (HS : exists m mv, sem_top i lib_sem = Some {| sm_act := ABase m; sm_move := mv |} /\
                     run_meth F (lib_execute cid main F D) m = (ipSetDelta d ;;; ok)).
      { unfold dir_val in E.
        destruct (Z.eqb_spec i 60); [subst; injection E as <-; exists MWest, true; split; reflexivity|].
        destruct (Z.eqb_spec i 62); [subst; injection E as <-; exists MEast, true; split; reflexivity|].
        destruct (Z.eqb_spec i 94); [subst; injection E as <-; exists MNorth, true; split; reflexivity|].
        destruct (Z.eqb_spec i 118); [subst; injection E as <-; exists MSouth, true; split; reflexivity|].
        discriminate. }
      destruct HS as (m & mv & HS & HM).
      rewrite (exec_base _ _ _ _ _ V NS HS), HM.
      destruct (view_delta _ _ d V) as (ED & VD). rewrite (run_bind _ _ _ _ _ ED).
      eexists. split; [reflexivity|exact VD].
    - rewrite (exec_base _ _ 95 MIf false V NS eq_refl). cbn [run_meth]. unfold ifDelta.
      xpop. cbn [hd tl] in *. pose proof (view_stack _ _ _ _ V C) as V1.
      destruct (view_delta _ _ (if x =? 0 then VEAST else VWEST) V1) as (ED & VD).
      rewrite (run_bind _ _ _ _ _ ED). eexists. split; [reflexivity|exact VD].
    - rewrite (exec_base _ _ 124 MIfV false V NS eq_refl). cbn [run_meth]. unfold ifDelta.
      xpop. cbn [hd tl] in *. pose proof (view_stack _ _ _ _ V C) as V1.
      destruct (view_delta _ _ (if x =? 0 then VSOUTH else VNORTH) V1) as (ED & VD).
      rewrite (run_bind _ _ _ _ _ ED). eexists. split; [reflexivity|exact VD].
    - rewrite (exec_base _ _ 35 MTramp false V NS eq_refl). cbn [run_meth].
      destruct (view_next _ _ _ _ V St E) as (EN & VN). rewrite (run_bind _ _ _ _ _ EN).
      eexists. split; [reflexivity|exact VN].
    - rewrite (exec_base _ _ 106 MJumpFwd false V NS eq_refl). cbn [run_meth].
      xpop. cbn [hd tl] in *. pose proof (view_stack _ _ _ _ V C) as V1.
      rewrite (to_i32_id x) by lia. cbv zeta.
      destruct (Z.ltb_spec x 0); [lia|]. rewrite (run_bind (ret tt) _ _ tt s0) by reflexivity.
      destruct (Z.eqb_spec x (-2147483648)); [lia|].
      rewrite (run_bind (lift (Ok (Z.abs x))) _ _ (Z.abs x) s0) by reflexivity.
      rewrite (Z.abs_eq x) by lia.
      destruct (jumps c t St (Z.to_nat x) (k_pos c) (k_delta c) s0 p d) as (s' & E' & V'); auto.
      rewrite (run_bind _ _ _ _ _ E'). eexists. split; [reflexivity|exact V'].
    - rewrite (exec_base _ _ 64 MStop false V NS eq_refl). cbn [run_meth].
      eexists. split; [reflexivity|].
      destruct V as ((I1 & I2 & I3 & I4 & I5 & I) & V2 & V3).
      split; [|split; [exact V2|exact V3]]. unfold Ip. cbn -[mkvec]. auto 12.
    - rewrite (exec_base _ _ 39 MFetch false V NS eq_refl). cbn [run_meth].
      destruct (view_next _ _ _ _ V St E) as (EN & VN). rewrite (run_bind _ _ _ _ _ EN).
      rewrite (run_bind _ _ _ _ _ (view_get _ _ VN)). cbn [k_pos kP].
      pose proof (view_holds _ _ VN) as HN.
      xpush. eexists. split; [reflexivity|]. pose proof (view_stack _ _ _ _ VN C) as V1.
      cbn [kP k_list] in V1. exact V1.
    - rewrite (exec_base _ _ 44 MCharOut false V NS eq_refl). cbn [run_meth].
      xpop. cbn [hd tl] in *. pose proof (view_stack _ _ _ _ V C) as V1.
      match goal with |- context [out ?b] =>
        replace (out b) with (out [to_u8 x]) by (destruct (Z.eqb_spec x 10); [subst|]; reflexivity) end.
      destruct (view_out _ _ [to_u8 x] V1) as (EO & VO). rewrite (run_bind _ _ _ _ _ EO).
      eexists. split; [reflexivity|exact VO].
    - rewrite (exec_base _ _ 46 MNumOut false V NS eq_refl). cbn [run_meth].
      xpop. cbn [hd tl] in *. pose proof (view_stack _ _ _ _ V C) as V1.
      destruct (view_out _ _ (dec (to_i32 x) ++ [32]) V1) as (EO & VO). rewrite (run_bind _ _ _ _ _ EO).
      eexists. split; [reflexivity|exact VO].
    - cbn [lib_execute]. unfold mbind at 1, getR at 1.
      pose proof V as ((_ & _ & _ & _ & _ & I & _ & _ & _ & _ & _ & IS) & _).
      rewrite I, NS, IS. change (sem_top 75 lib_sem) with (@None sem). cbv iota beta.
      change (existsb (Z.eqb 75) dyn_letters) with true. cbv iota.
      unfold isMode. unfold mbind at 1. unfold mbind at 1. unfold getU at 1. unfold ret at 1.
      rewrite (view_mode _ _ _ V).
      change (dyn_exec cid main 75) with
        (u <- popS ;; if u <? 0 then reterr EUnspec
                      else p <- lift (add64 u 1) ;; x <- getS p ;; pushS x ;;; ok).
      xpop. cbn [hd tl] in *. destruct (Z.ltb_spec u 0); [lia|].
      rewrite (run_bind (lift (add64 u 1)) _ _ (u + 1) s0) by (unfold lift; unfold add64; now rewrite chk64_ok).
      destruct (onStack_plain (fun k => (stk_get (u + 1) k, k)) s0 t t (nth (Z.to_nat u) t 0) H0)
        as (s1 & EG & CG).
      { intros k P L. cbn [fst snd]. split; [|auto]. unfold stk_get, stk_size. rewrite L.
        destruct (Z.leb_spec (u + 1) (Z.of_nat (length t))); [|lia].
        destruct (Z.ltb_spec 0 (u + 1)); [|lia]. cbn [andb]. destruct P as [-> _].
        now rewrite Z.add_simpl_r. }
      unfold getS. rewrite (run_bind _ _ _ _ _ EG).
      pose proof (Only_stack_holds _ _ _ _ H0 CG) as HG.
      xpush. eexists. split; [reflexivity|]. eapply view_stack; [exact V|]. os_finish.
    - rewrite (exec_base _ _ 34 MString false V NS eq_refl). cbn [run_meth].
      eexists. split; [reflexivity|].
      destruct V as ((I1 & I2 & I3 & I4 & I5 & I6 & I7 & I) & V2 & V3).
      split; [|split; [exact V2|exact V3]]. unfold Ip. cbn -[mkvec]. intuition auto.
    - cbn [lib_execute]. unfold mbind at 1, getR at 1.
      pose proof V as ((I1 & I2 & I3 & I4 & I5 & I6 & I7 & I) & V2 & V3).
      rewrite I6, NS. unfold exec_string. unfold mbind at 1, getR at 1. rewrite I7, Z.eqb_refl.
      eexists. split; [reflexivity|].
      split; [|split; [exact V2|exact V3]]. unfold Ip. cbn -[mkvec]. intuition auto.
    - cbn [lib_execute]. unfold mbind at 1, getR at 1.
      pose proof V as ((I1 & I2 & I3 & I4 & I5 & I6 & I7 & I8 & I9 & I10 & I11 & I12) & V2 & V3).
      rewrite I6, NS. unfold exec_string. unfold mbind at 1, getR at 1. rewrite I7.
      destruct (Z.eqb_spec i 34); [contradiction|].
      unfold getC. unfold mbind at 1. unfold mbind at 1, getU at 1. unfold ret at 1.
      rewrite (view_uni _ _ V). destruct HU as (_ & _ & _ & _ & ->).
      assert (IB : forall x, 0 <= x < 256 -> isspace_ub x = Ok (blank x)).
      { intros x Hx. unfold isspace_ub, isspace, blank. rewrite to_i32_id by lia.
        destruct (Z.leb_spec (-1) x); [|lia]. destruct (Z.leb_spec x 255); [|lia]. reflexivity. }
      rewrite I8.
      rewrite (run_bind (lift (isspace_ub i)) _ _ (blank i) s) by (unfold lift; now rewrite IB).
      assert (K : (if blank i then s2 <- lift (isspace_ub (k_prev c)) ;; ret (negb s2) else ret true) s
                  = Ok (true, s)).
      { destruct (blank i) eqn:BI; [|reflexivity]. destruct BL as [BL|BL]; [discriminate|].
        unfold mbind, lift. rewrite IB, BL by auto. reflexivity. }
      rewrite (run_bind _ _ _ _ _ K).
      destruct (pushS_plain s (k_list c) i H) as (s1 & E1 & C1).
      assert (EP : runnerPush i s = Ok (tt, s1)).
      { unfold runnerPush, mbind, getR. destruct (r_strats (s_r s)); [contradiction|exact E1]. }
      rewrite (run_bind _ _ _ _ _ EP). pose proof (view_stack _ _ _ _ V C1) as W1.
      eexists. split; [reflexivity|].
      destruct W1 as ((J1 & J2 & J3 & J4 & J5 & J6 & J7 & J8 & J) & W2 & W3).
      split; [|split; [exact W2|exact W3]]. unfold Ip. cbn -[mkvec] in *. intuition congruence.
  Qed.

  Lemma tick_sim N c c' : Tick f dims N c c' -> k_stop c = false -> (N <= Pos.to_nat F)%nat ->
    forall s, View c s ->
      exists s', tick_with F (lib_execute cid main F (S D)) s = Ok (tt, s') /\ View c' s'.
  Proof.
    intros T St HN s. unfold tick_with, loopM. rewrite loop_loopNr.
    revert HN. generalize (Pos.to_nat F) as m. revert St s.
    induction T as [c c' Do St'|c c1 p d Do St1 E|N c c1 p d c' Do St1 E T IH];
      intros St s m Hm V; (destruct m as [|m]; [lia|]); rewrite loopNr_unfold; cbn [fst snd].
    - destruct (does_sim _ _ _ _ _ St Do V) as (s1 & E1 & V1).
      unfold tick_step_with. unfold isMode. unfold mbind at 1. unfold mbind at 1, getU at 1, ret at 1.
      rewrite (view_mode _ _ _ V). rewrite (run_bind _ _ _ _ _ (view_get _ _ V)).
      rewrite (run_bind _ _ _ _ _ E1). unfold mbind at 1, getR at 1. unfold mbind at 1, ret at 1.
      rewrite (run_bind ipNext _ s1 tt s1).
      + exists s1. split; [reflexivity|exact V1].
      + apply ipNext_stopped. destruct V1 as ((_ & _ & _ & _ & -> & _) & _). exact St'.
    - destruct (does_sim _ _ _ _ _ St Do V) as (s1 & E1 & V1).
      unfold tick_step_with. unfold isMode. unfold mbind at 1. unfold mbind at 1, getU at 1, ret at 1.
      rewrite (view_mode _ _ _ V). rewrite (run_bind _ _ _ _ _ (view_get _ _ V)).
      rewrite (run_bind _ _ _ _ _ E1). unfold mbind at 1, getR at 1. unfold mbind at 1, ret at 1.
      destruct (view_next _ _ _ _ V1 St1 E) as (EN & VN).
      rewrite (run_bind _ _ _ _ _ EN). eexists. split; [reflexivity|exact VN].
    - destruct (does_sim _ _ _ _ _ St Do V) as (s1 & E1 & V1).
      unfold tick_step_with at 1. unfold isMode. unfold mbind at 1. unfold mbind at 1, getU at 1, ret at 1.
      rewrite (view_mode _ _ _ V). rewrite (run_bind _ _ _ _ _ (view_get _ _ V)).
      rewrite (run_bind _ _ _ _ _ E1). unfold mbind at 1, getR at 1. unfold mbind at 1, ret at 1.
      destruct (view_next _ _ _ _ V1 St1 E) as (EN & VN).
      rewrite (run_bind _ _ _ _ _ EN). unfold ret. apply IH; [exact St1|lia|exact VN].
  Qed.
End Follow.

(** ** Whole calls *)

(** Everything in the world except the live IPs and the output. *)
Definition Same_rest (w w' : world) : Prop :=
  (forall m, w_uni w' m = w_uni w m) /\ w_nuni w' = w_nuni w /\ w_nrun w' = w_nrun w /\
  w_in w' = w_in w /\ w_log w' = w_log w /\ w_fs w' = w_fs w /\ w_wr w' = w_wr w /\
  w_dir w' = w_dir w /\ w_rnd w' = w_rnd w /\ w_nrnd w' = w_nrnd w /\ w_sys w' = w_sys w /\
  w_nsys w' = w_nsys w /\ w_clock w' = w_clock w /\ w_tm w' = w_tm w /\
  w_nclock w' = w_nclock w /\ w_refs w' = w_refs w /\ w_fl w' = w_fl w.
Lemma Same_rest_refl w : Same_rest w w.
Proof. unfold Same_rest. repeat split. Qed.
Lemma Same_rest_trans a b c : Same_rest a b -> Same_rest b c -> Same_rest a c.
Proof. unfold Same_rest. intuition (try congruence). Qed.

Section Call.
  Context (f : field) (dims n : nat) (cid main : Z) (F : positive) (D : nat).
  (** The world at the start, the caller and its stacks. *)
  Context (W : world) (cal : runner) (ss0 : sstk).
  Context (HU : Library f dims (w_uni W n)) (HT : exists k, ss_top ss0 = Ok k).
  Context (NE : cid <> main) (HQ : u_queue (w_uni W n) = [main]).

  Definition Wview (c : conf) (w : world) : Prop :=
    Same_rest W w /\ w_out w = w_out W ++ k_out c /\
    (exists r, w_run w main = Some r /\ Ip n main c r) /\
    (exists x, w_run w cid = Some (set_r_ss x cal) /\ Shape ss0 (k_list c) x) /\
    (forall i, i <> main -> i <> cid -> w_run w i = w_run W i).

  Lemma uni_eta u q : u_queue u = q -> set_u_queue q u = u.
  Proof. destruct u. cbn. intros ->. reflexivity. Qed.

  Lemma lib_tick c c' N w : Tick f dims N c c' -> k_stop c = false -> (N <= Pos.to_nat F)%nat ->
    Wview c w ->
    exists w', lib_as cid main main (tick_with F (lib_execute cid main F (S D))) w = Ok w' /\
      Wview c' w'.
  Proof.
    intros T St HN (SR & Ho & (r & Er & I) & (x & Ec & Sh) & Hr).
    unfold lib_as. rewrite Er, Ec. rewrite Z.eqb_refl. cbn [r_ss set_r_ss].
    set (s := {| s_w := w; s_r := set_r_ss x r |}).
    assert (HU' : Library f dims (w_uni w n)) by (destruct SR as (-> & _); exact HU).
    destruct (tick_sim f dims n cid main F D (set_w_out (w_out W) w) ss0) with (N := N) (c := c) (c' := c') (s := s)
      as (s' & E & V); auto.
    { split; [exact I|]. split; [exact Sh|]. subst s. cbn [s_w]. cbn [w_out set_w_out].
      rewrite <- Ho. destruct w; reflexivity. }
    rewrite E. destruct V as (I' & Sh' & Ew). rewrite Ew. cbn [w_run set_w_out]. rewrite Ec.
    cbn [set_r_ss]. eexists. split; [reflexivity|].
    split; [|split; [|split; [|split]]].
    - eapply Same_rest_trans; [exact SR|]. unfold Same_rest. cbn. repeat split.
    - cbn. reflexivity.
    - exists (s_r s'). split; [|exact I']. cbn. now rewrite Z.eqb_refl.
    - exists (mySS s'). split; [|exact Sh']. cbn.
      rewrite (proj2 (Z.eqb_neq cid main)), Z.eqb_refl by auto. reflexivity.
    - intros i N1 N2. cbn. rewrite (proj2 (Z.eqb_neq i main)), (proj2 (Z.eqb_neq i cid)) by auto. auto.
  Qed.

  (** The world after the library IP has stopped. *)
  Definition Done (c : conf) (w : world) : Prop :=
    Same_rest (upd_uni n (set_u_queue []) W) w /\ w_out w = w_out W ++ k_out c /\
    w_run w main = None /\
    (exists x, w_run w cid = Some (set_r_ss x cal) /\ Shape ss0 (k_list c) x) /\
    (forall i, i <> main -> i <> cid -> w_run w i = w_run W i).

  Lemma step_go c c' N w : Tick f dims N c c' -> k_stop c = false -> k_stop c' = false ->
    (N <= Pos.to_nat F)%nat -> Wview c w ->
    exists w', lib_wait_step F (S D) cid main n w = Ok (inl w') /\ Wview c' w'.
  Proof.
    intros T St St' HN V. pose proof V as (SR & Ho & (r & Er & I) & (x & Ec & Sh) & Hr).
    destruct (lib_tick _ _ _ _ T St HN V) as (w1 & E1 & (SR1 & Ho1 & (r1 & Er1 & I1) & C1 & Hr1)).
    assert (Q : u_queue (w_uni w n) = [main]) by (destruct SR as (-> & _); exact HQ).
    assert (Q1 : u_queue (w_uni w1 n) = [main]) by (destruct SR1 as (-> & _); exact HQ).
    unfold lib_wait_step, lib_step. rewrite Q, Er.
    replace (r_stopped r) with false by (destruct I as (_ & _ & _ & _ & -> & _); auto).
    rewrite E1. cbn [bind]. cbn [w_run upd_uni set_w_uni]. rewrite Er1.
    replace (Nat.eqb (r_uni r1) n) with true
      by (destruct I1 as (_ & -> & _); symmetry; apply Nat.eqb_refl).
    replace (r_stopped r1) with false by (destruct I1 as (_ & _ & _ & _ & -> & _); auto).
    cbn [bind]. eexists. split; [reflexivity|].
    split; [|split; [exact Ho1|split; [exists r1; split; [exact Er1|exact I1]|split; [exact C1|exact Hr1]]]].
    eapply Same_rest_trans; [exact SR1|]. unfold Same_rest. cbn. repeat split.
    intros m. rewrite Nat.eqb_refl. destruct (Nat.eqb_spec m n) as [->|]; [|reflexivity].
    rewrite Q1. cbn [tl app]. destruct (w_uni w1 n) eqn:EU. cbn in *. now rewrite Q1.
  Qed.
  Lemma step_last c c' N w : Tick f dims N c c' -> k_stop c = false -> k_stop c' = true ->
    (N <= Pos.to_nat F)%nat -> Wview c w ->
    exists w', lib_wait_step F (S D) cid main n w = Ok (inl w') /\ Done c' w'.
  Proof.
    intros T St St' HN V. pose proof V as (SR & Ho & (r & Er & I) & (x & Ec & Sh) & Hr).
    destruct (lib_tick _ _ _ _ T St HN V) as (w1 & E1 & (SR1 & Ho1 & (r1 & Er1 & I1) & C1 & Hr1)).
    assert (Q : u_queue (w_uni w n) = [main]) by (destruct SR as (-> & _); exact HQ).
    assert (Q1 : u_queue (w_uni w1 n) = [main]) by (destruct SR1 as (-> & _); exact HQ).
    unfold lib_wait_step, lib_step. rewrite Q, Er.
    replace (r_stopped r) with false by (destruct I as (_ & _ & _ & _ & -> & _); auto).
    rewrite E1. cbn [bind]. cbn [w_run upd_uni set_w_uni]. rewrite Er1.
    replace (Nat.eqb (r_uni r1) n) with true
      by (destruct I1 as (_ & -> & _); symmetry; apply Nat.eqb_refl).
    replace (r_stopped r1) with true by (destruct I1 as (_ & _ & _ & _ & -> & _); auto).
    cbn [bind]. eexists. split; [reflexivity|].
    split; [|split; [exact Ho1|split; [|split]]].
    - destruct SR1 as (SU & SR1). split; [|exact SR1]. cbn.
      intros m. rewrite !SU. destruct (Nat.eqb_spec m n) as [->|]; [|reflexivity].
      now rewrite HQ.
    - cbn. now rewrite Z.eqb_refl.
    - destruct C1 as (y & Ey & Sy). exists y. split; [|exact Sy]. cbn.
      rewrite (proj2 (Z.eqb_neq cid main)) by auto. exact Ey.
    - intros i N1 N2. cbn. rewrite (proj2 (Z.eqb_neq i main)) by auto. auto.
  Qed.

  Lemma run_sim N c c' : Run f dims N c c' -> k_stop c = false -> k_stop c' = true ->
    (N <= Pos.to_nat F)%nat -> forall m w, (N < m)%nat -> Wview c w ->
    exists w', loopNr (lib_wait_step F (S D) cid main n) m w = Ok w' /\ Done c' w'.
  Proof.
    induction 1 as [c|k N c c1 c' St T R IH]; intros St0 St' HN m w Hm V; [congruence|].
    pose proof (Tick_pos _ _ _ _ _ T) as Hk.
    destruct m as [|m]; [lia|]. rewrite loopNr_unfold.
    destruct (k_stop c1) eqn:S1.
    - destruct (step_last _ _ _ w T St S1 ltac:(lia) V) as (w1 & E1 & D1).
      rewrite E1. inversion R; subst; [|congruence].
      destruct m as [|m]; [lia|]. rewrite loopNr_unfold. unfold lib_wait_step at 1.
      assert (Q : u_queue (w_uni w1 n) = []).
      { destruct D1 as ((-> & _) & _). cbn. now rewrite Nat.eqb_refl. }
      rewrite Q. exists w1. auto.
    - destruct (step_go _ _ _ w T St S1 ltac:(lia) V) as (w1 & E1 & V1).
      rewrite E1. apply IH; auto; lia.
  Qed.
End Call.

(** The stacks after a call: same selection and number, the same contents except
    that the selected stack holds [l], and mode [m] everywhere. *)
Definition Restacked (m : Z) (l : list Z) (x y : sstk) : Prop :=
  ss_sel y = ss_sel x /\ length (ss_list y) = length (ss_list x) /\
  (exists k, ss_top y = Ok k /\ s_list k = l) /\
  (forall i k, i <> ss_sel x -> nth_error (ss_list x) i = Some k ->
     exists k', nth_error (ss_list y) i = Some k' /\ s_list k' = s_list k) /\
  Forall (fun k => s_mode k = m) (ss_list y).

(** What a call leaves: the calling IP is [cal'] with [l] on the selected stack, [o]
    was written, and nothing else changes for other IPs or for any universe. *)
Definition CalledAs (cal' : runner) (s s' : st) (l : list Z) (o : bytes) : Prop :=
  (exists x, s_r s' = set_r_ss x cal' /\
     Restacked (c_mode (u_cfg (w_uni (s_w s) (r_uni (s_r s))))) l (r_ss (s_r s)) x) /\
  w_out (s_w s') = w_out (s_w s) ++ o /\
  Same_rest (set_w_nrun (w_nrun (s_w s) + 1) (s_w s)) (s_w s') /\
  (forall i, i <> r_id (s_r s) -> i <> w_nrun (s_w s) -> w_run (s_w s') i = w_run (s_w s) i) /\
  w_run (s_w s') (w_nrun (s_w s)) = None.
(** The same, nothing else changing for the calling IP either. *)
Definition Called (s s' : st) (l : list Z) (o : bytes) : Prop := CalledAs (s_r s) s s' l o.

(** The library in universe [n] is ready: made by opening the file, and idle. *)
Definition Ready_lib (n : nat) (f : field) (dims : nat) (s : st) : Prop :=
  let u := w_uni (s_w s) n in
  Library f dims u /\ u_queue u = [] /\ u_running u = true /\
  c_std (u_cfg u) = STD_98 /\ c_fings (u_cfg u) = [FP_DYN] /\ (3 <= dims)%nat /\
  w_fl (s_w s) FP_DYN = false /\ r_uni (s_r s) <> n /\ r_id (s_r s) < w_nrun (s_w s).

Lemma lupd_length {A} (l : list A) : forall i x, length (lupd l i x) = length l.
Proof. induction l as [|a l IH]; intros [|i] x; cbn; auto. Qed.
Lemma lupd_other {A} (l : list A) : forall i j x, i <> j -> nth_error (lupd l i x) j = nth_error l j.
Proof. induction l as [|a l IH]; intros [|i] [|j] x H; cbn; auto; congruence. Qed.

Lemma lib_runner fl n main u f dims pos :
  Library f dims u -> c_std (u_cfg u) = STD_98 -> c_fings (u_cfg u) = [FP_DYN] -> (3 <= dims)%nat ->
  fl FP_DYN = false ->
  exists r, runner_new fl main n u pos (mkvec [1]) = Ok r /\
    r_id r = main /\ r_uni r = n /\ r_pos r = pos /\ r_delta r = mkvec [1] /\
    r_stopped r = false /\ r_string r = false /\ r_end r = 34 /\ r_prev r = 0 /\
    r_fish r = None /\ r_handler r = true /\ r_strats r <> [] /\ r_sem r = lib_sem.
Proof.
  intros (_ & HD & _ & HM & _) HS HF H3 FL. unfold runner_new. rewrite HS, HF, HD, HM.
  change ((STD_98 =? STD_FISH) || (STD_98 =? STD_STARFISH)) with false. cbv iota.
  destruct dims as [|[|[|dims]]]; [lia..|].
  change (strats_of STD_98 (S (S (S dims)))) with [SU93; SU98; SB93; SB98; ST98].
  unfold testmode. rewrite HM, Z.testbit_0_l.
  cbn [strats_construct strat_construct bind fp_loads].
  unfold fp_load at 1. cbn [r_avail runner_blank set_r_handler push_table set_r_sem assoc].
  rewrite FL. change (fp_letters FP_DYN) with (@None (list Z)). cbn [bind snd].
  eexists. split; [reflexivity|].
  cbn -[mkvec]. repeat split; try discriminate.
Qed.

(** A call, given how the library runs. *)
Lemma lib_call_gen n f dims cmd l c' cal' s D F :
  Ready_lib n f dims s -> (exists k, ss_top (r_ss (s_r s)) = Ok k /\ s_list k = l) ->
  r_uni cal' = r_uni (s_r s) ->
  (forall W ss0, Library f dims (w_uni W n) -> (exists k, ss_top ss0 = Ok k) ->
     u_queue (w_uni W n) = [w_nrun (s_w s)] -> r_id (s_r s) <> w_nrun (s_w s) ->
     (forall m, m <> n -> w_uni W m = w_uni (s_w s) m) ->
     Wview n (r_id (s_r s)) (w_nrun (s_w s)) W (s_r s) ss0 (conf_at cmd l) W ->
     exists w2, loopNr (lib_wait_step F (S D) (r_id (s_r s)) (w_nrun (s_w s)) n) (Pos.to_nat F) W = Ok w2 /\
       Done n (r_id (s_r s)) (w_nrun (s_w s)) W cal' ss0 c' w2) ->
  exists s', lib_call F (S D) n cmd s = Ok (ENone, s') /\ CalledAs cal' s s' (k_list c') (k_out c').
Proof.
  intros (HL & HQ & HR & HS & HF & H3 & FL & HN & HI) (k & HT & Hl) EC Sim.
  destruct s as [w cal]. cbn [s_w s_r] in *. unfold lib_call. cbn [s_w s_r].
  set (cid := r_id cal) in *. set (main := w_nrun w) in *.
  assert (HI' : cid <> main) by lia. clear HI. rename HI' into HI.
  pose proof HL as (_ & _ & _ & HM & _). rewrite HM.
  destruct (lib_runner (w_fl w) n main (w_uni w n) f dims (mkvec [0; 0; cmd - 65]) HL HS HF H3 FL)
    as (r0 & -> & I1 & I2 & I3 & I4 & I5 & I6 & I7 & I8 & I9 & I10 & I11 & I12).
  set (ss0 := ss_setmode 0 (r_ss cal)).
  change (run_setmode 0 cal) with (set_r_ss ss0 cal). cbn [r_ss set_r_ss].
  set (r := set_r_parent (Some cid) (set_r_ss ss0 r0)).
  set (W := add_runner n r (set_w_nrun (main + 1) (upd_run cid (Some (set_r_ss ss0 cal)) w))).
  assert (UW : w_uni W n = set_u_queue [main] (w_uni w n)).
  { subst W. unfold add_runner. cbn. rewrite Nat.eqb_refl, HQ. cbn [app]. subst r. cbn. now rewrite I1. }
  assert (TW : ss_top ss0 = Ok {| s_mode := 0; s_list := l; s_ops := s_ops k |}).
  { subst ss0 l. unfold ss_top, ss_at, ss_setmode in *. cbn [ss_sel ss_list].
    rewrite nth_error_map. destruct (nth_error (ss_list (r_ss cal)) (ss_sel (r_ss cal))); [|discriminate].
    injection HT as ->. reflexivity. }
  assert (V : Wview n cid main W cal ss0 (conf_at cmd l) W).
  { split; [apply Same_rest_refl|]. split; [cbn; now rewrite app_nil_r|]. split; [|split].
    - exists (run_setmode 0 r). split.
      + subst W. unfold add_runner. cbn. rewrite I1, Z.eqb_refl. rewrite HM. reflexivity.
      + unfold Ip. cbn -[mkvec]. auto 15.
    - exists ss0. split.
      + subst W. unfold add_runner. cbn. rewrite I1, (proj2 (Z.eqb_neq cid main)), Z.eqb_refl by auto.
        reflexivity.
      + exists (s_ops k). unfold ss_top, ss_at in TW.
        destruct (nth_error (ss_list ss0) (ss_sel ss0)) eqn:E; [|discriminate]. injection TW as ->.
        unfold ss_set. rewrite lupd_same by auto. destruct ss0; reflexivity.
    - intros i N1 N2. reflexivity. }
  assert (HLW : Library f dims (w_uni W n)) by (rewrite UW; exact HL).
  destruct (Sim W ss0 HLW) as (w2 & E2 & (SR & Ho & Hm & (x & Ex & (ops & Sx)) & Hr)); auto.
  { eexists; exact TW. }
  { rewrite UW. reflexivity. }
  { intros m Nm. subst W. unfold add_runner. cbn. destruct (Nat.eqb_spec m n); [contradiction|reflexivity]. }
  unfold lib_wait. replace (u_running (w_uni W n)) with true by (rewrite UW; cbn; auto).
  rewrite loop_loopNr, E2, Ex.
  assert (SU : Same_rest (set_w_nrun (main + 1) w) w2).
  { destruct SR as (SU & SR). split; [|].
    - intros m. rewrite SU. unfold upd_uni at 1. cbn [w_uni set_w_uni set_w_nrun].
      destruct (Nat.eqb_spec m n) as [->|].
      + rewrite UW. destruct (w_uni w n). cbn in *. subst. reflexivity.
      + subst W. unfold add_runner. cbn. destruct (Nat.eqb_spec m n); [contradiction|]. reflexivity.
    - intuition congruence. }
  cbn [set_r_ss r_uni]. fold (r_uni cal'). rewrite EC. destruct SU as (SU & SR'). rewrite SU. cbn [w_uni set_w_nrun].
  set (m := c_mode (u_cfg (w_uni w (r_uni cal)))).
  eexists. split; [reflexivity|]. unfold CalledAs. cbn [s_w s_r].
  split; [|split; [|split; [|split]]].
  - exists (ss_setmode m x). split; [reflexivity|]. subst x. unfold Restacked, ss_setmode, ss_set.
    cbn [ss_sel ss_list]. subst ss0. cbn [ss_setmode ss_sel ss_list]. split; [reflexivity|].
    split; [now rewrite map_length, lupd_length, map_length|]. split; [|split].
    + exists {| s_mode := m; s_list := k_list c'; s_ops := ops |}. split; [|reflexivity].
      unfold ss_top, ss_at in *. cbn [ss_sel ss_list].
      destruct (nth_error (ss_list (r_ss cal)) (ss_sel (r_ss cal))) as [k1|] eqn:E; [|discriminate].
      rewrite nth_error_map. rewrite (lupd_nth_error _ _ _ (stk_setmode 0 k1))
        by (rewrite nth_error_map, E; reflexivity).
      reflexivity.
    + intros i k1 Ni Ek. rewrite nth_error_map, lupd_other by auto. rewrite nth_error_map, Ek.
      eexists. split; reflexivity.
    + apply Forall_forall. intros k1 Hk. apply in_map_iff in Hk. destruct Hk as (k2 & <- & _). reflexivity.
  - rewrite Ho. reflexivity.
  - split; [exact SU|exact SR'].
  - intros i N1 N2. rewrite Hr by auto. subst W. unfold add_runner. cbn. rewrite I1.
    rewrite (proj2 (Z.eqb_neq i main)), (proj2 (Z.eqb_neq i cid)) by auto. reflexivity.
  - exact Hm.
Qed.

Theorem lib_call_runs n f dims cmd l c' N s D F :
  Ready_lib n f dims s -> (exists k, ss_top (r_ss (s_r s)) = Ok k /\ s_list k = l) ->
  Run f dims N (conf_at cmd l) c' -> k_stop c' = true -> (N < Pos.to_nat F)%nat ->
  exists s', lib_call F (S D) n cmd s = Ok (ENone, s') /\ Called s s' (k_list c') (k_out c').
Proof.
  intros HR HK R St HF. apply (lib_call_gen n f dims cmd l); auto.
  intros W ss0 HL HT HQ HN _ V. eapply run_sim; eauto. lia.
Qed.

Lemma Called_ready n f dims s s' l o : Ready_lib n f dims s -> Called s s' l o -> Ready_lib n f dims s'.
Proof.
  intros (HL & HQ & HR & HS & HF & H3 & FL & HN & HI) ((x & Er & _) & _ & SR & _).
  unfold Ready_lib. destruct SR as (SU & _ & En & _ & _ & _ & _ & _ & _ & _ & _ & _ & _ & _ & _ & _ & Ef).
  rewrite SU, Ef, En, Er. cbn. repeat split; auto; try apply HL. fold (r_id (s_r s)). lia.
Qed.

(** Opening a library file that parses to [f] with [dims] dimensions. *)
Lemma lib_open_ready F path data f dims w :
  field_load FmtFl data 0 false = Ok f -> f_size f = dims -> (3 <= dims)%nat ->
  multi_find path w = None ->
  exists w1, lib_open F path data false w = Ok (f_planes f, w1) /\
    w_nuni w1 = S (w_nuni w) /\ w_nrun w1 = w_nrun w /\
    forall r, r_uni r <> w_nuni w -> r_id r < w_nrun w -> w_fl w FP_DYN = false ->
      Ready_lib (w_nuni w) f dims {| s_w := w1; s_r := r |}.
Proof.
  intros EL ED H3 HF. unfold lib_open, multi_create_fmt.
  change (c_name (lib_cfg path false)) with path.
  assert (EN : loop (name_step path w) F path = Ok path).
  { rewrite loop_loopNr. destruct (Pos2Nat.is_succ F) as (k & ->). rewrite loopNr_unfold.
    unfold name_step. rewrite HF. reflexivity. }
  rewrite EN. cbn [bind]. change (c_dims (lib_cfg path false)) with 0%nat.
  change (c_char (lib_cfg path false)) with false. rewrite EL. cbn [bind].
  eexists. split; [cbn; rewrite Nat.eqb_refl; reflexivity|]. split; [reflexivity|]. split; [reflexivity|].
  intros r N1 N2 N3. unfold Ready_lib. cbn. rewrite Nat.eqb_refl. cbn.
  unfold Library. cbn. auto 12.
Qed.
