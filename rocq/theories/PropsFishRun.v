(** * Properties C77-C82: running ><> programs *)

From Coq Require Import ZArith List Bool Lia SpecFloat.
From Verif Require Import Base BaseProofs VectorModel VectorProofs TextModel TextProofs StackModel
  StackProofs FieldModel FieldProofs World IpModel LoadModel FingModel CoreModel UniModel
  ExecProofs FlowProofs States PropsBlocks Effects SchedProofs PropsSched PropsIO PropsLoad PropsFing
  DblModel DblProofs FishModel FishProofs FishSafe PropsFish.
Import ListNotations.
Open Scope Z_scope.

(** ** C77 One register per stack *)

(** Whenever a ><> program is about to execute an instruction it has at least one
    stack, the topmost one is selected, and there are exactly as many registers
    as stacks.  [Runs fx0 s x s'] : the program started in [s] gets to [s']. *)
Theorem C77_registers : forall F data c input fs rnd s x1 s1,
  fish_boot false F data c (world0 input fs rnd) = Ok s -> Runs fx0 s x1 s1 ->
  length (fx_regs x1) = length (ss_list (mySS s1)) /\ (1 <= length (ss_list (mySS s1)))%nat /\
  ss_sel (mySS s1) = 0%nat.
Proof.
  intros F data c input fs rnd s x1 s1 B R. destruct (boot_held F data c input fs rnd s B) as [H _].
  destruct (runs_held _ _ _ _ R H) as [(Sel & Ne & _) Q]. split; [exact Q|]. split; [|exact Sel].
  destruct (ss_list (mySS s1)); [contradiction|cbn [length]; lia].
Qed.
(** In *><> this fails: after a call, []] takes the only register away, and the
    next [&] reads a register that does not exist.  The program is
    "30C ]&;". *)
Theorem C77_star_refuted : fish_program true 1000 [51; 48; 67; 32; 93; 38; 59] [] = Bad BadOob.
Proof. vm_compute. reflexivity. Qed.

Definition bump (x : fx) (s : st) : fx * st :=
  match fish_tick_step false x s with
  | Ok (inl x', s') | Ok (inr x', s') => (x', s')
  | Bad _ => (x, s)
  end.
(** A program ("12 2[") that gets to a second stack. *)
Example C77_example :
  let s := fish_state0 false [49; 50; 50; 91; 59] in
  fish_boot false 1000 [49; 50; 50; 91; 59] (fish_cfg false) (world0 [] (fun _ => None) (fun _ => 0)) = Ok s /\
  exists x1 s1, Runs fx0 s x1 s1 /\ length (fx_regs x1) = 2%nat.
Proof.
  split; [vm_compute; reflexivity|].
  set (s := fish_state0 false [49; 50; 50; 91; 59]).
  set (a1 := bump fx0 s). set (a2 := bump (fst a1) (snd a1)). set (a3 := bump (fst a2) (snd a2)).
  set (a4 := bump (fst a3) (snd a3)). exists (fst a4), (snd a4).
  assert (E1 : fish_tick_step false fx0 s = Ok (inr (fst a1), snd a1)) by (vm_compute; reflexivity).
  assert (E2 : fish_tick_step false (fst a1) (snd a1) = Ok (inr (fst a2), snd a2)) by (vm_compute; reflexivity).
  assert (E3 : fish_tick_step false (fst a2) (snd a2) = Ok (inr (fst a3), snd a3)) by (vm_compute; reflexivity).
  assert (E4 : fish_tick_step false (fst a3) (snd a3) = Ok (inr (fst a4), snd a4)) by (vm_compute; reflexivity).
  assert (S1 : r_stopped (s_r (snd a1)) = false) by (vm_compute; reflexivity).
  assert (S2 : r_stopped (s_r (snd a2)) = false) by (vm_compute; reflexivity).
  assert (S3 : r_stopped (s_r (snd a3)) = false) by (vm_compute; reflexivity).
  assert (S4 : r_stopped (s_r (snd a4)) = false) by (vm_compute; reflexivity).
  assert (L : length (fx_regs (fst a4)) = 2%nat) by (vm_compute; reflexivity).
  split; [|exact L].
  refine (runs_next _ _ _ _ _ _ _ E4 S4). refine (runs_next _ _ _ _ _ _ _ E3 S3).
  refine (runs_next _ _ _ _ _ _ _ E2 S2). refine (runs_next _ _ _ _ _ _ _ E1 S1). apply runs_start.
Qed.

Print Assumptions C77_registers.
Print Assumptions C77_star_refuted.

(** ** C78 ><> cannot reach foreign memory *)

(** A memory error is an access outside a container, to a null pointer or to a
    deleted object ([memory]).  However a ><> program runs, it has no memory
    error except for [{] or [}] on an empty stack ([empty_shift]). *)
Theorem C78_memory_partial : forall F data c input fs rnd s G b,
  fish_boot false F data c (world0 input fs rnd) = Ok s ->
  fish_run false G fx0 s = Bad b -> memory b = true ->
  exists x1 s1, Runs fx0 s x1 s1 /\ fish_tick_step false x1 s1 = Bad b /\ empty_shift s1.
Proof.
  intros F data c input fs rnd s G b B E M. destruct (boot_held F data c input fs rnd s B) as [H St].
  assert (Nb : b <> BadFuel) by (intros ->; discriminate).
  destruct (run_cause G fx0 s b St E Nb) as (x1 & s1 & R & Eb). exists x1, s1.
  split; [exact R|]. split; [exact Eb|].
  pose proof (tick_step_tame x1 s1 (runs_held _ _ _ _ R H)) as T. rewrite Eb in T. exact (T M).
Qed.
(** The exception is real: the program "{". *)
Theorem C78_shift_refuted : fish_program false 1000 [123; 59] [] = Bad BadOob.
Proof. vm_compute. reflexivity. Qed.
(** *><> has more: R without a call; []] after D ("0[D]1;"), which leaves a
    selected stack that does not exist. *)
Theorem C78_star_refuted :
  fish_program true 1000 [82; 59] [] = Bad BadOob /\
  fish_program true 1000 [48; 91; 68; 93; 49; 59] [] = Bad BadOob.
Proof. split; vm_compute; reflexivity. Qed.

Example C78_example :
  fish_boot false 1000 [123; 59] (fish_cfg false) (world0 [] (fun _ => None) (fun _ => 0)) =
    Ok (fish_state0 false [123; 59]) /\
  fish_run false 1000 fx0 (fish_state0 false [123; 59]) = Bad BadOob /\ memory BadOob = true.
Proof. split; [vm_compute; reflexivity|]. split; [vm_compute; reflexivity|reflexivity]. Qed.

Print Assumptions C78_memory_partial.
Print Assumptions C78_shift_refuted.
Print Assumptions C78_star_refuted.

(** ** C79 Strings *)

(** Execute characters one after the other; every one must succeed. *)
Fixpoint exec_chars (star : bool) (t : list Z) (x : fx) (s : st) : res (fx * st) :=
  match t with
  | [] => Ok (x, s)
  | c :: t => match fish_execute star c x s with
              | Ok ((ENone, x'), s') => exec_chars star t x' s'
              | Ok _ => Bad BadUnmodelled
              | Bad b => Bad b
              end
  end.
Definition string_style (s : st) : strstyle := c_str (u_cfg (w_uni (s_w s) (r_uni (s_r s)))).
(** [s] between the quotes. *)
Definition inside (q : Z) (s : st) : st :=
  {| s_w := s_w s; s_r := set_r_string true (set_r_end q (s_r s)) |}.

Lemma inside_push q s l c : Holds s l ->
  exists s', pushS c (inside q s) = Ok (tt, inside q s') /\ Only_stack s s' (c :: l).
Proof.
  intros H. assert (H' : Holds (inside q s) l) by exact H.
  destruct (pushS_plain _ _ c H') as (s1 & E & k & k' & A & B & C & D).
  exists (setSS (ss_set (mySS s) (ss_sel (mySS s)) k') s). split.
  - rewrite E, D. reflexivity.
  - exists k, k'. repeat split; assumption.
Qed.
Lemma string_char star q c x s l : Holds s l -> string_style s = StrMultispace -> c <> q -> small c ->
  exists s' d, fish_execute star c x (inside q s) = Ok ((ENone, x), inside q s') /\
    Only_stack s s' (d :: l) /\ num d c.
Proof.
  intros H St N Sc. destruct (inside_push q s l (bits_of_dbl (dbl_of_int c)) H) as (s' & E & O1).
  exists s', (bits_of_dbl (dbl_of_int c)). split; [|split; [exact O1|exact (num_int c Sc)]].
  unfold fish_execute. unfold mbind at 1. unfold getR at 1. change (r_string (s_r (inside q s))) with true.
  cbv iota. assert (Fs : fish_string c (inside q s) = Ok (ENone, inside q s')).
  { unfold fish_string. unfold mbind at 1. unfold getR at 1. change (r_end (s_r (inside q s))) with q.
    destruct (Z.eqb_spec c q); [contradiction|]. unfold getC. unfold mbind at 1. unfold mbind at 1. unfold getU at 1.
    unfold ret at 1. change (c_str (u_cfg (w_uni (s_w (inside q s)) (r_uni (s_r (inside q s)))))) with (string_style s).
    rewrite St. unfold pushI, pushIAt. change (pushAt TOP) with pushS. rewrite (run_bind _ _ _ _ _ E). reflexivity. }
  rewrite (run_bind _ _ _ _ _ Fs). reflexivity.
Qed.

(** A quoted text, in either kind of quotes, pushes the code of every character
    between the quotes in order and does nothing else; the other kind of quote
    and every instruction are ordinary characters. *)
Theorem C79_string : forall star q txt x s l,
  q = 39 \/ q = 34 -> ~ In q txt -> Forall small txt ->
  Ready s -> string_style s = StrMultispace -> Holds s l ->
  exists s1 cs, Only_stack s s1 (cs ++ l) /\ Forall2 num cs (rev txt) /\
    exec_chars star (q :: txt ++ [q]) x s =
      Ok (x, {| s_w := s_w s1;
                s_r := set_r_string false (set_r_prev 0 (set_r_end q (s_r s1))) |}).
Proof.
  intros star q txt x s l Q. revert s l.
  assert (Body : forall txt s l, ~ In q txt -> Forall small txt -> string_style s = StrMultispace -> Holds s l ->
    exists s1 cs, Only_stack s s1 (cs ++ l) /\ Forall2 num cs (rev txt) /\
      exec_chars star (txt ++ [q]) x (inside q s) =
      Ok (x, {| s_w := s_w s1;
                s_r := set_r_string false (set_r_prev 0 (set_r_end q (s_r s1))) |})).
  { clear txt. induction txt as [|c txt IH]; intros s l N Sm St H.
    - exists s, []. split; [exact (Only_stack_refl s l H)|]. split; [constructor|].
      cbn [app exec_chars]. unfold fish_execute. unfold mbind at 1. unfold getR at 1.
      change (r_string (s_r (inside q s))) with true. cbv iota.
      assert (Fs : fish_string q (inside q s) = Ok (ENone, {| s_w := s_w s;
                s_r := set_r_string false (set_r_prev 0 (set_r_end q (s_r s))) |})).
      { unfold fish_string. unfold mbind at 1. unfold getR at 1. change (r_end (s_r (inside q s))) with q.
        rewrite Z.eqb_refl. reflexivity. }
      rewrite (run_bind _ _ _ _ _ Fs). reflexivity.
    - inversion Sm as [|? ? Sc St']; subst.
      destruct (string_char star q c x s l H St (fun E => N (or_introl E)) Sc) as (s1 & d & E1 & O1 & Nd).
      assert (St1 : string_style s1 = StrMultispace).
      { unfold string_style. rewrite (Only_stack_w _ _ _ O1), (Only_stack_r _ _ _ O1). exact St. }
      destruct (IH s1 (d :: l) (fun I => N (or_intror I)) St' St1 (Only_stack_holds _ _ _ _ H O1))
        as (s2 & cs & O2 & F2 & E2).
      exists s2, (cs ++ [d]). split; [rewrite <- app_assoc; exact (Only_stack_trans _ _ _ _ _ O1 O2)|].
      split; [cbn [rev]; apply Forall2_app; [exact F2|constructor; [exact Nd|constructor]]|].
      cbn [app exec_chars]. rewrite E1. exact E2. }
  intros s l N Sm R St H. destruct (Body txt s l N Sm St H) as (s1 & cs & O1 & F1 & E1).
  exists s1, cs. split; [exact O1|]. split; [exact F1|]. cbn [exec_chars].
  assert (Sq : sem_of star q = Some (false, pure (modR (fun r => set_r_string true (set_r_end q r)) ;;; ok)))
    by (destruct star, Q as [-> | ->]; reflexivity).
  rewrite (fish_letter_pure star q s x _ _ R Sq). exact E1.
Qed.

Definition readable (m : res (fx * st)) : res (bool * list (list (res Z))) :=
  match m with
  | Ok (x, s) => Ok (r_string (s_r s), map (fun k => numbers (s_list k)) (ss_list (mySS s)))
  | Bad b => Bad b
  end.
Definition styleb (s : st) : bool := match string_style s with StrMultispace => true | _ => false end.
Lemma styleb_ok s : styleb s = true -> string_style s = StrMultispace.
Proof. unfold styleb. destruct (string_style s); [reflexivity|discriminate|discriminate]. Qed.
Lemma fdemo_style star L : string_style (fdemo star L) = StrMultispace.
Proof. apply styleb_ok. destruct star; vm_compute; reflexivity. Qed.
(** The characters a, double quote, + in single quotes, on a stack with 7. *)
Example C79_example :
  let s := fdemo false [[7]] in
  ~ In 39 [97; 34; 43] /\ Forall small [97; 34; 43] /\ Ready s /\ string_style s = StrMultispace /\
  Holds s [cell 7] /\
  readable (exec_chars false [39; 97; 34; 43; 39] fx0 s) = Ok (false, [[Ok 43; Ok 34; Ok 97; Ok 7]]).
Proof.
  split; [cbn [In]; lia|]. split; [repeat constructor; unfold small; lia|].
  split; [apply fdemo_ready|]. split; [apply fdemo_style|].
  split; [exact (stacks_holds _ 0 [[cell 7]] _ (stacks_with _ _) eq_refl)|vm_compute; reflexivity].
Qed.

Print Assumptions C79_string.

(** ** C80 Skips, jumps and the end *)

Definition here (s : st) : Z := f_get (u_field (w_uni (s_w s) (r_uni (s_r s)))) (r_pos (s_r s)).
Definition debugging (s : st) : bool := testmode MODE_DEBUG (w_uni (s_w s) (r_uni (s_r s))).

Lemma tick_ok star F x s x' s1 : debugging s = false ->
  fish_execute star (here s) x s = Ok ((ENone, x'), s1) ->
  fish_tick star F x s = match ipNext s1 with Ok (_, s3) => Ok (x', s3) | Bad b => Bad b end.
Proof.
  intros D E. exact (fish_tick_here star F x s (ENone, x') s1 ENone s1 D E eq_refl ltac:(discriminate)).
Qed.
(** [!] jumps over the next cell. *)
Theorem C80_skip : forall star F x s p d p2 d2,
  debugging s = false -> Ready s -> r_stopped (s_r s) = false -> here s = 33 ->
  next_of s = Ok (p, d) -> next_of (moved s p d) = Ok (p2, d2) ->
  fish_tick star F x s = Ok (x, moved (moved s p d) p2 d2).
Proof.
  intros star F x s p d p2 d2 D R St Hh N1 N2.
  assert (E : fish_execute star (here s) x s = Ok ((ENone, x), moved s p d)).
  { rewrite Hh. rewrite (fish_letter_pure star 33 s x false (ipNext ;;; ok) R) by (destruct star; reflexivity).
    rewrite (run_bind _ _ _ _ _ (ipNext_run s p d St N1)). reflexivity. }
  rewrite (tick_ok star F x s x _ D E). rewrite (ipNext_run (moved s p d) p2 d2 St N2). reflexivity.
Qed.
(** [?] takes a number off the stack and jumps over the next cell exactly if it
    is 0. *)
Theorem C80_conditional : forall star F x s c n l p d p2 d2,
  debugging s = false -> Ready s -> r_stopped (s_r s) = false -> here s = 63 ->
  Holds s (c :: l) -> num c n -> small n ->
  next_of s = Ok (p, d) -> next_of (moved s p d) = Ok (p2, d2) ->
  exists s1, Only_stack s s1 l /\
    fish_tick star F x s = Ok (x, if n =? 0 then moved (moved s1 p d) p2 d2 else moved s1 p d).
Proof.
  intros star F x s c n l p d p2 d2 D R St Hh H Nc Sn N1 N2.
  destruct (popS_plain s _ H) as (s1 & E1 & O1). cbn [hd tl] in *. exists s1. split; [exact O1|].
  assert (N1' : next_of s1 = Ok (p, d)).
  { unfold next_of. rewrite (Only_stack_w _ _ _ O1), (Only_stack_r _ _ _ O1). exact N1. }
  assert (N2' : next_of (moved s1 p d) = Ok (p2, d2)).
  { revert N2. unfold next_of, moved. cbn [s_w s_r]. rewrite (Only_stack_w _ _ _ O1), (Only_stack_r _ _ _ O1). auto. }
  assert (St1 : r_stopped (s_r s1) = false) by (rewrite (Only_stack_r _ _ _ O1); exact St).
  assert (E : fish_execute star (here s) x s = Ok ((ENone, x), if n =? 0 then moved s1 p d else s1)).
  { rewrite Hh. rewrite (fish_letter_pure star 63 s x false fishCond R) by (destruct star; reflexivity).
    unfold fishCond. rewrite (check_stack_holds s _ 1 _ H).
    replace (Z.of_nat (length (c :: l)) <? 1) with false by (symmetry; apply Z.ltb_ge; cbn [length]; lia).
    unfold popD. rewrite (run_bind _ _ s (dbl_of_bits c) s1) by (rewrite (run_bind _ _ _ _ _ E1); reflexivity).
    rewrite (deq_whole _ _ n 0 (bits_valid c) (proj1 zero_whole) Nc (proj2 zero_whole) Sn small0).
    destruct (n =? 0); [rewrite (run_bind _ _ _ _ _ (ipNext_run s1 p d St1 N1'))|]; reflexivity. }
  rewrite (tick_ok star F x s x _ D E). destruct (n =? 0).
  - rewrite (ipNext_run (moved s1 p d) p2 d2 St1 N2'). reflexivity.
  - rewrite (ipNext_run s1 p d St1 N1'). reflexivity.
Qed.
(** [.] takes the coordinates of a cell off the stack; the IP goes on from that
    cell, so the next instruction is the one behind it. *)
Theorem C80_jump : forall star F x s cs l R v,
  debugging s = false -> Ready s -> r_stopped (s_r s) = false -> here s = 46 ->
  Stacks s 0 ((cs ++ l) :: R) -> coords (dims_of s) cs v ->
  exists s1 v', Became s s1 0 (l :: R) /\
    (forall i, vget v' i = if Nat.ltb i (dims_of s) then vget v i else 0) /\
    let s2 := {| s_w := s_w s; s_r := set_r_pos v' (s_r s1) |} in
    forall p d, next_of s2 = Ok (p, d) -> fish_tick star F x s = Ok (x, moved s2 p d).
Proof.
  intros star F x s cs l R v D Rd St Hh H C.
  destruct (fishPopVec_at TOP 0 s 0 _ cs l v top_at H eq_refl C) as (s1 & v' & E1 & B1 & V1).
  cbn [Nat.add lupd] in B1. exists s1, v'. split; [exact B1|]. split; [exact V1|]. intros s2 p d N2.
  assert (E : fish_execute star (here s) x s = Ok ((ENone, x), s2)).
  { rewrite Hh. rewrite (fish_letter_pure star 46 s x false fishJump Rd) by (destruct star; reflexivity).
    unfold fishJump. rewrite dims_run. rewrite (check_stack_holds s (cs ++ l) _ _ (stacks_holds s 0 _ _ H eq_refl)).
    replace (Z.of_nat (length (cs ++ l)) <? Z.of_nat (dims_of s)) with false
      by (symmetry; apply Z.ltb_ge; rewrite app_length; destruct C as [<- _]; lia).
    rewrite (run_bind _ _ _ _ _ E1). unfold s2. rewrite <- (became_w _ _ _ _ B1). reflexivity. }
  rewrite (tick_ok star F x s x _ D E).
  rewrite (ipNext_run s2 p d) by (exact N2 || (unfold s2; cbn [s_r]; rewrite (became_r _ _ _ _ B1); exact St)).
  reflexivity.
Qed.
(** [;] ends the IP and changes nothing else: the exit code stays. *)
Theorem C80_end : forall star F x s,
  debugging s = false -> Ready s -> here s = 59 ->
  fish_tick star F x s = Ok (x, {| s_w := s_w s; s_r := set_r_stopped true (s_r s) |}).
Proof.
  intros star F x s D R Hh.
  assert (E : fish_execute star (here s) x s = Ok ((ENone, x), {| s_w := s_w s; s_r := set_r_stopped true (s_r s) |})).
  { rewrite Hh. rewrite (fish_letter_pure star 59 s x false (ipStop ;;; ok) R) by (destruct star; reflexivity). reflexivity. }
  rewrite (tick_ok star F x s x _ D E). rewrite ipNext_stopped by reflexivity. reflexivity.
Qed.

(** The hypotheses hold in new programs: "!1;", and "?1;" with a 0 and a 5. *)
Definition where_to (m : res (vec * vec)) : res (list Z * list Z) :=
  match m with Ok (p, d) => Ok ([vget p 0; vget p 1], [vget d 0; vget d 1]) | Bad b => Bad b end.
Example C80_example :
  let s := fish_state0 false [33; 49; 59] in
  readyb s = true /\ debugging s = false /\ r_stopped (s_r s) = false /\ here s = 33 /\
  next_of s = Ok (mkvec [1; 0], mkvec [1; 0]) /\
  next_of (moved s (mkvec [1; 0]) (mkvec [1; 0])) = Ok (mkvec [2; 0], mkvec [1; 0]).
Proof. vm_compute. repeat split. Qed.
Example C80_conditional_example :
  fish_program false 1000 [48; 63; 49; 50; 110; 59] [] = Ok ([50], 0) /\
  fish_program false 1000 [53; 63; 49; 110; 59] [] = Ok ([49], 0).
Proof. vm_compute. split; reflexivity. Qed.

Print Assumptions C80_skip.
Print Assumptions C80_conditional.
Print Assumptions C80_jump.
Print Assumptions C80_end.

(** ** C81 Directions and mirrors *)

(** The direction after the arrows and mirrors, in the plane with y downwards. *)
Definition turned (c : Z) (dx dy : Z) : option (Z * Z) :=
  if c =? 62 then Some (1, 0) else if c =? 60 then Some (-1, 0)
  else if c =? 118 then Some (0, 1) else if c =? 94 then Some (0, -1)
  else if c =? 92 then Some (dy, dx)            (* \ *)
  else if c =? 47 then Some (- dy, - dx)        (* / *)
  else if c =? 124 then Some (- dx, dy)         (* | *)
  else if c =? 95 then Some (dx, - dy)          (* _ *)
  else if c =? 35 then Some (- dx, - dy)        (* # *)
  else None.
Definition hovering (s : st) : bool := testmode MODE_HOVER (w_uni (s_w s) (r_uni (s_r s))).
Definition is_delta (d : vec) (dx dy : Z) : Prop :=
  vget d 0 = dx /\ vget d 1 = dy /\ forall i, (2 <= i)%nat -> vget d i = 0.

Lemma fish_move star c s x m : r_string (s_r s) = false -> sem_of star c = Some (true, pure m) ->
  fish_execute star c x s = match m s with Ok (e, s') => Ok ((e, x), s') | Bad b => Bad b end.
Proof.
  intros NS E. unfold fish_execute. unfold mbind at 1. unfold getR at 1. rewrite NS.
  unfold fish_normal. rewrite E. unfold isMode. unfold mbind at 1. unfold mbind at 1. unfold getU at 1.
  unfold ret at 1. rewrite andb_false_r. unfold pure, mbind, ret. reflexivity.
Qed.

(** The IP is not in a string; it may be diving. *)
Theorem C81_turn : forall star c x s dx dy ex ey,
  r_string (s_r s) = false -> hovering s = false -> is_delta (r_delta (s_r s)) dx dy ->
  Z.abs dx < 2 ^ 63 -> Z.abs dy < 2 ^ 63 -> turned c dx dy = Some (ex, ey) ->
  exists d', is_delta d' ex ey /\
    fish_execute star c x s =
      Ok ((ENone, x), {| s_w := s_w s; s_r := observe_delta d' (set_r_delta d' (s_r s)) |}).
Proof.
  intros star c x s dx dy ex ey R Hv (D0 & D1 & D2) Bx By T.
  assert (N64 : forall z, Z.abs z < 2 ^ 63 -> neg64 z = Ok (- z)).
  { intros z B. unfold neg64. apply chk64_ok. unfold in64, INT64_MIN, INT64_MAX.
    change (2 ^ 63) with 9223372036854775808 in B. lia. }
  assert (Go : forall d', is_delta d' ex ey ->
    sem_of star c = Some (true, pure (ipSetDelta d' ;;; ok)) -> exists d', is_delta d' ex ey /\
    fish_execute star c x s =
      Ok ((ENone, x), {| s_w := s_w s; s_r := observe_delta d' (set_r_delta d' (s_r s)) |})).
  { intros d' I E. exists d'. split; [exact I|]. rewrite (fish_move star c s x _ R E).
    rewrite (run_bind _ _ _ _ _ (ipSetDelta_run d' s Hv)). reflexivity. }
  assert (Mirror : forall m d', sem_of star c = Some (true, pure m) -> is_delta d' ex ey ->
     m s = (ipSetDelta d' ;;; ok) s -> exists d', is_delta d' ex ey /\
    fish_execute star c x s =
      Ok ((ENone, x), {| s_w := s_w s; s_r := observe_delta d' (set_r_delta d' (s_r s)) |})).
  { intros m d' E I Em. exists d'. split; [exact I|]. rewrite (fish_move star c s x _ R E), Em.
    rewrite (run_bind _ _ _ _ _ (ipSetDelta_run d' s Hv)). reflexivity. }
  revert T. unfold turned.
  destruct (Z.eqb_spec c 62) as [->|_]; [intros T; injection T as <- <-; apply (Go (mkvec [1; 0])); [|destruct star; reflexivity];
    split; [reflexivity|]; split; [reflexivity|]; intros [|[|i]] Hi; [lia|lia|destruct i; reflexivity]|].
  destruct (Z.eqb_spec c 60) as [->|_]; [intros T; injection T as <- <-; apply (Go (mkvec [-1; 0])); [|destruct star; reflexivity];
    split; [reflexivity|]; split; [reflexivity|]; intros [|[|i]] Hi; [lia|lia|destruct i; reflexivity]|].
  destruct (Z.eqb_spec c 118) as [->|_]; [intros T; injection T as <- <-; apply (Go (mkvec [0; 1])); [|destruct star; reflexivity];
    split; [reflexivity|]; split; [reflexivity|]; intros [|[|i]] Hi; [lia|lia|destruct i; reflexivity]|].
  destruct (Z.eqb_spec c 94) as [->|_]; [intros T; injection T as <- <-; apply (Go (mkvec [0; -1])); [|destruct star; reflexivity];
    split; [reflexivity|]; split; [reflexivity|]; intros [|[|i]] Hi; [lia|lia|destruct i; reflexivity]|].
  assert (Ds : forall a b i j, (i = 0%nat /\ j = 1%nat \/ i = 1%nat /\ j = 0%nat) ->
     is_delta (vset (vset (r_delta (s_r s)) i a) j b) (if Nat.eqb i 0 then a else b) (if Nat.eqb i 0 then b else a)).
  { intros a b i j [[-> ->]|[-> ->]]; (split; [rewrite !vget_vset; reflexivity|]; split; [rewrite !vget_vset; reflexivity|];
      intros [|[|k]] Hk; [lia|lia|rewrite !vget_vset; cbn [Nat.eqb]; apply D2; lia]). }
  assert (Gd : forall k : vec -> M err, mbind getDelta k s = k (r_delta (s_r s)) s) by reflexivity.
  destruct (Z.eqb_spec c 92) as [->|_]; [intros T; injection T as <- <-|].
  { refine (Mirror mirror1 (vset (vset (r_delta (s_r s)) 1 dx) 0 dy) _ (Ds _ _ 1%nat 0%nat (or_intror (conj eq_refl eq_refl))) _);
      [destruct star; reflexivity|]. unfold mirror1. rewrite Gd, D0, D1. reflexivity. }
  destruct (Z.eqb_spec c 47) as [->|_]; [intros T; injection T as <- <-|].
  { refine (Mirror mirror2 (vset (vset (r_delta (s_r s)) 1 (- dx)) 0 (- dy)) _ (Ds _ _ 1%nat 0%nat (or_intror (conj eq_refl eq_refl))) _);
      [destruct star; reflexivity|]. unfold mirror2. rewrite Gd, D0, D1.
    rewrite (run_bind _ _ _ _ _ (run_lift _ _ s (N64 dx Bx))), (run_bind _ _ _ _ _ (run_lift _ _ s (N64 dy By))). reflexivity. }
  destruct (Z.eqb_spec c 124) as [->|_]; [intros T; injection T as <- <-|].
  { refine (Mirror mirrorVert (vset (r_delta (s_r s)) 0 (- dx)) _ _ _); [destruct star; reflexivity| |].
    - split; [rewrite vget_vset; reflexivity|]. split; [rewrite vget_vset; exact D1|].
      intros [|[|k]] Hk; [lia|lia|rewrite vget_vset; cbn [Nat.eqb]; apply D2; lia].
    - unfold mirrorVert. rewrite Gd, D0. rewrite (run_bind _ _ _ _ _ (run_lift _ _ s (N64 dx Bx))). reflexivity. }
  destruct (Z.eqb_spec c 95) as [->|_]; [intros T; injection T as <- <-|].
  { refine (Mirror mirrorHori (vset (r_delta (s_r s)) 1 (- dy)) _ _ _); [destruct star; reflexivity| |].
    - split; [rewrite vget_vset; exact D0|]. split; [rewrite vget_vset; reflexivity|].
      intros [|[|k]] Hk; [lia|lia|rewrite vget_vset; cbn [Nat.eqb]; apply D2; lia].
    - unfold mirrorHori. rewrite Gd, D1. rewrite (run_bind _ _ _ _ _ (run_lift _ _ s (N64 dy By))). reflexivity. }
  destruct (Z.eqb_spec c 35) as [->|_]; [intros T; injection T as <- <-|discriminate].
  refine (Mirror mirrorAll (vset (vset (r_delta (s_r s)) 0 (- dx)) 1 (- dy)) _ (Ds _ _ 0%nat 1%nat (or_introl (conj eq_refl eq_refl))) _);
      [destruct star; reflexivity|]. unfold mirrorAll. rewrite Gd, D0, D1.
  rewrite (run_bind _ _ _ _ _ (run_lift _ _ s (N64 dx Bx))), (run_bind _ _ _ _ _ (run_lift _ _ s (N64 dy By))). reflexivity.
Qed.
(** A mirror hit twice restores the direction. *)
Theorem C81_twice : forall c dx dy ex ey,
  In c [92; 47; 124; 95; 35] -> turned c dx dy = Some (ex, ey) -> turned c ex ey = Some (dx, dy).
Proof.
  intros c dx dy ex ey I E. cbn [In] in I.
  destruct I as [<-|[<-|[<-|[<-|[<-|[]]]]]]; cbn in *; injection E as <- <-; f_equal; f_equal; lia.
Qed.
Definition is_deltab (d : vec) (dx dy : Z) : bool := veqb d (mkvec [dx; dy]).
Lemma is_deltab_ok d dx dy : is_deltab d dx dy = true -> is_delta d dx dy.
Proof.
  unfold is_deltab. intros E. apply veqb_same in E. split; [rewrite E|split; [rewrite E|intros i Hi; rewrite E]];
  rewrite vget_mkvec; [reflexivity|reflexivity|]. destruct i as [|[|[|i]]]; [lia|lia|reflexivity|reflexivity].
Qed.
Example C81_example :
  let s := fdemo true [[1]] in
  r_string (s_r s) = false /\ hovering s = false /\ is_delta (r_delta (s_r s)) 1 0 /\ turned 47 1 0 = Some (0, -1).
Proof.
  split; [exact (proj1 (fdemo_ready true [[1]]))|]. split; [vm_compute; reflexivity|].
  split; [apply is_deltab_ok; vm_compute; reflexivity|reflexivity].
Qed.

Print Assumptions C81_turn.
Print Assumptions C81_twice.

(** ** C82 g and p *)

Definition field_of (s : st) : field := u_field (w_uni (s_w s) (r_fld (s_r s))).
(** The storage offset of ><> is the origin. *)
Definition origin (s : st) : Prop := forall i, vget (r_storage (s_r s)) i = 0.
Definition within (n : nat) (v : vec) : Prop := forall i, (n <= i)%nat -> vget v i = 0.

(** Popping the coordinates and adding the storage offset. *)
Lemma target s cs l R v : Stacks s 0 ((cs ++ l) :: R) -> coords (dims_of s) cs v -> within (dims_of s) v -> origin s ->
  exists s1 v' p, fishPopVec TOP s = Ok (v', s1) /\ Became s s1 0 (l :: R) /\
    vadd v' (r_storage (s_r s)) = Ok p /\ same p v.
Proof.
  intros H C W G.
  destruct (fishPopVec_at TOP 0 s 0 _ cs l v top_at H eq_refl C) as (s1 & v' & E1 & B1 & V1).
  cbn [Nat.add lupd] in B1.
  assert (Vv : forall i, vget v' i = vget v i).
  { intros i. rewrite V1. destruct (Nat.ltb_spec i (dims_of s)); [reflexivity|]. symmetry. now apply W. }
  destruct (vadd_defined v' (r_storage (s_r s))) as [p E].
  { intros i. rewrite G, Vv, Z.add_0_r. destruct (Nat.ltb_spec i (dims_of s)).
    - destruct C as [_ C]. apply in64b_true. apply small64. apply C. assumption.
    - rewrite (W i) by assumption. apply in64b_true. reflexivity. }
  exists s1, v', p. split; [exact E1|]. split; [exact B1|]. split; [exact E|].
  intros i. rewrite (vadd_get _ _ _ E i), G, Vv. lia.
Qed.
Lemma enough s (cs l : list Z) v k : coords (dims_of s) cs v -> (k <= length l)%nat ->
  (Z.of_nat (length (cs ++ l)) <? Z.of_nat (dims_of s) + Z.of_nat k) = false.
Proof. intros [L _] K. apply Z.ltb_ge. rewrite app_length. lia. Qed.

(** [g] replaces the coordinates by the contents of that cell. *)
Theorem C82_get : forall star x s cs l R v,
  Ready s -> Stacks s 0 ((cs ++ l) :: R) -> coords (dims_of s) cs v -> within (dims_of s) v -> origin s ->
  exists s' c, fish_execute star 103 x s = Ok ((ENone, x), s') /\ Became s s' 0 ((c :: l) :: R) /\
    (small (f_get (field_of s) v) -> num c (f_get (field_of s) v)).
Proof.
  intros star x s cs l R v Rd H C W G.
  destruct (target s cs l R v H C W G) as (s1 & v' & p & E1 & B1 & Ep & Sp).
  set (n := f_get (field_of s) p).
  destruct (pushAt_at TOP s1 0 _ 0 l (bits_of_dbl (dbl_of_int n)) (became_stacks _ _ _ _ B1)) as (s2 & E2 & B2);
    [unfold TOP; exact (proj1 (became_stacks _ _ _ _ B1))|reflexivity|].
  cbn [lupd] in B2.
  exists s2, (bits_of_dbl (dbl_of_int n)).
  assert (Fn : f_get (field_of s) v = n) by (symmetry; now apply f_get_ext).
  split; [|split; [exact (became_trans _ _ _ _ _ _ _ B1 B2)|rewrite Fn; apply num_int]].
  rewrite (fish_letter_pure star 103 s x false fishGet Rd) by (destruct star; reflexivity).
  unfold fishGet. rewrite dims_run. rewrite (check_stack_holds s (cs ++ l) _ _ (stacks_holds s 0 _ _ H eq_refl)).
  replace (Z.of_nat (dims_of s)) with (Z.of_nat (dims_of s) + Z.of_nat 0) by lia.
  rewrite (enough s cs l v 0 C) by lia. rewrite (run_bind _ _ _ _ _ E1).
  assert (Gs : getStorage s1 = Ok (r_storage (s_r s), s1)).
  { unfold getStorage, mbind, getR, ret. rewrite (became_r _ _ _ _ B1). reflexivity. }
  rewrite (run_bind _ _ _ _ _ Gs), (run_bind _ _ _ _ _ (run_lift _ _ s1 Ep)).
  unfold mbind at 1. unfold getR at 1. unfold mbind at 1. unfold fget at 1.
  assert (En : f_get (u_field (w_uni (s_w s1) (r_fld (s_r s1)))) p = n).
  { unfold n, field_of. rewrite (became_w _ _ _ _ B1), (became_r _ _ _ _ B1). reflexivity. }
  rewrite En. unfold pushI, pushIAt. rewrite (run_bind _ _ _ _ _ E2). reflexivity.
Qed.
(** [p] stores a number in that cell, and changes no other cell and, apart from
    the stack, nothing else. *)
Theorem C82_put : forall star x s cs c l R v n,
  Ready s -> Stacks s 0 ((cs ++ c :: l) :: R) -> coords (dims_of s) cs v -> within (dims_of s) v -> origin s ->
  num c n -> small n -> f_char (field_of s) = false ->
  exists s', fish_execute star 112 x s = Ok ((ENone, x), s') /\ Stacks s' 0 (l :: R) /\
    (forall q, f_get (field_of s') q = if veqb v q then n else f_get (field_of s) q) /\
    s_r s' = set_r_ss (mySS s') (s_r s) /\
    s_w s' = upd_uni (r_fld (s_r s)) (set_u_field (field_of s')) (s_w s).
Proof.
  intros star x s cs c l R v n Rd H C W G Nc Sn Fc.
  destruct (target s cs (c :: l) R v H C W G) as (s1 & v' & p & E1 & B1 & Ep & Sp).
  destruct (popAt_at TOP s1 0 _ 0 (c :: l) (became_stacks _ _ _ _ B1)) as (s2 & E2 & B2);
    [unfold TOP; exact (proj1 (became_stacks _ _ _ _ B1))|reflexivity|].
  cbn [lupd hd tl] in *. pose proof (became_trans _ _ _ _ _ _ _ B1 B2) as B.
  set (s' := {| s_w := upd_uni (r_fld (s_r s2)) (fun u => set_u_field (f_put p n (u_field u)) u) (s_w s2); s_r := s_r s2 |}).
  assert (Fs : r_fld (s_r s2) = r_fld (s_r s)) by (rewrite (became_r _ _ _ _ B); reflexivity).
  assert (Ws : s_w s2 = s_w s) by exact (became_w _ _ _ _ B).
  assert (Ff : field_of s' = f_put p n (field_of s)).
  { unfold field_of at 1, s'. cbn [s_w s_r]. rewrite upd_uni_same. cbn [u_field set_u_field].
    unfold field_of. rewrite Fs, Ws. reflexivity. }
  exists s'. split; [|split; [|split; [|split]]].
  - rewrite (fish_letter_pure star 112 s x false fishPut Rd) by (destruct star; reflexivity).
    unfold fishPut. rewrite dims_run. rewrite (check_stack_holds s (cs ++ c :: l) _ _ (stacks_holds s 0 _ _ H eq_refl)).
    change 1 with (Z.of_nat 1). rewrite (enough s cs (c :: l) v 1 C) by (cbn [length]; lia). rewrite (run_bind _ _ _ _ _ E1).
    assert (Gs : getStorage s1 = Ok (r_storage (s_r s), s1)).
    { unfold getStorage, mbind, getR, ret. rewrite (became_r _ _ _ _ B1). reflexivity. }
    rewrite (run_bind _ _ _ _ _ Gs), (run_bind _ _ _ _ _ (run_lift _ _ s1 Ep)).
    assert (Pp : popI s1 = Ok (n, s2)).
    { unfold popI, popIAt. rewrite (run_bind _ _ _ _ _ E2). rewrite (num_i64 c n Nc Sn). reflexivity. }
    rewrite (run_bind _ _ _ _ _ Pp). reflexivity.
  - exact (became_stacks _ _ _ _ B).
  - intros q. rewrite Ff, f_get_put.
    replace (veqb p q) with (veqb v q).
    + rewrite Fc. unfold cellval. destruct (veqb v q); [|reflexivity]. reflexivity.
    + apply eq_true_iff_eq. rewrite !veqb_same. unfold same in *. split; intros Q i; rewrite <- Q; [apply Sp|symmetry; apply Sp].
  - unfold s'. cbn [s_r]. unfold mySS. rewrite (became_r _ _ _ _ B). reflexivity.
  - rewrite Ff. unfold s' at 1. cbn [s_w]. rewrite Fs, Ws. reflexivity.
Qed.
(** So [g] reads back exactly the number [p] stored. *)
Theorem C82_round_trip : forall star x s cs c l R v n s1 s2 cs2 l2 R2,
  Ready s -> Stacks s 0 ((cs ++ c :: l) :: R) -> coords (dims_of s) cs v -> within (dims_of s) v -> origin s ->
  num c n -> small n -> f_char (field_of s) = false ->
  fish_execute star 112 x s = Ok ((ENone, x), s1) ->
  field_of s2 = field_of s1 -> Ready s2 -> origin s2 -> dims_of s2 = dims_of s ->
  Stacks s2 0 ((cs2 ++ l2) :: R2) -> coords (dims_of s) cs2 v ->
  exists s3 d, fish_execute star 103 x s2 = Ok ((ENone, x), s3) /\ Stacks s3 0 ((d :: l2) :: R2) /\ num d n.
Proof.
  intros star x s cs c l R v n s1 s2 cs2 l2 R2 Rd H C W G Nc Sn Fc E1 Ff R2' G2 D2 H2 C2.
  destruct (C82_put star x s cs c l R v n Rd H C W G Nc Sn Fc) as (t & Et & _ & Ft & _).
  rewrite E1 in Et. injection Et as <-.
  rewrite <- D2 in C2, W. destruct (C82_get star x s2 cs2 l2 R2 v R2' H2 C2 W G2) as (s3 & d & E3 & B3 & N3).
  exists s3, d. split; [exact E3|]. split; [exact (became_stacks _ _ _ _ B3)|].
  assert (V : f_get (field_of s2) v = n).
  { rewrite Ff, Ft. replace (veqb v v) with true; [reflexivity|]. symmetry. apply veqb_same. intros i. reflexivity. }
  rewrite V in N3. exact (N3 Sn).
Qed.

Example C82_example :
  let s := fdemo false [[3; 1; 8; 9]] in
  Ready s /\ Stacks s 0 [[cell 3; cell 1] ++ cell 8 :: [cell 9]] /\
  coords (dims_of s) [cell 3; cell 1] (mkvec [1; 3]) /\ within (dims_of s) (mkvec [1; 3]) /\ origin s /\
  num (cell 8) 8 /\ small 8 /\ f_char (field_of s) = false.
Proof.
  assert (D : dims_of (fdemo false [[3; 1; 8; 9]]) = 2%nat) by (vm_compute; reflexivity).
  split; [apply fdemo_ready|]. split; [apply stacks_with|]. cbv zeta. rewrite D. split.
  - split; [reflexivity|]. intros [|[|i]] Hi; [| |lia]; (split; [apply num_int|]); unfold small; cbn; lia.
  - split; [intros [|[|[|i]]] Hi; [lia|lia|reflexivity|reflexivity]|]. split.
    + assert (Z0 : r_storage (s_r (fdemo false [[3; 1; 8; 9]])) = mkvec [0]) by (vm_compute; reflexivity).
      intros i. rewrite Z0. destruct i as [|[|i]]; reflexivity.
    + split; [apply num_int; unfold small; lia|]. split; [unfold small; lia|vm_compute; reflexivity].
Qed.

Print Assumptions C82_get.
Print Assumptions C82_put.
Print Assumptions C82_round_trip.

(** ** C83 Diving in *><> *)

(** [s'] is [s] with the modes [m] in its universe and all the universe's stacks;
    nothing else differs. *)
Definition Remoded (s s' : st) (m : Z) : Prop :=
  let n := r_uni (s_r s) in let me := r_id (s_r s) in
  w_uni (s_w s') n = with_mode m (w_uni (s_w s) n) /\
  (forall k, k <> n -> w_uni (s_w s') k = w_uni (s_w s) k) /\
  s_r s' = run_setmode m (s_r s) /\
  (forall id, id <> me -> In id (queue (s_w s) n) ->
     exists r, w_run (s_w s) id = Some r /\ w_run (s_w s') id = Some (run_setmode m r)) /\
  (forall id, id = me \/ ~ In id (queue (s_w s) n) -> w_run (s_w s') id = w_run (s_w s) id) /\
  s_w s' = set_w_run (w_run (s_w s')) (set_w_uni (w_uni (s_w s')) (s_w s)).
Definition modes (s : st) : Z := c_mode (u_cfg (w_uni (s_w s) (r_uni (s_r s)))).

Lemma changeMode_run g s :
  In (r_id (s_r s)) (queue (s_w s) (r_uni (s_r s))) -> All_alive (s_w s) (r_uni (s_r s)) (r_id (s_r s)) ->
  exists s', changeMode g s = Ok (tt, s') /\ Remoded s s' (g (modes s)).
Proof.
  set (n := r_uni (s_r s)). set (me := r_id (s_r s)). intros Me AL. unfold changeMode.
  set (m := g (modes s)).
  set (s2 := {| s_w := upd_uni n (upd_mode g) (s_w s); s_r := s_r s |}).
  assert (U2 : w_uni (s_w s2) n = with_mode m (w_uni (s_w s) n)).
  { unfold s2. cbn [s_w]. rewrite upd_uni_same. reflexivity. }
  destruct (on_runners_run (run_setmode m)) with (l := queue (s_w s) n) (s := s2) as (s3 & E3 & R3 & W3 & S3).
  { intros r. unfold run_setmode, ss_setmode. cbn [r_ss set_r_ss ss_list ss_sel]. rewrite map_map. reflexivity. }
  { reflexivity. }
  { intros id Hid. exact (AL id Hid). }
  exists s3. split.
  { rewrite (run_bind (modU _) _ s tt s2) by reflexivity.
    rewrite (run_bind getU _ s2 (w_uni (s_w s2) n) s2) by reflexivity. rewrite U2.
    change (u_queue (with_mode m (w_uni (s_w s) n))) with (queue (s_w s) n).
    change (c_mode (u_cfg (with_mode m (w_uni (s_w s) n)))) with m. exact E3. }
  change (r_id (s_r s2)) with me in *. unfold Remoded. fold n me.
  assert (WU : w_uni (s_w s3) = w_uni (s_w s2)) by (rewrite S3; reflexivity).
  split; [rewrite WU; exact U2|].
  split; [intros k Nk; rewrite WU; unfold s2; cbn [s_w]; now rewrite upd_uni_other|].
  split; [rewrite R3; apply inb_in in Me; rewrite Me; reflexivity|].
  split; [|split].
  - intros id Ni Hi. destruct (AL id Hi) as [->|(r & Hr)]; [contradiction|]. exists r. split; [exact Hr|].
    rewrite W3. apply inb_in in Hi. rewrite Hi. destruct (Z.eqb_spec id me); [contradiction|]. cbn [andb negb].
    change (w_run (s_w s2) id) with (w_run (s_w s) id). rewrite Hr. reflexivity.
  - intros id Hi. rewrite W3. destruct Hi as [->|Hi].
    + rewrite Z.eqb_refl, andb_false_r. reflexivity.
    + destruct (inb id (queue (s_w s) n)) eqn:Ib; [apply inb_in in Ib; contradiction|]. reflexivity.
  - rewrite S3. unfold s2. reflexivity.
Qed.
Lemma remoded_modes s s' m : Remoded s s' m -> modes s' = m.
Proof. intros (U & _ & R & _). unfold modes. rewrite R. cbn [r_uni run_setmode set_r_ss]. rewrite U. reflexivity. Qed.

(** The characters that still act while the IP dives. *)
Definition movement : list Z := [62; 60; 118; 94; 92; 47; 124; 95; 35; 96; 117; 79]. (* > < v ^ \ / | _ # ` u O *)
Definition diving (s : st) : Prop :=
  r_string (s_r s) = false /\ testmode MODE_DIVE (w_uni (s_w s) (r_uni (s_r s))) = true.

Lemma sem_movement c mv f : star_sem c = Some (mv, f) -> mv = true <-> In c movement.
Proof.
  unfold star_sem, fish_sem. intros E.
  assert (G : forall b : bool, (if b then In c movement else ~ In c movement) -> b = true <-> In c movement)
    by (intros [|]; [tauto|split; [discriminate|contradiction]]).
  apply G.
  repeat match type of E with
  | context [c =? ?n] =>
      destruct (Z.eqb_spec c n) as [->|]; [injection E as <- <-; cbn [In movement]; (tauto || lia)|]
  | (if ?b then _ else _) = _ =>
      let X := fresh in destruct b eqn:X; [injection E as <- <-; cbn [In movement]; lia|]
  end; discriminate.
Qed.

(** [u] begins to dive, however often it is executed; [O] ends it.  No other mode
    and nothing else changes. *)
Theorem C83_dive : forall c x s,
  c = 117 \/ c = 79 -> r_string (s_r s) = false ->
  In (r_id (s_r s)) (queue (s_w s) (r_uni (s_r s))) -> All_alive (s_w s) (r_uni (s_r s)) (r_id (s_r s)) ->
  exists s' m, fish_execute true c x s = Ok ((ENone, x), s') /\ Remoded s s' m /\
    forall b, Z.testbit m b = if b =? MODE_DIVE then (c =? 117) else Z.testbit (modes s) b.
Proof.
  intros c x s [-> | ->] NS Me AL.
  - destruct (changeMode_run (fun m => Z.lor m (2 ^ MODE_DIVE)) s Me AL) as (s' & E & R).
    eexists s', _. split; [|split; [exact R|]].
    + rewrite (fish_move true 117 s x (setMode MODE_DIVE ;;; ok) NS eq_refl). unfold setMode.
      rewrite (run_bind _ _ _ _ _ E). reflexivity.
    + intros b. rewrite Z.lor_spec. rewrite Z.pow2_bits_eqb by (unfold MODE_DIVE; lia).
      rewrite (Z.eqb_sym MODE_DIVE). destruct (b =? MODE_DIVE); [now rewrite orb_true_r|now rewrite orb_false_r].
  - destruct (changeMode_run (fun m => Z.ldiff m (2 ^ MODE_DIVE)) s Me AL) as (s' & E & R).
    eexists s', _. split; [|split; [exact R|]].
    + rewrite (fish_move true 79 s x (clearMode MODE_DIVE ;;; ok) NS eq_refl). unfold clearMode.
      rewrite (run_bind _ _ _ _ _ E). reflexivity.
    + intros b. rewrite Z.ldiff_spec. rewrite Z.pow2_bits_eqb by (unfold MODE_DIVE; lia).
      rewrite (Z.eqb_sym MODE_DIVE). destruct (b =? MODE_DIVE); [now rewrite andb_false_r|now rewrite andb_true_r].
Qed.
(** A diving IP passes every cell that is no movement, even an unknown character,
    and does nothing but go on to the next cell. *)
Theorem C83_pass : forall x s,
  diving s -> debugging s = false -> ~ In (here s) movement ->
  exists again : bool, forall p d, r_stopped (s_r s) = false -> next_of s = Ok (p, d) ->
    fish_tick_step true x s = Ok (if again then inl x else inr x, moved s p d).
Proof.
  intros x s [NS Dv] Db N.
  assert (Hd : forall k : bool -> M (fx + fx), mbind (isMode MODE_DEBUG) k s = k false s).
  { intros k. unfold isMode, mbind, getU, ret. fold (debugging s). rewrite Db. reflexivity. }
  assert (E : exists again : bool, fish_execute true (here s) x s = Ok ((if again then ESkip else EUnimp, x), s)).
  { unfold fish_execute. unfold mbind at 1. unfold getR at 1. rewrite NS. unfold fish_normal, sem_of.
    destruct (star_sem (here s)) as [[mv f]|] eqn:S; [|exists false; reflexivity]. exists true.
    unfold isMode. unfold mbind at 1. unfold mbind at 1. unfold getU at 1. unfold ret at 1. rewrite Dv.
    destruct mv; [|reflexivity]. destruct N. exact (proj1 (sem_movement _ _ _ S) eq_refl). }
  destruct E as [again E]. exists again. intros p d St Np. unfold fish_tick_step. rewrite Hd.
  unfold mbind at 1. change (ipGet s) with (Ok (here s, s)). cbv beta iota.
  rewrite (run_bind _ _ _ _ _ E). destruct again.
  - cbv beta iota. rewrite (run_bind (fishError ESkip) _ s ESkip s eq_refl).
    rewrite (run_bind _ _ _ _ _ (ipNext_run s p d St Np)). reflexivity.
  - cbv beta iota. rewrite (run_bind (fishError EUnimp) _ s ENone s).
    + rewrite (run_bind _ _ _ _ _ (ipNext_run s p d St Np)). reflexivity.
    + unfold fishError, isMode. unfold mbind at 1. unfold mbind at 1. unfold getU at 1. unfold ret at 1. rewrite Dv. reflexivity.
Qed.

(** "u1zO5n;": the 1 and the unknown z are passed, and 5 is printed. *)
Example C83_example :
  let s := fish_state0 true [117; 49; 122; 79; 53; 110; 59] in
  r_string (s_r s) = false /\ debugging s = false /\
  match fish_tick true 100 fx0 s with
  | Ok (_, s') => readyb s' = false /\ r_string (s_r s') = false /\ here s' = 49 /\ r_stopped (s_r s') = false /\
                  where_to (next_of s') = Ok ([2; 0], [1; 0])
  | Bad _ => False
  end /\
  fish_program true 1000 [117; 49; 122; 79; 53; 110; 59] [] = Ok ([53], 0).
Proof. vm_compute. repeat split. Qed.

Print Assumptions C83_dive.
Print Assumptions C83_pass.
