(** * Properties C58-C60 and C74-C79: ><> and *><> *)

From Coq Require Import ZArith List Bool Lia SpecFloat.
From Verif Require Import Base BaseProofs VectorModel VectorProofs TextModel TextProofs StackModel
  StackProofs FieldModel FieldProofs World IpModel LoadModel FingModel CoreModel UniModel
  ExecProofs FlowProofs States PropsBlocks Effects SchedProofs PropsSched PropsIO PropsLoad PropsFing
  DblModel DblProofs FishModel FishProofs.
Import ListNotations.
Open Scope Z_scope.

(** ** Vocabulary

    [fish_execute star c x s] executes the character [c] in state [s] with the
    interpreter for ><> ([star = false]) or *><> ([star = true]); [x] holds the
    registers and the open file.  [Stacks s n L] and [Became s s' n L]
    (FishProofs) speak about all stacks, [num c n] says that cell [c] is the
    double equal to the integer [n], [small n] that |n| <= 2^53, [Ready s] that
    the IP is neither in a string nor diving. *)

(** A state of a new program with the stacks [L]. *)
Definition fish_state0 (star : bool) (data : bytes) : st :=
  the dummy (fish_boot star 1000 data (fish_cfg star) (world0 [] (fun _ => None) (fun _ => 0))).
Definition mk (l : list Z) : stk := {| s_mode := 0; s_list := l; s_ops := 0 |}.
Definition with_stacks (L : list (list Z)) (s : st) : st :=
  setSS {| ss_sel := 0; ss_list := map mk L |} s.
Lemma stacks_with L s : Stacks (with_stacks L s) 0 L.
Proof.
  unfold Stacks, with_stacks. rewrite mySS_setSS. cbn [ss_sel ss_list]. split; [reflexivity|].
  split; [rewrite map_map; apply map_id|]. apply Forall_forall. intros k H. apply in_map_iff in H.
  destruct H as (l & <- & _). split; reflexivity.
Qed.
(** The cell holding the integer [n]. *)
Definition cell (n : Z) : Z := bits_of_dbl (dbl_of_int n).
Definition fdemo (star : bool) (L : list (list Z)) : st :=
  with_stacks (map (map cell) L) (fish_state0 star [59]).
Definition readyb (s : st) : bool :=
  negb (r_string (s_r s)) && negb (testmode MODE_DIVE (w_uni (s_w s) (r_uni (s_r s)))).
Lemma readyb_ok s : readyb s = true -> Ready s.
Proof. unfold readyb. rewrite andb_true_iff, !negb_true_iff. exact (fun H => H). Qed.
Lemma ready_with L s : Ready s -> Ready (with_stacks L s).
Proof. exact (fun H => H). Qed.
Lemma fdemo_ready star L : Ready (fdemo star L).
Proof. apply ready_with. destruct star; apply readyb_ok; vm_compute; reflexivity. Qed.
(** The numbers on the stacks and the result code of an instruction. *)
Definition numbers (l : list Z) : list (res Z) := map (fun c => dbl_to_i64 (dbl_of_bits c)) l.
Definition show (m : res (err * fx * st)) : res (err * list (bool * Z) * list (list (res Z))) :=
  match m with
  | Ok (e, x, s) => Ok (e, fx_regs x, map (fun k => numbers (s_list k)) (ss_list (mySS s)))
  | Bad b => Bad b
  end.

(** ** C58 [ and ] *)

(** [[] pops a number [n] and, if the stack holds that many cells, moves the [n]
    topmost ones to a new stack, one by one; the new stack gets an empty
    register. *)
Theorem C58_create : forall star s x c l R n,
  Ready s -> Stacks s 0 ((c :: l) :: R) -> num c (Z.of_nat n) -> small (Z.of_nat n) ->
  (n <= length l)%nat ->
  exists s', fish_execute star 91 x s = Ok ((ENone, set_regs ((false, 0) :: fx_regs x) x), s') /\
    Became s s' 0 (rev (firstn n l) :: skipn n l :: R).
Proof.
  intros star s x c l R n HR H Nc Sn Ln.
  rewrite (fish_letter star 91 s x false fishCreate HR ltac:(destruct star; reflexivity)).
  unfold fishCreate.
  assert (IT : TOP (mySS s) = 0%nat) by (unfold TOP; destruct H as [-> _]; reflexivity).
  destruct (popAt_at TOP s 0 _ 0 (c :: l) H IT eq_refl) as (s1 & E1 & B1). cbn [hd tl lupd] in *.
  destruct (insert0_at s1 _ (became_stacks _ _ _ _ B1)) as (s2 & E2 & B2).
  pose proof (became_stacks _ _ _ _ B2) as H2.
  destruct (move_down n s2 [] l R H2 Ln) as (s3 & E3 & B3). rewrite app_nil_r in B3.
  exists s3. split.
  - rewrite (run_bind _ _ s ENone s3); [reflexivity|].
    rewrite (check_stack_at TOP s 0 _ 0 (c :: l) 1 _ H IT eq_refl).
    destruct (Z.ltb_spec (Z.of_nat (length (c :: l))) 1) as [G|_]; [cbn [length] in G; lia|].
    unfold popS. rewrite (run_bind _ _ _ _ _ E1).
    rewrite (run_bind _ _ _ _ _ (run_lift _ _ _ (num_u64 c _ Nc Sn ltac:(lia)))).
    rewrite (run_bind _ _ _ _ _ E2).
    assert (IS : SECOND (mySS s2) = 1%nat) by (unfold SECOND; destruct H2 as [-> _]; reflexivity).
    rewrite (check_stack_at SECOND s2 0 _ 1 l _ _ H2 IS eq_refl).
    destruct (Z.ltb_spec (Z.of_nat (length l)) (Z.of_nat n)) as [G|_]; [lia|].
    rewrite Nat2Z.id. rewrite (run_bind _ _ _ _ _ E3). reflexivity.
  - exact (became_trans _ _ _ _ _ _ _ (became_trans _ _ _ _ _ _ _ B1 B2) B3).
Qed.
(** With too few cells the instruction fails; by C76 the program then ends. *)
Theorem C58_create_too_few : forall star s x c l R n,
  Ready s -> Stacks s 0 ((c :: l) :: R) -> num c (Z.of_nat n) -> small (Z.of_nat n) ->
  (length l < n)%nat ->
  exists s', fish_execute star 91 x s = Ok ((EUnspec, x), s') /\ Became s s' 0 ([] :: l :: R).
Proof.
  intros star s x c l R n HR H Nc Sn Ln.
  rewrite (fish_letter star 91 s x false fishCreate HR ltac:(destruct star; reflexivity)).
  unfold fishCreate.
  assert (IT : TOP (mySS s) = 0%nat) by (unfold TOP; destruct H as [-> _]; reflexivity).
  destruct (popAt_at TOP s 0 _ 0 (c :: l) H IT eq_refl) as (s1 & E1 & B1). cbn [hd tl lupd] in *.
  destruct (insert0_at s1 _ (became_stacks _ _ _ _ B1)) as (s2 & E2 & B2).
  pose proof (became_stacks _ _ _ _ B2) as H2.
  exists s2. split; [|exact (became_trans _ _ _ _ _ _ _ B1 B2)].
  rewrite (run_bind _ _ s EUnspec s2); [reflexivity|].
  rewrite (check_stack_at TOP s 0 _ 0 (c :: l) 1 _ H IT eq_refl).
  destruct (Z.ltb_spec (Z.of_nat (length (c :: l))) 1) as [G|_]; [cbn [length] in G; lia|].
  unfold popS. rewrite (run_bind _ _ _ _ _ E1).
  rewrite (run_bind _ _ _ _ _ (run_lift _ _ _ (num_u64 c _ Nc Sn ltac:(lia)))).
  rewrite (run_bind _ _ _ _ _ E2).
  assert (IS : SECOND (mySS s2) = 1%nat) by (unfold SECOND; destruct H2 as [-> _]; reflexivity).
  rewrite (check_stack_at SECOND s2 0 _ 1 l _ _ H2 IS eq_refl).
  destruct (Z.ltb_spec (Z.of_nat (length l)) (Z.of_nat n)) as [_|G]; [reflexivity|lia].
Qed.
(** []] moves the cells of the topmost stack, one by one, to the stack below and
    removes the topmost stack with its register. *)
Theorem C58_destroy : forall star s x t u R q rs,
  Ready s -> Stacks s 0 (t :: u :: R) -> fx_regs x = q :: rs ->
  exists s', fish_execute star 93 x s = Ok ((ENone, set_regs rs x), s') /\
    Became s s' 0 ((rev t ++ u) :: R).
Proof.
  intros star s x t u R q rs HR H Q.
  rewrite (fish_letter star 93 s x false fishDestroy HR ltac:(destruct star; reflexivity)).
  unfold fishDestroy.
  assert (IT : TOP (mySS s) = 0%nat) by (unfold TOP; destruct H as [-> _]; reflexivity).
  destruct (move_up t s u R H) as (s1 & E1 & B1).
  destruct (pop_at s1 _ _ (became_stacks _ _ _ _ B1)) as (s2 & E2 & B2).
  exists s2. split; [|exact (became_trans _ _ _ _ _ _ _ B1 B2)].
  rewrite (run_bind _ _ s ENone s2); [rewrite Q; reflexivity|].
  rewrite (check_selected_at s 0 _ 0 _ H). cbn [length Nat.leb].
  rewrite (check_selected_at s 0 _ 1 _ H). cbn [length Nat.leb].
  change sizeS with (sizeAt TOP). rewrite (run_bind _ _ _ _ _ (sizeAt_at TOP s 0 _ 0 t H IT eq_refl)).
  rewrite Nat2Z.id. rewrite (run_bind _ _ _ _ _ E1), (run_bind _ _ _ _ _ E2). reflexivity.
Qed.
(** The only stack cannot be removed. *)
Theorem C58_destroy_last : forall star s x l,
  Ready s -> Stacks s 0 [l] -> fish_execute star 93 x s = Ok ((EUnspec, x), s).
Proof.
  intros star s x l HR H.
  rewrite (fish_letter star 93 s x false fishDestroy HR ltac:(destruct star; reflexivity)).
  unfold fishDestroy. rewrite (run_bind _ _ s EUnspec s); [reflexivity|].
  rewrite (check_selected_at s 0 _ 0 _ H). cbn [length Nat.leb].
  rewrite (check_selected_at s 0 _ 1 _ H). reflexivity.
Qed.
(** [[] followed by []] consumes the count and restores the stack, the stacks
    below it and all registers. *)
Theorem C58_inverse : forall star s x c l R n,
  Ready s -> Stacks s 0 ((c :: l) :: R) -> num c (Z.of_nat n) -> small (Z.of_nat n) ->
  (n <= length l)%nat ->
  exists x1 s1 s2, fish_execute star 91 x s = Ok ((ENone, x1), s1) /\
    fish_execute star 93 x1 s1 = Ok ((ENone, x), s2) /\ Became s s2 0 (l :: R).
Proof.
  intros star s x c l R n HR H Nc Sn Ln.
  destruct (C58_create star s x c l R n HR H Nc Sn Ln) as (s1 & E1 & B1).
  destruct (C58_destroy star s1 (set_regs ((false, 0) :: fx_regs x) x) _ _ R (false, 0) (fx_regs x)
              (ready_became _ _ _ _ B1 HR) (became_stacks _ _ _ _ B1) eq_refl) as (s2 & E2 & B2).
  exists (set_regs ((false, 0) :: fx_regs x) x), s1, s2. split; [exact E1|]. split.
  - rewrite E2. destruct x; reflexivity.
  - rewrite rev_involutive, firstn_skipn in B2. exact (became_trans _ _ _ _ _ _ _ B1 B2).
Qed.
(** A negative count is converted to an unsigned integer, which is undefined. *)
Theorem C58_negative_refuted : forall star s x c l R n,
  Ready s -> Stacks s 0 ((c :: l) :: R) -> num c n -> small n -> n < 0 ->
  fish_execute star 91 x s = Bad BadOverflow.
Proof.
  intros star s x c l R n HR H Nc Sn N.
  rewrite (fish_letter star 91 s x false fishCreate HR ltac:(destruct star; reflexivity)).
  unfold fishCreate.
  assert (IT : TOP (mySS s) = 0%nat) by (unfold TOP; destruct H as [-> _]; reflexivity).
  destruct (popAt_at TOP s 0 _ 0 (c :: l) H IT eq_refl) as (s1 & E1 & B1). cbn [hd tl lupd] in *.
  apply run_bind_bad.
  rewrite (check_stack_at TOP s 0 _ 0 (c :: l) 1 _ H IT eq_refl).
  destruct (Z.ltb_spec (Z.of_nat (length (c :: l))) 1) as [G|_]; [cbn [length] in G; lia|].
  unfold popS. rewrite (run_bind _ _ _ _ _ E1). apply run_bind_bad.
  unfold lift, dbl_to_u64. rewrite (trunc_whole _ n (bits_valid c) Nc Sn). cbn [bind].
  destruct (Z.leb_spec 0 n); [lia|]. reflexivity.
Qed.

Example C58_example :
  let s := fdemo false [[2; 7; 8; 9]; [5]] in
  Ready s /\ Stacks s 0 [[cell 2; cell 7; cell 8; cell 9]; [cell 5]] /\ num (cell 2) 2 /\
  show (fish_execute false 91 fx0 s) =
    Ok (ENone, [(false, 0); (false, 0)], [[Ok 8; Ok 7]; [Ok 9]; [Ok 5]]).
Proof.
  split; [apply fdemo_ready|]. split; [apply stacks_with|].
  split; [apply num_int; unfold small; lia|]. vm_compute. reflexivity.
Qed.
Example C58_negative_example :
  let s := fdemo false [[-1; 7]] in
  Stacks s 0 [[cell (-1); cell 7]] /\ num (cell (-1)) (-1) /\ fish_execute false 91 fx0 s = Bad BadOverflow.
Proof.
  split; [apply stacks_with|]. split; [apply num_int; unfold small; lia|]. vm_compute. reflexivity.
Qed.

Print Assumptions C58_create.
Print Assumptions C58_create_too_few.
Print Assumptions C58_destroy.
Print Assumptions C58_destroy_last.
Print Assumptions C58_inverse.
Print Assumptions C58_negative_refuted.

(** ** C59 & *)

(** With an empty register, [&] moves the top cell to it (a whole number: a
    fraction is cut off, see C59_fraction_refuted). *)
Theorem C59_store_partial : forall star s x c l n v rs,
  Ready s -> Holds s (c :: l) -> num c n -> small n -> fx_regs x = (false, v) :: rs ->
  exists s', fish_execute star 38 x s = Ok ((ENone, set_regs ((true, n) :: rs) x), s') /\
    Only_stack s s' l.
Proof.
  intros star s x c l n v rs HR H Nc Sn Q.
  rewrite (fish_letter star 38 s x false fishRegister HR ltac:(destruct star; reflexivity)).
  unfold fishRegister. rewrite Q. change (sizeAt TOP) with sizeS.
  rewrite (run_bind _ _ _ _ _ (sizeS_holds s _ H)).
  destruct (Z.ltb_spec (Z.of_nat (length (c :: l))) 1) as [G|_]; [cbn [length] in G; lia|].
  destruct (popS_plain s _ H) as (s1 & E1 & C1). cbn [hd tl] in *.
  exists s1. split; [|exact C1].
  unfold popI, popIAt. change (popAt TOP) with popS.
  rewrite (run_bind _ _ s n s1); [reflexivity|].
  rewrite (run_bind _ _ _ _ _ E1). rewrite (num_i64 c n Nc Sn). reflexivity.
Qed.
Theorem C59_empty : forall star s x v rs,
  Ready s -> Holds s [] -> fx_regs x = (false, v) :: rs ->
  fish_execute star 38 x s = Ok ((EUnspec, x), s).
Proof.
  intros star s x v rs HR H Q.
  rewrite (fish_letter star 38 s x false fishRegister HR ltac:(destruct star; reflexivity)).
  unfold fishRegister. rewrite Q. change (sizeAt TOP) with sizeS.
  rewrite (run_bind _ _ _ _ _ (sizeS_holds s _ H)). reflexivity.
Qed.
(** The second [&] does not put the value back: it empties the register and
    changes nothing else, so the stored number is lost. *)
Theorem C59_restore_refuted : forall star s x c l n v rs,
  Ready s -> Holds s (c :: l) -> num c n -> small n -> fx_regs x = (false, v) :: rs ->
  exists x1 s1, fish_execute star 38 x s = Ok ((ENone, x1), s1) /\
    fish_execute star 38 x1 s1 = Ok ((ENone, set_regs ((false, 0) :: rs) x), s1) /\
    Only_stack s s1 l /\ ~ Holds s1 (c :: l).
Proof.
  intros star s x c l n v rs HR H Nc Sn Q.
  destruct (C59_store_partial star s x c l n v rs HR H Nc Sn Q) as (s1 & E1 & C1).
  exists (set_regs ((true, n) :: rs) x), s1. split; [exact E1|]. split; [|split; [exact C1|]].
  - rewrite (fish_letter star 38 s1 _ false fishRegister (ready_only _ _ _ C1 HR) ltac:(destruct star; reflexivity)).
    unfold fishRegister. cbn [fx_regs set_regs]. reflexivity.
  - pose proof (Only_stack_holds _ _ _ _ H C1) as (k1 & T1 & _ & L1).
    intros (k2 & T2 & _ & L2). rewrite T1 in T2. injection T2 as <-. rewrite L1 in L2.
    assert (length l = length (c :: l)) by (rewrite <- L2; reflexivity). cbn [length] in *. lia.
Qed.
(** A fraction is cut off on its way into the register: 7/2 is stored as 3. *)
Theorem C59_fraction_refuted :
  let s := with_stacks [[bits_of_dbl (ddiv (dbl_of_int 7) (dbl_of_int 2))]] (fish_state0 false [59]) in
  Ready s /\ exists s', fish_execute false 38 fx0 s = Ok ((ENone, set_regs [(true, 3)] fx0), s').
Proof.
  split; [apply readyb_ok; vm_compute; reflexivity|]. eexists. vm_compute. reflexivity.
Qed.

Example C59_example :
  let s := fdemo false [[5; 6]] in
  Ready s /\ Holds s [cell 5; cell 6] /\ num (cell 5) 5 /\ fx_regs fx0 = [(false, 0)].
Proof.
  split; [apply fdemo_ready|]. split; [exact (stacks_holds _ 0 [[cell 5; cell 6]] _ (stacks_with [[cell 5; cell 6]] _) eq_refl)|].
  split; [apply num_int; unfold small; lia|reflexivity].
Qed.

Print Assumptions C59_store_partial.
Print Assumptions C59_empty.
Print Assumptions C59_restore_refuted.
Print Assumptions C59_fraction_refuted.

(** ** C60 C and R *)

(** [C] jumps to the popped vector [v], leaves the rest of the data stack on top
    and puts its own position on a new stack below it. *)
Theorem C60_call_partial : forall s x cs l R v,
  Ready s -> Stacks s 0 ((cs ++ l) :: R) -> coords (dims_of s) cs v ->
  exists s' s1, fish_execute true 67 x s = Ok ((ENone, x), s') /\
    Became s s1 0 (l :: cells_of (dims_of s) (r_pos (s_r s)) :: R) /\
    s' = {| s_w := s_w s1; s_r := set_r_pos (r_pos (s_r s')) (s_r s1) |} /\
    forall i, vget (r_pos (s_r s')) i = if Nat.ltb i (dims_of s) then vget v i else 0.
Proof.
  intros s x cs l R v HR H Cv.
  rewrite (fish_letter_pure true 67 s x false fishCall HR eq_refl). unfold fishCall.
  destruct (insert1_at s _ _ H) as (s1 & E1 & B1). rewrite (run_bind _ _ _ _ _ E1).
  assert (G : getPos s1 = Ok (r_pos (s_r s), s1)).
  { unfold getPos, mbind, getR, ret. rewrite (became_r _ _ _ _ B1). reflexivity. }
  rewrite (run_bind _ _ _ _ _ G).
  destruct (fishPushVec_at SECOND 1 s1 0 _ [] (r_pos (s_r s)) second_at (became_stacks _ _ _ _ B1) eq_refl)
    as (s2 & E2 & B2).
  rewrite (run_bind _ _ _ _ _ E2). rewrite dims_run. rewrite app_nil_r in B2. cbn [lupd Nat.add] in B2.
  rewrite (dims_became _ _ _ _ B1) in B2.
  assert (D2 : dims_of s2 = dims_of s) by (rewrite (dims_became _ _ _ _ B2); exact (dims_became _ _ _ _ B1)).
  rewrite D2. pose proof (became_stacks _ _ _ _ B2) as H2.
  assert (IT : TOP (mySS s2) = 0%nat) by (unfold TOP; destruct H2 as [-> _]; reflexivity).
  rewrite (check_stack_at TOP s2 0 _ 0 (cs ++ l) _ _ H2 IT eq_refl).
  destruct (Z.ltb_spec (Z.of_nat (length (cs ++ l))) (Z.of_nat (dims_of s))) as [Lt|_].
  { destruct Cv as [Lc _]. rewrite app_length in Lt. lia. }
  destruct (fishPopVec_at TOP 0 s2 0 _ cs l v top_at H2 eq_refl ltac:(rewrite D2; exact Cv))
    as (s3 & v' & E3 & B3 & V).
  rewrite (run_bind _ _ _ _ _ E3). cbn [lupd Nat.add] in B3. rewrite D2 in V.
  exists {| s_w := s_w s3; s_r := set_r_pos v' (s_r s3) |}, s3.
  split; [reflexivity|]. split; [|split; [reflexivity|exact V]].
  exact (became_trans _ _ _ _ _ _ _ (became_trans _ _ _ _ _ _ _ B1 B2) B3).
Qed.
Lemma return_run s x l cs m R p :
  Ready s -> Stacks s 0 (l :: (cs ++ m) :: R) -> coords (dims_of s) cs p ->
  exists s' s1, fish_execute true 82 x s = Ok ((ENone, x), s') /\
    Became s s1 0 (m :: R) /\
    s' = {| s_w := s_w s1; s_r := set_r_pos (r_pos (s_r s')) (s_r s1) |} /\
    forall i, vget (r_pos (s_r s')) i = if Nat.ltb i (dims_of s) then vget p i else 0.
Proof.
  intros HR H Cv.
  rewrite (fish_letter_pure true 82 s x false fishReturn HR eq_refl). unfold fishReturn.
  rewrite dims_run.
  assert (IS : SECOND (mySS s) = 1%nat) by (unfold SECOND; destruct H as [-> _]; reflexivity).
  rewrite (check_stack_at SECOND s 0 _ 1 (cs ++ m) _ _ H IS eq_refl).
  destruct (Z.ltb_spec (Z.of_nat (length (cs ++ m))) (Z.of_nat (dims_of s))) as [Lt|_].
  { destruct Cv as [Lc _]. rewrite app_length in Lt. lia. }
  destruct (fishPopVec_at SECOND 1 s 0 _ cs m p second_at H eq_refl Cv) as (s1 & v' & E1 & B1 & V).
  rewrite (run_bind _ _ _ _ _ E1). cbn [lupd Nat.add] in B1.
  set (s2 := {| s_w := s_w s1; s_r := set_r_pos v' (s_r s1) |}).
  rewrite (run_bind (ipSetPos v') _ s1 tt s2 eq_refl).
  assert (H2 : Stacks s2 0 (l :: m :: R)) by exact (became_stacks _ _ _ _ B1).
  destruct (remove1_at s2 _ _ H2) as (s3 & E3 & B3). rewrite (run_bind _ _ _ _ _ E3).
  destruct (remove1_at s1 _ _ (became_stacks _ _ _ _ B1)) as (s4 & E4 & B4).
  assert (M : mySS s4 = mySS s3).
  { unfold modSS, mbind, getR, lift in E3, E4. change (r_ss (s_r s2)) with (r_ss (s_r s1)) in E3.
    destruct (ss_remove 1 (r_ss (s_r s1))) as [y|b]; [|discriminate].
    unfold modR in E3, E4. injection E3 as <-. injection E4 as <-. reflexivity. }
  assert (R3 : s_r s3 = set_r_ss (mySS s3) (set_r_pos v' (s_r s1))) by exact (became_r _ _ _ _ B3).
  exists s3, s4. split; [reflexivity|]. split; [exact (became_trans _ _ _ _ _ _ _ B1 B4)|]. split.
  - destruct s3 as [w3 r3]. pose proof (became_w _ _ _ _ B3) as W3. cbn [s_w] in W3.
    cbn [s_r s_w] in *. rewrite (became_w _ _ _ _ B4), (became_r _ _ _ _ B4), M, W3. f_equal.
    rewrite R3 at 1. rewrite R3. reflexivity.
  - rewrite R3. cbn [r_pos set_r_ss set_r_pos]. exact V.
Qed.
(** [R] jumps to the vector on the stack below (the IP then moves on to the cell
    after the call), but the stack it removes is the data stack: what was left of
    the return stack is on top afterwards. *)
Theorem C60_return_partial : forall s x l cs m R p,
  Ready s -> Stacks s 0 (l :: (cs ++ m) :: R) -> coords (dims_of s) cs p ->
  exists s', fish_execute true 82 x s = Ok ((ENone, x), s') /\ s_w s' = s_w s /\
    s_r s' = set_r_ss (mySS s') (set_r_pos (r_pos (s_r s')) (s_r s)) /\
    forall i, vget (r_pos (s_r s')) i = if Nat.ltb i (dims_of s) then vget p i else 0.
Proof.
  intros s x l cs m R p HR H Cv. destruct (return_run s x l cs m R p HR H Cv) as (s' & s1 & E & B & S & V).
  exists s'. split; [exact E|]. split; [rewrite S; exact (became_w _ _ _ _ B)|]. split; [|exact V].
  rewrite S at 1. cbn [s_r]. rewrite (became_r _ _ _ _ B).
  assert (M : mySS s' = mySS s1) by (rewrite S; reflexivity). rewrite M. reflexivity.
Qed.
(** Call followed at once by return: the position is restored, but the cells of
    the data stack are gone; the empty return stack has taken its place. *)
Theorem C60_data_refuted : forall s x cs l R v,
  Ready s -> Stacks s 0 ((cs ++ l) :: R) -> coords (dims_of s) cs v ->
  (forall i, (i < dims_of s)%nat -> small (vget (r_pos (s_r s)) i)) ->
  exists s1 s2, fish_execute true 67 x s = Ok ((ENone, x), s1) /\
    fish_execute true 82 x s1 = Ok ((ENone, x), s2) /\
    (forall i, (i < dims_of s)%nat -> vget (r_pos (s_r s2)) i = vget (r_pos (s_r s)) i) /\
    Stacks s2 0 ([] :: R) /\ (l <> [] -> ~ Stacks s2 0 (l :: R)).
Proof.
  intros s x cs l R v HR H Cv Sp.
  destruct (C60_call_partial s x cs l R v HR H Cv) as (s1 & t1 & E1 & B1 & S1 & V1).
  assert (R1 : Ready s1) by (rewrite S1; exact (ready_became _ _ _ _ B1 HR)).
  assert (D1 : dims_of s1 = dims_of s) by (rewrite S1; exact (dims_became _ _ _ _ B1)).
  assert (H1 : Stacks s1 0 (l :: (cells_of (dims_of s) (r_pos (s_r s)) ++ []) :: R)).
  { rewrite app_nil_r, S1. exact (became_stacks _ _ _ _ B1). }
  destruct (return_run s1 x l _ [] R (r_pos (s_r s)) R1 H1) as (s2 & t2 & E2 & B2 & S2 & V2).
  { rewrite D1. apply cells_of_coords. exact Sp. }
  assert (F : Stacks s2 0 ([] :: R)) by (rewrite S2; exact (became_stacks _ _ _ _ B2)).
  exists s1, s2. split; [exact E1|]. split; [exact E2|]. split; [|split; [exact F|]].
  - intros i Hi. rewrite V2, D1. destruct (Nat.ltb_spec i (dims_of s)); [reflexivity|lia].
  - intros Ne (_ & X & _). destruct F as (_ & Y & _). rewrite X in Y. injection Y as Y. contradiction.
Qed.
(** [R] without a call is an access outside the list of stacks. *)
Theorem C60_unmatched_refuted : forall s x l,
  Ready s -> Stacks s 0 [l] -> fish_execute true 82 x s = Bad BadOob.
Proof.
  intros s x l HR H. rewrite (fish_letter_pure true 82 s x false fishReturn HR eq_refl).
  unfold fishReturn. rewrite dims_run. unfold check_stack. unfold sizeAt, onStack.
  unfold mbind at 1. destruct H as (Sel & M & _). fold (mySS s). unfold SECOND. rewrite Sel.
  unfold ss_at. destruct (ss_list (mySS s)) as [|k [|k2 ks]]; try discriminate. reflexivity.
Qed.

Example C60_example :
  let s := fdemo true [[3; 1; 8; 9]; [5]] in
  Ready s /\ Stacks s 0 [[cell 3; cell 1] ++ [cell 8; cell 9]; [cell 5]] /\
  coords (dims_of s) [cell 3; cell 1] (mkvec [1; 3]).
Proof.
  split; [apply fdemo_ready|]. split; [apply stacks_with|].
  replace (dims_of (fdemo true [[3; 1; 8; 9]; [5]])) with 2%nat by (vm_compute; reflexivity).
  split; [reflexivity|]. intros i Hi. destruct i as [|[|i]]; [| |lia].
  - change (num (cell 1) 1 /\ small 1). split; [apply num_int|]; unfold small; lia.
  - change (num (cell 3) 3 /\ small 3). split; [apply num_int|]; unfold small; lia.
Qed.

Print Assumptions C60_call_partial.
Print Assumptions C60_return_partial.
Print Assumptions C60_data_refuted.
Print Assumptions C60_unmatched_refuted.

(** ** C74 Arithmetic on integers is exact *)

(** Specification: what the instruction [c] computes from [b] and the top cell
    [a], where it is a whole number. *)
Definition fish_op (c b a : Z) : option Z :=
  if c =? 43 then Some (b + a)
  else if c =? 45 then Some (b - a)
  else if c =? 42 then Some (b * a)
  else if c =? 44 then if (a =? 0) || negb (Z.rem b a =? 0) then None else Some (Z.quot b a)
  else if c =? 37 then if a =? 0 then None else Some (Z.rem b a)
  else if c =? 61 then Some (if b =? a then 1 else 0)
  else if c =? 40 then Some (if b <? a then 1 else 0)
  else if c =? 41 then Some (if b >? a then 1 else 0)
  else None.

Lemma pop2_run s x y l : Holds s (x :: y :: l) ->
  exists s1 s2, popS s = Ok (x, s1) /\ popS s1 = Ok (y, s2) /\ Only_stack s s2 l /\ Holds s2 l.
Proof.
  intros H. destruct (popS_plain s _ H) as (s1 & E1 & C1). cbn [hd tl] in *.
  pose proof (Only_stack_holds _ _ _ _ H C1) as H1.
  destruct (popS_plain s1 _ H1) as (s2 & E2 & C2). cbn [hd tl] in *.
  exists s1, s2. split; [exact E1|]. split; [exact E2|].
  split; [exact (Only_stack_trans _ _ _ _ _ C1 C2)|exact (Only_stack_holds _ _ _ _ H1 C2)].
Qed.
Lemma push_run s l c s0 : Holds s l -> Only_stack s0 s l ->
  exists s', pushS c s = Ok (tt, s') /\ Only_stack s0 s' (c :: l).
Proof.
  intros H O. destruct (pushS_plain s l c H) as (s' & E & C). exists s'. split; [exact E|].
  exact (Only_stack_trans _ _ _ _ _ O C).
Qed.
Lemma two_enough {A} (x y : A) l : (Z.of_nat (length (x :: y :: l)) <? 2) = false.
Proof. apply Z.ltb_ge. cbn [length]. lia. Qed.

Lemma arith_run f s x y l : Holds s (x :: y :: l) ->
  exists s', arith f s = Ok (ENone, s') /\
    Only_stack s s' (bits_of_dbl (f (dbl_of_bits y) (dbl_of_bits x)) :: l).
Proof.
  intros H. destruct (pop2_run s x y l H) as (s1 & s2 & E1 & E2 & O & H2).
  destruct (push_run s2 l (bits_of_dbl (f (dbl_of_bits y) (dbl_of_bits x))) s H2 O) as (s3 & E3 & O3).
  exists s3. split; [|exact O3]. unfold arith. rewrite (check_stack_holds s _ 2 _ H), two_enough.
  unfold popD, pushD. rewrite (run_bind _ _ s (dbl_of_bits x) s1) by (rewrite (run_bind _ _ _ _ _ E1); reflexivity).
  rewrite (run_bind _ _ s1 (dbl_of_bits y) s2) by (rewrite (run_bind _ _ _ _ _ E2); reflexivity).
  rewrite (run_bind _ _ _ _ _ E3). reflexivity.
Qed.
Lemma compare_run f s x y l : Holds s (x :: y :: l) ->
  exists s', compare f s = Ok (ENone, s') /\
    Only_stack s s' (bits_of_dbl (dbl_of_int (bz (f (dbl_of_bits y) (dbl_of_bits x)))) :: l).
Proof.
  intros H. destruct (pop2_run s x y l H) as (s1 & s2 & E1 & E2 & O & H2).
  destruct (push_run s2 l (bits_of_dbl (dbl_of_int (bz (f (dbl_of_bits y) (dbl_of_bits x))))) s H2 O) as (s3 & E3 & O3).
  exists s3. split; [|exact O3]. unfold compare. rewrite (check_stack_holds s _ 2 _ H), two_enough.
  unfold popD, pushI, pushIAt. change (pushAt TOP) with pushS.
  rewrite (run_bind _ _ s (dbl_of_bits x) s1) by (rewrite (run_bind _ _ _ _ _ E1); reflexivity).
  rewrite (run_bind _ _ s1 (dbl_of_bits y) s2) by (rewrite (run_bind _ _ _ _ _ E2); reflexivity).
  rewrite (run_bind _ _ _ _ _ E3). reflexivity.
Qed.
Lemma small0 : small 0. Proof. unfold small. lia. Qed.
Lemma small_bz b : small (bz b). Proof. unfold small. destruct b; cbn [bz]; lia. Qed.
Lemma zero_whole : valid (S754_zero false) /\ whole (S754_zero false) 0.
Proof. split; reflexivity. Qed.
Lemma fishDiv_run s x y l a : Holds s (x :: y :: l) -> num x a -> small a -> a <> 0 ->
  exists s', fishDiv s = Ok (ENone, s') /\
    Only_stack s s' (bits_of_dbl (ddiv (dbl_of_bits y) (dbl_of_bits x)) :: l).
Proof.
  intros H Nx Sa Na. destruct (pop2_run s x y l H) as (s1 & s2 & E1 & E2 & O & H2).
  destruct (push_run s2 l (bits_of_dbl (ddiv (dbl_of_bits y) (dbl_of_bits x))) s H2 O) as (s3 & E3 & O3).
  exists s3. split; [|exact O3]. unfold fishDiv. rewrite (check_stack_holds s _ 2 _ H), two_enough.
  unfold popD, pushD. rewrite (run_bind _ _ s (dbl_of_bits x) s1) by (rewrite (run_bind _ _ _ _ _ E1); reflexivity).
  rewrite (run_bind _ _ s1 (dbl_of_bits y) s2) by (rewrite (run_bind _ _ _ _ _ E2); reflexivity).
  rewrite (deq_whole _ _ a 0 (bits_valid x) (proj1 zero_whole) Nx (proj2 zero_whole) Sa small0).
  destruct (Z.eqb_spec a 0); [contradiction|]. rewrite (run_bind _ _ _ _ _ E3). reflexivity.
Qed.
Lemma rem_small a b : small b -> a <> 0 -> small (Z.rem b a).
Proof.
  intros S N. unfold small in *. assert (Z.abs (Z.rem b a) <= Z.abs b); [|lia].
  rewrite <- Z.rem_abs by exact N. rewrite Z.rem_mod_nonneg by lia. apply Z.mod_le; lia.
Qed.
Lemma rem64_ok b a : small b -> a <> 0 -> rem64 b a = Ok (Z.rem b a).
Proof.
  intros S N. unfold rem64. replace (in64b (Z.quot b a)) with true; [reflexivity|].
  symmetry. apply small64. unfold small in *.
  assert (Z.abs (Z.quot b a) <= Z.abs b); [|lia].
  rewrite <- Z.quot_abs by exact N. apply Z.quot_le_upper_bound; [lia|]. nia.
Qed.
Lemma fishMod_run s x y l a b : Holds s (x :: y :: l) -> num x a -> num y b -> small a -> small b -> a <> 0 ->
  exists s', fishMod s = Ok (ENone, s') /\
    Only_stack s s' (bits_of_dbl (dbl_of_int (Z.rem b a)) :: l).
Proof.
  intros H Nx Ny Sa Sb Na. destruct (pop2_run s x y l H) as (s1 & s2 & E1 & E2 & O & H2).
  destruct (push_run s2 l (bits_of_dbl (dbl_of_int (Z.rem b a))) s H2 O) as (s3 & E3 & O3).
  exists s3. split; [|exact O3]. unfold fishMod. rewrite (check_stack_holds s _ 2 _ H), two_enough.
  unfold popI, popIAt, pushI, pushIAt. change (popAt TOP) with popS. change (pushAt TOP) with pushS.
  rewrite (run_bind _ _ s a s1) by (rewrite (run_bind _ _ _ _ _ E1), (num_i64 x a Nx Sa); reflexivity).
  rewrite (run_bind _ _ s1 b s2) by (rewrite (run_bind _ _ _ _ _ E2), (num_i64 y b Ny Sb); reflexivity).
  destruct (Z.eqb_spec a 0); [contradiction|]. rewrite (rem64_ok b a Sb Na).
  rewrite (run_bind _ _ _ _ _ (run_lift (Ok (Z.rem b a)) _ s2 eq_refl)). rewrite (run_bind _ _ _ _ _ E3). reflexivity.
Qed.

(** On whole numbers up to 2^53 every arithmetic and comparison instruction
    whose result is such a number pops two cells and pushes exactly the result. *)
Theorem C74_integer : forall star c s X x y l a b r,
  Ready s -> Holds s (x :: y :: l) -> num x a -> num y b -> small a -> small b ->
  fish_op c b a = Some r -> small r ->
  exists s' z, fish_execute star c X s = Ok ((ENone, X), s') /\ Only_stack s s' (z :: l) /\ num z r.
Proof.
  intros star c s X x y l a b r HR H Nx Ny Sa Sb Op Sr.
  assert (Go : forall m, sem_of star c = Some (false, pure m) ->
    (exists s' z, m s = Ok (ENone, s') /\ Only_stack s s' (z :: l) /\ num z r) ->
    exists s' z, fish_execute star c X s = Ok ((ENone, X), s') /\ Only_stack s s' (z :: l) /\ num z r).
  { intros m S (s' & z & E & O & N). exists s', z. rewrite (fish_letter_pure star c s X false m HR S), E. auto. }
  unfold fish_op in Op.
  destruct (Z.eqb_spec c 43) as [->|_].
  { injection Op as <-. apply (Go (arith dadd)); [destruct star; reflexivity|].
    destruct (arith_run dadd s x y l H) as (s' & E & O). exists s'. eexists. split; [exact E|]. split; [exact O|].
    destruct (dadd_whole _ _ b a (bits_valid y) (bits_valid x) Ny Nx Sb Sa Sr) as [V W]. exact (num_bits _ _ V W). }
  destruct (Z.eqb_spec c 45) as [->|_].
  { injection Op as <-. apply (Go (arith dsub)); [destruct star; reflexivity|].
    destruct (arith_run dsub s x y l H) as (s' & E & O). exists s'. eexists. split; [exact E|]. split; [exact O|].
    destruct (dsub_whole _ _ b a (bits_valid y) (bits_valid x) Ny Nx Sb Sa Sr) as [V W]. exact (num_bits _ _ V W). }
  destruct (Z.eqb_spec c 42) as [->|_].
  { injection Op as <-. apply (Go (arith dmul)); [destruct star; reflexivity|].
    destruct (arith_run dmul s x y l H) as (s' & E & O). exists s'. eexists. split; [exact E|]. split; [exact O|].
    destruct (dmul_whole _ _ b a (bits_valid y) (bits_valid x) Ny Nx Sb Sa Sr) as [V W]. exact (num_bits _ _ V W). }
  destruct (Z.eqb_spec c 44) as [->|_].
  { destruct (Z.eqb_spec a 0) as [|Na]; [discriminate|]. cbn [orb] in Op.
    destruct (Z.eqb_spec (Z.rem b a) 0) as [Re|]; [|discriminate]. cbn [negb] in Op. injection Op as <-.
    apply (Go fishDiv); [destruct star; reflexivity|].
    destruct (fishDiv_run s x y l a H Nx Sa Na) as (s' & E & O). exists s'. eexists. split; [exact E|]. split; [exact O|].
    assert (Q : b = a * Z.quot b a) by (rewrite (Z.quot_rem b a Na) at 1; lia).
    rewrite Q in Ny, Sb.
    destruct (ddiv_whole _ _ a (Z.quot b a) (bits_valid y) (bits_valid x) Ny Nx Sb Sa Sr Na) as [V W]. exact (num_bits _ _ V W). }
  destruct (Z.eqb_spec c 37) as [->|_].
  { destruct (Z.eqb_spec a 0) as [|Na]; [discriminate|]. injection Op as <-.
    apply (Go fishMod); [destruct star; reflexivity|].
    destruct (fishMod_run s x y l a b H Nx Ny Sa Sb Na) as (s' & E & O). exists s'. eexists. split; [exact E|].
    split; [exact O|]. apply num_int. exact Sr. }
  assert (Cmp : forall f q, sem_of star c = Some (false, pure (compare f)) ->
    f (dbl_of_bits y) (dbl_of_bits x) = q -> r = bz q ->
    exists s' z, fish_execute star c X s = Ok ((ENone, X), s') /\ Only_stack s s' (z :: l) /\ num z r).
  { intros f q S Q ->. apply (Go _ S). destruct (compare_run f s x y l H) as (s' & E & O).
    exists s'. eexists. split; [exact E|]. split; [exact O|]. rewrite Q. apply num_int. apply small_bz. }
  destruct (Z.eqb_spec c 61) as [->|_].
  { injection Op as <-. apply (Cmp deq (b =? a)); [destruct star; reflexivity| |destruct (b =? a); reflexivity].
    apply (deq_whole _ _ b a); auto using bits_valid. }
  destruct (Z.eqb_spec c 40) as [->|_].
  { injection Op as <-. apply (Cmp dlt (b <? a)); [destruct star; reflexivity| |destruct (b <? a); reflexivity].
    apply (dlt_whole _ _ b a); auto using bits_valid. }
  destruct (Z.eqb_spec c 41) as [->|_]; [|discriminate].
  injection Op as <-. apply (Cmp (fun y x => dlt x y) (a <? b)); [destruct star; reflexivity| |].
  - apply (dlt_whole _ _ a b); auto using bits_valid.
  - rewrite Z.gtb_ltb. destruct (a <? b); reflexivity.
Qed.
(** Division and remainder by zero, and too few cells, are errors (C76). *)
Theorem C74_zero : forall star c s X x y l,
  c = 44 \/ c = 37 -> Ready s -> Holds s (x :: y :: l) -> num x 0 -> (c = 37 -> exists b, num y b /\ small b) ->
  exists s', fish_execute star c X s = Ok ((EUnspec, X), s') /\ Only_stack s s' l.
Proof.
  intros star c s X x y l Hc HR H Nx Ny.
  destruct (pop2_run s x y l H) as (s1 & s2 & E1 & E2 & O & H2). exists s2. split; [|exact O].
  destruct Hc as [-> | ->].
  - rewrite (fish_letter_pure star 44 s X false fishDiv HR ltac:(destruct star; reflexivity)).
    unfold fishDiv. rewrite (check_stack_holds s _ 2 _ H), two_enough. unfold popD.
    rewrite (run_bind _ _ s (dbl_of_bits x) s1) by (rewrite (run_bind _ _ _ _ _ E1); reflexivity).
    rewrite (run_bind _ _ s1 (dbl_of_bits y) s2) by (rewrite (run_bind _ _ _ _ _ E2); reflexivity).
    rewrite (deq_whole _ _ 0 0 (bits_valid x) (proj1 zero_whole) Nx (proj2 zero_whole) small0 small0). reflexivity.
  - destruct (Ny eq_refl) as (b & Nb & Sb).
    rewrite (fish_letter_pure star 37 s X false fishMod HR ltac:(destruct star; reflexivity)).
    unfold fishMod. rewrite (check_stack_holds s _ 2 _ H), two_enough. unfold popI, popIAt.
    change (popAt TOP) with popS.
    rewrite (run_bind _ _ s 0 s1) by (rewrite (run_bind _ _ _ _ _ E1), (num_i64 x 0 Nx small0); reflexivity).
    rewrite (run_bind _ _ s1 b s2) by (rewrite (run_bind _ _ _ _ _ E2), (num_i64 y b Nb Sb); reflexivity).
    reflexivity.
Qed.
Theorem C74_too_few : forall star c s X l,
  (c = 43 \/ c = 45 \/ c = 42 \/ c = 44 \/ c = 37 \/ c = 61 \/ c = 40 \/ c = 41) ->
  Ready s -> Holds s l -> (length l < 2)%nat ->
  fish_execute star c X s = Ok ((EUnspec, X), s).
Proof.
  intros star c s X l Hc HR H L.
  assert (Few : forall k, check_stack TOP 2 k s = Ok (EUnspec, s)).
  { intros k. rewrite (check_stack_holds s _ 2 _ H). destruct (Z.ltb_spec (Z.of_nat (length l)) 2); [reflexivity|lia]. }
  assert (Go : forall k, sem_of star c = Some (false, pure (check_stack TOP 2 k)) ->
    fish_execute star c X s = Ok ((EUnspec, X), s)).
  { intros k E. rewrite (fish_letter_pure star c s X false _ HR E), Few. reflexivity. }
  destruct Hc as [-> | [-> | [-> | [-> | [-> | [-> | [-> | ->]]]]]]];
    (destruct star; eapply Go; reflexivity).
Qed.
(** A digit 0-9, a-f pushes its value. *)
Theorem C74_digit : forall star c s X l d,
  (48 <= c <= 57 /\ d = c - 48) \/ (97 <= c <= 102 /\ d = c - 87) ->
  Ready s -> Holds s l ->
  exists s' z, fish_execute star c X s = Ok ((ENone, X), s') /\ Only_stack s s' (z :: l) /\ num z d.
Proof.
  intros star c s X l d Hd HR H.
  assert (E : sem_of star c = Some (false, pure (check_selected 0 (pushI d ;;; ok))) /\ small d).
  { unfold small.
    assert (V : c = 48 \/ c = 49 \/ c = 50 \/ c = 51 \/ c = 52 \/ c = 53 \/ c = 54 \/ c = 55 \/ c = 56 \/ c = 57 \/
                c = 97 \/ c = 98 \/ c = 99 \/ c = 100 \/ c = 101 \/ c = 102) by lia.
    assert (D : d = if c <? 60 then c - 48 else c - 87) by (destruct (Z.ltb_spec c 60); lia). clear Hd. subst d.
    split; [|destruct (Z.ltb_spec c 60); lia].
    repeat (destruct V as [-> | V]; [destruct star; reflexivity|]). subst c. destruct star; reflexivity. }
  destruct E as [E Sd].
  destruct (pushS_plain s l (bits_of_dbl (dbl_of_int d)) H) as (s' & E1 & O).
  exists s', (bits_of_dbl (dbl_of_int d)).
  rewrite (fish_letter_pure star c s X false _ HR E), (check_selected_holds s l _ H).
  unfold pushI, pushIAt. change (pushAt TOP) with pushS. rewrite (run_bind _ _ _ _ _ E1).
  split; [reflexivity|]. split; [exact O|]. apply num_int. exact Sd.
Qed.
(** [n] prints a whole number in decimal, [o] the character with that code. *)
Theorem C74_print : forall star s X x l a,
  Ready s -> Holds s (x :: l) -> num x a -> small a ->
  exists s1, Only_stack s s1 l /\
    fish_execute star 110 X s = Ok ((ENone, X), {| s_w := set_w_out (w_out (s_w s) ++ dec a) (s_w s); s_r := s_r s1 |}) /\
    fish_execute star 111 X s = Ok ((ENone, X), {| s_w := set_w_out (w_out (s_w s) ++ [a mod 256]) (s_w s); s_r := s_r s1 |}).
Proof.
  intros star s X x l a HR H Nx Sa.
  destruct (popS_plain s _ H) as (s1 & E1 & O). cbn [hd tl] in *. exists s1. split; [exact O|].
  assert (W : s_w s1 = s_w s) by (eapply Only_stack_w; exact O).
  assert (G : (Z.of_nat (length (x :: l)) <? 1) = false) by (apply Z.ltb_ge; cbn [length]; lia).
  split.
  - rewrite (fish_letter_pure star 110 s X false fishOutInt HR ltac:(destruct star; reflexivity)).
    unfold fishOutInt. rewrite (check_stack_holds s _ 1 _ H), G. unfold popD.
    rewrite (run_bind _ _ s (dbl_of_bits x) s1) by (rewrite (run_bind _ _ _ _ _ E1); reflexivity).
    rewrite (num_i64 x a Nx Sa). rewrite (run_bind _ _ _ _ _ (run_lift (Ok a) _ s1 eq_refl)).
    rewrite dbl_of_int_exact by exact Sa.
    rewrite (deq_whole _ _ a a (bits_valid x) (valid_canon a Sa) Nx (whole_canon a Sa) Sa Sa), Z.eqb_refl.
    unfold out, mbind. cbn. unfold modW. rewrite W. reflexivity.
  - rewrite (fish_letter_pure star 111 s X false fishOutChar HR ltac:(destruct star; reflexivity)).
    unfold fishOutChar. rewrite (check_stack_holds s _ 1 _ H), G. unfold popI, popIAt. change (popAt TOP) with popS.
    rewrite (run_bind _ _ s a s1) by (rewrite (run_bind _ _ _ _ _ E1), (num_i64 x a Nx Sa); reflexivity).
    unfold out, mbind. cbn. unfold modW. rewrite W. reflexivity.
Qed.

Example C74_example :
  let s := fdemo false [[3; 9007199254740991]] in
  Ready s /\ Stacks s 0 [[cell 3; cell 9007199254740991]] /\ num (cell 3) 3 /\
  num (cell 9007199254740991) 9007199254740991 /\ fish_op 44 9007199254740990 3 = Some 3002399751580330 /\
  show (fish_execute false 45 fx0 s) = Ok (ENone, [(false, 0)], [[Ok 9007199254740988]]).
Proof.
  split; [apply fdemo_ready|]. split; [apply stacks_with|].
  split; [apply num_int; unfold small; lia|]. split; [apply num_int; unfold small; lia|].
  split; vm_compute; reflexivity.
Qed.
(** Beyond 2^53 it is not: 2^53 + 1 is 2^53. *)
Theorem C74_beyond_refuted :
  show (fish_execute false 43 fx0 (fdemo false [[1; 9007199254740992]])) =
    Ok (ENone, [(false, 0)], [[Ok 9007199254740992]]).
Proof. vm_compute. reflexivity. Qed.

Print Assumptions C74_integer.
Print Assumptions C74_zero.
Print Assumptions C74_too_few.
Print Assumptions C74_digit.
Print Assumptions C74_print.
Print Assumptions C74_beyond_refuted.

(** ** C75 Stack shuffling *)

(** Specification: what the instruction makes of the selected stack, top first;
    [None] where it does not apply. *)
Definition shuffled (c : Z) (l : list Z) : option (list Z) :=
  if c =? 58 then match l with a :: t => Some (a :: a :: t) | _ => None end              (* : *)
  else if c =? 126 then match l with _ :: t => Some t | _ => None end                    (* ~ *)
  else if c =? 36 then match l with a :: b :: t => Some (b :: a :: t) | _ => None end    (* $ *)
  else if c =? 64 then match l with a :: b :: c :: t => Some (b :: c :: a :: t) | _ => None end (* @ *)
  else if c =? 114 then Some (rev l)                                                     (* r *)
  else if c =? 123 then match l with [] => None | _ => Some (last l 0 :: removelast l) end (* { *)
  else if c =? 125 then match l with a :: t => Some (t ++ [a]) | [] => None end          (* } *)
  else None.

Lemma taken_all l : taken (length l) l = l.
Proof. rewrite taken_firstn by lia. apply firstn_all. Qed.
Lemma popAll s l : Holds s l -> exists s', popL (Z.to_nat (Z.of_nat (length l))) s = Ok (l, s') /\ Only_stack s s' [].
Proof.
  intros H. rewrite Nat2Z.id. destruct (popL_plain (length l) s l H) as (s' & E & O).
  rewrite taken_all in E. rewrite skipn_all in O. exists s'. auto.
Qed.

(** The shuffling instructions permute or copy cells as specified, bit for bit,
    and change nothing else. *)
Theorem C75_shuffle : forall star c s X l l',
  Ready s -> Holds s l -> shuffled c l = Some l' ->
  exists s', fish_execute star c X s = Ok ((ENone, X), s') /\ Only_stack s s' l'.
Proof.
  intros star c s X l l' HR H Sh.
  assert (Go : forall m, sem_of star c = Some (false, pure m) ->
    (exists s', m s = Ok (ENone, s') /\ Only_stack s s' l') ->
    exists s', fish_execute star c X s = Ok ((ENone, X), s') /\ Only_stack s s' l').
  { intros m E (s' & E' & O). exists s'. rewrite (fish_letter_pure star c s X false m HR E), E'. auto. }
  unfold shuffled in Sh.
  destruct (Z.eqb_spec c 58) as [->|_].
  { destruct l as [|a t]; [discriminate|]. injection Sh as <-.
    apply (Go fishDup); [destruct star; reflexivity|].
    destruct (popS_plain s _ H) as (s1 & E1 & O1). cbn [hd tl] in *.
    destruct (push_run s1 t a s (Only_stack_holds _ _ _ _ H O1) O1) as (s2 & E2 & O2).
    destruct (push_run s2 _ a s (Only_stack_holds _ _ _ _ H O2) O2) as (s3 & E3 & O3).
    exists s3. split; [|exact O3]. unfold fishDup. rewrite (check_stack_holds s _ 1 _ H).
    destruct (Z.ltb_spec (Z.of_nat (length (a :: t))) 1) as [G|_]; [cbn [length] in G; lia|].
    rewrite (run_bind _ _ _ _ _ E1), (run_bind _ _ _ _ _ E2), (run_bind _ _ _ _ _ E3). reflexivity. }
  destruct (Z.eqb_spec c 126) as [->|_].
  { destruct l as [|a t]; [discriminate|]. injection Sh as <-.
    apply (Go fishRemove); [destruct star; reflexivity|].
    destruct (popS_plain s _ H) as (s1 & E1 & O1). cbn [hd tl] in *.
    exists s1. split; [|exact O1]. unfold fishRemove. rewrite (check_stack_holds s _ 1 _ H).
    destruct (Z.ltb_spec (Z.of_nat (length (a :: t))) 1) as [G|_]; [cbn [length] in G; lia|].
    rewrite (run_bind _ _ _ _ _ E1). reflexivity. }
  destruct (Z.eqb_spec c 36) as [->|_].
  { destruct l as [|a [|b t]]; try discriminate. injection Sh as <-.
    apply (Go fishSwap2); [destruct star; reflexivity|].
    destruct (pop2_run s a b t H) as (s1 & s2 & E1 & E2 & O2 & H2).
    destruct (push_run s2 t a s H2 O2) as (s3 & E3 & O3).
    destruct (push_run s3 _ b s (Only_stack_holds _ _ _ _ H O3) O3) as (s4 & E4 & O4).
    exists s4. split; [|exact O4]. unfold fishSwap2. rewrite (check_stack_holds s _ 2 _ H), two_enough.
    rewrite (run_bind _ _ _ _ _ E1), (run_bind _ _ _ _ _ E2), (run_bind _ _ _ _ _ E3), (run_bind _ _ _ _ _ E4).
    reflexivity. }
  destruct (Z.eqb_spec c 64) as [->|_].
  { destruct l as [|a [|b [|d t]]]; try discriminate. injection Sh as <-.
    apply (Go fishSwap3); [destruct star; reflexivity|].
    destruct (pop2_run s a b _ H) as (s1 & s2 & E1 & E2 & O2 & H2).
    destruct (popS_plain s2 _ H2) as (s3 & E3 & O3'). cbn [hd tl] in *.
    pose proof (Only_stack_trans _ _ _ _ _ O2 O3') as O3.
    destruct (push_run s3 t a s (Only_stack_holds _ _ _ _ H O3) O3) as (s4 & E4 & O4).
    destruct (push_run s4 _ d s (Only_stack_holds _ _ _ _ H O4) O4) as (s5 & E5 & O5).
    destruct (push_run s5 _ b s (Only_stack_holds _ _ _ _ H O5) O5) as (s6 & E6 & O6).
    exists s6. split; [|exact O6]. unfold fishSwap3. rewrite (check_stack_holds s _ 3 _ H).
    destruct (Z.ltb_spec (Z.of_nat (length (a :: b :: d :: t))) 3) as [G|_]; [cbn [length] in G; lia|].
    rewrite (run_bind _ _ _ _ _ E1), (run_bind _ _ _ _ _ E2), (run_bind _ _ _ _ _ E3),
      (run_bind _ _ _ _ _ E4), (run_bind _ _ _ _ _ E5), (run_bind _ _ _ _ _ E6). reflexivity. }
  destruct (popAll s l H) as (s1 & E1 & O1).
  destruct (Z.eqb_spec c 114) as [->|_].
  { injection Sh as <-. apply (Go fishReverse); [destruct star; reflexivity|].
    destruct (pushL_plain l s1 [] (Only_stack_holds _ _ _ _ H O1)) as (s2 & E2 & O2). rewrite app_nil_r in O2.
    exists s2. split; [|exact (Only_stack_trans _ _ _ _ _ O1 O2)].
    unfold fishReverse. rewrite (check_selected_holds s l _ H), (run_bind _ _ _ _ _ (sizeS_holds s l H)).
    rewrite (run_bind _ _ _ _ _ E1), (run_bind _ _ _ _ _ E2). reflexivity. }
  destruct (Z.eqb_spec c 123) as [->|_].
  { assert (L : exists t x, l = t ++ [x] /\ l' = x :: t).
    { destruct l as [|a0 l0] eqn:El; [discriminate|]. rewrite <- El in *.
      assert (Ne : l <> []) by (rewrite El; discriminate).
      exists (removelast l), (last l 0). split; [apply app_removelast_last; exact Ne|].
      assert (Sh' : Some (last l 0 :: removelast l) = Some l') by (rewrite <- Sh, El; reflexivity). congruence. }
    clear Sh. destruct L as (t & x & -> & ->).
    apply (Go fishShiftLeft); [destruct star; reflexivity|].
    destruct (pushL_plain (rev t) s1 [] (Only_stack_holds _ _ _ _ H O1)) as (s2 & E2 & O2).
    rewrite app_nil_r, rev_involutive in O2. pose proof (Only_stack_trans _ _ _ _ _ O1 O2) as O2'.
    destruct (push_run s2 t x s (Only_stack_holds _ _ _ _ H O2') O2') as (s3 & E3 & O3).
    exists s3. split; [|exact O3].
    unfold fishShiftLeft. rewrite (check_selected_holds s _ _ H), (run_bind _ _ _ _ _ (sizeS_holds s _ H)).
    rewrite (run_bind _ _ _ _ _ E1). rewrite rev_app_distr. cbn [rev app].
    rewrite (run_bind _ _ _ _ _ E2), (run_bind _ _ _ _ _ E3). reflexivity. }
  destruct (Z.eqb_spec c 125) as [->|_]; [|discriminate].
  destruct l as [|a t]; [discriminate|]. injection Sh as <-.
  apply (Go fishShiftRight); [destruct star; reflexivity|].
  destruct (push_run s1 [] a s (Only_stack_holds _ _ _ _ H O1) O1) as (s2 & E2 & O2).
  destruct (pushL_plain (rev t) s2 [a] (Only_stack_holds _ _ _ _ H O2)) as (s3 & E3 & O3).
  rewrite rev_involutive in O3.
  exists s3. split; [|exact (Only_stack_trans _ _ _ _ _ O2 O3)].
  unfold fishShiftRight. rewrite (check_selected_holds s _ _ H), (run_bind _ _ _ _ _ (sizeS_holds s _ H)).
  rewrite (run_bind _ _ _ _ _ E1), (run_bind _ _ _ _ _ E2), (run_bind _ _ _ _ _ E3). reflexivity.
Qed.
(** With too few cells : ~ $ @ are errors ... *)
Theorem C75_too_few : forall star c s X l,
  c = 58 \/ c = 126 \/ c = 36 \/ c = 64 -> Ready s -> Holds s l -> shuffled c l = None ->
  fish_execute star c X s = Ok ((EUnspec, X), s).
Proof.
  intros star c s X l Hc HR H Sh.
  assert (Go : forall n k, sem_of star c = Some (false, pure (check_stack TOP n k)) -> Z.of_nat (length l) < n ->
    fish_execute star c X s = Ok ((EUnspec, X), s)).
  { intros n k E L. rewrite (fish_letter_pure star c s X false _ HR E), (check_stack_holds s _ n _ H).
    destruct (Z.ltb_spec (Z.of_nat (length l)) n); [reflexivity|lia]. }
  destruct Hc as [-> | [-> | [-> | ->]]]; destruct l as [|a [|b [|d t]]]; try discriminate Sh;
    (destruct star; refine (Go _ _ eq_refl _); cbn [length]; lia).
Qed.
(** ... but shifting an empty stack reads outside a temporary array. *)
Theorem C75_empty_refuted : forall star c s X,
  c = 123 \/ c = 125 -> Ready s -> Holds s [] -> fish_execute star c X s = Bad BadOob.
Proof.
  intros star c s X Hc HR H. destruct (popAll s [] H) as (s1 & E1 & _).
  destruct Hc as [-> | ->].
  - rewrite (fish_letter_pure star 123 s X false fishShiftLeft HR ltac:(destruct star; reflexivity)).
    unfold fishShiftLeft. rewrite (check_selected_holds s _ _ H), (run_bind _ _ _ _ _ (sizeS_holds s _ H)).
    rewrite (run_bind _ _ _ _ _ E1). reflexivity.
  - rewrite (fish_letter_pure star 125 s X false fishShiftRight HR ltac:(destruct star; reflexivity)).
    unfold fishShiftRight. rewrite (check_selected_holds s _ _ H), (run_bind _ _ _ _ _ (sizeS_holds s _ H)).
    rewrite (run_bind _ _ _ _ _ E1). reflexivity.
Qed.
(** [l] pushes the number of cells. *)
Theorem C75_length : forall star s X l,
  Ready s -> Holds s l -> small (Z.of_nat (length l)) ->
  exists s' z, fish_execute star 108 X s = Ok ((ENone, X), s') /\ Only_stack s s' (z :: l) /\
    num z (Z.of_nat (length l)).
Proof.
  intros star s X l HR H Sl.
  destruct (pushS_plain s l (bits_of_dbl (dbl_of_int (Z.of_nat (length l)))) H) as (s' & E1 & O).
  exists s'. eexists. rewrite (fish_letter_pure star 108 s X false fishLength HR ltac:(destruct star; reflexivity)).
  unfold fishLength. rewrite (check_selected_holds s l _ H), (run_bind _ _ _ _ _ (sizeS_holds s l H)).
  unfold pushI, pushIAt. change (pushAt TOP) with pushS. rewrite (run_bind _ _ _ _ _ E1).
  split; [reflexivity|]. split; [exact O|]. apply num_int. exact Sl.
Qed.

Example C75_example :
  let s := fdemo false [[4; 3; 2; 1]] in
  Ready s /\ Stacks s 0 [[cell 4; cell 3; cell 2; cell 1]] /\
  shuffled 64 [4; 3; 2; 1] = Some [3; 2; 4; 1] /\
  shuffled 123 [4; 3; 2; 1] = Some [1; 4; 3; 2] /\ shuffled 125 [4; 3; 2; 1] = Some [3; 2; 1; 4] /\
  show (fish_execute false 123 fx0 s) = Ok (ENone, [(false, 0)], [[Ok 1; Ok 4; Ok 3; Ok 2]]).
Proof.
  split; [apply fdemo_ready|]. split; [apply stacks_with|]. repeat (split; [vm_compute; reflexivity|]).
  vm_compute. reflexivity.
Qed.

Print Assumptions C75_shuffle.
Print Assumptions C75_too_few.
Print Assumptions C75_empty_refuted.
Print Assumptions C75_length.

(** ** C76 An error ends the program *)

Lemma killAll_run code s : let n := r_uni (s_r s) in
  In (r_id (s_r s)) (queue (s_w s) n) -> All_alive (s_w s) n (r_id (s_r s)) ->
  exists s', killAll code s = Ok (tt, s') /\
    s_r s' = set_r_stopped true (s_r s) /\
    (forall id, id <> r_id (s_r s) -> In id (queue (s_w s) n) ->
       exists r, w_run (s_w s) id = Some r /\ w_run (s_w s') id = Some (set_r_stopped true r)) /\
    (forall id, ~ In id (queue (s_w s) n) -> w_run (s_w s') id = w_run (s_w s) id) /\
    w_uni (s_w s') n = set_u_running false (set_u_exit code (w_uni (s_w s) n)) /\
    (forall m, m <> n -> w_uni (s_w s') m = w_uni (s_w s) m) /\
    s_w s' = set_w_run (w_run (s_w s')) (set_w_uni (w_uni (s_w s')) (s_w s)).
Proof.
  intros n Me AL. unfold killAll.
  set (s2 := {| s_w := upd_uni n (set_u_exit code) (s_w s); s_r := s_r s |}).
  assert (E2 : modU (set_u_exit code) s = Ok (tt, s2)) by reflexivity.
  assert (Q2 : u_queue (w_uni (s_w s2) n) = queue (s_w s) n)
    by (unfold s2; cbn [s_w]; now rewrite upd_uni_same).
  destruct (on_runners_run (set_r_stopped true) (fun r => eq_refl) (fun r => eq_refl) (queue (s_w s) n) s2)
    as (s3 & E3 & R3 & W3 & S3).
  { intros id Hid. exact (AL id Hid). }
  set (s4 := {| s_w := upd_uni n (set_u_running false) (s_w s3); s_r := s_r s3 |}).
  assert (R3' : s_r s3 = set_r_stopped true (s_r s)).
  { rewrite R3. change (r_id (s_r s2)) with (r_id (s_r s)). apply inb_in in Me. rewrite Me. reflexivity. }
  exists s4. split.
  { rewrite (run_bind _ _ _ _ _ E2).
    assert (G : getU s2 = Ok (w_uni (s_w s2) n, s2)) by reflexivity.
    rewrite (run_bind _ _ _ _ _ G), Q2. rewrite (run_bind _ _ _ _ _ E3).
    unfold modU. rewrite R3'. cbn [r_uni set_r_stopped]. unfold s4. rewrite R3'. reflexivity. }
  split; [exact R3'|]. unfold s4. cbn [s_w]. split; [|split; [|split; [|split]]].
  - intros id Ne Hid. destruct (AL id Hid) as [->|(r & Er)]; [contradiction|]. exists r. split; [exact Er|].
    change (w_run (upd_uni n (set_u_running false) (s_w s3)) id) with (w_run (s_w s3) id).
    rewrite W3. change (r_id (s_r s2)) with (r_id (s_r s)). apply inb_in in Hid. rewrite Hid.
    destruct (Z.eqb_spec id (r_id (s_r s))); [contradiction|].
    change (w_run (s_w s2) id) with (w_run (s_w s) id). cbn [andb negb]. rewrite Er. reflexivity.
  - intros id N. change (w_run (upd_uni n (set_u_running false) (s_w s3)) id) with (w_run (s_w s3) id).
    rewrite W3. destruct (inb id (queue (s_w s) n)) eqn:Ei; [apply inb_in in Ei; contradiction|]. reflexivity.
  - rewrite upd_uni_same. f_equal. rewrite S3. cbn [w_uni set_w_run]. unfold s2. cbn [s_w]. apply upd_uni_same.
  - intros m Nm. rewrite upd_uni_other by auto. rewrite S3. cbn [w_uni set_w_run]. unfold s2. cbn [s_w]. now apply upd_uni_other.
  - rewrite S3. reflexivity.
Qed.

(** Any error of an instruction (unknown character, too few cells, division by
    zero ...) stops every IP of the universe, sets the exit code to 1, and leaves
    the IP where it is, unless the IP is diving over an unknown character. *)
Theorem C76_error : forall star F X s X' s1 e,
  let c := f_get (u_field (w_uni (s_w s) (r_uni (s_r s)))) (r_pos (s_r s)) in
  let n := r_uni (s_r s1) in
  testmode MODE_DEBUG (w_uni (s_w s) (r_uni (s_r s))) = false ->
  fish_execute star c X s = Ok ((e, X'), s1) ->
  (e = EUnspec \/ e = ENotAvail \/ (e = EUnimp /\ testmode MODE_DIVE (w_uni (s_w s1) n) = false)) ->
  In (r_id (s_r s1)) (queue (s_w s1) n) -> All_alive (s_w s1) n (r_id (s_r s1)) ->
  exists s', fish_tick star F X s = Ok (X', s') /\
    s_r s' = set_r_stopped true (s_r s1) /\
    (forall id, id <> r_id (s_r s1) -> In id (queue (s_w s1) n) ->
       exists r, w_run (s_w s1) id = Some r /\ w_run (s_w s') id = Some (set_r_stopped true r)) /\
    (forall id, ~ In id (queue (s_w s1) n) -> w_run (s_w s') id = w_run (s_w s1) id) /\
    w_uni (s_w s') n = set_u_running false (set_u_exit 1 (w_uni (s_w s1) n)) /\
    (forall m, m <> n -> w_uni (s_w s') m = w_uni (s_w s1) m) /\
    s_w s' = set_w_run (w_run (s_w s')) (set_w_uni (w_uni (s_w s')) (s_w s1)).
Proof.
  intros star F X s X' s1 e c n D E He Me AL.
  destruct (killAll_run 1 s1 Me AL) as (s' & K & P).
  exists s'. split; [|exact P].
  assert (Er : fishError e s1 = Ok (e, s')).
  { destruct He as [-> | [-> | [-> Dv]]]; unfold fishError.
    - rewrite (run_bind _ _ _ _ _ K). reflexivity.
    - rewrite (run_bind _ _ _ _ _ K). reflexivity.
    - unfold isMode. unfold mbind at 1. unfold mbind at 1. unfold getU. unfold ret at 1. fold n. rewrite Dv.
      rewrite (run_bind _ _ _ _ _ K). reflexivity. }
  assert (Ns : e <> ESkip) by (destruct He as [-> | [-> | [-> _]]]; discriminate).
  rewrite (fish_tick_here star F X s (e, X') s1 e s' D E Er Ns).
  destruct He as [-> | [-> | [-> _]]]; reflexivity.
Qed.

(** The hypotheses hold for the only IP of a new program at an unknown character,
    and the whole program prints nothing and exits with code 1. *)
Example C76_example :
  let s := fish_state0 false [75] in
  testmode MODE_DEBUG (w_uni (s_w s) (r_uni (s_r s))) = false /\
  fish_execute false (f_get (u_field (w_uni (s_w s) (r_uni (s_r s)))) (r_pos (s_r s))) fx0 s = Ok ((EUnimp, fx0), s) /\
  testmode MODE_DIVE (w_uni (s_w s) (r_uni (s_r s))) = false /\
  queue (s_w s) (r_uni (s_r s)) = [r_id (s_r s)] /\
  fish_program false 1000 [49; 110; 75; 50; 110; 59] [] = Ok ([49], 1).
Proof.
  split; [vm_compute; reflexivity|]. split; [vm_compute; reflexivity|]. split; [vm_compute; reflexivity|].
  split; vm_compute; reflexivity.
Qed.

Print Assumptions C76_error.
