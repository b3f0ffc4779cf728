(** * Properties C84-C86: the FISH fingerprint *)

From Coq Require Import ZArith List Bool Lia String SpecFloat.
From Verif Require Import Base BaseProofs VectorModel VectorProofs TextModel TextProofs StackModel
  StackProofs FieldModel FieldProofs World IpModel LoadModel FingModel CoreModel UniModel
  ExecProofs FlowProofs States PropsBlocks Effects SchedProofs PropsSched PropsIO PropsLoad PropsFing
  DblModel DblProofs FishModel FishProofs PropsFish FishSafe PropsFishRun.
Import ListNotations.
Local Notation length := List.length.
Open Scope Z_scope.

(** ** C84 Diving *)

(** Character [c] means instruction [c] of FISH. *)
Definition Fishy (s : st) (fld : nat) (c : Z) (mv : bool) : Prop :=
  sem_top c (r_sem (s_r s)) = Some {| sm_act := AFing FP_FISH fld c; sm_move := mv |}.

Lemma execute_move F D c s fld : r_string (s_r s) = false -> Fishy s fld c true ->
  execute F (S D) c s = fish_exec c s.
Proof.
  intros NS T. cbn [execute]. unfold mbind at 1. unfold getR at 1. rewrite NS.
  unfold exec_normal. unfold mbind at 1. unfold getR at 1. rewrite T.
  unfold isMode. unfold mbind at 1. unfold mbind at 1. unfold getU at 1. unfold ret at 1.
  cbn [sm_move negb]. rewrite andb_false_r. reflexivity.
Qed.

(** U begins to dive, however often it is executed, and O ends it; no other mode
    and nothing else changes.  Both also work while diving. *)
Theorem C84_dive : forall F D c s fld,
  c = 85 \/ c = 79 -> r_string (s_r s) = false -> Fishy s fld c true ->
  In (r_id (s_r s)) (queue (s_w s) (r_uni (s_r s))) -> All_alive (s_w s) (r_uni (s_r s)) (r_id (s_r s)) ->
  exists s' m, execute F (S D) c s = Ok (ENone, s') /\ Remoded s s' m /\
    forall b, Z.testbit m b = if b =? MODE_DIVE then (c =? 85) else Z.testbit (modes s) b.
Proof.
  intros F D c s fld Hc NS T Me AL. rewrite (execute_move F D c s fld NS T). destruct Hc as [-> | ->].
  - destruct (changeMode_run (fun m => Z.lor m (2 ^ MODE_DIVE)) s Me AL) as (s' & E & R).
    eexists s', _. split; [|split; [exact R|]].
    + change (fish_exec 85 s) with ((setMode MODE_DIVE ;;; ok) s). unfold setMode.
      rewrite (run_bind _ _ _ _ _ E). reflexivity.
    + intros b. rewrite Z.lor_spec. rewrite Z.pow2_bits_eqb by (unfold MODE_DIVE; lia).
      rewrite (Z.eqb_sym MODE_DIVE). destruct (b =? MODE_DIVE); [now rewrite orb_true_r|now rewrite orb_false_r].
  - destruct (changeMode_run (fun m => Z.ldiff m (2 ^ MODE_DIVE)) s Me AL) as (s' & E & R).
    eexists s', _. split; [|split; [exact R|]].
    + change (fish_exec 79 s) with ((clearMode MODE_DIVE ;;; ok) s). unfold clearMode.
      rewrite (run_bind _ _ _ _ _ E). reflexivity.
    + intros b. rewrite Z.ldiff_spec. rewrite Z.pow2_bits_eqb by (unfold MODE_DIVE; lia).
      rewrite (Z.eqb_sym MODE_DIVE). destruct (b =? MODE_DIVE); [now rewrite andb_false_r|now rewrite andb_true_r].
Qed.
(** A diving IP goes on from a character that is bound to anything but a movement
    without any effect. *)
Theorem C84_pass_partial : forall F D s a,
  diving s -> debugging s = false ->
  sem_top (here s) (r_sem (s_r s)) = Some {| sm_act := a; sm_move := false |} ->
  forall p d, r_stopped (s_r s) = false -> next_of s = Ok (p, d) ->
    tick_step F (S D) tt s = Ok (inl tt, moved s p d).
Proof.
  intros F D s a [NS Dv] Db T p d St Np.
  assert (Hd : forall k : bool -> M (unit + unit), mbind (isMode MODE_DEBUG) k s = k false s).
  { intros k. unfold isMode, mbind, getU, ret. fold (debugging s). rewrite Db. reflexivity. }
  assert (E : execute F (S D) (here s) s = Ok (ESkip, s)).
  { cbn [execute]. unfold mbind at 1. unfold getR at 1. rewrite NS.
    unfold exec_normal. unfold mbind at 1. unfold getR at 1. rewrite T.
    unfold isMode. unfold mbind at 1. unfold mbind at 1. unfold getU at 1. unfold ret at 1. rewrite Dv. reflexivity. }
  unfold tick_step. rewrite Hd.
  unfold mbind at 1. change (ipGet s) with (Ok (here s, s)). cbv beta iota.
  rewrite (run_bind _ _ _ _ _ E). unfold mbind at 1. unfold getR at 1. cbv beta iota.
  rewrite (run_bind (ret ESkip) _ s ESkip s eq_refl).
  rewrite (run_bind _ _ _ _ _ (ipNext_run s p d St Np)). reflexivity.
Qed.
(** ... but a character without any meaning turns the IP round even while it dives
    (in *><> the IP goes on, C83). *)
Theorem C84_unknown_refuted : forall F D s p d d1,
  diving s -> debugging s = false -> r_handler (s_r s) = true -> r_stopped (s_r s) = false ->
  sem_top (here s) (r_sem (s_r s)) = None -> vrev (r_delta (s_r s)) = Ok d1 ->
  next_of {| s_w := s_w s; s_r := set_r_delta d1 (s_r s) |} = Ok (p, d) ->
  tick_step F (S D) tt s = Ok (inr tt, moved s p d).
Proof.
  intros F D s p d d1 [NS Dv] Db Hr St T Ed Np.
  assert (Hd : forall k : bool -> M (unit + unit), mbind (isMode MODE_DEBUG) k s = k false s).
  { intros k. unfold isMode, mbind, getU, ret. fold (debugging s). rewrite Db. reflexivity. }
  assert (E : execute F (S D) (here s) s = Ok (EUnimp, s)).
  { cbn [execute]. unfold mbind at 1. unfold getR at 1. rewrite NS.
    unfold exec_normal. unfold mbind at 1. unfold getR at 1. rewrite T. reflexivity. }
  unfold tick_step. rewrite Hd.
  unfold mbind at 1. change (ipGet s) with (Ok (here s, s)). cbv beta iota.
  rewrite (run_bind _ _ _ _ _ E). unfold mbind at 1. unfold getR at 1. cbv beta iota. rewrite Hr.
  set (s1 := {| s_w := s_w s; s_r := set_r_delta d1 (s_r s) |}) in *.
  rewrite (run_bind (errorHandler EUnimp) _ s EUnimp (moved s1 p d)); [reflexivity|].
  unfold errorHandler. assert (R : ipReflect s = Ok (tt, s1)).
  { unfold ipReflect, ipTurn, mbind, getR. rewrite Ed. reflexivity. }
  rewrite (run_bind _ _ _ _ _ R). rewrite (run_bind _ _ _ _ _ (ipNext_run s1 p d St Np)). reflexivity.
Qed.
(** What counts as a movement in Befunge-98 with FISH: < > ^ r v and FISH's O and
    U, but neither the mirrors H M N V nor F nor the core's turns. *)
Theorem C84_movements :
  let s := start_with [FP_FISH] (chars "1.@") in
  filter (fun c => match sem_top c (r_sem (s_r s)) with Some x => sm_move x | None => false end)
    (map Z.of_nat (seq 0 256)) = [60; 62; 79; 85; 94; 114; 118].
Proof. vm_compute. reflexivity. Qed.

Definition fishyb (s : st) (c : Z) (mv : bool) : bool :=
  match sem_top c (r_sem (s_r s)) with
  | Some {| sm_act := AFing n f d; sm_move := m |} => (n =? FP_FISH) && (Nat.eqb f 0) && (d =? c) && Bool.eqb m mv
  | _ => false
  end.
Lemma fishyb_ok s c mv : fishyb s c mv = true -> Fishy s 0 c mv.
Proof.
  unfold fishyb, Fishy. destruct (sem_top c (r_sem (s_r s))) as [[[| |] m]|]; try discriminate.
  rewrite !andb_true_iff. intros [[[A B] C] D]. apply Z.eqb_eq in A, C. apply Nat.eqb_eq in B. apply eqb_prop in D.
  subst. reflexivity.
Qed.
Definition live (s : st) : bool :=
  inb (r_id (s_r s)) (queue (s_w s) (r_uni (s_r s))) &&
  forallb (fun id => (id =? r_id (s_r s)) || match w_run (s_w s) id with Some _ => true | None => false end)
    (queue (s_w s) (r_uni (s_r s))).
Lemma live_ok s : live s = true -> In (r_id (s_r s)) (queue (s_w s) (r_uni (s_r s))) /\
  All_alive (s_w s) (r_uni (s_r s)) (r_id (s_r s)).
Proof.
  unfold live. rewrite andb_true_iff. intros [A B]. split; [now apply inb_in|].
  rewrite forallb_forall in B. intros id Hid. specialize (B id Hid). apply orb_true_iff in B. destruct B as [B|B].
  - left. now apply Z.eqb_eq.
  - right. destruct (w_run (s_w s) id) as [r|]; [eauto|discriminate].
Qed.
(** The hypotheses of [C84_dive] hold in a new program, and after U those of
    [C84_pass_partial] at a digit. *)
Definition dived : st := match execute 100 1 85 (start_with [FP_FISH] (chars "1.@")) with Ok (_, s) => s | Bad _ => dummy end.
Example C84_example :
  let s := start_with [FP_FISH] (chars "1.@") in
  r_string (s_r s) = false /\ Fishy s 0 85 true /\ Fishy s 0 79 true /\
  In (r_id (s_r s)) (queue (s_w s) (r_uni (s_r s))) /\ All_alive (s_w s) (r_uni (s_r s)) (r_id (s_r s)).
Proof.
  split; [vm_compute; reflexivity|]. split; [apply fishyb_ok; vm_compute; reflexivity|].
  split; [apply fishyb_ok; vm_compute; reflexivity|]. apply live_ok. vm_compute. reflexivity.
Qed.
Example C84_dived :
  r_string (s_r dived) = false /\ testmode MODE_DIVE (w_uni (s_w dived) (r_uni (s_r dived))) = true /\
  debugging dived = false /\ r_stopped (s_r dived) = false /\ r_handler (s_r dived) = true /\ here dived = 49 /\
  sem_top 49 (r_sem (s_r dived)) = Some {| sm_act := ABase (MPush 1); sm_move := false |} /\
  sem_top 65 (r_sem (s_r dived)) = None /\
  next_of dived = Ok (mkvec [1], mkvec [1]).
Proof. vm_compute. repeat split. Qed.

Print Assumptions C84_dive.
Print Assumptions C84_pass_partial.
Print Assumptions C84_unknown_refuted.
Print Assumptions C84_movements.

(** ** C85 Mirrors and stack shuffling *)

(** The mirrors: H, M, N and V are the _ / \ and | of ><>. *)
Definition mirror_letter (c : Z) : option Z :=
  if c =? 72 then Some 95 else if c =? 77 then Some 47 else if c =? 78 then Some 92
  else if c =? 86 then Some 124 else None.
Theorem C85_mirror : forall F D c s fld m dx dy ex ey,
  Letter s FP_FISH fld c -> mirror_letter c = Some m ->
  hovering s = false -> is_delta (r_delta (s_r s)) dx dy ->
  Z.abs dx < 2 ^ 63 -> Z.abs dy < 2 ^ 63 -> turned m dx dy = Some (ex, ey) ->
  exists d', is_delta d' ex ey /\
    execute F (S D) c s =
      Ok (ENone, {| s_w := s_w s; s_r := observe_delta d' (set_r_delta d' (s_r s)) |}).
Proof.
  intros F D c s fld m dx dy ex ey L Hm Hv I Bx By T.
  rewrite (execute_letter F D _ _ _ _ L). change (fp_exec F FP_FISH fld c s) with (fish_exec c s).
  destruct (C81_turn false m fx0 s dx dy ex ey (proj1 L) Hv I Bx By T) as (d' & I' & E).
  exists d'. split; [exact I'|].
  assert (Go : forall k, fish_sem m = Some (true, pure k) -> fish_exec c s = k s -> fish_exec c s =
    Ok (ENone, {| s_w := s_w s; s_r := observe_delta d' (set_r_delta d' (s_r s)) |})).
  { intros k Sk Ek. rewrite Ek. rewrite (fish_move false m s fx0 k (proj1 L) Sk) in E.
    destruct (k s) as [[e s']|]; [|discriminate]. congruence. }
  revert Hm. unfold mirror_letter.
  destruct (Z.eqb_spec c 72) as [->|_]; [intros Hm; injection Hm as <-; exact (Go mirrorHori eq_refl eq_refl)|].
  destruct (Z.eqb_spec c 77) as [->|_]; [intros Hm; injection Hm as <-; exact (Go mirror2 eq_refl eq_refl)|].
  destruct (Z.eqb_spec c 78) as [->|_]; [intros Hm; injection Hm as <-; exact (Go mirror1 eq_refl eq_refl)|].
  destruct (Z.eqb_spec c 86) as [->|_]; [intros Hm; injection Hm as <-; exact (Go mirrorVert eq_refl eq_refl)|discriminate].
Qed.

(** The stack, top first, after L R S and T; missing cells of T are 0. *)
Definition fish_shuffled (c : Z) (l : list Z) : option (list Z) :=
  if c =? 83 then Some (rev l)
  else if c =? 84 then
    let a := nth 0 l 0 in let b := nth 1 l 0 in let d := nth 2 l 0 in
    Some (b :: d :: a :: skipn 3 l)
  else if c =? 76 then match l with [] => None | _ => Some (last l 0 :: removelast l) end
  else if c =? 82 then match l with a :: t => Some (t ++ [a]) | [] => None end
  else None.
Theorem C85_shuffle : forall F D c s fld l l',
  Letter s FP_FISH fld c -> Holds s l -> fish_shuffled c l = Some l' ->
  exists s', execute F (S D) c s = Ok (ENone, s') /\ Only_stack s s' l'.
Proof.
  intros F D c s fld l l' L H Sh.
  rewrite (execute_letter F D _ _ _ _ L). change (fp_exec F FP_FISH fld c s) with (fish_exec c s).
  destruct (popAll s l H) as (s1 & E1 & O1). pose proof (Only_stack_holds _ _ _ _ H O1) as H1.
  revert Sh. unfold fish_shuffled.
  destruct (Z.eqb_spec c 83) as [->|_]; [intros Sh; injection Sh as <-|].
  { destruct (pushL_plain l s1 [] H1) as (s2 & E2 & O2). rewrite app_nil_r in O2.
    exists s2. split; [|exact (Only_stack_trans _ _ _ _ _ O1 O2)].
    change (fish_exec 83 s) with ((len <- sizeS ;; l <- popL (Z.to_nat len) ;; pushL l ;;; ok) s).
    rewrite (run_bind _ _ _ _ _ (sizeS_holds s l H)), (run_bind _ _ _ _ _ E1), (run_bind _ _ _ _ _ E2). reflexivity. }
  destruct (Z.eqb_spec c 84) as [->|_]; [intros Sh; injection Sh as <-|].
  { destruct (popS_plain s l H) as (t1 & F1 & P1). pose proof (Only_stack_holds _ _ _ _ H P1) as K1.
    destruct (popS_plain t1 _ K1) as (t2 & F2 & P2). pose proof (Only_stack_holds _ _ _ _ K1 P2) as K2.
    destruct (popS_plain t2 _ K2) as (t3 & F3 & P3). pose proof (Only_stack_holds _ _ _ _ K2 P3) as K3.
    destruct (pushL_plain [hd 0 l; hd 0 (tl (tl l)); hd 0 (tl l)] t3 _ K3) as (t4 & F4 & P4).
    exists t4. split.
    - change (fish_exec 84 s) with ((x <- popS ;; y <- popS ;; z <- popS ;; pushL [x; z; y] ;;; ok) s).
      rewrite (run_bind _ _ _ _ _ F1), (run_bind _ _ _ _ _ F2), (run_bind _ _ _ _ _ F3), (run_bind _ _ _ _ _ F4). reflexivity.
    - pose proof (Only_stack_trans _ _ _ _ _ (Only_stack_trans _ _ _ _ _ (Only_stack_trans _ _ _ _ _ P1 P2) P3) P4) as P.
      destruct l as [|a [|b [|d l]]]; exact P. }
  destruct (Z.eqb_spec c 76) as [->|_].
  { destruct l as [|a0 l0]; [discriminate|]. intros Sh; injection Sh as <-. set (l := a0 :: l0) in *.
    assert (Ne : l <> []) by discriminate.
    pose proof (app_removelast_last 0 Ne) as Al. set (t := removelast l) in *. set (x := last l 0) in *.
    destruct (pushL_plain (rev t) s1 [] H1) as (s2 & E2 & O2). rewrite rev_involutive, app_nil_r in O2.
    pose proof (Only_stack_holds _ _ _ _ H1 O2) as H2.
    destruct (pushS_plain s2 t x H2) as (s3 & E3 & O3).
    exists s3. split.
    - change (fish_exec 76 s) with ((len <- sizeS ;; l <- popL (Z.to_nat len) ;;
        match rev l with [] => fail BadOob | x :: t => pushL t ;;; pushS x ;;; ok end) s).
      rewrite (run_bind _ _ _ _ _ (sizeS_holds s l H)), (run_bind _ _ _ _ _ E1).
      assert (Rl : rev l = x :: rev t) by (rewrite Al, rev_app_distr; reflexivity).
      rewrite Rl. rewrite (run_bind _ _ _ _ _ E2), (run_bind _ _ _ _ _ E3). reflexivity.
    - assert (Xt : match l0 with [] => a0 | _ :: _ => last l0 0 end = x) by (unfold x, l; destruct l0; reflexivity).
      assert (Tt : match l0 with [] => [] | _ :: _ => a0 :: removelast l0 end = t) by (unfold t, l; destruct l0; reflexivity).
      exact (Only_stack_trans _ _ _ _ _ (Only_stack_trans _ _ _ _ _ O1 O2) O3). }
  destruct (Z.eqb_spec c 82) as [->|_]; [|discriminate].
  destruct l as [|x t]; [discriminate|]. intros Sh; injection Sh as <-.
  destruct (pushS_plain s1 [] x H1) as (s2 & E2 & O2). pose proof (Only_stack_holds _ _ _ _ H1 O2) as H2.
  destruct (pushL_plain (rev t) s2 [x] H2) as (s3 & E3 & O3). rewrite rev_involutive in O3.
  exists s3. split; [|exact (Only_stack_trans _ _ _ _ _ (Only_stack_trans _ _ _ _ _ O1 O2) O3)].
  change (fish_exec 82 s) with ((len <- sizeS ;; l <- popL (Z.to_nat len) ;;
        match l with [] => fail BadOob | x :: t => pushS x ;;; pushL (rev t) ;;; ok end) s).
  rewrite (run_bind _ _ _ _ _ (sizeS_holds s _ H)), (run_bind _ _ _ _ _ E1), (run_bind _ _ _ _ _ E2), (run_bind _ _ _ _ _ E3).
  reflexivity.
Qed.
(** L and R on an empty stack read outside a temporary array. *)
Theorem C85_empty_refuted : forall F D c s fld,
  c = 76 \/ c = 82 -> Letter s FP_FISH fld c -> Holds s [] -> execute F (S D) c s = Bad BadOob.
Proof.
  intros F D c s fld Hc L H.
  rewrite (execute_letter F D _ _ _ _ L). change (fp_exec F FP_FISH fld c s) with (fish_exec c s).
  destruct (popAll s [] H) as (s1 & E1 & O1). destruct Hc as [-> | ->].
  - change (fish_exec 76 s) with ((len <- sizeS ;; l <- popL (Z.to_nat len) ;;
        match rev l with [] => fail BadOob | x :: t => pushL t ;;; pushS x ;;; ok end) s).
    rewrite (run_bind _ _ _ _ _ (sizeS_holds s _ H)), (run_bind _ _ _ _ _ E1). reflexivity.
  - change (fish_exec 82 s) with ((len <- sizeS ;; l <- popL (Z.to_nat len) ;;
        match l with [] => fail BadOob | x :: t => pushS x ;;; pushL (rev t) ;;; ok end) s).
    rewrite (run_bind _ _ _ _ _ (sizeS_holds s _ H)), (run_bind _ _ _ _ _ E1). reflexivity.
Qed.
(** C takes a cell and jumps over the next instruction exactly if it is 0. *)
Theorem C85_conditional : forall F D s fld l p d,
  Letter s FP_FISH fld 67 -> Holds s l -> r_stopped (s_r s) = false -> next_of s = Ok (p, d) ->
  exists s1, Only_stack s s1 (tl l) /\
    execute F (S D) 67 s = Ok (ENone, if hd 0 l =? 0 then moved s1 p d else s1).
Proof.
  intros F D s fld l p d L H St N.
  rewrite (execute_letter F D _ _ _ _ L).
  change (fp_exec F FP_FISH fld 67 s) with ((x <- popS ;; (if x =? 0 then ipNext else ret tt) ;;; ok) s).
  destruct (popS_plain s l H) as (s1 & E1 & O1). exists s1. split; [exact O1|].
  rewrite (run_bind _ _ _ _ _ E1). destruct (hd 0 l =? 0); [|reflexivity].
  assert (N1 : next_of s1 = Ok (p, d)).
  { unfold next_of. rewrite (Only_stack_w _ _ _ O1), (Only_stack_r _ _ _ O1). exact N. }
  rewrite (run_bind _ _ _ _ _ (ipNext_run s1 p d ltac:(rewrite (Only_stack_r _ _ _ O1); exact St) N1)). reflexivity.
Qed.

Example C85_example :
  let s := loaded [FP_FISH] [1; 2; 3; 4] in
  (forall c, In c [67; 72; 76; 77; 78; 82; 83; 84; 86] -> Letter s FP_FISH 0 c) /\ Holds s [1; 2; 3; 4] /\
  hovering s = false /\ is_delta (r_delta (s_r s)) 1 0 /\
  run_stack (execute 100 1 84) s = Ok (ENone, [2; 3; 1; 4]) /\
  run_stack (execute 100 1 76) s = Ok (ENone, [4; 1; 2; 3]) /\
  run_stack (execute 100 1 82) s = Ok (ENone, [2; 3; 4; 1]).
Proof.
  cbv zeta. split.
  { assert (A : forallb (letterb (loaded [FP_FISH] [1; 2; 3; 4]) FP_FISH 0) [67; 72; 76; 77; 78; 82; 83; 84; 86] = true)
      by (vm_compute; reflexivity).
    rewrite forallb_forall in A. intros c I. apply letterb_ok. exact (A c I). }
  split; [apply holds_with_list; vm_compute; [reflexivity|discriminate]|].
  split; [vm_compute; reflexivity|]. split; [apply is_deltab_ok; vm_compute; reflexivity|].
  vm_compute. auto.
Qed.
Print Assumptions C85_mirror.
Print Assumptions C85_shuffle.
Print Assumptions C85_empty_refuted.
Print Assumptions C85_conditional.

(** ** C86 Selecting stacks *)

(** D and I move the selection towards the bottom and the top of the stack of
    stacks and fail at its ends. *)
Theorem C86_select : forall F D s fld c,
  c = 68 \/ c = 73 -> Letter s FP_FISH fld c ->
  let n := ss_sel (mySS s) in let L := ss_list (mySS s) in
  (n < List.length L)%nat ->
  let possible := if c =? 68 then Nat.ltb (n + 1) (List.length L) else Nat.ltb 0 n in
  execute F (S D) c s =
    if possible
    then Ok (ENone, setSS {| ss_sel := if c =? 68 then (n + 1)%nat else (n - 1)%nat; ss_list := L |} s)
    else Ok (EUnspec, s).
Proof.
  intros F D s fld c Hc L n K Hn possible.
  rewrite (execute_letter F D _ _ _ _ L). change (fp_exec F FP_FISH fld c s) with (fish_exec c s).
  destruct Hc as [-> | ->].
  - change (fish_exec 68 s) with (modSel ss_decrement s). unfold modSel, mbind, getR. fold (mySS s).
    unfold possible. cbn [Z.eqb Pos.eqb]. unfold ss_decrement. fold n K.
    destruct (Nat.ltb_spec n (List.length K - 1)), (Nat.ltb_spec (n + 1) (List.length K)); try lia; [|reflexivity].
    rewrite (Nat.add_1_r n). reflexivity.
  - change (fish_exec 73 s) with (modSel ss_increment s). unfold modSel, mbind, getR. fold (mySS s).
    unfold possible. cbn [Z.eqb Pos.eqb]. unfold ss_increment. fold n K. destruct n as [|m]; [reflexivity|].
    cbn [Nat.ltb Nat.leb Nat.sub]. rewrite Nat.sub_0_r. reflexivity.
Qed.
(** So I undoes D. *)
Theorem C86_back : forall F D s fld fld',
  Letter s FP_FISH fld 68 -> Letter s FP_FISH fld' 73 ->
  (ss_sel (mySS s) + 1 < List.length (ss_list (mySS s)))%nat ->
  exists s1, execute F (S D) 68 s = Ok (ENone, s1) /\ execute F (S D) 73 s1 = Ok (ENone, s).
Proof.
  intros F D s fld fld' L1 L2 Hn.
  pose proof (C86_select F D s fld 68 (or_introl eq_refl) L1 ltac:(lia)) as E1. cbn [Z.eqb Pos.eqb] in E1.
  replace (Nat.ltb (ss_sel (mySS s) + 1) (List.length (ss_list (mySS s)))) with true in E1 by (symmetry; apply Nat.ltb_lt; exact Hn).
  set (s1 := setSS {| ss_sel := (ss_sel (mySS s) + 1)%nat; ss_list := ss_list (mySS s) |} s) in *.
  exists s1. split; [exact E1|].
  assert (L2' : Letter s1 FP_FISH fld' 73) by exact L2.
  assert (M1 : mySS s1 = {| ss_sel := (ss_sel (mySS s) + 1)%nat; ss_list := ss_list (mySS s) |}) by apply mySS_setSS.
  pose proof (C86_select F D s1 fld' 73 (or_intror eq_refl) L2' ltac:(rewrite M1; exact Hn)) as E2.
  rewrite E2, M1. cbn [ss_sel ss_list Z.eqb Pos.eqb].
  replace (Nat.ltb 0 (ss_sel (mySS s) + 1)) with true by (symmetry; apply Nat.ltb_lt; lia).
  rewrite Nat.add_sub. f_equal. f_equal. unfold s1. rewrite setSS_setSS. unfold setSS, mySS. destruct s as [w r]. cbn [s_w s_r].
  f_equal. destruct r as [? ? ? ? ? ? ? [sel li]]. reflexivity.
Qed.
(** But with the bottom stack selected, u and } look for a stack below it: the
    interpreter reads outside the list of stacks.  The stacks are [1; 1] over
    [7]; D, then u (or } ). *)
Definition two_stacks : st :=
  setSS {| ss_sel := 0; ss_list := [mk [1; 1]; mk [1; 7]] |} (start_with [FP_FISH] (chars "1.@")).
Definition after (c : Z) (s : st) : st := match execute 100 1 c s with Ok (_, s') => s' | Bad _ => dummy end.
Theorem C86_under_refuted :
  execute 100 1 117 (after 68 two_stacks) = Bad BadOob /\ execute 100 1 125 (after 68 two_stacks) = Bad BadOob.
Proof. vm_compute. split; reflexivity. Qed.
Example C86_example :
  Letter two_stacks FP_FISH 0 68 /\ Letter two_stacks FP_FISH 0 73 /\
  (ss_sel (mySS two_stacks) + 1 < List.length (ss_list (mySS two_stacks)))%nat.
Proof.
  split; [apply letterb_ok; vm_compute; reflexivity|]. split; [apply letterb_ok; vm_compute; reflexivity|].
  cbn. lia.
Qed.
Print Assumptions C86_select.
Print Assumptions C86_back.
Print Assumptions C86_under_refuted.

(** ** C87 The fisherman *)

(** [s] with the delta [d], the next cast going down or up. *)
Definition casting (s : st) (down : bool) (cache d : vec) : st :=
  {| s_w := s_w s; s_r := set_r_fish (Some (down, cache)) (set_r_delta d (s_r s)) |}.
Definition horizontal (d : vec) : Prop := vget d 0 <> 0 /\ vget d 1 = 0.

Lemma fisherman_cast s up cache : hovering s = false -> r_fish (s_r s) = Some (up, cache) ->
  vget (r_delta (s_r s)) 1 = 0 ->
  fisherman s = Ok (ENone, casting s (negb up) cache (mkvec [0; if up then -1 else 1])).
Proof.
  intros Hv Rf D1. unfold fisherman. unfold getDelta. unfold mbind at 1. unfold mbind at 1. unfold getR at 1. unfold ret at 1.
  rewrite D1. cbn [Z.eqb]. unfold fish_state. unfold mbind at 1. unfold mbind at 1. unfold mbind at 1. unfold getR at 1. rewrite Rf.
  unfold ret at 1. cbn [fst]. destruct up; unfold mbind at 1; rewrite (ipSetDelta_run _ s Hv);
    clear Hv; destruct s as [w r]; cbn [s_r] in *; destruct r; cbn in Rf; subst; reflexivity.
Qed.
Lemma fisherman_reel s up cache : hovering s = false -> r_fish (s_r s) = Some (up, cache) ->
  vget (r_delta (s_r s)) 1 <> 0 ->
  fisherman s = Ok (ENone, casting s up cache cache).
Proof.
  intros Hv Rf D1. unfold fisherman. unfold getDelta. unfold mbind at 1. unfold mbind at 1. unfold getR at 1. unfold ret at 1.
  destruct (Z.eqb_spec (vget (r_delta (s_r s)) 1) 0); [contradiction|].
  unfold fish_state. unfold mbind at 1. unfold mbind at 1. unfold mbind at 1. unfold getR at 1. rewrite Rf.
  unfold ret at 1. cbn [snd]. rewrite (ipSetDelta_run _ s Hv).
  unfold observe_delta. cbn [r_fish set_r_delta]. rewrite Rf.
  assert (X : forall b : bool, (if b then set_r_fish (Some (up, cache)) (set_r_delta cache (s_r s)) else set_r_delta cache (s_r s))
     = set_r_fish (Some (up, cache)) (set_r_delta cache (s_r s))).
  { intros [|]; [reflexivity|]. destruct s as [w r]. cbn [s_r] in *. destruct r. cbn in *. subst. reflexivity. }
  rewrite X. reflexivity.
Qed.

(** Both forms of the instruction. *)
Inductive Fisher : st -> res (err * st) -> Prop :=
| fisher_star x s e : r_string (s_r s) = false ->
    fish_execute true 96 x s = match e with Ok (a, s') => Ok ((a, x), s') | Bad b => Bad b end -> Fisher s e
| fisher_finger F D fld s e : Letter s FP_FISH fld 70 -> execute F (S D) 70 s = e -> Fisher s e.
Lemma fisher_runs s e : Fisher s e -> fisherman s = e.
Proof.
  intros [x s0 e0 NS E | F D fld s0 e0 L E].
  - rewrite (fish_move true 96 s0 x fisherman NS eq_refl) in E.
    destruct (fisherman s0) as [[a s']|], e0 as [[a' s'']|]; congruence.
  - rewrite (execute_letter F D _ _ _ _ L) in E. exact E.
Qed.

(** Moving horizontally, it turns the IP down and up in turn; moving vertically, it
    turns the IP to the horizontal direction it had last been told to take. *)
Theorem C87_cast : forall s e up cache,
  Fisher s e -> hovering s = false -> r_fish (s_r s) = Some (up, cache) -> vget (r_delta (s_r s)) 1 = 0 ->
  e = Ok (ENone, casting s (negb up) cache (mkvec [0; if up then -1 else 1])).
Proof. intros s e up cache H Hv Rf D. rewrite <- (fisher_runs s e H). now apply fisherman_cast. Qed.
Theorem C87_reel : forall s e up cache,
  Fisher s e -> hovering s = false -> r_fish (s_r s) = Some (up, cache) -> vget (r_delta (s_r s)) 1 <> 0 ->
  e = Ok (ENone, casting s up cache cache).
Proof. intros s e up cache H Hv Rf D. rewrite <- (fisher_runs s e H). now apply fisherman_reel. Qed.
(** The direction it remembers is that of the last change of direction, if it was
    horizontal.  So if the IP's present horizontal direction was set that way,
    casting and reeling in resume it. *)
Theorem C87_resume_partial : forall s e up d,
  hovering s = false -> r_delta (s_r s) = d -> r_fish (s_r s) = Some (up, d) -> horizontal d ->
  Fisher s e -> exists s1, e = Ok (ENone, s1) /\
    vget (r_delta (s_r s1)) 0 = 0 /\ vget (r_delta (s_r s1)) 1 = (if up then -1 else 1) /\
    forall e2, Fisher s1 e2 -> exists s2, e2 = Ok (ENone, s2) /\ r_delta (s_r s2) = d /\
      s2 = casting s (negb up) d d.
Proof.
  intros s e up d Hv Rd Rf [D0 D1] H.
  rewrite (C87_cast s e up d H Hv Rf ltac:(rewrite Rd; exact D1)). eexists. split; [reflexivity|].
  split; [destruct up; reflexivity|]. split; [destruct up; reflexivity|].
  intros e2 H2. rewrite (C87_reel _ e2 (negb up) d H2 Hv eq_refl ltac:(destruct up; discriminate)).
  eexists. split; [reflexivity|]. split; [reflexivity|]. reflexivity.
Qed.
(** But instructions that turn the IP without setting its direction (r [ ] and
    errors) are not noticed: after r in an IP moving right, F F sends it right
    again, though it was moving left. *)
Theorem C87_resume_refuted :
  let s := after 114 (start_with [FP_FISH] (chars "1.@")) in
  let s2 := after 70 (after 70 s) in
  (vget (r_delta (s_r s)) 0, vget (r_delta (s_r s)) 1) = (-1, 0) /\
  (vget (r_delta (s_r s2)) 0, vget (r_delta (s_r s2)) 1) = (1, 0).
Proof. vm_compute. split; reflexivity. Qed.

Example C87_example :
  let s := start_with [FP_FISH] (chars "1.@") in
  let t := fish_state0 true [59] in
  (exists e, Fisher s e) /\ hovering s = false /\ r_fish (s_r s) = Some (false, r_delta (s_r s)) /\ horizontal (r_delta (s_r s)) /\
  (exists e, Fisher t e) /\ hovering t = false /\ r_fish (s_r t) = Some (false, r_delta (s_r t)) /\ horizontal (r_delta (s_r t)).
Proof.
  cbv zeta. split.
  { eexists. refine (fisher_finger 100 0 0 _ _ _ eq_refl). apply letterb_ok. vm_compute. reflexivity. }
  split; [vm_compute; reflexivity|]. split; [vm_compute; reflexivity|]. split; [vm_compute; split; [discriminate|reflexivity]|].
  split.
  { assert (NS : r_string (s_r (fish_state0 true [59])) = false) by (vm_compute; reflexivity).
    exists (fisherman (fish_state0 true [59])). refine (fisher_star fx0 _ _ NS _).
    exact (fish_move true 96 _ fx0 fisherman NS eq_refl). }
  split; [vm_compute; reflexivity|]. split; [vm_compute; reflexivity|]. vm_compute. split; [discriminate|reflexivity].
Qed.
Print Assumptions C87_cast.
Print Assumptions C87_reel.
Print Assumptions C87_resume_partial.
Print Assumptions C87_resume_refuted.
