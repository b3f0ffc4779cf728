(** * Properties C50, C53, C56 and C57: LONG, FRTH, REFC and MODE *)

From Coq Require Import String ZArith List Bool Lia.
From Verif Require Import Base BaseProofs VectorModel VectorProofs TextModel TextProofs
  StackModel StackProofs FieldModel FieldProofs World IpModel LoadModel FingModel CoreModel
  UniModel ExecProofs FlowProofs States PropsBlocks Effects SchedProofs PropsSched PropsIO PropsLoad.
Import ListNotations.
Open Scope Z_scope.

(** ** Vocabulary *)

(** The character [c] currently means the instruction [c] of fingerprint [fp],
    loaded in universe [fld]; the IP is not in a string and no DIVE mode hides
    instructions. *)
Definition Letter (s : st) (fp : Z) (fld : nat) (c : Z) : Prop :=
  r_string (s_r s) = false /\
  testmode MODE_DIVE (w_uni (s_w s) (r_uni (s_r s))) = false /\
  exists mv, sem_top c (r_sem (s_r s)) = Some {| sm_act := AFing fp fld c; sm_move := mv |}.

Lemma execute_letter F D c s fp fld :
  Letter s fp fld c -> execute F (S D) c s = fp_exec F fp fld c s.
Proof.
  intros (NS & ND & mv & T). cbn [execute].
  unfold mbind at 1. unfold getR at 1. rewrite NS.
  unfold exec_normal. unfold mbind at 1. unfold getR at 1. rewrite T.
  unfold isMode. unfold mbind at 1. unfold mbind at 1. unfold getU at 1. unfold ret at 1. rewrite ND.
  reflexivity.
Qed.
(** Changing only the stack keeps every meaning. *)
Lemma letter_only s s' l fp fld c : Only_stack s s' l -> Letter s fp fld c -> Letter s' fp fld c.
Proof.
  intros O. unfold Letter. rewrite (Only_stack_w _ _ _ O), (Only_stack_r _ _ _ O). auto.
Qed.

(** A state of a new program with fingerprints loaded from the command line and
    [l] on the stack. *)
Definition loaded (fp : list Z) (l : list Z) : st := with_list l (start_with fp (chars "1.@")).
Definition letterb (s : st) (fp : Z) (fld : nat) (c : Z) : bool :=
  negb (r_string (s_r s)) && negb (testmode MODE_DIVE (w_uni (s_w s) (r_uni (s_r s)))) &&
  match sem_top c (r_sem (s_r s)) with
  | Some x => match sm_act x with AFing n f d => (n =? fp) && (Nat.eqb f fld) && (d =? c) | _ => false end
  | None => false
  end.
Lemma letterb_ok s fp fld c : letterb s fp fld c = true -> Letter s fp fld c.
Proof.
  unfold letterb. rewrite !andb_true_iff, !negb_true_iff. intros ((A & B) & C).
  split; [auto|]. split; [auto|].
  destruct (sem_top c (r_sem (s_r s))) as [[a m]|]; [|discriminate]. cbn [sm_act] in C.
  destruct a as [|n f d|]; try discriminate. rewrite !andb_true_iff in C. destruct C as ((C1 & C2) & C3).
  apply Z.eqb_eq in C1, C3. apply Nat.eqb_eq in C2. subst. exists m. reflexivity.
Qed.

Lemma popL_plain n : forall s l, Holds s l ->
  exists s', popL n s = Ok (taken n l, s') /\ Only_stack s s' (skipn n l).
Proof.
  unfold popL. induction n as [|n IH]; intros s l H; cbn [popNAt].
  - exists s. split; [reflexivity|]. now apply Only_stack_refl.
  - destruct (popS_plain s l H) as (s1 & E1 & C1). fold popS.
    rewrite (run_bind _ _ _ _ _ E1).
    destruct (IH s1 (tl l) (Only_stack_holds _ _ _ _ H C1)) as (s2 & E2 & C2).
    rewrite (run_bind _ _ _ _ _ E2). exists s2. rewrite taken_S. split; [reflexivity|].
    replace (skipn (S n) l) with (skipn n (tl l)) by (destruct l; [now rewrite skipn_nil|reflexivity]).
    exact (Only_stack_trans _ _ _ _ _ C1 C2).
Qed.
Lemma pushL_plain x : forall s l, Holds s l ->
  exists s', pushL x s = Ok (tt, s') /\ Only_stack s s' (rev x ++ l).
Proof.
  unfold pushL. induction x as [|y x IH]; intros s l H; cbn [pushLAt].
  - exists s. split; [reflexivity|]. now apply Only_stack_refl.
  - destruct (pushS_plain s l y H) as (s1 & E1 & C1).
    change (pushAt TOP y) with (pushS y). rewrite (run_bind _ _ _ _ _ E1).
    destruct (IH s1 _ (Only_stack_holds _ _ _ _ H C1)) as (s2 & E2 & C2).
    exists s2. split; [exact E2|]. cbn [rev]. rewrite <- app_assoc. exact (Only_stack_trans _ _ _ _ _ C1 C2).
Qed.

(** ** C56 LONG *)

(** Specification: the number a pair of cells stands for, the low half on top,
    and 128-bit two's complement arithmetic. *)
Definition long (hi lo : Z) : Z := hi * 2 ^ 64 + lo mod 2 ^ 64.
Definition Stands (hi lo n : Z) : Prop :=
  in64 hi /\ in64 lo /\ (long hi lo - n) mod 2 ^ 128 = 0.

Lemma long_of_long h l : in64 h -> long_of h l = long h l.
Proof. intros H. unfold long_of, long. now rewrite to_i64_id. Qed.
Lemma stands n : Stands (long_hi (to_i128 n)) (long_lo (to_i128 n)) n.
Proof.
  assert (R : - 2 ^ 127 <= to_i128 n < 2 ^ 127) by (apply (wrap_range 128); lia).
  assert (M : (to_i128 n - n) mod 2 ^ 128 = 0) by (apply (wrap_mod 128); lia).
  unfold Stands. revert R M. generalize (to_i128 n) as m. intros m R M.
  assert (A : in64 (m / 2 ^ 64)).
  { unfold in64, INT64_MIN, INT64_MAX. Z.div_mod_to_equations. lia. }
  assert (B : in64 (to_i64 m)).
  { pose proof (wrap_range 64 m). unfold to_i64, in64, INT64_MIN, INT64_MAX. simpl in *. lia. }
  split; [|split].
  - unfold long_hi. now rewrite to_i64_id.
  - exact B.
  - assert (K : long (long_hi m) (long_lo m) = m).
    { unfold long, long_hi, long_lo. rewrite to_i64_id by exact A.
      assert (W : to_i64 m mod 2 ^ 64 = m mod 2 ^ 64).
      { unfold to_i64, wrap. rewrite Zminus_mod, Zmod_mod, <- Zminus_mod. f_equal. lia. }
      rewrite W. rewrite (Z.mul_comm (m / 2 ^ 64)). symmetry. apply Z.div_mod. lia. }
    rewrite K. exact M.
Qed.

Lemma popLong_plain s l : Holds s l -> in64 (nth 1 l 0) ->
  exists s', popLong s = Ok (long (nth 1 l 0) (nth 0 l 0), s') /\ Only_stack s s' (skipn 2 l).
Proof.
  intros H A. unfold popLong. xpop. xpop. exists s1. unfold ret.
  replace (hd 0 l) with (nth 0 l 0) by (destruct l; reflexivity).
  replace (hd 0 (tl l)) with (nth 1 l 0) by (destruct l as [|? [|]]; reflexivity).
  rewrite long_of_long by exact A. split; [reflexivity|].
  replace (skipn 2 l) with (tl (tl l)) by (destruct l as [|? [|]]; reflexivity). os_finish.
Qed.
Lemma pushLong_plain s l n : Holds s l ->
  exists s', pushLong n s = Ok (tt, s') /\ Only_stack s s' (long_lo n :: long_hi n :: l).
Proof.
  intros H. unfold pushLong. xpush.
  destruct (pushS_plain _ _ (long_lo n) H0) as (s2 & E2 & C2). exists s2. split; [exact E2|]. os_finish.
Qed.
Lemma nth_skip2 n (l : list Z) : nth n (skipn 2 l) 0 = nth (S (S n)) l 0.
Proof. destruct l as [|? [|]]; cbn [skipn nth]; destruct n; reflexivity. Qed.
Lemma skip2_2 (l : list Z) : skipn 2 (skipn 2 l) = skipn 4 l.
Proof. destruct l as [|? [|? l]]; reflexivity. Qed.

(** A binary operation of LONG. *)
Lemma long_op_plain f g s l :
  Holds s l -> in64 (nth 1 l 0) -> in64 (nth 3 l 0) ->
  let a := long (nth 3 l 0) (nth 2 l 0) in let b := long (nth 1 l 0) (nth 0 l 0) in
  f a b = Ok (to_i128 (g a b)) ->
  exists s' hi lo, long_op f s = Ok (ENone, s') /\ Only_stack s s' (lo :: hi :: skipn 4 l) /\
    Stands hi lo (g a b).
Proof.
  intros H A B a b Hf. unfold long_op.
  destruct (popLong_plain s l H A) as (s1 & E1 & C1). rewrite (run_bind _ _ _ _ _ E1).
  pose proof (Only_stack_holds _ _ _ _ H C1) as H1.
  destruct (popLong_plain s1 _ H1) as (s2 & E2 & C2); [now rewrite nth_skip2|].
  rewrite (run_bind _ _ _ _ _ E2). rewrite !nth_skip2. fold a b.
  pose proof (Only_stack_holds _ _ _ _ H1 C2) as H2. rewrite skip2_2 in *.
  rewrite (run_bind (lift (f a b)) _ s2 (to_i128 (g a b)) s2) by (now apply run_lift).
  destruct (pushLong_plain s2 _ (to_i128 (g a b)) H2) as (s3 & E3 & C3). rewrite (run_bind _ _ _ _ _ E3).
  exists s3, (long_hi (to_i128 (g a b))), (long_lo (to_i128 (g a b))).
  split; [reflexivity|]. split; [os_finish|apply stands].
Qed.

(** The integer the LONG instruction [c] makes of [a] and [b], [b] on top. *)
Definition long_arith (c a b : Z) : option Z :=
  if c =? 65 (* A *) then Some (a + b)
  else if c =? 68 (* D *) then Some (if b =? 0 then 0 else Z.quot a b)
  else if c =? 77 (* M *) then Some (a * b)
  else if c =? 79 (* O *) then Some (if b =? 0 then 0 else Z.rem a b)
  else None.

(** For every two 128-bit numbers on the stack, LONG A, M, D and O leave the pair of
    cells that stands for their sum, product, quotient and remainder modulo 2^128
    (division by zero giving 0), and change nothing else.  S is missing: see
    [C56_refuted] and [C56_S]. *)
Theorem C56_partial : forall F D c s fld l n,
  Letter s FP_LONG fld c -> Holds s l ->
  in64 (nth 1 l 0) -> in64 (nth 3 l 0) ->
  long_arith c (long (nth 3 l 0) (nth 2 l 0)) (long (nth 1 l 0) (nth 0 l 0)) = Some n ->
  exists s' hi lo, execute F (S D) c s = Ok (ENone, s') /\
    Only_stack s s' (lo :: hi :: skipn 4 l) /\ Stands hi lo n.
Proof.
  intros F D c s fld l n L H A B E. rewrite (execute_letter F D _ _ _ _ L).
  change (fp_exec F FP_LONG fld c) with (long_exec c).
  unfold long_arith in E.
  repeat match type of E with
  | (if ?x =? ?k then _ else _) = _ => destruct (Z.eqb_spec x k) as [->|]; [injection E as <-; cbn [long_exec Z.eqb Pos.eqb]|]
  end; [..|discriminate].
  - exact (long_op_plain _ (fun a b => a + b) s l H A B eq_refl).
  - apply (long_op_plain _ (fun a b => if b =? 0 then 0 else Z.quot a b) s l H A B).
    destruct (_ =? 0); reflexivity.
  - exact (long_op_plain _ (fun a b => a * b) s l H A B eq_refl).
  - apply (long_op_plain _ (fun a b => if b =? 0 then 0 else Z.rem a b) s l H A B).
    destruct (_ =? 0); reflexivity.
Qed.
(** What S does, for every two numbers: it adds them. *)
Theorem C56_S : forall F D s fld l,
  Letter s FP_LONG fld 83 -> Holds s l -> in64 (nth 1 l 0) -> in64 (nth 3 l 0) ->
  exists s' hi lo, execute F (S D) 83 s = Ok (ENone, s') /\
    Only_stack s s' (lo :: hi :: skipn 4 l) /\
    Stands hi lo (long (nth 3 l 0) (nth 2 l 0) + long (nth 1 l 0) (nth 0 l 0)).
Proof.
  intros F D s fld l L H A B. rewrite (execute_letter F D _ _ _ _ L).
  exact (long_op_plain _ (fun a b => a + b) s l H A B eq_refl).
Qed.
(** So LONG S does not subtract: 5 S 2 gives 7. *)
Theorem C56_refuted : exists s fld l,
  Letter s FP_LONG fld 83 /\ Holds s l /\ in64 (nth 1 l 0) /\ in64 (nth 3 l 0) /\
  long (nth 3 l 0) (nth 2 l 0) = 5 /\ long (nth 1 l 0) (nth 0 l 0) = 2 /\
  forall F D s', execute F (S D) 83 s = Ok (ENone, s') ->
    Holds s' [7; 0] /\ ~ Stands 0 7 (5 - 2).
Proof.
  exists (loaded [FP_LONG] [2; 0; 5; 0]), 0%nat, [2; 0; 5; 0].
  assert (L : Letter (loaded [FP_LONG] [2; 0; 5; 0]) FP_LONG 0 83) by (apply letterb_ok; vm_compute; reflexivity).
  assert (H : Holds (loaded [FP_LONG] [2; 0; 5; 0]) [2; 0; 5; 0])
    by (apply holds_with_list; vm_compute; [reflexivity|discriminate]).
  split; [exact L|]. split; [exact H|]. split; [cbn; unfold in64, INT64_MIN, INT64_MAX; lia|].
  split; [cbn; unfold in64, INT64_MIN, INT64_MAX; lia|]. split; [reflexivity|]. split; [reflexivity|].
  intros F D s'. rewrite (execute_letter F D _ _ _ _ L). change (fp_exec F FP_LONG 0 83) with (long_exec 83).
  intros E. split.
  - assert (K : match long_exec 83 (loaded [FP_LONG] [2; 0; 5; 0]) with
                | Ok (_, s') => match ss_top (mySS s') with
                                | Ok k => k = {| s_mode := 0; s_list := [7; 0]; s_ops := s_ops k |}
                                | _ => False end
                | _ => False end) by (vm_compute; reflexivity).
    rewrite E in K. unfold Holds. destruct (ss_top (mySS s')) as [k|]; [|contradiction].
    exists k. split; [reflexivity|]. rewrite K. split; [split|]; reflexivity.
  - intros (_ & _ & M). vm_compute in M. discriminate.
Qed.
(** The hypotheses of [C56_partial] are met: (2^64 - 1) + 1 and 3 * -1. *)
Example C56_ex : let s := loaded [FP_LONG] [1; 0; -1; 0] in
  Letter s FP_LONG 0 65 /\ Holds s [1; 0; -1; 0] /\
  long_arith 65 (long 0 (-1)) (long 0 1) = Some (2 ^ 64) /\
  run_stack (execute 10 1 65) s = Ok (ENone, [0; 1]) /\
  run_stack (execute 10 1 77) (loaded [FP_LONG] [3; 0; -1; -1]) = Ok (ENone, [-3; -1]).
Proof.
  cbv zeta. split; [apply letterb_ok; vm_compute; reflexivity|].
  split; [apply holds_with_list; vm_compute; [reflexivity|discriminate]|].
  split; [reflexivity|]. split; vm_compute; reflexivity.
Qed.
Print Assumptions C56_partial.
Print Assumptions C56_S.
Print Assumptions C56_refuted.

(** ** C50 FRTH *)

(** Specification: rolling the [n]-th cell below the top up to the top, and back. *)
Definition roll (n : nat) (l : list Z) : list Z :=
  nth n l 0 :: taken n l ++ skipn (S n) l.
Definition roll_back (n : nat) (l : list Z) : list Z :=
  taken n (tl l) ++ hd 0 l :: skipn (S n) l.

Lemma taken_last n : forall l, taken (S n) l = taken n l ++ [nth n l 0].
Proof. intros l. unfold taken. rewrite seq_S, map_app. reflexivity. Qed.

(** For every stack [l] (cells that are missing count as zeros), with the count [u]
    on top where the instruction takes one. *)
Theorem C50_partial : forall F D s fld l,
  (Letter s FP_FRTH fld 68 -> Holds s l ->
     exists s', execute F (S D) 68 s = Ok (ENone, s') /\ Only_stack s s' (Z.of_nat (length l) :: l)) /\
  (Letter s FP_FRTH fld 79 -> Holds s l ->
     exists s', execute F (S D) 79 s = Ok (ENone, s') /\
       Only_stack s s' (nth 1 l 0 :: nth 0 l 0 :: nth 1 l 0 :: skipn 2 l)) /\
  (Letter s FP_FRTH fld 82 -> Holds s l ->
     exists s', execute F (S D) 82 s = Ok (ENone, s') /\
       Only_stack s s' (nth 2 l 0 :: nth 0 l 0 :: nth 1 l 0 :: skipn 3 l)) /\
  (forall u, Letter s FP_FRTH fld 80 -> Holds s (u :: l) -> 0 <= u < INT64_MAX ->
     exists s', execute F (S D) 80 s = Ok (ENone, s') /\
       Only_stack s s' (nth (Z.to_nat u) l 0 :: l)) /\
  (forall u, Letter s FP_FRTH fld 80 -> Holds s (u :: l) -> u < 0 ->
     exists s', execute F (S D) 80 s = Ok (EUnspec, s') /\ Only_stack s s' l) /\
  (forall u, Letter s FP_FRTH fld 76 -> Holds s (u :: l) -> 0 <= u < INT64_MAX ->
     exists s', execute F (S D) 76 s = Ok (ENone, s') /\ Only_stack s s' (roll (Z.to_nat u) l)) /\
  (forall u, Letter s FP_FRTH fld 76 -> Holds s (u :: l) -> - INT64_MAX < u < 0 ->
     exists s', execute F (S D) 76 s = Ok (ENone, s') /\ Only_stack s s' (roll_back (Z.to_nat (- u)) l)).
Proof.
  intros F D s fld l.
  split; [|split; [|split; [|split; [|split; [|split]]]]].
  - intros L H. rewrite (execute_letter F D _ _ _ _ L). change (fp_exec F FP_FRTH fld 68 s) with (frth_exec 68 s).
    cbn [frth_exec Z.eqb Pos.eqb].
    destruct (onStack_plain (fun k => (stk_size k, k)) s l l (Z.of_nat (length l)) H) as (s1 & E1 & C1).
    { intros k _ K. unfold stk_size. cbn [fst snd]. rewrite K. auto. }
    unfold sizeS. rewrite (run_bind _ _ _ _ _ E1). pose proof (Only_stack_holds _ _ _ _ H C1). xpush.
    eexists. split; [reflexivity|]. os_finish.
  - intros L H. rewrite (execute_letter F D _ _ _ _ L). change (fp_exec F FP_FRTH fld 79 s) with (frth_exec 79 s).
    cbn [frth_exec Z.eqb Pos.eqb]. xpop. xpop.
    destruct (pushL_plain [hd 0 (tl l); hd 0 l; hd 0 (tl l)] _ _ H1) as (s3 & E3 & C3).
    rewrite (run_bind _ _ _ _ _ E3). exists s3. split; [reflexivity|].
    replace (nth 1 l 0) with (hd 0 (tl l)) by (destruct l as [|? [|]]; reflexivity).
    replace (nth 0 l 0) with (hd 0 l) by (destruct l; reflexivity).
    replace (skipn 2 l) with (tl (tl l)) by (destruct l as [|? [|]]; reflexivity).
    cbn [rev app] in C3. os_finish.
  - intros L H. rewrite (execute_letter F D _ _ _ _ L). change (fp_exec F FP_FRTH fld 82 s) with (frth_exec 82 s).
    cbn [frth_exec Z.eqb Pos.eqb]. xpop. xpop. xpop.
    destruct (pushL_plain [hd 0 (tl l); hd 0 l; hd 0 (tl (tl l))] _ _ H2) as (s4 & E4 & C4).
    rewrite (run_bind _ _ _ _ _ E4). exists s4. split; [reflexivity|].
    replace (nth 2 l 0) with (hd 0 (tl (tl l))) by (destruct l as [|? [|? [|]]]; reflexivity).
    replace (nth 1 l 0) with (hd 0 (tl l)) by (destruct l as [|? [|]]; reflexivity).
    replace (nth 0 l 0) with (hd 0 l) by (destruct l; reflexivity).
    replace (skipn 3 l) with (tl (tl (tl l))) by (destruct l as [|? [|? [|]]]; reflexivity).
    cbn [rev app] in C4. os_finish.
  - intros u L H U. rewrite (execute_letter F D _ _ _ _ L). change (fp_exec F FP_FRTH fld 80 s) with (frth_exec 80 s).
    cbn [frth_exec Z.eqb Pos.eqb]. xpop. cbn [hd tl] in *.
    replace (u <? 0) with false by (symmetry; apply Z.ltb_ge; lia).
    rewrite (run_bind (lift (add64 u 1)) _ s0 (u + 1) s0)
      by (apply run_lift; apply chk64_ok; unfold in64, INT64_MIN, INT64_MAX in *; lia).
    destruct (onStack_plain (fun k => (stk_get (u + 1) k, k)) s0 l l (nth (Z.to_nat u) l 0) H0) as (s2 & E2 & C2).
    { intros k (Q & I) K. cbn [fst snd]. split; [|auto]. unfold stk_get, stk_size. rewrite Q, K.
      replace (0 <? u + 1) with true by (symmetry; apply Z.ltb_lt; lia). rewrite andb_true_r.
      replace (u + 1 - 1) with u by lia.
      destruct (Z.leb_spec (u + 1) (Z.of_nat (length l))); [reflexivity|].
      symmetry. apply nth_overflow. lia. }
    unfold getS. rewrite (run_bind _ _ _ _ _ E2). pose proof (Only_stack_holds _ _ _ _ H0 C2). xpush.
    eexists. split; [reflexivity|]. os_finish.
  - intros u L H U. rewrite (execute_letter F D _ _ _ _ L). change (fp_exec F FP_FRTH fld 80 s) with (frth_exec 80 s).
    cbn [frth_exec Z.eqb Pos.eqb]. xpop. cbn [hd tl] in *.
    replace (u <? 0) with true by (symmetry; apply Z.ltb_lt; lia).
    eexists. split; [reflexivity|]. exact C.
  - intros u L H U. rewrite (execute_letter F D _ _ _ _ L). change (fp_exec F FP_FRTH fld 76 s) with (frth_exec 76 s).
    cbn [frth_exec Z.eqb Pos.eqb]. xpop. cbn [hd tl] in *.
    replace (u <? 0) with false by (symmetry; apply Z.ltb_ge; lia).
    unfold mbind at 1. unfold ret at 1.
    rewrite (run_bind (lift (add64 u 1)) _ s0 (u + 1) s0)
      by (apply run_lift; apply chk64_ok; unfold in64, INT64_MIN, INT64_MAX in *; lia).
    unfold vla. replace (u + 1 <? 0) with false by (symmetry; apply Z.ltb_ge; lia).
    unfold mbind at 1. unfold ret at 1.
    replace (Z.to_nat (u + 1)) with (S (Z.to_nat u)) by lia.
    destruct (popL_plain (S (Z.to_nat u)) _ _ H0) as (s2 & E2 & C2). rewrite (run_bind _ _ _ _ _ E2).
    pose proof (Only_stack_holds _ _ _ _ H0 C2) as H2.
    rewrite taken_last. rewrite firstn_app, skipn_app, taken_length, Nat.sub_diag.
    rewrite firstn_all2 by (rewrite taken_length; lia). rewrite skipn_all2 by (rewrite taken_length; lia).
    cbn [firstn skipn app]. rewrite app_nil_r.
    destruct (pushL_plain (rev (taken (Z.to_nat u) l)) _ _ H2) as (s3 & E3 & C3).
    pose proof (Only_stack_holds _ _ _ _ H2 C3) as H3.
    destruct (pushL_plain [nth (Z.to_nat u) l 0] _ _ H3) as (s4 & E4 & C4).
    unfold mbind at 1. unfold mbind at 1. rewrite E3, E4. eexists. split; [reflexivity|].
    rewrite rev_involutive in *. cbn [rev app] in C4. unfold roll. os_finish.
  - intros u L H U. rewrite (execute_letter F D _ _ _ _ L). change (fp_exec F FP_FRTH fld 76 s) with (frth_exec 76 s).
    cbn [frth_exec Z.eqb Pos.eqb]. xpop. cbn [hd tl] in *.
    replace (u <? 0) with true by (symmetry; apply Z.ltb_lt; lia).
    rewrite (run_bind (lift (neg64 u)) _ s0 (- u) s0)
      by (apply run_lift; apply chk64_ok; unfold in64, INT64_MIN, INT64_MAX in *; lia).
    rewrite (run_bind (lift (add64 (- u) 1)) _ s0 (- u + 1) s0)
      by (apply run_lift; apply chk64_ok; unfold in64, INT64_MIN, INT64_MAX in *; lia).
    unfold vla. replace (- u + 1 <? 0) with false by (symmetry; apply Z.ltb_ge; lia).
    unfold mbind at 1. unfold ret at 1.
    replace (Z.to_nat (- u + 1)) with (S (Z.to_nat (- u))) by lia.
    destruct (popL_plain (S (Z.to_nat (- u))) _ _ H0) as (s2 & E2 & C2). rewrite (run_bind _ _ _ _ _ E2).
    pose proof (Only_stack_holds _ _ _ _ H0 C2) as H2.
    rewrite taken_S. cbn [firstn skipn].
    destruct (pushL_plain [hd 0 l] _ _ H2) as (s3 & E3 & C3).
    pose proof (Only_stack_holds _ _ _ _ H2 C3) as H3.
    destruct (pushL_plain (rev (taken (Z.to_nat (- u)) (tl l))) _ _ H3) as (s4 & E4 & C4).
    unfold mbind at 1. unfold mbind at 1. rewrite E3, E4. eexists. split; [reflexivity|].
    rewrite rev_involutive in *. cbn [rev app] in C4. unfold roll_back. os_finish.
Qed.
(** With the largest count, P and L add one to it: undefined. *)
Theorem C50_refuted : exists s fld, Letter s FP_FRTH fld 76 /\ Letter s FP_FRTH fld 80 /\
  Holds s [INT64_MAX; 1; 2] /\
  forall F D, execute F (S D) 76 s = Bad BadOverflow /\ execute F (S D) 80 s = Bad BadOverflow.
Proof.
  exists (loaded [FP_FRTH] [INT64_MAX; 1; 2]), 0%nat.
  assert (A : Letter (loaded [FP_FRTH] [INT64_MAX; 1; 2]) FP_FRTH 0 76) by (apply letterb_ok; vm_compute; reflexivity).
  assert (B : Letter (loaded [FP_FRTH] [INT64_MAX; 1; 2]) FP_FRTH 0 80) by (apply letterb_ok; vm_compute; reflexivity).
  split; [exact A|]. split; [exact B|].
  split; [apply holds_with_list; vm_compute; [reflexivity|discriminate]|].
  intros F D. rewrite (execute_letter F D _ _ _ _ A), (execute_letter F D _ _ _ _ B).
  split; vm_compute; reflexivity.
Qed.
(** Rolling keeps the other cells in order. *)
Theorem C50_roll_order : forall n l, (n < length l)%nat ->
  exists a x b, length a = n /\ l = a ++ x :: b /\ roll n l = x :: a ++ b.
Proof.
  intros n l H. exists (firstn n l), (nth n l 0), (skipn (S n) l).
  split; [now apply firstn_length_le, Nat.lt_le_incl|]. split.
  - rewrite <- (firstn_skipn n l) at 1. f_equal.
    revert l H. induction n as [|n IH]; intros [|y l] H; cbn in *; try lia; auto. apply IH. lia.
  - unfold roll. rewrite taken_firstn by lia. reflexivity.
Qed.
Example C50_ex : let s := loaded [FP_FRTH] [2; 10; 11; 12; 13] in
  Letter s FP_FRTH 0 76 /\ Letter s FP_FRTH 0 80 /\ Holds s [2; 10; 11; 12; 13] /\
  run_stack (execute 10 1 76) s = Ok (ENone, [12; 10; 11; 13]) /\
  run_stack (execute 10 1 80) s = Ok (ENone, [12; 10; 11; 12; 13]) /\
  run_stack (execute 10 1 76) (loaded [FP_FRTH] [-2; 10; 11; 12; 13]) = Ok (ENone, [11; 12; 10; 13]).
Proof.
  cbv zeta. split; [apply letterb_ok; vm_compute; reflexivity|].
  split; [apply letterb_ok; vm_compute; reflexivity|].
  split; [apply holds_with_list; vm_compute; [reflexivity|discriminate]|].
  repeat split; vm_compute; reflexivity.
Qed.
Print Assumptions C50_partial.
Print Assumptions C50_roll_order.

(** ** C53 REFC *)

(** [x] is a reference to [v]. *)
Definition Refers (w : world) (x : Z) (v : vec) : Prop := assoc x (w_refs w) = Some v.
(** The [i]-th of the random numbers still to come, as [random()] returns it. *)
Definition next_random (w : world) (i : nat) : Z := w_rnd w (w_nrnd w + i)%nat mod 2 ^ 31.

Lemma refc_try_run s : refc_try tt s =
  let s' := {| s_w := set_w_nrnd (S (w_nrnd (s_w s))) (s_w s); s_r := s_r s |} in
  match assoc (next_random (s_w s) 0) (w_refs (s_w s)) with
  | Some _ => Ok (inl tt, s')
  | None => Ok (inr (next_random (s_w s) 0), s')
  end.
Proof.
  unfold refc_try, next_random. unfold mbind at 1. unfold rnd at 1. unfold mbind at 1. unfold getW at 1.
  rewrite Nat.add_0_r. cbn [s_w w_refs set_w_nrnd]. cbv zeta. destruct (assoc _ _); reflexivity.
Qed.
Definition after (k : nat) (s : st) : st :=
  {| s_w := set_w_nrnd (w_nrnd (s_w s) + k)%nat (s_w s); s_r := s_r s |}.
Lemma refc_after k s : refc_try tt (after k s) =
  match assoc (next_random (s_w s) k) (w_refs (s_w s)) with
  | Some _ => Ok (inl tt, after (S k) s)
  | None => Ok (inr (next_random (s_w s) k), after (S k) s)
  end.
Proof.
  rewrite refc_try_run. unfold after, next_random. cbn [s_w s_r w_rnd w_nrnd w_refs set_w_nrnd]. cbv zeta.
  rewrite Nat.add_0_r. replace (S (w_nrnd (s_w s) + k)) with (w_nrnd (s_w s) + S k)%nat by lia.
  reflexivity.
Qed.
Lemma after_0 s : after 0 s = s.
Proof. unfold after. rewrite Nat.add_0_r. destruct s as [[] r]. reflexivity. Qed.
(** The search stops at the first unused random number. *)
Lemma refc_loop F s k :
  (forall i, (i < k)%nat -> assoc (next_random (s_w s) i) (w_refs (s_w s)) <> None) ->
  assoc (next_random (s_w s) k) (w_refs (s_w s)) = None ->
  (k < Pos.to_nat F)%nat ->
  loopM F refc_try tt s = Ok (next_random (s_w s) k, after (S k) s).
Proof.
  intros A B L. rewrite <- (after_0 s) at 1.
  apply (loopM_run F refc_try (fun i => (tt, after i s)) k); [|cbn [fst snd]|exact L].
  - intros i Hi. cbn [fst snd]. rewrite refc_after. specialize (A i Hi).
    destruct (assoc _ _); [reflexivity|congruence].
  - rewrite refc_after, B. reflexivity.
Qed.
(** ... and if it stops, it does so at such a number. *)
Lemma refc_loop_inv F s x s' : loopM F refc_try tt s = Ok (x, s') ->
  exists k, assoc x (w_refs (s_w s)) = None /\ x = next_random (s_w s) k /\ s' = after (S k) s.
Proof.
  unfold loopM. intros E.
  apply (loop_inv _ (fun y => exists k, snd y = after k s)
           (fun y => exists k, assoc (fst y) (w_refs (s_w s)) = None /\ fst y = next_random (s_w s) k /\ snd y = after (S k) s)
           F (tt, s)) in E; [exact E| | |].
  - exists 0%nat. cbn [snd]. now rewrite after_0.
  - intros [[] s1] y (k & K) X. cbn [fst snd] in *. subst s1. rewrite refc_after in X.
    destruct (assoc _ _) eqn:Ea; inversion X; subst. exists (S k). reflexivity.
  - intros [[] s1] y (k & K) X. cbn [fst snd] in *. subst s1. rewrite refc_after in X.
    destruct (assoc _ _) eqn:Ea; inversion X; subst. exists k. auto.
Qed.

(** [Only_stack] is about the IP, not the world. *)
Lemma only_stack_r s s1 s2 l : Only_stack s1 s2 l -> s_r s1 = s_r s ->
  exists s3, Only_stack s s3 l /\ s_r s2 = s_r s3.
Proof.
  intros (k & k' & A & B & C & ->) R. exists (setSS (ss_set (mySS s) (ss_sel (mySS s)) k') s).
  unfold mySS in *. rewrite R in *. split; [|cbn [setSS s_r]; now rewrite R].
  exists k, k'. auto.
Qed.
Lemma was_trans s s1 s2 w l l' : World_and_stack s s1 w l -> Only_stack s1 s2 l' -> World_and_stack s s2 w l'.
Proof.
  intros (W & a & A & R) O. split; [rewrite (Only_stack_w _ _ _ O); exact W|].
  destruct (only_stack_r a s1 s2 l' O R) as (b & B & E). exists b. split; [|exact E].
  exact (Only_stack_trans _ _ _ _ _ A B).
Qed.
Lemma was_holds s s1 w l l' : Holds s l -> World_and_stack s s1 w l' -> Holds s1 l'.
Proof.
  intros H (W & a & A & R). pose proof (Only_stack_holds _ _ _ _ H A) as X.
  unfold Holds, mySS in *. now rewrite R.
Qed.

(** R takes a vector from the stack and leaves a reference no one had before: it
    refers to that vector, and what every other reference refers to stays as it was.
    Nothing else changes, but for the use of random numbers. *)
Theorem C53_R : forall F D s fld l e s',
  Letter s FP_REFC fld 82 -> Holds s l ->
  execute F (S D) 82 s = Ok (e, s') ->
  exists x v k,
    e = ENone /\ 0 <= x < 2 ^ 31 /\
    (forall u, ~ Refers (s_w s) x u) /\ Refers (s_w s') x v /\
    (forall i, vget v i = vec_of (dims_of s) l i) /\
    (forall y u, y <> x -> Refers (s_w s') y u <-> Refers (s_w s) y u) /\
    World_and_stack s s' (set_w_refs (w_refs (s_w s')) (set_w_nrnd k (s_w s))) (x :: skipn (dims_of s) l).
Proof.
  intros F D s fld l e s' L H E. rewrite (execute_letter F D _ _ _ _ L) in E.
  change (fp_exec F FP_REFC fld 82 s) with (refc_exec F 82 s) in E. cbn [refc_exec Z.eqb Pos.eqb] in E.
  destruct (popVec_plain s l H) as (s1 & v & E1 & C1 & G & _).
  rewrite (run_bind _ _ _ _ _ E1) in E. apply run_bind_inv in E. destruct E as (x & s2 & E2 & E3).
  apply refc_loop_inv in E2. destruct E2 as (k & A & X & S2).
  rewrite (Only_stack_w _ _ _ C1) in A, X.
  set (s3 := {| s_w := set_w_refs ((x, v) :: w_refs (s_w s2)) (s_w s2); s_r := s_r s2 |}).
  assert (W3 : World_and_stack s s3 (set_w_refs ((x, v) :: w_refs (s_w s)) (set_w_nrnd (w_nrnd (s_w s) + S k) (s_w s))) (skipn (dims_of s) l)).
  { subst s2. unfold s3, after. cbn [s_w s_r]. rewrite (Only_stack_w _ _ _ C1). split; [reflexivity|].
    exists s1. split; [exact C1|reflexivity]. }
  rewrite (run_bind (modW _) _ s2 tt s3) in E3 by reflexivity.
  destruct (pushS_plain s3 _ x (was_holds _ _ _ _ _ H W3)) as (s4 & E4 & C4).
  rewrite (run_bind _ _ _ _ _ E4) in E3. inversion E3; subst e s4.
  pose proof (was_trans _ _ _ _ _ _ W3 C4) as (W & O).
  exists x, v, (w_nrnd (s_w s) + S k)%nat. split; [reflexivity|].
  split; [subst x; apply Z.mod_pos_bound; reflexivity|].
  split; [intros u Hu; unfold Refers in Hu; congruence|].
  assert (RR : w_refs (s_w s') = (x, v) :: w_refs (s_w s)) by (rewrite W; reflexivity).
  unfold Refers. rewrite RR. cbn [assoc]. rewrite Z.eqb_refl. split; [reflexivity|]. split; [exact G|].
  split; [intros y u N; destruct (Z.eqb_spec x y); [congruence|tauto]|].
  split; [exact W|exact O].
Qed.
(** R succeeds as soon as the random numbers bring one that is not a reference. *)
Theorem C53_R_ends : forall F D s fld l k,
  Letter s FP_REFC fld 82 -> Holds s l ->
  (forall u, ~ Refers (s_w s) (next_random (s_w s) k) u) -> (k < Pos.to_nat F)%nat ->
  exists s', execute F (S D) 82 s = Ok (ENone, s').
Proof.
  intros F D s fld l k L H N K. rewrite (execute_letter F D _ _ _ _ L).
  change (fp_exec F FP_REFC fld 82 s) with (refc_exec F 82 s). cbn [refc_exec Z.eqb Pos.eqb].
  destruct (popVec_plain s l H) as (s1 & v & E1 & C1 & G & _). rewrite (run_bind _ _ _ _ _ E1).
  pose proof (Only_stack_w _ _ _ C1) as W1.
  set (free := fun i => match assoc (next_random (s_w s) i) (w_refs (s_w s)) with None => true | _ => false end).
  assert (X : exists m, (m <= k)%nat /\ free m = true /\ forall i, (i < m)%nat -> free i = false).
  { assert (Fk : free k = true).
    { unfold free, Refers in *. destruct (assoc _ _) as [u|]; [exfalso; apply (N u); reflexivity|reflexivity]. }
    clear -Fk. revert Fk. induction k as [k IH] using lt_wf_ind. intros Fk.
    destruct (existsb free (seq 0 k)) eqn:Ex.
    - apply existsb_exists in Ex. destruct Ex as (j & Hj & Fj). apply in_seq in Hj.
      destruct (IH j) as (m & A & B & C); [lia|exact Fj|]. exists m. split; [lia|auto].
    - exists k. split; [lia|]. split; [exact Fk|]. intros i Hi.
      destruct (free i) eqn:Fi; [|reflexivity].
      assert (Y : existsb free (seq 0 k) = true) by (apply existsb_exists; exists i; split; [apply in_seq; lia|exact Fi]).
      congruence. }
  destruct X as (m & Lm & Fm & Bm). unfold free in *.
  assert (B1 : forall i, (i < m)%nat -> assoc (next_random (s_w s1) i) (w_refs (s_w s1)) <> None).
  { rewrite W1. intros i Hi. specialize (Bm i Hi). cbv beta in Bm. intros Y. rewrite Y in Bm. discriminate. }
  assert (B2 : assoc (next_random (s_w s1) m) (w_refs (s_w s1)) = None).
  { rewrite W1. cbv beta in Fm. match type of Fm with context [assoc ?a ?b] => destruct (assoc a b); congruence end. }
  rewrite (run_bind _ _ _ _ _ (refc_loop F s1 m B1 B2 ltac:(lia))).
  set (x := next_random (s_w s1) m).
  set (s3 := {| s_w := set_w_refs ((x, v) :: w_refs (s_w (after (S m) s1))) (s_w (after (S m) s1)); s_r := s_r s1 |}).
  rewrite (run_bind (modW _) _ (after (S m) s1) tt s3) by reflexivity.
  assert (H3 : Holds s3 (skipn (dims_of s) l)) by exact (Only_stack_holds _ _ _ _ H C1).
  destruct (pushS_plain s3 _ x H3) as (s4 & E4 & C4). rewrite (run_bind _ _ _ _ _ E4). exists s4. reflexivity.
Qed.
(** D replaces a reference by the vector it refers to; nothing else changes. *)
Theorem C53_D : forall F D s fld l v,
  Letter s FP_REFC fld 68 -> Holds s l -> Refers (s_w s) (hd 0 l) v ->
  exists s', execute F (S D) 68 s = Ok (ENone, s') /\
    Only_stack s s' (coords (dims_of s) v ++ tl l).
Proof.
  intros F D s fld l v L H R. rewrite (execute_letter F D _ _ _ _ L).
  change (fp_exec F FP_REFC fld 68 s) with (refc_exec F 68 s). cbn [refc_exec Z.eqb Pos.eqb]. xpop.
  rewrite (run_bind getW _ s0 (s_w s0) s0) by reflexivity. rewrite (Only_stack_w _ _ _ C), R.
  destruct (pushVec_plain s0 _ v H0) as (s2 & E2 & C2). rewrite (run_bind _ _ _ _ _ E2).
  exists s2. split; [reflexivity|].
  assert (Dm : dims_of s0 = dims_of s) by (unfold dims_of; now rewrite (Only_stack_w _ _ _ C), (Only_stack_r _ _ _ C)).
  rewrite Dm in C2. unfold coords. os_finish.
Qed.

(** Whatever any of the IPs does, in any order, references keep referring to what
    they referred to. *)
Lemma eff_refers t s s' x v : eff t s s' -> Refers (s_w s) x v -> Refers (s_w s') x v.
Proof.
  intros E. unfold Refers. destruct E; cbn [s_w s_r]; auto.
  - destruct H as (_ & _ & _ & _ & _ & _ & _ & ->). auto.
  - cbn [w_refs set_w_refs assoc]. destruct (Z.eqb_spec x0 x); [congruence|auto].
Qed.
Lemma settled_refs n id r w w' : Settled n id r w w' -> w_refs w' = w_refs w.
Proof.
  unfold Settled. cbv zeta. destruct (Nat.eqb _ _); [destruct (r_stopped r)|]; intros ->; reflexivity.
Qed.
Lemma step_refers F D n w w' x v : uni_step F D n w = Ok w' -> Refers w x v -> Refers w' x v.
Proof.
  intros E I. destruct (queue w n) as [|id q] eqn:Q.
  - rewrite (uni_step_idle _ _ _ _ _ E Q). auto.
  - destruct (uni_step_inv F D n w w' id q E Q) as (r & w1 & r1 & R & HR & HS).
    assert (I1 : Refers w1 x v).
    { unfold Ran in HR. destruct (r_stopped r); [destruct HR as (-> & _); exact I|].
      destruct HR as (s & T & -> & _). apply tick_effs in T.
      exact (effs_invariant _ (fun s => Refers (s_w s) x v) (fun a b e => eff_refers _ a b x v e) _ _ T I). }
    unfold Refers in *. rewrite (settled_refs _ _ _ _ _ HS). exact I1.
Qed.
(** ... over every execution of all the IPs of all universes, in every order. *)
Theorem C53_history : forall F D sched w w' x v,
  uni_run F D sched w = Ok w' -> Refers w x v -> Refers w' x v.
Proof.
  intros F D sched. induction sched as [|n sch IH]; intros w w' x v E I; cbn [uni_run] in E; [inversion E; subst; auto|].
  destruct (uni_step F D n w) as [w1|e] eqn:E1; [|discriminate]. cbn [bind] in E.
  eapply IH; eauto. eapply step_refers; eauto.
Qed.
(** So a reference obtained from R dereferences to its vector after any execution,
    and no later R gives it again. *)
Theorem C53 : forall F D s fld l s1 sched w2 s2 fld2,
  Letter s FP_REFC fld 82 -> Holds s l -> execute F (S D) 82 s = Ok (ENone, s1) ->
  uni_run F D sched (upd_run (r_id (s_r s)) (Some (s_r s1)) (s_w s1)) = Ok w2 -> s_w s2 = w2 ->
  exists x v, Holds s1 (x :: skipn (dims_of s) l) /\
    (forall i, vget v i = vec_of (dims_of s) l i) /\
    (forall m, Letter s2 FP_REFC fld2 68 -> Holds s2 (x :: m) ->
       exists s3, execute F (S D) 68 s2 = Ok (ENone, s3) /\ Only_stack s2 s3 (coords (dims_of s2) v ++ m)) /\
    (forall m e s3, Letter s2 FP_REFC fld2 82 -> Holds s2 m -> execute F (S D) 82 s2 = Ok (e, s3) ->
       exists y, Holds s3 (y :: skipn (dims_of s2) m) /\ y <> x).
Proof.
  intros F D s fld l s1 sched w2 s2 fld2 L H E R W2.
  destruct (C53_R _ _ _ _ _ _ _ L H E) as (x & v & k & _ & _ & _ & Rx & G & _ & O).
  assert (R2 : Refers (s_w s2) x v) by (rewrite W2; exact (C53_history _ _ _ _ _ _ _ R Rx)).
  exists x, v. split; [exact (was_holds _ _ _ _ _ H O)|]. split; [exact G|]. split.
  - intros m L2 H2. exact (C53_D F D s2 fld2 _ v L2 H2 R2).
  - intros m e s3 L2 H2 E2. destruct (C53_R _ _ _ _ _ _ _ L2 H2 E2) as (y & u & k2 & _ & _ & N & _ & _ & _ & O2).
    exists y. split; [exact (was_holds _ _ _ _ _ H2 O2)|]. intros ->. exact (N _ R2).
Qed.
Example C53_ex : let s := loaded [FP_REFC] [4; 3; 9] in
  Letter s FP_REFC 0 82 /\ Letter s FP_REFC 0 68 /\ Holds s [4; 3; 9] /\
  (forall u, ~ Refers (s_w s) (next_random (s_w s) 0) u) /\
  match execute 10 1 82 s with
  | Ok (ENone, s1) => match stack_of s1 with
                      | [x; y] => y = 9 /\ run_stack (execute 10 1 68) (with_list [x; 9] s1) = Ok (ENone, [4; 3; 9])
                      | _ => False
                      end
  | _ => False
  end.
Proof.
  cbv zeta. split; [apply letterb_ok; vm_compute; reflexivity|].
  split; [apply letterb_ok; vm_compute; reflexivity|].
  split; [apply holds_with_list; vm_compute; [reflexivity|discriminate]|].
  split; [intros u; unfold Refers; vm_compute; discriminate|].
  vm_compute. auto.
Qed.
Print Assumptions C53.
Print Assumptions C53_R.
Print Assumptions C53_R_ends.
Print Assumptions C53_D.
Print Assumptions C53_history.

(** ** C57 MODE *)

(** Every stack of IP [r] has the modes [m]. *)
Definition Modes (m : Z) (r : runner) : Prop := Forall (fun k => s_mode k = m) (ss_list (r_ss r)).
(** [r'] is [r] but for the modes of its stacks. *)
Definition But_modes (r r' : runner) : Prop :=
  exists x, r' = set_r_ss x r /\ ss_sel x = ss_sel (r_ss r) /\
    map s_list (ss_list x) = map s_list (ss_list (r_ss r)) /\
    map s_ops (ss_list x) = map s_ops (ss_list (r_ss r)).
(** The universe [u] with the modes [m]. *)
Definition with_mode (m : Z) (u : universe) : universe := set_u_cfg (set_c_mode m (u_cfg u)) u.
Definition mode_flags : list (Z * Z) :=
  [(72, MODE_HOVER); (73, MODE_INVERT); (81, MODE_QUEUE); (83, MODE_SWITCH)].

Lemma setmode_modes m r : Modes m (run_setmode m r).
Proof.
  unfold Modes, run_setmode, ss_setmode. cbn [r_ss set_r_ss ss_list].
  induction (ss_list (r_ss r)); cbn [map]; constructor; auto.
Qed.
Lemma setmode_but m r : But_modes r (run_setmode m r).
Proof.
  unfold But_modes, run_setmode. eexists. split; [reflexivity|]. unfold ss_setmode. cbn [ss_sel ss_list].
  rewrite !map_map. auto.
Qed.
Lemma setmode_back m m' r : Modes m r -> run_setmode m (run_setmode m' r) = r.
Proof.
  intros H. unfold Modes in H.
  assert (X : map (stk_setmode m) (map (stk_setmode m') (ss_list (r_ss r))) = ss_list (r_ss r)).
  { induction (ss_list (r_ss r)) as [|k l IH]; [reflexivity|]. inversion H; subst. cbn [map]. rewrite IH by auto.
    unfold stk_setmode at 1 2. cbn. destruct k. reflexivity. }
  unfold run_setmode, ss_setmode. cbn [r_ss set_r_ss ss_sel ss_list]. rewrite X.
  destruct r as [? ? ? ? ? ? ? [sel li]]. reflexivity.
Qed.

(** H, I, Q and S of MODE toggle the flag of the universe and give the new flags to
    every stack of every IP of the universe; nothing else changes. *)
Theorem C57_toggle : forall F D s fld c b,
  In (c, b) mode_flags -> Letter s FP_MODE fld c ->
  let n := r_uni (s_r s) in let me := r_id (s_r s) in
  let m := Z.lxor (c_mode (u_cfg (w_uni (s_w s) n))) (2 ^ b) in
  In me (queue (s_w s) n) -> All_alive (s_w s) n me ->
  exists s', execute F (S D) c s = Ok (ENone, s') /\
    w_uni (s_w s') n = with_mode m (w_uni (s_w s) n) /\
    (forall k, k <> n -> w_uni (s_w s') k = w_uni (s_w s) k) /\
    s_r s' = run_setmode m (s_r s) /\
    (forall id, id <> me -> In id (queue (s_w s) n) ->
       exists r, w_run (s_w s) id = Some r /\ w_run (s_w s') id = Some (run_setmode m r)) /\
    (forall id, id = me \/ ~ In id (queue (s_w s) n) -> w_run (s_w s') id = w_run (s_w s) id) /\
    s_w s' = set_w_run (w_run (s_w s')) (set_w_uni (w_uni (s_w s')) (s_w s)).
Proof.
  intros F D s fld c b Hb L n me m Me AL. rewrite (execute_letter F D _ _ _ _ L).
  change (fp_exec F FP_MODE fld c s) with (mode_exec c s).
  assert (X : mode_exec c s = mbind (toggleMode b) (fun _ => ok) s).
  { unfold mode_flags in Hb. cbn [In] in Hb.
    repeat destruct Hb as [Hb|Hb]; try contradiction; inversion Hb; subst c b; reflexivity. }
  rewrite X. clear X. unfold toggleMode, changeMode.
  set (s2 := {| s_w := upd_uni n (upd_mode (fun m => Z.lxor m (2 ^ b))) (s_w s); s_r := s_r s |}).
  assert (U2 : w_uni (s_w s2) n = with_mode m (w_uni (s_w s) n)).
  { unfold s2. cbn [s_w]. rewrite upd_uni_same. reflexivity. }
  destruct (on_runners_run (run_setmode m)) with (l := queue (s_w s) n) (s := s2) as (s3 & E3 & R3 & W3 & S3).
  { intros r. unfold run_setmode, ss_setmode. cbn [r_ss set_r_ss ss_list ss_sel]. rewrite map_map. reflexivity. }
  { reflexivity. }
  { intros id Hid. exact (AL id Hid). }
  exists s3. split.
  { unfold mbind at 1. rewrite (run_bind (modU _) _ s tt s2) by reflexivity.
    rewrite (run_bind getU _ s2 (w_uni (s_w s2) n) s2) by reflexivity. rewrite U2.
    change (u_queue (with_mode m (w_uni (s_w s) n))) with (queue (s_w s) n).
    change (c_mode (u_cfg (with_mode m (w_uni (s_w s) n)))) with m. rewrite E3. reflexivity. }
  change (r_id (s_r s2)) with me in *.
  assert (WU : w_uni (s_w s3) = w_uni (s_w s2)) by (rewrite S3; reflexivity).
  split; [rewrite WU; exact U2|].
  split; [intros k Nk; rewrite WU; unfold s2; cbn [s_w]; now rewrite upd_uni_other|].
  split; [rewrite R3; apply inb_in in Me; rewrite Me; reflexivity|].
  split; [|split].
  - intros id Ni Hi. destruct (AL id Hi) as [->|(r & Hr)]; [contradiction|]. exists r. split; [exact Hr|].
    rewrite W3. apply inb_in in Hi. rewrite Hi. destruct (Z.eqb_spec id me); [contradiction|]. cbn [andb negb].
    change (w_run (s_w s2) id) with (w_run (s_w s) id). rewrite Hr. reflexivity.
  - intros id Hi. rewrite W3. destruct Hi as [->|Hi].
    + rewrite Z.eqb_refl, andb_false_r. reflexivity.
    + destruct (inb id (queue (s_w s) n)) eqn:Ib; [apply inb_in in Ib; contradiction|]. reflexivity.
  - rewrite S3. unfold s2. reflexivity.
Qed.
(** So every stack of every IP has the toggled flags... *)
Theorem C57_reach : forall m r, Modes m (run_setmode m r) /\ But_modes r (run_setmode m r).
Proof. intros m r. split; [apply setmode_modes|apply setmode_but]. Qed.

(** ... and toggling twice restores the interpreter, if before that every stack had
    the flags of its universe. *)
Theorem C57_partial : forall F D s fld c b,
  In (c, b) mode_flags -> Letter s FP_MODE fld c ->
  let n := r_uni (s_r s) in let me := r_id (s_r s) in
  let m := c_mode (u_cfg (w_uni (s_w s) n)) in
  In me (queue (s_w s) n) -> All_alive (s_w s) n me ->
  Modes m (s_r s) ->
  (forall id r, In id (queue (s_w s) n) -> w_run (s_w s) id = Some r -> Modes m r) ->
  exists s1 s2, execute F (S D) c s = Ok (ENone, s1) /\ execute F (S D) c s1 = Ok (ENone, s2) /\
    s_r s2 = s_r s /\ (forall k, w_uni (s_w s2) k = w_uni (s_w s) k) /\
    (forall id, w_run (s_w s2) id = w_run (s_w s) id) /\
    s_w s2 = set_w_run (w_run (s_w s2)) (set_w_uni (w_uni (s_w s2)) (s_w s)).
Proof.
  intros F D s fld c b Hb L n me m Me AL M1 M2.
  destruct (C57_toggle F D s fld c b Hb L Me AL) as (s1 & E1 & U1 & V1 & R1 & P1 & Q1 & W1).
  fold n me m in U1, V1, R1, P1, Q1. set (m' := Z.lxor m (2 ^ b)) in *.
  assert (I1 : r_id (s_r s1) = me /\ r_uni (s_r s1) = n) by (rewrite R1; split; reflexivity).
  destruct I1 as (I1 & I2).
  assert (Qu : queue (s_w s1) n = queue (s_w s) n) by (unfold queue; rewrite U1; reflexivity).
  assert (L1 : Letter s1 FP_MODE fld c).
  { destruct L as (A & B & C). unfold Letter. rewrite I2, U1, R1. cbn [r_string run_setmode set_r_ss r_sem].
    split; [exact A|]. split; [|exact C]. revert B. fold n. unfold testmode, with_mode. cbn [u_cfg set_u_cfg c_mode set_c_mode].
    fold m. unfold m'. rewrite Z.lxor_spec. intros B.
    assert (X : Z.testbit (2 ^ b) MODE_DIVE = false).
    { unfold mode_flags in Hb. cbn [In] in Hb.
      repeat destruct Hb as [Hb|Hb]; try contradiction; inversion Hb; subst; reflexivity. }
    rewrite X, xorb_false_r. exact B. }
  destruct (C57_toggle F D s1 fld c b Hb L1) as (s2 & E2 & U2 & V2 & R2 & P2 & Q2 & W2).
  { rewrite I1, I2, Qu. exact Me. }
  { intros id Hid. rewrite I2, Qu in Hid. rewrite I1. destruct (Z.eq_dec id me) as [->|N]; [auto|right].
    destruct (P1 id N Hid) as (r & _ & X). eauto. }
  rewrite I2 in U2, V2, P2, Q2. rewrite I1, Qu in P2, Q2. rewrite I2 in R2.
  assert (MM : Z.lxor (c_mode (u_cfg (w_uni (s_w s1) n))) (2 ^ b) = m).
  { rewrite U1. cbn [with_mode u_cfg set_u_cfg c_mode set_c_mode]. unfold m'.
    now rewrite Z.lxor_assoc, Z.lxor_nilpotent, Z.lxor_0_r. }
  rewrite MM in U2, R2, P2.
  exists s1, s2. split; [exact E1|]. split; [exact E2|].
  split; [rewrite R2, R1; now apply setmode_back|].
  split; [|split].
  - intros k. destruct (Nat.eq_dec k n) as [->|Nk]; [|rewrite V2, V1; auto].
    rewrite U2, U1. unfold with_mode, m. destruct (w_uni (s_w s) n) as [cf fi qu ru ex]. cbn.
    destruct cf; reflexivity.
  - intros id. destruct (Z.eq_dec id me) as [->|N]; [rewrite Q2, Q1; auto|].
    destruct (in_dec Z.eq_dec id (queue (s_w s) n)) as [Y|Y]; [|rewrite Q2, Q1; auto].
    destruct (P1 id N Y) as (r & A & B). destruct (P2 id N Y) as (r1 & A1 & B1).
    rewrite B in A1. inversion A1; subst r1. rewrite B1, A, setmode_back; [reflexivity|eauto].
  - rewrite W2. cbn [w_run w_uni set_w_run set_w_uni]. rewrite W1. reflexivity.
Qed.
Lemma alone s : queue (s_w s) (r_uni (s_r s)) = [r_id (s_r s)] ->
  All_alive (s_w s) (r_uni (s_r s)) (r_id (s_r s)).
Proof. intros E id Hid. rewrite E in Hid. destruct Hid as [<-|[]]. auto. Qed.
(** A stack created after toggling does not have the flag: after MODE Q, [{] makes a
    stack that is no queue, although the universe is in queue mode. *)
Theorem C57_refuted : exists s fld,
  Letter s FP_MODE fld 81 /\ In (r_id (s_r s)) (queue (s_w s) (r_uni (s_r s))) /\
  All_alive (s_w s) (r_uni (s_r s)) (r_id (s_r s)) /\
  Modes (c_mode (u_cfg (w_uni (s_w s) (r_uni (s_r s))))) (s_r s) /\
  match execute 10 1 81 s with
  | Ok (ENone, s1) =>
      Normal s1 123 /\
      match execute 10 1 123 s1 with
      | Ok (ENone, s2) =>
          testmode MODE_QUEUE (w_uni (s_w s2) (r_uni (s_r s2))) = true /\
          match ss_top (mySS s2) with Ok k => Z.testbit (s_mode k) MODE_QUEUE = false | Bad _ => False end
      | _ => False
      end
  | _ => False
  end.
Proof.
  exists (loaded [FP_MODE] [0]), 0%nat.
  split; [apply letterb_ok; vm_compute; reflexivity|].
  split; [vm_compute; auto|]. split; [apply alone; vm_compute; reflexivity|].
  split; [vm_compute; repeat constructor|]. vm_compute. repeat split.
Qed.
(** The hypotheses are met; toggling I makes pushes go to the bottom, and toggling it
    again undoes that. *)
Example C57_ex : let s := loaded [FP_MODE] [5; 6] in
  In (73, MODE_INVERT) mode_flags /\ Letter s FP_MODE 0 73 /\
  In (r_id (s_r s)) (queue (s_w s) (r_uni (s_r s))) /\ All_alive (s_w s) (r_uni (s_r s)) (r_id (s_r s)) /\
  Modes (c_mode (u_cfg (w_uni (s_w s) (r_uni (s_r s))))) (s_r s) /\
  match execute 10 1 73 s with
  | Ok (ENone, s1) => run_stack (execute 10 1 51) s1 = Ok (ENone, [5; 6; 3]) /\
      match execute 10 1 73 s1 with
      | Ok (ENone, s2) => run_stack (execute 10 1 51) s2 = Ok (ENone, [3; 5; 6])
      | _ => False
      end
  | _ => False
  end.
Proof.
  cbv zeta. split; [cbn; auto|]. split; [apply letterb_ok; vm_compute; reflexivity|].
  split; [vm_compute; auto|]. split; [apply alone; vm_compute; reflexivity|].
  split; [vm_compute; repeat constructor|]. vm_compute. auto.
Qed.
Print Assumptions C57_toggle.
Print Assumptions C57_reach.
Print Assumptions C57_partial.
Print Assumptions C57_refuted.
