(** * Property C32: y *)

From Coq Require Import ZArith List Bool Lia.
From Verif Require Import Base BaseProofs VectorModel TextModel RangeModel StackModel StackProofs FieldModel
  World IpModel LoadModel FingModel CoreModel ExecProofs FlowProofs States Effects PropsStack PropsIO PropsBlocks.
Import ListNotations.
Open Scope Z_scope.

(** ** Specification: the cells of the system information, the first one first

    [c] is the configuration, [f] the Funge-space, [tm] the local time (hour, minute,
    second, year, month from 0, day), [l] the stack y was executed on (without its
    argument) and [r] the stacks below it. *)
Definition spec_flags (c : cfg) : Z :=
  (if c_conc c then 1 else 0) + (if c_fs c then 2 else 0) + (if c_fs c then 4 else 0) +
  (if c_exec c then 8 else 0) + 16.
Definition spec_time (tm : list Z) : Z := nth 0 tm 0 * 256 * 256 + nth 1 tm 0 * 256 + nth 2 tm 0.
Definition spec_date (tm : list Z) : Z := nth 3 tm 0 * 256 * 256 + (nth 4 tm 0 + 1) * 256 + nth 5 tm 0.
(** Strings, each ended by a 0. *)
Definition cstrings (l : list bytes) : list Z := concat (map (fun b => b ++ [0]) l).
Definition vec_cells (n : nat) (g : nat -> Z) : list Z := rev (map g (seq 0 n)).
Definition spec_info (c : cfg) (f : field) (tm : list Z) (me : runner) (l : list Z) (r : list (list Z)) : list Z :=
  let n := c_dims c in
  [spec_flags c; 8; 1179527979; 1; 1; 47; Z.of_nat n; r_id me; 0] ++
  vec_cells n (vget (r_pos me)) ++ vec_cells n (vget (r_delta me)) ++ vec_cells n (vget (r_storage me)) ++
  vec_cells n (f_min f) ++ vec_cells n (fun i => f_max f i - f_min f i) ++
  [spec_date tm; spec_time tm] ++
  [Z.of_nat (S (length r)); Z.of_nat (length l)] ++ map (fun x => Z.of_nat (length x)) r ++
  cstrings (c_args c) ++ [0; 0] ++ cstrings (c_env c) ++ [0; 0].
(** [s'] is [s] with the stacks [ls] and the clock read once. *)
Definition Clock_and_stacks (s s' : st) (ls : list (list Z)) : Prop :=
  s_w s' = set_w_nclock (S (w_nclock (s_w s))) (s_w s) /\ s_r s' = set_r_ss (mySS s') (s_r s) /\ Contents s' ls.

(** ** Pushing lists *)
Definition Pushes (m : M Z) (s : st) (x : list Z) : Prop := forall l r, Contents s (l :: r) ->
  exists s', m s = Ok (Z.of_nat (length x), s') /\ Only_stacks s s' ((x ++ l) :: r).

Lemma pushAll_pushes x s : Pushes (pushAll x) s (rev x).
Proof.
  intros l r C. unfold pushAll, pushL.
  destruct (pushLAt_run TOP 0 x AT_top s _ l C eq_refl) as (s' & E & O).
  rewrite (run_bind _ _ _ _ _ E). exists s'. rewrite rev_length. split; [reflexivity|exact O].
Qed.
Lemma contents_holds s l r : Contents s (l :: r) -> Holds s l.
Proof.
  intros (S & P & M). unfold Holds. unfold ss_top, ss_at. rewrite S.
  destruct (ss_list (mySS s)) as [|k t]; [discriminate|]. cbn [map] in M. inversion M; subst.
  exists k. split; [reflexivity|]. split; [now inversion P|reflexivity].
Qed.
Lemma only_stack_stacks s s' l l' r : Contents s (l :: r) -> Only_stack s s' l' -> Only_stacks s s' (l' :: r).
Proof.
  intros (S & P & M) (k & k' & T & Mo & L & ->). split; [eexists; reflexivity|].
  unfold Contents. rewrite mySS_setSS. unfold ss_set. cbn [ss_sel ss_list]. rewrite S.
  unfold ss_top, ss_at in T. rewrite S in T. destruct (ss_list (mySS s)) as [|k0 t]; [discriminate|].
  cbn [nth_error] in T. inversion T; subst k0. cbn [lupd map] in *. inversion M; subst.
  split; [reflexivity|]. split; [|reflexivity]. inversion P; subst. constructor; auto.
  unfold plain in *. now rewrite Mo.
Qed.
Lemma pushStrings_pushes x : forall s, Pushes (pushStrings x) s (concat (rev (map (fun b => b ++ [0]) x))).
Proof.
  induction x as [|b x IH]; intros s l r C; cbn [pushStrings map rev concat].
  - exists s. split; [reflexivity|]. now apply only_refl.
  - destruct (pushString_plain s l b (contents_holds _ _ _ C)) as (s1 & E1 & O1).
    rewrite (run_bind _ _ _ _ _ E1). pose proof (only_stack_stacks _ _ _ _ _ C O1) as O2.
    destruct (IH s1 _ _ (only_contents _ _ _ O2)) as (s2 & E2 & O3). rewrite (run_bind _ _ _ _ _ E2).
    exists s2. split.
    + unfold ret. do 2 f_equal. rewrite concat_app, app_length. cbn [concat]. rewrite app_nil_r, app_length. cbn [length]. lia.
    + rewrite concat_app. cbn [concat]. rewrite app_nil_r, <- !app_assoc. cbn [app]. exact (only_trans _ _ _ _ _ O2 O3).
Qed.
Lemma ss_at_contents s ls i l : Contents s ls -> nth_error ls i = Some l ->
  exists k, ss_at (r_ss (s_r s)) i = Ok k /\ s_list k = l.
Proof.
  intros (_ & _ & <-) N. rewrite nth_error_map in N. unfold ss_at. fold (mySS s).
  destruct (nth_error (ss_list (mySS s)) i) as [k|]; [|discriminate]. exists k. split; [reflexivity|]. cbn in N. congruence.
Qed.
Lemma firstn_snoc {A} (d : A) k l : (k < length l)%nat -> firstn (S k) l = firstn k l ++ [nth k l d].
Proof.
  revert l. induction k as [|k IH]; intros [|x l] H; cbn [length] in H; try lia; [reflexivity|].
  change (x :: firstn (S k) l = x :: (firstn k l ++ [nth k l d])). f_equal. apply IH. lia.
Qed.
Lemma push_sizes_pushes k : forall s l r, Contents s (l :: r) -> (k <= length r)%nat ->
  exists s', push_sizes k s = Ok (Z.of_nat k, s') /\
    Only_stacks s s' ((firstn k (map (fun x => Z.of_nat (length x)) r) ++ l) :: r).
Proof.
  induction k as [|k IH]; intros s l r C K; cbn [push_sizes].
  - exists s. split; [reflexivity|]. now apply only_refl.
  - destruct (ss_at_contents s (l :: r) (S k) (nth k r []) C) as (st & E & L).
    { cbn [nth_error]. apply nth_error_nth'. lia. }
    unfold mbind at 1, getR at 1. rewrite (run_bind (lift _) _ s st s) by (unfold lift; rewrite E; reflexivity).
    destruct (pushAt_run TOP 0 s _ l (stk_size st) AT_top C eq_refl) as (s1 & E1 & O1).
    unfold pushS. rewrite (run_bind _ _ _ _ _ E1). cbn [lupd] in O1.
    destruct (IH s1 _ _ (only_contents _ _ _ O1)) as (s2 & E2 & O2); [lia|].
    rewrite (run_bind _ _ _ _ _ E2). exists s2. split; [unfold ret; do 2 f_equal; lia|].
    rewrite (firstn_snoc 0) by (rewrite map_length; lia). rewrite <- app_assoc. cbn [app].
    replace (nth k (map (fun x => Z.of_nat (length x)) r) 0) with (stk_size st); [exact (only_trans _ _ _ _ _ O1 O2)|].
    change 0 with ((fun x : list Z => Z.of_nat (length x)) []). rewrite map_nth. unfold stk_size. now rewrite L.
Qed.
Lemma pushVecAt_pushes s v : Pushes (pushVecAt TOP v) s (vec_cells (dims_of s) (vget v)).
Proof.
  intros l r C. destruct (pushVec_plain s l v (contents_holds _ _ _ C)) as (s' & E & O).
  unfold pushVec in E. apply run_bind_inv in E. destruct E as (z & s1 & E1 & E2). inversion E2; subst s1. clear E2.
  exists s'. split; [|exact (only_stack_stacks _ _ _ _ _ C O)].
  rewrite E1. do 2 f_equal. unfold vec_cells. rewrite rev_length, map_length, seq_length.
  unfold pushVecAt in E1. unfold getC, getU, mbind at 1, mbind at 1, ret at 1 in E1.
  apply run_bind_inv in E1. destruct E1 as (u & s1 & _ & E1). unfold ret in E1. inversion E1. reflexivity.
Qed.
Lemma field_extents_ok n : forall i f,
  (forall j, (i <= j < i + n)%nat -> INT64_MIN <= f_max f j - f_min f j <= INT64_MAX) ->
  field_extents n i f = Ok (map (fun j => f_max f j - f_min f j) (seq i n)).
Proof.
  induction n as [|n IH]; intros i f H; [reflexivity|]. cbn [field_extents seq map].
  unfold sub64, chk64, in64b. pose proof (H i) as Hi.
  replace ((INT64_MIN <=? f_max f i - f_min f i) && (f_max f i - f_min f i <=? INT64_MAX)) with true.
  - cbn [bind]. rewrite IH; [reflexivity|]. intros j J. apply H. lia.
  - symmetry. apply andb_true_intro. rewrite !Z.leb_le. apply Hi. lia.
Qed.
(** Popping [n] cells. *)
Lemma pops_run n : forall s l r, Contents s (l :: r) ->
  exists s', repM n (popS ;;; ret tt) s = Ok (tt, s') /\ Only_stacks s s' (skipn n l :: r).
Proof.
  induction n as [|n IH]; intros s l r C; cbn [repM].
  - exists s. split; [reflexivity|]. now apply only_refl.
  - destruct (popAt_run TOP 0 s _ l AT_top C eq_refl) as (s1 & E1 & O1). cbn [lupd] in O1.
    rewrite (run_bind (popS ;;; ret tt) _ s tt s1) by (unfold popS; rewrite (run_bind _ _ _ _ _ E1); reflexivity).
    destruct (IH s1 _ _ (only_contents _ _ _ O1)) as (s2 & E2 & O2).
    exists s2. split; [exact E2|]. rewrite <- skipn_tl. exact (only_trans _ _ _ _ _ O1 O2).
Qed.
Lemma getS_run s l r p : Contents s (l :: r) -> 0 < p ->
  exists s', getS p s = Ok (nth (Z.to_nat (p - 1)) l 0, s') /\ Only_stacks s s' (l :: r).
Proof.
  intros C P. unfold getS. apply (onStack_run TOP 0 _ s (l :: r) l l _ C (at_is _ _ _ _ AT_top C) eq_refl).
  intros k (Q & I) L. cbn [fst snd]. split; [|auto]. unfold stk_get, stk_size. rewrite Q, L.
  replace (0 <? p) with true by (symmetry; now apply Z.ltb_lt). rewrite andb_true_r.
  destruct (Z.leb_spec p (Z.of_nat (length l))) as [K|K]; [reflexivity|].
  symmetry. apply nth_overflow. lia.
Qed.

(** Chaining. *)
Lemma pushes_bind {B} (m : M Z) (k : Z -> M B) s x l r : Pushes m s x -> Contents s (l :: r) ->
  exists s', mbind m k s = k (Z.of_nat (length x)) s' /\ Only_stacks s s' ((x ++ l) :: r).
Proof.
  intros P C. destruct (P l r C) as (s' & E & O). exists s'. split; [|exact O]. apply (run_bind _ _ _ _ _ E).
Qed.
Lemma dims_only s s' l : Only_stacks s s' l -> dims_of s' = dims_of s.
Proof. intros ((x & ->) & _). reflexivity. Qed.

(** Everything [sysInfo] does before looking at its argument. *)
Definition info_of (s : st) (l : list Z) (r : list (list Z)) : list Z :=
  spec_info (my_cfg s) (u_field (w_uni (s_w s) (r_fld (s_r s)))) (w_tm (s_w s) (w_nclock (s_w s))) (s_r s) l r.
Ltac step P :=
  let s' := fresh "s" in let E := fresh "E" in let O := fresh "O" in
  match goal with
  | O0 : Only_stacks _ ?a _ |- context [mbind ?m ?k ?a] =>
      destruct (pushes_bind m k a _ _ _ P (only_contents _ _ _ O0)) as (s' & E & O); rewrite E; clear E;
      pose proof (only_trans _ _ _ _ _ O0 O); clear O0 O
  end.
Lemma sysInfo_run s l r n : Contents s (l :: r) ->
  (forall i, (i < dims_of s)%nat -> INT64_MIN <= f_max (u_field (w_uni (s_w s) (r_fld (s_r s)))) i -
     f_min (u_field (w_uni (s_w s) (r_fld (s_r s)))) i <= INT64_MAX) ->
  exists s1, Clock_and_stacks s s1 ((info_of s l r ++ l) :: r) /\
    sysInfo n s = (if n >? 0 then v <- getS n ;; repM (length (info_of s l r)) (popS ;;; ret tt) ;;; pushS v
                   else ret tt) s1.
Proof.
  intros C X. unfold sysInfo. unfold getC, getU. unfold mbind at 1, mbind at 1, ret at 1. unfold mbind at 1, getR at 1.
  set (c := u_cfg (w_uni (s_w s) (r_uni (s_r s)))).
  (* the size of the stack *)
  destruct (onStack_run TOP 0 (fun k => (stk_size k, k)) s (l :: r) l l (Z.of_nat (length l)) C (at_is _ _ _ _ AT_top C) eq_refl)
    as (s0 & E0 & O0).
  { intros k _ L. cbn [fst snd]. unfold stk_size. rewrite L. auto. }
  unfold sizeS. rewrite (run_bind _ _ _ _ _ E0). cbn [lupd] in O0. clear E0.
  step (pushAll_pushes [0; 0] s0). step (pushStrings_pushes (rev (c_env c)) s1).
  step (pushAll_pushes [0; 0] s2). step (pushStrings_pushes (rev (c_args c)) s3).
  assert (SZ : ss_size (r_ss (s_r s)) = S (length r)).
  { destruct C as (_ & _ & M). unfold ss_size. fold (mySS s).
    rewrite <- (map_length s_list), M. reflexivity. }
  rewrite SZ. replace (S (length r) - 1)%nat with (length r) by lia.
  match goal with O0 : Only_stacks s s4 _ |- _ => 
    destruct (push_sizes_pushes (length r) s4 _ _ (only_contents _ _ _ O0) (le_n _)) as (s5 & E5 & O5);
    rewrite (run_bind _ _ _ _ _ E5); pose proof (only_trans _ _ _ _ _ O0 O5) as O6; clear O0 O5 E5 end.
  rewrite firstn_all2 in O6 by (rewrite map_length; lia).
  step (pushAll_pushes [Z.of_nat (length l); Z.of_nat (S (length r))] s5).
  match goal with O0 : Only_stacks s s6 _ |- _ => rename O0 into O7 end.
  (* the clock *)
  pose proof (only_w _ _ _ O7) as W7. pose proof (only_r _ _ _ O7) as R7.
  unfold mbind at 1. unfold localtime at 1. rewrite W7.
  set (tm := w_tm (s_w s) (w_nclock (s_w s))).
  set (s7 := {| s_w := set_w_nclock (S (w_nclock (s_w s))) (s_w s); s_r := s_r s6 |}).
  pose proof (only_refl s7 _ (only_contents _ _ _ O7)) as O8. 
  step (pushAll_pushes [tm_time tm; tm_date tm] s7).
  unfold mbind at 1. unfold getW at 1. cbv zeta.
  match goal with O0 : Only_stacks s7 s8 _ |- _ => rename O0 into O9 end.
  rewrite (only_w _ _ _ O9). change (w_uni (s_w s7)) with (w_uni (s_w s)).
  set (f := u_field (w_uni (s_w s) (r_fld (s_r s)))).
  rewrite (run_bind (lift _) _ s8 (map (fun j => f_max f j - f_min f j) (seq 0 (c_dims c))) s8).
  2:{ unfold lift. rewrite field_extents_ok; [reflexivity|]. intros j J. apply X. exact (proj2 J). }
  step (pushAll_pushes (map (fun j => f_max f j - f_min f j) (seq 0 (c_dims c))) s8).
  unfold field_mins. step (pushAll_pushes (map (f_min f) (seq 0 (c_dims c))) s9).
  assert (DS : dims_of s7 = c_dims c). { unfold dims_of. cbn [s7 s_w s_r]. change (w_uni (set_w_nclock (S (w_nclock (s_w s))) (s_w s))) with (w_uni (s_w s)). rewrite R7. reflexivity. }
  match goal with O0 : Only_stacks s7 s10 _ |- _ => pose proof (eq_trans (dims_only _ _ _ O0) DS) as D10 end.
  step (pushVecAt_pushes s10 (r_storage (s_r s))).
  match goal with O0 : Only_stacks s7 s11 _ |- _ => pose proof (eq_trans (dims_only _ _ _ O0) DS) as D11 end.
  step (pushVecAt_pushes s11 (r_delta (s_r s))).
  match goal with O0 : Only_stacks s7 s12 _ |- _ => pose proof (eq_trans (dims_only _ _ _ O0) DS) as D12 end.
  step (pushVecAt_pushes s12 (r_pos (s_r s))). rewrite D10, D11, D12 in *.
  step (pushAll_pushes [0; r_id (s_r s); Z.of_nat (c_dims c); 47; OP_SYSTEM; 1; HANDPRINT; 8; env_flags c] s13).
  match goal with O0 : Only_stacks s7 s14 _ |- _ => rename O0 into O15 end.
  assert (XL : forall y, [env_flags c; 8; HANDPRINT; 1; OP_SYSTEM; 47; Z.of_nat (c_dims c); r_id (s_r s); 0] ++
          vec_cells (c_dims c) (vget (r_pos (s_r s))) ++
          vec_cells (c_dims c) (vget (r_delta (s_r s))) ++
          vec_cells (c_dims c) (vget (r_storage (s_r s))) ++
          rev (map (f_min f) (seq 0 (c_dims c))) ++
          rev (map (fun j : nat => f_max f j - f_min f j) (seq 0 (c_dims c))) ++
          rev [tm_time tm; tm_date tm] ++
          rev [Z.of_nat (length l); Z.of_nat (S (length r))] ++
          map (fun x : list Z => Z.of_nat (length x)) r ++
          concat (rev (map (fun b : list Z => b ++ [0]) (rev (c_args c)))) ++
          rev [0; 0] ++
          concat (rev (map (fun b : list Z => b ++ [0]) (rev (c_env c)))) ++
          rev [0; 0] ++ y = info_of s l r ++ y).
  { intros y. unfold info_of, spec_info. cbv zeta.
    change (my_cfg s) with c. fold f tm. rewrite !map_rev, !rev_involutive.
    replace (spec_flags c) with (env_flags c) by (unfold spec_flags, env_flags; destruct (c_conc c), (c_fs c), (c_exec c); reflexivity).
    replace (spec_time tm) with (tm_time tm) by (unfold spec_time, tm_time; lia).
    replace (spec_date tm) with (tm_date tm) by (unfold spec_date, tm_date; lia).
    unfold cstrings, vec_cells. cbn [rev app]. repeat (progress (rewrite <- ?app_assoc; cbn [app])). reflexivity. }
  exists s14. split.
  - split; [exact (only_w _ _ _ O15)|]. split.
    + rewrite (only_r _ _ _ O15). cbn [s7 s_r]. rewrite R7. reflexivity.
    + rewrite <- (XL l). exact (only_contents _ _ _ O15).
  - match goal with |- (if _ then v <- _ ;; repM ?k _ ;;; _ else _) _ = _ => replace k with (length (info_of s l r)); [reflexivity|] end.
    pose proof (f_equal (@length Z) (XL [])) as Y. rewrite !app_nil_r in Y. rewrite <- Y.
    rewrite !app_length. cbn [length rev app]. rewrite map_length. lia.
Qed.

(** ** C32 *)

(** The argument is converted to a C++ int: for arguments an int can hold, a
    positive [n] pushes the [n]-th cell of the information followed by the stack (0
    beyond it) and nothing else, and any other pushes all of the information. *)
Theorem C32_partial : forall F D s l r,
  Normal s 121 -> Contents s (l :: r) ->
  let n := hd 0 l in let info := info_of s (tl l) r in
  -2147483648 <= n <= 2147483647 ->
  (forall i, (i < dims_of s)%nat -> INT64_MIN <= f_max (u_field (w_uni (s_w s) (r_fld (s_r s)))) i -
     f_min (u_field (w_uni (s_w s) (r_fld (s_r s)))) i <= INT64_MAX) ->
  exists s', execute F (S D) 121 s = Ok (ENone, s') /\
    Clock_and_stacks s s' ((if 0 <? n then nth (Z.to_nat (n - 1)) (info ++ tl l) 0 :: tl l else info ++ tl l) :: r).
Proof.
  intros F D s l r HN C n info B X. rewrite (execute_normal F D _ s _ _ HN eq_refl). cbn [run_meth].
  destruct (popAt_run TOP 0 s _ l AT_top C eq_refl) as (s1 & E1 & O1). cbn [lupd] in O1.
  unfold popS. rewrite (run_bind _ _ _ _ _ E1). fold n. rewrite (to_i32_id n B).
  pose proof (only_w _ _ _ O1) as W1. pose proof (only_r _ _ _ O1) as R1.
  assert (I1 : info_of s1 (tl l) r = info). { unfold info, info_of, my_cfg. rewrite W1, R1. reflexivity. }
  destruct (sysInfo_run s1 (tl l) r n (only_contents _ _ _ O1)) as (s2 & (Q1 & Q2 & Q3) & E2).
  { intros i Hi. rewrite W1, R1. apply X. rewrite <- (dims_only _ _ _ O1). exact Hi. }
  rewrite I1 in *.
  assert (G : forall s3 ls, Only_stacks s2 s3 ls -> Clock_and_stacks s s3 ls).
  { intros s3 ls O. split; [|split].
    - rewrite (only_w _ _ _ O), Q1, W1. reflexivity.
    - rewrite (only_r _ _ _ O), Q2, R1. reflexivity.
    - exact (only_contents _ _ _ O). }
  destruct (Z.ltb_spec 0 n) as [P|P].
  - assert (Gt : n >? 0 = true) by (rewrite Z.gtb_ltb; now apply Z.ltb_lt). rewrite Gt in E2.
    destruct (getS_run s2 _ _ n Q3 P) as (s3 & E3 & O3). rewrite (run_bind _ _ _ _ _ E3) in E2.
    destruct (pops_run (length info) s3 _ _ (only_contents _ _ _ O3)) as (s4 & E4 & O4).
    rewrite (run_bind _ _ _ _ _ E4) in E2. rewrite skipn_app, Nat.sub_diag, skipn_all in O4. cbn [app skipn] in O4.
    destruct (pushAt_run TOP 0 s4 _ (tl l) (nth (Z.to_nat (n - 1)) (info ++ tl l) 0) AT_top (only_contents _ _ _ O4) eq_refl)
      as (s5 & E5 & O5). cbn [lupd] in O5. unfold pushS in E2. rewrite E5 in E2.
    rewrite (run_bind _ _ _ _ _ E2). exists s5. split; [reflexivity|]. apply G.
    exact (only_trans _ _ _ _ _ O3 (only_trans _ _ _ _ _ O4 O5)).
  - assert (Gt : n >? 0 = false) by (rewrite Z.gtb_ltb; now apply Z.ltb_ge). rewrite Gt in E2.
    rewrite (run_bind _ _ _ _ _ E2). exists s2. split; [reflexivity|]. apply G. now apply only_refl.
Qed.
(** For instance the size of the stack, cell 20 of a one-stack program in two
    dimensions, and a cell of the stack itself. *)
Definition ex_y (l : list Z) : st := with_list l (start98 2 [121; 64] []).
Lemma ex_y_contents l : Contents (ex_y l) [l].
Proof. unfold Contents. split; [vm_compute; reflexivity|]. split; [|vm_compute; reflexivity]. vm_compute. repeat constructor. Qed.
Example C32_ex_hyp : let s := ex_y [23; 7; 8] in
  Normal s 121 /\ length (info_of s [7; 8] []) = 27%nat /\
  (forall i, (i < dims_of s)%nat -> INT64_MIN <= f_max (u_field (w_uni (s_w s) (r_fld (s_r s)))) i -
     f_min (u_field (w_uni (s_w s) (r_fld (s_r s)))) i <= INT64_MAX).
Proof.
  cbv zeta. split; [vm_compute; auto|]. split; [vm_compute; reflexivity|].
  change (dims_of (ex_y [23; 7; 8])) with 2%nat.
  intros i Hi. destruct i as [|[|i]]; [| |lia]; vm_compute; split; discriminate.
Qed.
Example C32_ex : run_stack (execute 100 1 121) (ex_y [23; 7; 8]) = Ok (ENone, [2; 7; 8]) /\
  run_stack (execute 100 1 121) (ex_y [28; 7; 8]) = Ok (ENone, [7; 7; 8]) /\
  run_stack (execute 100 1 121) (ex_y [30; 7; 8]) = Ok (ENone, [0; 7; 8]) /\
  run_stack (execute 100 1 121) (ex_y [7; 7; 8]) = Ok (ENone, [2; 7; 8]).
Proof. vm_compute. repeat split. Qed.
(** The claim fails for larger arguments: 2^32 becomes 0 and y pushes everything. *)
Theorem C32_refuted : exists s n l, n > 0 /\ Normal s 121 /\ Contents s [n :: l] /\
  match run_stack (execute 100 1 121) s with
  | Ok (ENone, l') => length l' = (27 + length l)%nat
  | _ => False
  end.
Proof.
  exists (ex_y [4294967296; 7; 8]), 4294967296, [7; 8]. split; [reflexivity|]. split; [vm_compute; auto|].
  split; [apply ex_y_contents|]. vm_compute. reflexivity.
Qed.
(** It also fails in the queue mode of MODE: the argument and the cells that y
    discards are taken from the other end, so that the program's own cells are lost. *)
Definition queue_mode (s : st) : st := snd (the (tt, dummy) (toggleMode MODE_QUEUE s)).
Theorem C32_queue_refuted : exists s,
  testmode MODE_QUEUE (w_uni (s_w s) (r_uni (s_r s))) = true /\ Normal s 121 /\
  match run_stack (execute 100 1 121) s with
  | Ok (ENone, l') => stack_of s = [7; 8; 1] /\ ~ In 7 l' /\ length l' = 3%nat
  | _ => False
  end.
Proof.
  exists (queue_mode (with_list [7; 8; 1] (start98 2 [121; 64] []))). split; [vm_compute; reflexivity|].
  split; [vm_compute; auto|]. vm_compute. split; [reflexivity|]. split; [intuition discriminate|reflexivity].
Qed.
Print Assumptions C32_partial.
Print Assumptions C32_refuted.
Print Assumptions C32_queue_refuted.
