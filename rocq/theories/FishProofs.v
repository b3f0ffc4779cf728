(** * Lemmas about running ><> instructions: several stacks, numbers in cells. *)

From Coq Require Import ZArith List Bool Lia SpecFloat.
From Verif Require Import Base BaseProofs VectorModel VectorProofs TextModel StackModel StackProofs FieldModel
  World IpModel LoadModel FingModel CoreModel UniModel ExecProofs FlowProofs DblModel DblProofs FishModel.
Import ListNotations.
Open Scope Z_scope.

(** ** All stacks of the executing IP *)

(** The IP's stacks hold [L], the topmost first, stack number [n] is selected and
    the modes that change the meaning of push and pop are off. *)
Definition Stacks (s : st) (n : nat) (L : list (list Z)) : Prop :=
  ss_sel (mySS s) = n /\ map s_list (ss_list (mySS s)) = L /\ Forall plain (ss_list (mySS s)).

(** [s'] is [s] with other stacks: nothing else of the interpreter differs. *)
Definition Became (s s' : st) (n : nat) (L : list (list Z)) : Prop :=
  s' = setSS (mySS s') s /\ Stacks s' n L.

Lemma became_trans s s1 s2 n1 L1 n2 L2 :
  Became s s1 n1 L1 -> Became s1 s2 n2 L2 -> Became s s2 n2 L2.
Proof.
  intros [A _] [B C]. split; [|exact C]. rewrite B at 1. rewrite A at 1. apply setSS_setSS.
Qed.
Lemma became_refl s n L : Stacks s n L -> Became s s n L.
Proof. intros H. split; [|exact H]. destruct s as [w r]. unfold setSS, mySS. cbn. destruct r; reflexivity. Qed.
Lemma became_stacks s s' n L : Became s s' n L -> Stacks s' n L.
Proof. intros [_ H]. exact H. Qed.
Lemma became_w s s' n L : Became s s' n L -> s_w s' = s_w s.
Proof. intros [-> _]. reflexivity. Qed.
Lemma became_r s s' n L : Became s s' n L -> s_r s' = set_r_ss (mySS s') (s_r s).
Proof. intros [E _]. rewrite E at 1. reflexivity. Qed.

Lemma map_lupd {A B} (f : A -> B) l : forall n x, map f (lupd l n x) = lupd (map f l) n (f x).
Proof. induction l as [|a l IH]; intros [|n] x; cbn; auto. f_equal. apply IH. Qed.
Lemma forall_lupd {A} (P : A -> Prop) l : forall n x, Forall P l -> P x -> Forall P (lupd l n x).
Proof.
  induction l as [|a l IH]; intros [|n] x H Px; cbn; auto.
  - constructor; [exact Px|]. inversion H; assumption.
  - inversion H; subst. constructor; [assumption|]. apply IH; assumption.
Qed.

Lemma onStack_at {A} at_ (f : stk -> A * stk) s n L i l l' a :
  Stacks s n L -> at_ (mySS s) = i -> nth_error L i = Some l ->
  (forall k, plain k -> s_list k = l ->
     fst (f k) = a /\ s_list (snd (f k)) = l' /\ s_mode (snd (f k)) = s_mode k) ->
  exists s', onStack at_ f s = Ok (a, s') /\ Became s s' n (lupd L i l').
Proof.
  intros (Sel & M & P) I N F. subst L.
  rewrite nth_error_map in N. destruct (nth_error (ss_list (mySS s)) i) as [k|] eqn:K; [|discriminate].
  cbn [option_map] in N. injection N as N.
  assert (Pk : plain k) by (rewrite Forall_forall in P; apply P; eapply nth_error_In; exact K).
  destruct (F k Pk N) as (F1 & F2 & F3).
  unfold onStack. fold (mySS s). rewrite I. unfold ss_at. rewrite K. rewrite F1.
  eexists. split; [reflexivity|]. split; [reflexivity|].
  unfold Stacks, mySS. cbn [s_r r_ss set_r_ss ss_sel ss_list ss_set]. split; [exact Sel|]. split.
  - rewrite map_lupd, F2. reflexivity.
  - apply forall_lupd; [exact P|]. unfold plain. rewrite F3. exact Pk.
Qed.

Lemma popAt_at at_ s n L i l : Stacks s n L -> at_ (mySS s) = i -> nth_error L i = Some l ->
  exists s', popAt at_ s = Ok (hd 0 l, s') /\ Became s s' n (lupd L i (tl l)).
Proof.
  intros H I N. apply (onStack_at at_ stk_pop s n L i l (tl l) (hd 0 l) H I N).
  intros k [Q _] E. unfold stk_pop. rewrite E. destruct l as [|x t]; [split; [|split]; reflexivity|].
  rewrite Q. split; [|split]; reflexivity.
Qed.
Lemma pushAt_at at_ s n L i l c : Stacks s n L -> at_ (mySS s) = i -> nth_error L i = Some l ->
  exists s', pushAt at_ c s = Ok (tt, s') /\ Became s s' n (lupd L i (c :: l)).
Proof.
  intros H I N. apply (onStack_at at_ (fun k => (tt, stk_push c k)) s n L i l (c :: l) tt H I N).
  intros k [_ Q] E. cbn [fst snd]. unfold stk_push. rewrite Q, E. split; [|split]; reflexivity.
Qed.
Lemma lupd_id {A} (l : list A) : forall i x, nth_error l i = Some x -> lupd l i x = l.
Proof.
  induction l as [|a l IH]; intros [|i] x E; cbn in *; try discriminate.
  - injection E as ->. reflexivity.
  - f_equal. apply IH. exact E.
Qed.
(** Asking for the size of a stack changes nothing. *)
Lemma sizeAt_run at_ s k : ss_at (mySS s) (at_ (mySS s)) = Ok k -> sizeAt at_ s = Ok (stk_size k, s).
Proof.
  intros E. unfold sizeAt, onStack. fold (mySS s). rewrite E. cbn [fst snd]. f_equal. f_equal.
  unfold ss_at in E. destruct (nth_error (ss_list (mySS s)) (at_ (mySS s))) as [k'|] eqn:N; [|discriminate].
  injection E as ->. unfold ss_set. rewrite (lupd_id _ _ _ N).
  destruct s as [w r]. unfold mySS. cbn [s_w s_r]. destruct r as [? ? ? ? ? ? ? q]; destruct q; reflexivity.
Qed.
Lemma sizeAt_at at_ s n L i l : Stacks s n L -> at_ (mySS s) = i -> nth_error L i = Some l ->
  sizeAt at_ s = Ok (Z.of_nat (length l), s).
Proof.
  intros (Sel & M & P) I N. subst L. rewrite nth_error_map in N.
  destruct (nth_error (ss_list (mySS s)) i) as [k|] eqn:K; [|discriminate].
  cbn [option_map] in N. injection N as <-. apply (sizeAt_run at_ s k).
  rewrite I. unfold ss_at. rewrite K. reflexivity.
Qed.
Lemma sizeS_holds s l : Holds s l -> sizeS s = Ok (Z.of_nat (length l), s).
Proof. intros (k & E & _ & <-). exact (sizeAt_run TOP s k E). Qed.
Lemma check_stack_holds s l n k : Holds s l ->
  check_stack TOP n k s = if Z.of_nat (length l) <? n then Ok (EUnspec, s) else k s.
Proof.
  intros H. unfold check_stack. change (sizeAt TOP) with sizeS. rewrite (run_bind _ _ _ _ _ (sizeS_holds s l H)).
  destruct (_ <? n); reflexivity.
Qed.
Lemma check_stack_at at_ s n L i l m k : Stacks s n L -> at_ (mySS s) = i -> nth_error L i = Some l ->
  check_stack at_ m k s = if Z.of_nat (length l) <? m then Ok (EUnspec, s) else k s.
Proof.
  intros H I N. unfold check_stack. rewrite (run_bind _ _ _ _ _ (sizeAt_at at_ s n L i l H I N)).
  destruct (_ <? m); reflexivity.
Qed.
Lemma check_selected_at s n L i k : Stacks s n L ->
  check_selected i k s = if Nat.leb (length L) i then Ok (EUnspec, s) else k s.
Proof.
  intros (_ & M & _). unfold check_selected, mbind, getR. unfold ss_size.
  fold (mySS s). rewrite <- M, map_length. destruct (Nat.leb _ i); reflexivity.
Qed.
Lemma holds_nonempty s l : Holds s l -> ss_size (mySS s) <> O.
Proof.
  intros (k & E & _). unfold ss_top, ss_at in E. unfold ss_size.
  destruct (ss_list (mySS s)); [|discriminate]. destruct (ss_sel (mySS s)); discriminate.
Qed.
Lemma check_selected_holds s l k : Holds s l -> check_selected 0 k s = k s.
Proof.
  intros H. unfold check_selected, mbind, getR. pose proof (holds_nonempty s l H) as N.
  fold (mySS s). destruct (ss_size (mySS s)) as [|q]; [contradiction|]. reflexivity.
Qed.
(** A stack-stack seen from the selected stack. *)
Lemma stacks_holds s n L l : Stacks s n L -> nth_error L n = Some l -> Holds s l.
Proof.
  intros (Sel & M & P) N. subst L. rewrite nth_error_map in N.
  destruct (nth_error (ss_list (mySS s)) n) as [k|] eqn:K; [|discriminate].
  cbn [option_map] in N. injection N as <-. exists k. unfold ss_top, ss_at. rewrite Sel, K.
  split; [reflexivity|]. split; [|reflexivity]. rewrite Forall_forall in P. apply P. eapply nth_error_In. exact K.
Qed.

(** ** Numbers in cells *)

(** Cell [c] is the number [n]. *)
Definition num (c n : Z) : Prop := whole (dbl_of_bits c) n.

Lemma valid_not_nan d n : whole d n -> d <> S754_nan.
Proof. intros W ->. exact W. Qed.
Lemma num_bits d n : valid d -> whole d n -> num (bits_of_dbl d) n.
Proof. intros V W. unfold num. rewrite bits_round_trip; [exact W|exact V|exact (valid_not_nan d n W)]. Qed.
Lemma num_int n : small n -> num (bits_of_dbl (dbl_of_int n)) n.
Proof.
  intros S. rewrite dbl_of_int_exact by exact S. apply num_bits; [apply valid_canon|apply whole_canon]; exact S.
Qed.
Lemma small64 n : small n -> in64b n = true.
Proof.
  intros [A B]. unfold in64b, INT64_MIN, INT64_MAX. apply andb_true_iff.
  change (2 ^ 53) with 9007199254740992 in *. split; apply Z.leb_le; lia.
Qed.
Lemma num_i64 c n : num c n -> small n -> dbl_to_i64 (dbl_of_bits c) = Ok n.
Proof.
  intros W S. unfold dbl_to_i64. rewrite (trunc_whole _ n (bits_valid c) W S). cbn [bind].
  unfold chk64. rewrite (small64 n S). reflexivity.
Qed.
Lemma num_u64 c n : num c n -> small n -> 0 <= n -> dbl_to_u64 (dbl_of_bits c) = Ok n.
Proof.
  intros W S N. unfold dbl_to_u64. rewrite (trunc_whole _ n (bits_valid c) W S). cbn [bind].
  destruct (Z.leb_spec 0 n); [|lia]. destruct (Z.ltb_spec n (2 ^ 64)) as [|G]; [reflexivity|].
  destruct S as [_ S]. change (2 ^ 64) with (2048 * 2 ^ 53) in G. exfalso. lia.
Qed.
(** A cell is at most one small number. *)
Lemma num_unique c a b : num c a -> num c b -> small a -> small b -> a = b.
Proof.
  intros A B Sa Sb. pose proof (num_i64 c a A Sa) as X. rewrite (num_i64 c b B Sb) in X. congruence.
Qed.

(** ** Dispatch *)

(** The IP is in normal state and not diving. *)
Definition Ready (s : st) : Prop :=
  r_string (s_r s) = false /\ testmode MODE_DIVE (w_uni (s_w s) (r_uni (s_r s))) = false.

Lemma fish_letter star c s x mv f : Ready s -> sem_of star c = Some (mv, f) ->
  fish_execute star c x s = f x s.
Proof.
  intros [NS ND] E. unfold fish_execute. unfold mbind at 1. unfold getR at 1. rewrite NS.
  unfold fish_normal. rewrite E. unfold isMode. unfold mbind at 1. unfold mbind at 1. unfold getU at 1.
  unfold ret at 1. rewrite ND. reflexivity.
Qed.
Lemma fish_letter_pure star c s x mv m : Ready s -> sem_of star c = Some (mv, pure m) ->
  fish_execute star c x s = match m s with Ok (e, s') => Ok ((e, x), s') | Bad b => Bad b end.
Proof. intros R E. rewrite (fish_letter star c s x mv _ R E). unfold pure, mbind, ret. reflexivity. Qed.

Lemma ready_became s s' n L : Became s s' n L -> Ready s -> Ready s'.
Proof.
  intros B. unfold Ready. rewrite (became_w _ _ _ _ B), (became_r _ _ _ _ B). auto.
Qed.
Lemma ready_only s s' l : Only_stack s s' l -> Ready s -> Ready s'.
Proof.
  intros O. unfold Ready. rewrite (Only_stack_w _ _ _ O), (Only_stack_r _ _ _ O). auto.
Qed.

(** ** Moving cells between stacks *)

Lemma move_down n : forall s t u R, Stacks s 0 (t :: u :: R) -> (n <= length u)%nat ->
  exists s', move_cells n SECOND TOP s = Ok (tt, s') /\
    Became s s' 0 ((rev (firstn n u) ++ t) :: skipn n u :: R).
Proof.
  induction n as [|n IH]; intros s t u R H L.
  - exists s. split; [reflexivity|]. apply became_refl. exact H.
  - destruct u as [|c u]; [cbn in L; lia|]. cbn [length] in L. cbn [move_cells].
    assert (I : SECOND (mySS s) = 1%nat) by (unfold SECOND; destruct H as [-> _]; reflexivity).
    destruct (popAt_at SECOND s 0 _ 1 (c :: u) H I eq_refl) as (s1 & E1 & B1).
    rewrite (run_bind _ _ _ _ _ E1). cbn [hd tl lupd] in *.
    pose proof (became_stacks _ _ _ _ B1) as H1.
    assert (I1 : TOP (mySS s1) = 0%nat) by (unfold TOP; destruct H1 as [-> _]; reflexivity).
    destruct (pushAt_at TOP s1 0 _ 0 t c H1 I1 eq_refl) as (s2 & E2 & B2).
    rewrite (run_bind _ _ _ _ _ E2). cbn [lupd] in B2.
    destruct (IH s2 (c :: t) u R (became_stacks _ _ _ _ B2) ltac:(lia)) as (s3 & E3 & B3).
    exists s3. split; [exact E3|].
    rewrite firstn_cons. cbn [rev skipn]. rewrite <- app_assoc. cbn [app].
    exact (became_trans _ _ _ _ _ _ _ (became_trans _ _ _ _ _ _ _ B1 B2) B3).
Qed.
Lemma move_up t : forall s u R, Stacks s 0 (t :: u :: R) ->
  exists s', move_cells (length t) TOP SECOND s = Ok (tt, s') /\
    Became s s' 0 ([] :: (rev t ++ u) :: R).
Proof.
  induction t as [|c t IH]; intros s u R H.
  - exists s. split; [reflexivity|]. apply became_refl. exact H.
  - cbn [length move_cells].
    assert (I : TOP (mySS s) = 0%nat) by (unfold TOP; destruct H as [-> _]; reflexivity).
    destruct (popAt_at TOP s 0 _ 0 (c :: t) H I eq_refl) as (s1 & E1 & B1).
    rewrite (run_bind _ _ _ _ _ E1). cbn [hd tl lupd] in *.
    pose proof (became_stacks _ _ _ _ B1) as H1.
    assert (I1 : SECOND (mySS s1) = 1%nat) by (unfold SECOND; destruct H1 as [-> _]; reflexivity).
    destruct (pushAt_at SECOND s1 0 _ 1 u c H1 I1 eq_refl) as (s2 & E2 & B2).
    rewrite (run_bind _ _ _ _ _ E2). cbn [lupd] in B2.
    destruct (IH s2 (c :: u) R (became_stacks _ _ _ _ B2)) as (s3 & E3 & B3).
    exists s3. split; [exact E3|]. cbn [rev]. rewrite <- app_assoc. cbn [app].
    exact (became_trans _ _ _ _ _ _ _ (became_trans _ _ _ _ _ _ _ B1 B2) B3).
Qed.

(** ** Vectors *)

(** Cells [l] are the coordinates of [v], the last one on top. *)
Definition coords (n : nat) (l : list Z) (v : vec) : Prop :=
  length l = n /\ forall i, (i < n)%nat -> num (nth (n - 1 - i) l 0) (vget v i) /\ small (vget v i).

Lemma popVec_at at_ j n : forall s k L l v0,
  (forall x, at_ x = (ss_sel x + j)%nat) ->
  Stacks s k L -> nth_error L (k + j) = Some l -> (n <= length l)%nat ->
  (forall i, (i < n)%nat -> exists z, num (nth i l 0) z /\ small z) ->
  exists s' v, fishPopVecLoop at_ n v0 s = Ok (v, s') /\ Became s s' k (lupd L (k + j) (skipn n l)) /\
    (forall i, (i < n)%nat -> num (nth (n - 1 - i) l 0) (vget v i) /\ small (vget v i)) /\
    (forall i, (n <= i)%nat -> vget v i = vget v0 i).
Proof.
  induction n as [|n IH]; intros s k L l v0 A H N Ln Zs; cbn [fishPopVecLoop].
  - exists s, v0. split; [reflexivity|]. cbn [skipn]. rewrite (lupd_id _ _ _ N).
    split; [apply became_refl; exact H|]. split; [intros; lia|reflexivity].
  - destruct l as [|c l]; [cbn in Ln; lia|]. cbn [length] in Ln.
    assert (I : at_ (mySS s) = (k + j)%nat) by (rewrite A; destruct H as [-> _]; reflexivity).
    destruct (popAt_at at_ s k L _ (c :: l) H I N) as (s1 & E1 & B1). cbn [hd tl] in *.
    destruct (Zs 0%nat ltac:(lia)) as (z & Nz & Sz). cbn [nth] in Nz.
    assert (P : popIAt at_ s = Ok (z, s1)).
    { unfold popIAt. rewrite (run_bind _ _ _ _ _ E1). rewrite (num_i64 c z Nz Sz). reflexivity. }
    rewrite (run_bind _ _ _ _ _ P).
    assert (N1 : nth_error (lupd L (k + j) l) (k + j) = Some l) by (eapply lupd_nth_error; exact N).
    destruct (IH s1 k _ l (vset v0 n z) A (became_stacks _ _ _ _ B1) N1 ltac:(lia)) as (s2 & v & E2 & B2 & G & Ot).
    { intros i Hi. exact (Zs (S i) ltac:(lia)). }
    exists s2, v. split; [exact E2|]. split.
    { cbn [skipn]. rewrite lupd_lupd in B2. exact (became_trans _ _ _ _ _ _ _ B1 B2). }
    split.
    + intros i Hi. destruct (Nat.eq_dec i n) as [->|Ne].
      * rewrite Ot by lia. rewrite vget_vset, Nat.eqb_refl.
        replace (S n - 1 - n)%nat with O by lia. cbn [nth]. split; assumption.
      * replace (S n - 1 - i)%nat with (S (n - 1 - i)) by lia. cbn [nth]. apply G. lia.
    + intros i Hi. rewrite Ot by lia. rewrite vget_vset. destruct (Nat.eqb_spec i n); [lia|reflexivity].
Qed.

Lemma pushVec_at at_ j n : forall s k L l v i0,
  (forall x, at_ x = (ss_sel x + j)%nat) ->
  Stacks s k L -> nth_error L (k + j) = Some l ->
  exists s', fishPushVecLoop at_ n i0 v s = Ok (tt, s') /\
    Became s s' k (lupd L (k + j) (rev (map (fun i => bits_of_dbl (dbl_of_int (vget v i))) (seq i0 n)) ++ l)).
Proof.
  induction n as [|n IH]; intros s k L l v i0 A H N; cbn [fishPushVecLoop seq map rev app].
  - exists s. split; [reflexivity|]. rewrite (lupd_id _ _ _ N). apply became_refl. exact H.
  - assert (I : at_ (mySS s) = (k + j)%nat) by (rewrite A; destruct H as [-> _]; reflexivity).
    unfold pushIAt at 1.
    destruct (pushAt_at at_ s k L _ l (bits_of_dbl (dbl_of_int (vget v i0))) H I N) as (s1 & E1 & B1).
    rewrite (run_bind _ _ _ _ _ E1).
    destruct (IH s1 k _ (bits_of_dbl (dbl_of_int (vget v i0)) :: l) v (S i0) A (became_stacks _ _ _ _ B1)) as (s2 & E2 & B2).
    { eapply lupd_nth_error; exact N. }
    exists s2. split; [exact E2|]. rewrite lupd_lupd in B2. rewrite <- app_assoc. cbn [app].
    exact (became_trans _ _ _ _ _ _ _ B1 B2).
Qed.

(** Popping a vector whose coordinates are on the stack. *)
Lemma fishPopVec_at at_ j s k L cs l v :
  (forall x, at_ x = (ss_sel x + j)%nat) ->
  Stacks s k L -> nth_error L (k + j) = Some (cs ++ l) -> coords (dims_of s) cs v ->
  exists s' v', fishPopVec at_ s = Ok (v', s') /\ Became s s' k (lupd L (k + j) l) /\
    forall i, vget v' i = if Nat.ltb i (dims_of s) then vget v i else 0.
Proof.
  intros A H N [Lc C]. unfold fishPopVec, getC, mbind, getU, ret. fold (dims_of s).
  destruct (popVec_at at_ j (dims_of s) s k L (cs ++ l) [] A H N) as (s' & v' & E & B & G & O').
  { rewrite app_length. lia. }
  { intros i Hi. rewrite app_nth1 by lia. exists (vget v (dims_of s - 1 - i)).
    destruct (C (dims_of s - 1 - i)%nat ltac:(lia)) as [C1 C2].
    replace (dims_of s - 1 - (dims_of s - 1 - i))%nat with i in C1 by lia. split; assumption. }
  exists s', v'. split; [exact E|]. split.
  { replace (skipn (dims_of s) (cs ++ l)) with l in B; [exact B|].
    rewrite <- Lc. rewrite skipn_app, skipn_all, Nat.sub_diag. reflexivity. }
  intros i. destruct (Nat.ltb_spec i (dims_of s)) as [Hi|Hi].
  - destruct (G i Hi) as [G1 G2]. destruct (C i Hi) as [C1 C2].
    rewrite app_nth1 in G1 by lia. exact (num_unique _ _ _ G1 C1 G2 C2).
  - rewrite O' by exact Hi. destruct i; reflexivity.
Qed.
(** The cells pushed for a position. *)
Definition cells_of (n : nat) (v : vec) : list Z :=
  rev (map (fun i => bits_of_dbl (dbl_of_int (vget v i))) (seq 0 n)).
Lemma cells_of_coords n v : (forall i, (i < n)%nat -> small (vget v i)) -> coords n (cells_of n v) v.
Proof.
  intros S. unfold cells_of. split; [rewrite rev_length, map_length, seq_length; reflexivity|].
  intros i Hi. split; [|apply S; exact Hi].
  rewrite rev_nth by (rewrite map_length, seq_length; lia). rewrite map_length, seq_length.
  replace (n - Datatypes.S (n - 1 - i))%nat with i by lia.
  set (f := fun i => bits_of_dbl (dbl_of_int (vget v i))).
  rewrite (nth_indep _ 0 (f n)) by (rewrite map_length, seq_length; lia).
  rewrite map_nth, seq_nth by exact Hi. apply num_int. apply S. exact Hi.
Qed.
Lemma fishPushVec_at at_ j s k L l v :
  (forall x, at_ x = (ss_sel x + j)%nat) ->
  Stacks s k L -> nth_error L (k + j) = Some l ->
  exists s', fishPushVec at_ v s = Ok (tt, s') /\ Became s s' k (lupd L (k + j) (cells_of (dims_of s) v ++ l)).
Proof.
  intros A H N. unfold fishPushVec, getC, mbind, getU, ret. fold (dims_of s).
  exact (pushVec_at at_ j (dims_of s) s k L l v 0 A H N).
Qed.
Lemma dims_became s s' n L : Became s s' n L -> dims_of s' = dims_of s.
Proof. intros B. unfold dims_of. rewrite (became_w _ _ _ _ B), (became_r _ _ _ _ B). reflexivity. Qed.
Lemma dims_run (k : Z -> M err) s : mbind dims k s = k (Z.of_nat (dims_of s)) s.
Proof. reflexivity. Qed.
Lemma top_at x : TOP x = (ss_sel x + 0)%nat.
Proof. unfold TOP. lia. Qed.
Lemma second_at x : SECOND x = (ss_sel x + 1)%nat.
Proof. unfold SECOND. lia. Qed.

(** Replacing the list of stacks as a whole. *)
Lemma modSS_run (f : sstk -> res sstk) s x : f (mySS s) = Ok x -> modSS f s = Ok (tt, setSS x s).
Proof. intros E. unfold modSS, mbind, getR, lift. fold (mySS s). rewrite E. reflexivity. Qed.
Lemma became_setSS s n L ks : map s_list ks = L -> Forall plain ks ->
  Became s (setSS {| ss_sel := n; ss_list := ks |} s) n L.
Proof.
  intros M P. split; [rewrite mySS_setSS; reflexivity|].
  unfold Stacks. rewrite mySS_setSS. cbn [ss_sel ss_list]. auto.
Qed.
Lemma plain_new : plain stk_new.
Proof. split; reflexivity. Qed.
Lemma insert0_at s L : Stacks s 0 L ->
  exists s', modSS (ss_insert 0) s = Ok (tt, s') /\ Became s s' 0 ([] :: L).
Proof.
  intros (Sel & M & P). eexists. split.
  { apply modSS_run. unfold ss_insert. rewrite Sel. cbn [Nat.add Nat.leb firstn skipn app]. reflexivity. }
  apply became_setSS; [cbn [map]; rewrite M; reflexivity|]. constructor; [exact plain_new|exact P].
Qed.
Lemma insert1_at s l R : Stacks s 0 (l :: R) ->
  exists s', modSS (ss_insert 1) s = Ok (tt, s') /\ Became s s' 0 (l :: [] :: R).
Proof.
  intros (Sel & M & P). destruct (ss_list (mySS s)) as [|k ks] eqn:E; [discriminate|].
  cbn [map] in M. injection M as M1 M2. inversion P; subst. eexists. split.
  { apply modSS_run. unfold ss_insert. rewrite Sel, E. cbn [Nat.add Nat.leb length firstn skipn app]. reflexivity. }
  apply became_setSS; [reflexivity|]. constructor; [assumption|]. constructor; [exact plain_new|assumption].
Qed.
Lemma pop_at s l R : Stacks s 0 (l :: R) ->
  exists s', modSS ss_pop s = Ok (tt, s') /\ Became s s' 0 R.
Proof.
  intros (Sel & M & P). destruct (ss_list (mySS s)) as [|k ks] eqn:E; [discriminate|].
  cbn [map] in M. injection M as M1 M2. inversion P; subst. eexists. split.
  { apply modSS_run. unfold ss_pop. rewrite E, Sel. reflexivity. }
  apply became_setSS; [reflexivity|assumption].
Qed.
(** remove(1) with the topmost stack selected removes that stack, not the one
    below. *)
Lemma remove1_at s l R : Stacks s 0 (l :: R) ->
  exists s', modSS (ss_remove 1) s = Ok (tt, s') /\ Became s s' 0 R.
Proof.
  intros (Sel & M & P). destruct (ss_list (mySS s)) as [|k ks] eqn:E; [discriminate|].
  cbn [map] in M. injection M as M1 M2. inversion P; subst. eexists. split.
  { apply modSS_run. unfold ss_remove. rewrite Sel, E. cbn [Nat.add Nat.leb length Nat.sub firstn skipn app andb]. reflexivity. }
  apply became_setSS; [reflexivity|assumption].
Qed.

(** ** Stopping everything *)

(** FungeRunner::tick reaches the character under the IP. *)
Lemma fish_tick_here star F x s ex s1 e' s2 :
  testmode MODE_DEBUG (w_uni (s_w s) (r_uni (s_r s))) = false ->
  fish_execute star (f_get (u_field (w_uni (s_w s) (r_uni (s_r s)))) (r_pos (s_r s))) x s = Ok (ex, s1) ->
  fishError (fst ex) s1 = Ok (e', s2) ->
  e' <> ESkip ->
  fish_tick star F x s =
    match e' with
    | ENone => match ipNext s2 with Ok (_, s3) => Ok (snd ex, s3) | Bad b => Bad b end
    | _ => Ok (snd ex, s2)
    end.
Proof.
  intros D E H N. unfold fish_tick.
  assert (Hd : forall k : bool -> M (fx + fx), mbind (isMode MODE_DEBUG) k s = k false s).
  { intros k. unfold isMode, mbind, getU, ret. rewrite D. reflexivity. }
  assert (St : fish_tick_step star x s =
    match e' with
    | ENone => match ipNext s2 with Ok (_, s3) => Ok (inr (snd ex), s3) | Bad b => Bad b end
    | ESkip => match ipNext s2 with Ok (_, s3) => Ok (inl (snd ex), s3) | Bad b => Bad b end
    | _ => Ok (inr (snd ex), s2)
    end).
  { unfold fish_tick_step. rewrite Hd. unfold mbind at 1.
    change (ipGet s) with (Ok (f_get (u_field (w_uni (s_w s) (r_uni (s_r s)))) (r_pos (s_r s)), s)).
    cbv beta iota. rewrite (run_bind _ _ _ _ _ E). destruct ex as [e y]. cbn [fst snd] in *.
    rewrite (run_bind _ _ _ _ _ H). unfold mbind, ret. destruct e'; reflexivity. }
  destruct e'; try contradiction.
  1:{ destruct (ipNext s2) as [[u s3]|b] eqn:Nx; [apply loopM_inr|apply loopM_err]; exact St. }
  all: apply loopM_inr; exact St.
Qed.
