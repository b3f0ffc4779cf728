(** * ><> never leaves its stacks and registers: the invariant and its proof *)

From Coq Require Import ZArith List Bool Lia SpecFloat.
From Verif Require Import Base BaseProofs VectorModel VectorProofs TextModel StackModel StackProofs FieldModel
  World IpModel LoadModel FingModel CoreModel UniModel ExecProofs FlowProofs SchedProofs DblModel FishModel FishProofs.
Import ListNotations.
Open Scope Z_scope.

(** Undefined behaviour by which a program reaches memory it should not. *)
Definition memory (b : bad) : bool :=
  match b with BadOob | BadNull | BadFreed => true | _ => false end.

(** The topmost stack is selected and exists, and the IP is the only one. *)
Definition calm (s : st) : Prop :=
  ss_sel (mySS s) = 0%nat /\ ss_list (mySS s) <> [] /\
  u_queue (w_uni (s_w s) (r_uni (s_r s))) = [r_id (s_r s)].
(** The number of stacks. *)
Definition count (s : st) : nat := length (ss_list (mySS s)).

(** [m] keeps the invariant and the number of stacks, and has no memory error. *)
Definition safe {A} (m : M A) : Prop := forall s, calm s ->
  match m s with
  | Ok (_, s') => calm s' /\ count s' = count s
  | Bad b => memory b = false
  end.

Lemma safe_ret {A} (a : A) : safe (ret a).
Proof. intros s C. cbn. auto. Qed.
Lemma safe_bind {A B} (m : M A) (k : A -> M B) : safe m -> (forall a, safe (k a)) -> safe (mbind m k).
Proof.
  intros Hm Hk s C. unfold mbind. specialize (Hm s C). destruct (m s) as [[a s1]|b]; [|exact Hm].
  destruct Hm as [C1 N1]. specialize (Hk a s1 C1). destruct (k a s1) as [[a2 s2]|b]; [|exact Hk].
  destruct Hk as [C2 N2]. split; [exact C2|]. rewrite N2. exact N1.
Qed.
Lemma safe_lift {A} (x : res A) : (forall b, x = Bad b -> memory b = false) -> safe (lift x).
Proof. intros H s C. unfold lift. destruct x as [a|b]; [auto|]. exact (H b eq_refl). Qed.
Lemma safe_fail {A} b : memory b = false -> safe (@fail A b).
Proof. intros H s C. exact H. Qed.
Lemma safe_getR : safe getR. Proof. intros s C. cbn. auto. Qed.
Lemma safe_getW : safe getW. Proof. intros s C. cbn. auto. Qed.
Lemma safe_getU : safe getU. Proof. intros s C. cbn. auto. Qed.
Lemma safe_getC : safe getC. Proof. intros s C. cbn. auto. Qed.
Lemma safe_modR f : (forall r, r_ss (f r) = r_ss r /\ r_uni (f r) = r_uni r /\ r_id (f r) = r_id r) -> safe (modR f).
Proof.
  intros H s C. unfold modR. destruct (H (s_r s)) as (A & B & D). unfold calm, count, mySS in *. cbn [s_r s_w].
  rewrite A, B, D. auto.
Qed.
Lemma safe_modW f : (forall w n, u_queue (w_uni (f w) n) = u_queue (w_uni w n)) -> safe (modW f).
Proof. intros H s C. unfold modW, calm, count, mySS in *. cbn [s_r s_w]. rewrite H. auto. Qed.
Lemma safe_fget n p : safe (fget n p). Proof. intros s C. cbn. auto. Qed.
Lemma safe_fput n p v : safe (fput n p v).
Proof.
  apply safe_modW. intros w m. unfold upd_uni. cbn [w_uni set_w_uni]. destruct (Nat.eqb_spec m n); [subst|]; reflexivity.
Qed.
Lemma safe_out b : safe (out b).
Proof. apply safe_modW. reflexivity. Qed.
Lemma safe_log e : safe (log e).
Proof. apply safe_modW. reflexivity. Qed.
Lemma safe_getchar : safe getchar.
Proof.
  intros s C. unfold getchar. destruct (w_in (s_w s)) as [|c t]; [auto|].
  unfold calm, count, mySS in *. cbn [s_r s_w w_uni set_w_in]. auto.
Qed.
Lemma safe_rnd : safe rnd.
Proof. intros s C. unfold rnd. unfold calm, count, mySS in *. cbn [s_r s_w w_uni set_w_nrnd]. auto. Qed.

Lemma safe_top {A} (f : stk -> A * stk) : safe (onStack TOP f).
Proof.
  intros s (Sel & Ne & Q). unfold onStack. fold (mySS s). unfold TOP. rewrite Sel. unfold ss_at.
  destruct (ss_list (mySS s)) as [|k t] eqn:E; [contradiction|]. cbn [nth_error].
  unfold calm, count, mySS in *. cbn [s_r s_w set_r_ss r_ss r_uni r_id]. unfold ss_set. cbn [ss_sel ss_list].
  rewrite E. cbn [lupd length]. split; [|reflexivity]. split; [exact Sel|]. split; [discriminate|exact Q].
Qed.
Lemma safe_popS : safe popS. Proof. apply safe_top. Qed.
Lemma safe_pushS x : safe (pushS x). Proof. apply safe_top. Qed.
Lemma safe_sizeS : safe sizeS. Proof. apply safe_top. Qed.
Lemma safe_sizeAt : safe (sizeAt TOP). Proof. apply safe_top. Qed.

(** Results that are not memory errors. *)
Lemma mem_chk64 z b : chk64 z = Bad b -> memory b = false.
Proof. unfold chk64. destruct (in64b z); [discriminate|]. intros E. injection E as <-. reflexivity. Qed.
Lemma mem_trunc d b : dbl_trunc d = Bad b -> memory b = false.
Proof. unfold dbl_trunc. destruct d; intros E; try discriminate; injection E as <-; reflexivity. Qed.
Lemma mem_general d b : print_general d = Bad b -> memory b = false.
Proof.
  unfold print_general. destruct d; intros E; try discriminate; [injection E as <-; reflexivity|].
  destruct (six_digits _ _). discriminate.
Qed.
Lemma mem_i64 d b : dbl_to_i64 d = Bad b -> memory b = false.
Proof.
  unfold dbl_to_i64. destruct (dbl_trunc d) as [z|e] eqn:E; cbn [bind]; [apply mem_chk64|].
  intros X. injection X as <-. exact (mem_trunc d e E).
Qed.
Lemma mem_u64 d b : dbl_to_u64 d = Bad b -> memory b = false.
Proof.
  unfold dbl_to_u64. destruct (dbl_trunc d) as [z|e] eqn:E; cbn [bind].
  - destruct (_ && _); [discriminate|]. intros X. injection X as <-. reflexivity.
  - intros X. injection X as <-. exact (mem_trunc d e E).
Qed.
Lemma mem_rem64 x y b : rem64 x y = Bad b -> memory b = false.
Proof. unfold rem64. destruct (in64b _); [discriminate|]. intros E. injection E as <-. reflexivity. Qed.
Lemma mem_vadd x y b : vadd x y = Bad b -> memory b = false.
Proof. intros E. rewrite (vadd_bad _ _ _ E). reflexivity. Qed.
Lemma mem_vrev x b : vrev x = Bad b -> memory b = false.
Proof. intros E. rewrite (vrev_bad _ _ E). reflexivity. Qed.
Lemma mem_loop {S R} (f : S -> res (S + R)) : (forall s b, f s = Bad b -> memory b = false) ->
  forall p s b, loop f p s = Bad b -> memory b = false.
Proof.
  intros H p s b. unfold loop.
  assert (P : forall q s b, loopP f q s = Bad b -> memory b = false).
  { induction q as [q IH|q IH|]; intros s0 b0; cbn [loopP].
    - destruct (f s0) as [[s1|r1]|e1] eqn:E1; [| discriminate |intros X; injection X as <-; exact (H _ _ E1)].
      destruct (loopP f q s1) as [[s2|r2]|e2] eqn:E2; [apply IH|discriminate|].
      intros X. injection X as <-. exact (IH _ _ E2).
    - destruct (loopP f q s0) as [[s2|r2]|e2] eqn:E2; [apply IH|discriminate|].
      intros X. injection X as <-. exact (IH _ _ E2).
    - apply H. }
  destruct (loopP f p s) as [[s1|r]|e] eqn:E; [|discriminate|].
  - intros X. injection X as <-. reflexivity.
  - intros X. injection X as <-. exact (P p s e E).
Qed.
Lemma mem_bind {A B} (x : res A) (k : A -> res B) : (forall b, x = Bad b -> memory b = false) ->
  (forall a b, k a = Bad b -> memory b = false) -> forall b, bind x k = Bad b -> memory b = false.
Proof.
  intros Hx Hk b. destruct x as [a|e]; cbn [bind]; [apply Hk|]. intros X. injection X as <-. exact (Hx e eq_refl).
Qed.
Lemma mem_next t d f p v b : ip_next t d f p v = Bad b -> memory b = false.
Proof.
  unfold ip_next. apply mem_bind; [apply mem_vadd|]. intros p1 b1. destruct t; [discriminate|].
  unfold lahey_wrap. destruct (in_field d f p1); [discriminate|]. revert b1.
  apply mem_bind; [apply mem_vrev|]. intros d1. apply mem_bind; [apply mem_vadd|]. intros p2.
  apply mem_bind.
  { intros b1. apply mem_loop. intros q b2. unfold walk_step. destruct (in_field d f q); [|discriminate].
    revert b2. apply mem_bind; [apply mem_vadd|]. discriminate. }
  intros p3. apply mem_bind; [apply mem_vrev|]. intros d2. apply mem_bind; [apply mem_vadd|]. discriminate.
Qed.
Lemma mem_hover d v b : hover_add d v = Bad b -> memory b = false.
Proof.
  unfold hover_add. generalize (Nat.max (vsize d) (vsize v)) 0%nat. intros n. revert d b.
  induction n as [|n IH]; intros d b i; cbn [hover_loop]; [discriminate|]. revert b.
  apply mem_bind; [intros b; apply mem_chk64|]. intros x b. apply IH.
Qed.
Lemma mem_space c b : isspace_ub c = Bad b -> memory b = false.
Proof. unfold isspace_ub. destruct (_ && _); [discriminate|]. intros E. injection E as <-. reflexivity. Qed.
Lemma mem_neg x b : neg64 x = Bad b -> memory b = false.
Proof. apply mem_chk64. Qed.

Lemma observe_keeps d r : r_ss (observe_delta d r) = r_ss r /\ r_uni (observe_delta d r) = r_uni r /\ r_id (observe_delta d r) = r_id r.
Proof. unfold observe_delta. destruct (r_fish r) as [[? ?]|]; [destruct (_ && _)|]; auto. Qed.

Create HintDb safe.
#[local] Hint Resolve safe_ret safe_getR safe_getW safe_getU safe_getC safe_fget safe_fput safe_out safe_log
  safe_getchar safe_rnd safe_popS safe_pushS safe_sizeS safe_sizeAt : safe.
#[local] Hint Resolve mem_chk64 mem_i64 mem_general mem_u64 mem_rem64 mem_vadd mem_vrev mem_next mem_hover mem_space mem_neg : safe.

Ltac safe_step :=
  match goal with
  | |- safe (mbind _ _) => apply safe_bind; [|intros]
  | |- safe (lift _) => apply safe_lift; intros; eauto with safe
  | |- safe (fail _) => apply safe_fail; reflexivity
  | |- safe (modR _) => apply safe_modR; intros; auto
  | |- safe (if ?b then _ else _) => destruct b
  | |- safe _ => solve [auto with safe]
  end.
Ltac safes := repeat safe_step.

Lemma safe_ipGet : safe ipGet. Proof. unfold ipGet. safes. Qed.
Lemma safe_ipNext : safe ipNext. Proof. unfold ipNext. safes. Qed.
Lemma safe_ipSetPos v : safe (ipSetPos v). Proof. unfold ipSetPos. safes. Qed.
Lemma safe_ipStop : safe ipStop. Proof. unfold ipStop. safes. Qed.
Lemma safe_ipSetDelta v : safe (ipSetDelta v).
Proof.
  unfold ipSetDelta. safes. destruct (observe_keeps a1 (set_r_delta a1 r)) as (A & B & C).
  rewrite A, B, C. auto.
Qed.
Lemma safe_isMode b : safe (isMode b). Proof. unfold isMode. safes. Qed.
Lemma safe_popAt : safe (popAt TOP). Proof. apply safe_top. Qed.
Lemma safe_pushAt x : safe (pushAt TOP x). Proof. apply safe_top. Qed.
#[local] Hint Resolve safe_ipGet safe_ipNext safe_ipSetPos safe_ipStop safe_ipSetDelta safe_isMode safe_popAt safe_pushAt : safe.
Lemma safe_pushI n : safe (pushI n). Proof. apply safe_pushAt. Qed.
Lemma safe_pushD d : safe (pushD d). Proof. apply safe_pushS. Qed.
Lemma safe_popI : safe popI. Proof. unfold popI, popIAt. safes. Qed.
Lemma safe_popD : safe popD. Proof. unfold popD. safes. Qed.
#[local] Hint Resolve safe_pushI safe_pushD safe_popI safe_popD : safe.
Lemma safe_ok : safe ok. Proof. apply safe_ret. Qed.
Lemma safe_reterr e : safe (reterr e). Proof. apply safe_ret. Qed.
Lemma safe_getDelta : safe getDelta. Proof. unfold getDelta. safes. Qed.
Lemma safe_getStorage : safe getStorage. Proof. unfold getStorage. safes. Qed.
Lemma safe_dims : safe dims. Proof. unfold dims. safes. Qed.
#[local] Hint Resolve safe_ok safe_reterr safe_getDelta safe_getStorage safe_dims : safe.
Lemma safe_popVec : safe (fishPopVec TOP).
Proof.
  unfold fishPopVec. safes. generalize (@nil Z). induction (c_dims a) as [|n IH]; intros v; cbn [fishPopVecLoop]; [safes|].
  apply safe_bind; [apply safe_popI|]. intros x. apply IH.
Qed.
Lemma safe_popL n : safe (popL n).
Proof. unfold popL. induction n as [|n IH]; cbn [popNAt]; safes. Qed.
Lemma safe_pushL l : safe (pushL l).
Proof. unfold pushL. induction l as [|x l IH]; cbn [pushLAt]; safes. Qed.
#[local] Hint Resolve safe_popVec safe_popL safe_pushL : safe.
Lemma safe_check_stack n k : safe k -> safe (check_stack TOP n k).
Proof. intros H. unfold check_stack. safes. Qed.
Lemma safe_check_selected n k : safe k -> safe (check_selected n k).
Proof. intros H. unfold check_selected. safes. Qed.
Lemma safe_uniform a b : safe (uniform a b). Proof. unfold uniform. safes. Qed.
#[local] Hint Resolve safe_check_stack safe_check_selected safe_uniform : safe.
Lemma safe_killAll n : safe (killAll n).
Proof.
  intros s (Sel & Ne & Q). unfold killAll.
  assert (Q' : forall f, (forall u, u_queue (f u) = u_queue u) -> u_queue (w_uni (upd_uni (r_uni (s_r s)) f (s_w s)) (r_uni (s_r s))) = [r_id (s_r s)]).
  { intros f F. rewrite upd_uni_same, F. exact Q. }
  unfold mbind at 1, modU at 1. unfold mbind at 1, getU at 1. cbn [s_r s_w].
  rewrite (Q' (set_u_exit n) (fun u => eq_refl)). cbn [on_runners]. unfold mbind, on_runner, ret. cbn [s_r s_w].
  rewrite Z.eqb_refl. unfold modU. cbn [s_r s_w r_uni set_r_stopped].
  unfold calm, count, mySS in *. cbn [s_r s_w r_ss set_r_stopped r_uni r_id].
  split; [|reflexivity]. split; [exact Sel|]. split; [exact Ne|].
  rewrite upd_uni_same. cbn [u_queue set_u_running]. exact (Q' (set_u_exit n) (fun u => eq_refl)).
Qed.

(** ** Instructions *)

Lemma safe_modRstr c : safe (modR (fun r => set_r_string true (set_r_end c r))).
Proof. safes. Qed.
#[local] Hint Resolve safe_modRstr : safe.

(** What a letter of ><> can be. *)
Lemma fish_sem_cases c mv f : fish_sem c = Some (mv, f) ->
  (exists m, f = pure m /\ safe m) \/ f = fishCreate \/ f = fishDestroy \/ f = fishIn \/ f = fishRegister \/
  (c = 123 /\ f = pure fishShiftLeft) \/ (c = 125 /\ f = pure fishShiftRight).
Proof.
  assert (K : forall b m, Some (b, pure m) = Some (mv, f) -> safe m ->
    (exists m, f = pure m /\ safe m) \/ f = fishCreate \/ f = fishDestroy \/ f = fishIn \/ f = fishRegister \/
    (c = 123 /\ f = pure fishShiftLeft) \/ (c = 125 /\ f = pure fishShiftRight)).
  { intros b m E S. injection E as _ <-. left. exists m. auto. }
  unfold fish_sem. cbv zeta.
  repeat match goal with
  | |- (if (?b1 || ?b2) then _ else _) = _ -> _ => destruct (b1 || b2); [intros E; apply (K _ _ E); clear E K; safes|]
  | |- (if (?b1 && ?b2) then _ else _) = _ -> _ => destruct (b1 && b2); [intros E; apply (K _ _ E); clear E K; safes|]
  | |- (if c =? 91 then _ else _) = _ -> _ => destruct (c =? 91); [intros E; injection E as _ <-; auto|]
  | |- (if c =? 93 then _ else _) = _ -> _ => destruct (c =? 93); [intros E; injection E as _ <-; auto|]
  | |- (if c =? 105 then _ else _) = _ -> _ => destruct (c =? 105); [intros E; injection E as _ <-; auto 6|]
  | |- (if c =? 38 then _ else _) = _ -> _ => destruct (c =? 38); [intros E; injection E as _ <-; auto 7|]
  | |- (if c =? 123 then _ else _) = _ -> _ => destruct (Z.eqb_spec c 123); [intros E; injection E as _ <-; auto 8|]
  | |- (if c =? 125 then _ else _) = _ -> _ => destruct (Z.eqb_spec c 125); [intros E; injection E as _ <-; auto 8|]
  | |- (if ?b then _ else _) = _ -> _ => destruct b; [intros E; apply (K _ _ E); clear E K|]
  end; try discriminate.
  all: try (unfold mirror1, mirror2, mirrorVert, mirrorHori, mirrorAll, fishRandom, fishCond, fishJump, arith, compare,
    fishDiv, fishMod, fishDup, fishRemove, fishSwap2, fishSwap3, fishLength, fishReverse, fishOutChar, fishOutInt,
    fishGet, fishPut; repeat (safe_step || apply safe_check_stack || apply safe_check_selected)).
Qed.

(** The IP has exactly one register per stack, and at least one. *)
Definition held (x : fx) (s : st) : Prop := calm s /\ length (fx_regs x) = count s.

(** What an instruction may do: an error leaves the IP to be stopped. *)
Definition tame (c : Z) (s : st) (r : res (err * fx * st)) : Prop :=
  match r with
  | Ok (e, x', s') => calm s' /\ (e <> EUnspec -> held x' s')
  | Bad b => memory b = true -> (c = 123 \/ c = 125) /\ exists k, ss_top (mySS s) = Ok k /\ s_list k = []
  end.

Lemma tame_pure c m x s : safe m -> held x s -> tame c s (pure m x s).
Proof.
  intros S [C R]. unfold pure, mbind, ret. specialize (S s C). destruct (m s) as [[e s']|b]; cbn.
  - destruct S as [C' N]. split; [exact C'|]. intros _. split; [exact C'|]. rewrite N. exact R.
  - rewrite S. discriminate.
Qed.
Lemma calm_top s : calm s -> exists k, ss_top (mySS s) = Ok k.
Proof.
  intros (Sel & Ne & _). unfold ss_top, ss_at. rewrite Sel. destruct (ss_list (mySS s)) as [|k t]; [contradiction|].
  exists k. reflexivity.
Qed.
Lemma popL_length n : forall s l s', popL n s = Ok (l, s') -> length l = n.
Proof.
  unfold popL. induction n as [|n IH]; intros s l s' E; cbn [popNAt] in E.
  - injection E as <- _. reflexivity.
  - unfold mbind in E. destruct (popAt TOP s) as [[x s1]|]; [|discriminate].
    destruct (popNAt TOP n s1) as [[t s2]|] eqn:E2; [|discriminate]. cbn in E. injection E as <- _.
    cbn [length]. f_equal. exact (IH _ _ _ E2).
Qed.
Lemma tame_shift c (f : list Z -> M err) x s : c = 123 \/ c = 125 ->
  (forall l, l <> [] -> safe (f l)) -> (forall s b, f [] s = Bad b -> memory b = true) -> (forall s, exists b, f [] s = Bad b) ->
  held x s -> tame c s (pure (check_selected 0 (len <- sizeS ;; temp <- popL (Z.to_nat len) ;; f temp)) x s).
Proof.
  intros Hc Hf _ Hb [C R]. unfold pure, tame.
  destruct (calm_top s C) as (k & K).
  assert (Sz : sizeS s = Ok (stk_size k, s)) by exact (sizeAt_run TOP s k K).
  assert (CS : check_selected 0 (len <- sizeS ;; temp <- popL (Z.to_nat len) ;; f temp) s =
               (temp <- popL (length (s_list k)) ;; f temp) s).
  { unfold check_selected. unfold mbind at 1, getR at 1. fold (mySS s).
    destruct (Nat.leb_spec (ss_size (mySS s)) 0) as [L|_].
    { destruct C as (_ & Ne & _). unfold ss_size in L. destruct (ss_list (mySS s)); [contradiction|cbn [length] in L; lia]. }
    rewrite (run_bind _ _ _ _ _ Sz). unfold stk_size. rewrite Nat2Z.id. reflexivity. }
  unfold mbind at 1. rewrite CS. unfold mbind at 1.
  pose proof (safe_popL (length (s_list k)) s C) as P.
  destruct (popL (length (s_list k)) s) as [[l s1]|b] eqn:E; [|rewrite P; discriminate].
  destruct P as [C1 N1]. pose proof (popL_length _ _ _ _ E) as L.
  destruct l as [|a l].
  - destruct (Hb s1) as (b & B). rewrite B. intros _. split; [exact Hc|]. exists k. split; [exact K|].
    destruct (s_list k); [reflexivity|discriminate].
  - specialize (Hf (a :: l) ltac:(discriminate) s1 C1). destruct (f (a :: l) s1) as [[e s2]|b]; cbn.
    + destruct Hf as [C2 N2]. split; [exact C2|]. intros _. split; [exact C2|]. rewrite N2, N1. exact R.
    + rewrite Hf. discriminate.
Qed.
Lemma tame_shiftLeft x s : held x s -> tame 123 s (pure fishShiftLeft x s).
Proof.
  intros H. unfold fishShiftLeft.
  apply (tame_shift 123 (fun temp => match rev temp with [] => fail BadOob | x :: t => pushL t ;;; pushS x ;;; ok end));
    [auto| | | |exact H].
  - intros l Ne. destruct (rev l) as [|y t] eqn:E; [|safes].
    exfalso. apply Ne. rewrite <- (rev_involutive l), E. reflexivity.
  - intros s0 b E. injection E as <-. reflexivity.
  - intros s0. exists BadOob. reflexivity.
Qed.
Lemma tame_shiftRight x s : held x s -> tame 125 s (pure fishShiftRight x s).
Proof.
  intros H. unfold fishShiftRight.
  apply (tame_shift 125 (fun temp => match temp with [] => fail BadOob | x :: t => pushS x ;;; pushL (rev t) ;;; ok end));
    [auto| | | |exact H].
  - intros [|y t] Ne; [contradiction|]. safes.
  - intros s0 b E. injection E as <-. reflexivity.
  - intros s0. exists BadOob. reflexivity.
Qed.
Lemma tame_register c x s : held x s -> tame c s (fishRegister x s).
Proof.
  intros [C R]. unfold fishRegister. destruct (fx_regs x) as [|[[|] v] t] eqn:Q.
  - exfalso. destruct C as (_ & Ne & _). unfold count in R. destruct (ss_list (mySS s)); [contradiction|discriminate].
  - cbn. split; [exact C|]. intros _. split; [exact C|]. exact R.
  - unfold mbind at 1. pose proof (safe_sizeAt s C) as P. destruct (sizeAt TOP s) as [[z s1]|b]; cbn [tame]; [|rewrite P; discriminate].
    destruct P as [C1 N1]. destruct (z <? 1).
    + cbn. split; [exact C1|]. intros X. contradiction.
    + unfold mbind. pose proof (safe_popI s1 C1) as P2. destruct (popI s1) as [[y s2]|b]; cbn [tame]; [|rewrite P2; discriminate].
      destruct P2 as [C2 N2]. cbn. split; [exact C2|]. intros _. split; [exact C2|]. cbn [set_regs fx_regs length] in *. rewrite N2, N1. exact R.
Qed.
Lemma tame_in c x s : held x s -> tame c s (fishIn x s).
Proof.
  intros [C R]. unfold fishIn.
  assert (G : forall x' (m : M err), fx_regs x' = fx_regs x -> safe m -> tame c s ((e <- m ;; ret (e, x')) s)).
  { intros x' m Q S. apply tame_pure; [exact S|]. split; [exact C|]. rewrite Q. exact R. }
  destruct (fx_file x) as [[|b t]|].
  - apply G; [reflexivity|]. safes. apply safe_check_selected. safes.
  - apply G; [reflexivity|]. safes. apply safe_check_selected. safes.
  - unfold mbind at 1. pose proof (safe_getchar s C) as P. destruct (getchar s) as [[q s1]|b]; cbn [tame]; [|rewrite P; discriminate].
    destruct P as [C1 N1].
    assert (S : safe (check_selected 0 (pushI (match q with Some c => c | None => -1 end) ;;; ok)))
      by (apply safe_check_selected; safes).
    specialize (S s1 C1). unfold mbind, ret. destruct (check_selected _ _ s1) as [[e s2]|b]; cbn [tame]; [|rewrite S; discriminate].
    destruct S as [C2 N2]. split; [exact C2|]. intros _. split; [exact C2|]. rewrite N2, N1. exact R.
Qed.

(** The same with a second stack. *)
Definition safe2 {A} (m : M A) : Prop := forall s, calm s -> (2 <= count s)%nat ->
  match m s with
  | Ok (_, s') => calm s' /\ count s' = count s
  | Bad b => memory b = false
  end.
Lemma safe2_bind {A B} (m : M A) (k : A -> M B) : safe2 m -> (forall a, safe2 (k a)) -> safe2 (mbind m k).
Proof.
  intros Hm Hk s C L. unfold mbind. specialize (Hm s C L). destruct (m s) as [[a s1]|b]; [|exact Hm].
  destruct Hm as [C1 N1]. specialize (Hk a s1 C1 ltac:(lia)). destruct (k a s1) as [[a2 s2]|b]; [|exact Hk].
  destruct Hk as [C2 N2]. split; [exact C2|]. lia.
Qed.
Lemma safe2_safe {A} (m : M A) : safe m -> safe2 m.
Proof. intros H s C _. exact (H s C). Qed.
Lemma safe2_second {A} (f : stk -> A * stk) : safe2 (onStack SECOND f).
Proof.
  intros s (Sel & Ne & Q) L. unfold onStack. fold (mySS s). unfold SECOND. rewrite Sel. unfold ss_at.
  unfold count in L. destruct (ss_list (mySS s)) as [|k [|k2 t]] eqn:E; cbn [length] in L; try lia. cbn [nth_error].
  unfold calm, count, mySS in *. cbn [s_r s_w set_r_ss r_ss r_uni r_id]. unfold ss_set. cbn [ss_sel ss_list].
  rewrite E. cbn [lupd length]. split; [|reflexivity]. split; [exact Sel|]. split; [discriminate|exact Q].
Qed.
Lemma safe2_move n from to : (forall A (f : stk -> A * stk), safe2 (onStack from f)) ->
  (forall A (f : stk -> A * stk), safe2 (onStack to f)) -> safe2 (move_cells n from to).
Proof.
  intros F T. induction n as [|n IH]; cbn [move_cells]; [apply safe2_safe, safe_ret|].
  apply safe2_bind; [apply F|]. intros c. apply safe2_bind; [apply T|]. intros _. exact IH.
Qed.
Lemma safe2_top {A} (f : stk -> A * stk) : safe2 (onStack TOP f).
Proof. apply safe2_safe, safe_top. Qed.

Lemma insert_calm s : calm s -> exists s', modSS (ss_insert 0) s = Ok (tt, s') /\ calm s' /\ count s' = S (count s).
Proof.
  intros (Sel & Ne & Q). eexists. split.
  { apply modSS_run. unfold ss_insert. rewrite Sel. cbn [Nat.add Nat.leb firstn skipn app]. reflexivity. }
  unfold calm, count. rewrite mySS_setSS. cbn [ss_sel ss_list length]. split; [|reflexivity].
  split; [reflexivity|]. split; [discriminate|exact Q].
Qed.
Lemma pop_calm s : calm s -> (2 <= count s)%nat ->
  exists s', modSS ss_pop s = Ok (tt, s') /\ calm s' /\ S (count s') = count s.
Proof.
  intros (Sel & Ne & Q) L. unfold count in *. destruct (ss_list (mySS s)) as [|k t] eqn:E; [contradiction|].
  cbn [length] in L. eexists. split.
  { apply modSS_run. unfold ss_pop. rewrite E. reflexivity. }
  unfold calm. rewrite mySS_setSS. cbn [ss_sel ss_list length]. split; [|reflexivity].
  split; [exact Sel|]. split; [destruct t; [cbn [length] in L; lia|discriminate]|exact Q].
Qed.

Lemma tame_create c x s : held x s -> tame c s (fishCreate x s).
Proof.
  intros [C R]. unfold fishCreate.
  assert (G : match check_stack TOP 1
         (c <- popS ;; n <- lift (dbl_to_u64 (dbl_of_bits c)) ;;
          modSS (ss_insert 0) ;;;
          check_stack SECOND n (move_cells (Z.to_nat n) SECOND TOP ;;; ok)) s with
       | Ok (e, s') => calm s' /\ ((e = EUnspec) \/ (e = ENone /\ count s' = S (count s)))
       | Bad b => memory b = false
       end).
  { unfold check_stack at 1. unfold mbind at 1. pose proof (safe_sizeAt s C) as P.
    destruct (sizeAt TOP s) as [[z s1]|b]; [|exact P]. destruct P as [C1 N1].
    destruct (z <? 1); [cbn; auto|].
    unfold mbind at 1. pose proof (safe_popS s1 C1) as P2. destruct (popS s1) as [[y s2]|b]; [|exact P2].
    destruct P2 as [C2 N2]. unfold mbind at 1. unfold lift at 1.
    destruct (dbl_to_u64 (dbl_of_bits y)) as [n|b] eqn:U; [|exact (mem_u64 _ _ U)].
    destruct (insert_calm s2 C2) as (s3 & E3 & C3 & N3). rewrite (run_bind _ _ _ _ _ E3).
    assert (L3 : (2 <= count s3)%nat).
    { rewrite N3. destruct C2 as (_ & Ne & _). unfold count. destruct (ss_list (mySS s2)); [contradiction|cbn [length]; lia]. }
    unfold check_stack. unfold mbind at 1. pose proof (safe2_second (fun k => (stk_size k, k)) s3 C3 L3) as P4.
    unfold sizeAt. destruct (onStack SECOND _ s3) as [[z4 s4]|b]; [|exact P4]. destruct P4 as [C4 N4].
    destruct (z4 <? n); [cbn; auto|].
    unfold mbind. pose proof (safe2_move (Z.to_nat n) SECOND TOP (@safe2_second) (@safe2_top) s4 C4 ltac:(lia)) as P5.
    destruct (move_cells (Z.to_nat n) SECOND TOP s4) as [[u s5]|b]; [|exact P5]. destruct P5 as [C5 N5].
    cbn. split; [exact C5|]. right. split; [reflexivity|]. lia. }
  unfold mbind at 1.
  destruct (check_stack TOP 1 _ s) as [[e s']|b]; cbn [tame]; [|rewrite G; discriminate].
  destruct G as [C' [-> | [-> N]]]; cbn.
  - split; [exact C'|]. intros X. contradiction.
  - split; [exact C'|]. intros _. split; [exact C'|]. cbn [fx_regs set_regs length]. rewrite N, R. reflexivity.
Qed.
Lemma tame_destroy c x s : held x s -> tame c s (fishDestroy x s).
Proof.
  intros [C R]. unfold fishDestroy.
  assert (G : match check_selected 0 (check_selected 1
            (n <- sizeS ;; move_cells (Z.to_nat n) TOP SECOND ;;; modSS ss_pop ;;; ok)) s with
       | Ok (e, s') => calm s' /\ ((e = EUnspec) \/ (e = ENone /\ S (count s') = count s))
       | Bad b => memory b = false
       end).
  { unfold check_selected at 1. unfold mbind at 1, getR at 1. destruct (Nat.leb _ 0); [cbn; auto|].
    unfold check_selected. unfold mbind at 1, getR at 1. fold (mySS s).
    destruct (Nat.leb_spec (ss_size (mySS s)) 1) as [_|L]; [cbn; auto|].
    assert (L2 : (2 <= count s)%nat) by exact L.
    unfold mbind at 1. pose proof (safe_sizeS s C) as P. destruct (sizeS s) as [[z s1]|b]; [|exact P].
    destruct P as [C1 N1]. unfold mbind at 1.
    pose proof (safe2_move (Z.to_nat z) TOP SECOND (@safe2_top) (@safe2_second) s1 C1 ltac:(lia)) as P2.
    destruct (move_cells (Z.to_nat z) TOP SECOND s1) as [[u s2]|b]; [|exact P2]. destruct P2 as [C2 N2].
    destruct (pop_calm s2 C2 ltac:(lia)) as (s3 & E3 & C3 & N3). rewrite (run_bind _ _ _ _ _ E3).
    cbn. split; [exact C3|]. right. split; [reflexivity|]. lia. }
  unfold mbind at 1.
  destruct (check_selected 0 _ s) as [[e s']|b]; cbn [tame]; [|rewrite G; discriminate].
  destruct G as [C' [-> | [-> N]]].
  - cbn. split; [exact C'|]. intros X. contradiction.
  - destruct (fx_regs x) as [|q t] eqn:Q; [cbn [length] in R; lia|]. cbn. split; [exact C'|].
    intros _. split; [exact C'|]. cbn [fx_regs set_regs length] in *. lia.
Qed.

Lemma safe_string i : safe (fish_string i).
Proof.
  unfold fish_string. safes. destruct (c_str a0); safes.
Qed.

(** Every character, in strings and outside, diving or not. *)
Theorem fish_execute_tame c x s : held x s -> tame c s (fish_execute false c x s).
Proof.
  intros H. unfold fish_execute. unfold mbind at 1, getR at 1. destruct (r_string (s_r s)).
  { exact (tame_pure c _ x s (safe_string c) H). }
  unfold fish_normal. cbn [sem_of].
  assert (Skip : forall e, e <> EUnspec -> tame c s (ret (e, x) s)).
  { intros e Ne. destruct H as [C R]. cbn. split; [exact C|]. intros _. split; assumption. }
  destruct (fish_sem c) as [[mv f]|] eqn:E; [|apply Skip; discriminate].
  unfold isMode. unfold mbind at 1. unfold mbind at 1, getU at 1. unfold ret at 1.
  destruct (_ && negb mv); [apply Skip; discriminate|].
  destruct (fish_sem_cases c mv f E) as [(m & -> & S) | [-> | [-> | [-> | [-> | [[-> ->] | [-> ->]]]]]]].
  - exact (tame_pure c m x s S H).
  - exact (tame_create c x s H).
  - exact (tame_destroy c x s H).
  - exact (tame_in c x s H).
  - exact (tame_register c x s H).
  - exact (tame_shiftLeft x s H).
  - exact (tame_shiftRight x s H).
Qed.

(** ** Ticks and runs *)

#[local] Hint Resolve safe_killAll : safe.
Lemma error_safe e : safe (fishError e).
Proof. destruct e; cbn [fishError]; safes. Qed.
Lemma kill_stops n s : calm s -> forall u s', killAll n s = Ok (u, s') -> r_stopped (s_r s') = true.
Proof.
  intros (_ & _ & Q) u s'. unfold killAll. unfold mbind at 1, modU at 1. unfold mbind at 1, getU at 1. cbn [s_r s_w].
  rewrite upd_uni_same. cbn [u_queue set_u_exit]. rewrite Q. cbn [on_runners]. unfold mbind, on_runner, ret. cbn [s_r s_w].
  rewrite Z.eqb_refl. unfold modU. cbn [s_r s_w]. intros E. injection E as _ <-. reflexivity.
Qed.

(** The character about to be executed is a shift and the stack is empty. *)
Definition empty_shift (s : st) : Prop :=
  let c := f_get (u_field (w_uni (s_w s) (r_uni (s_r s)))) (r_pos (s_r s)) in
  (c = 123 \/ c = 125) /\ exists k, ss_top (mySS s) = Ok k /\ s_list k = [].

Lemma tick_step_tame x s : held x s ->
  match fish_tick_step false x s with
  | Ok (inl x', s') => held x' s'
  | Ok (inr x', s') => r_stopped (s_r s') = true \/ held x' s'
  | Bad b => memory b = true -> empty_shift s
  end.
Proof.
  intros H. unfold fish_tick_step. unfold isMode. unfold mbind at 1. unfold mbind at 1, getU at 1. unfold ret at 1.
  destruct (testmode MODE_DEBUG _); [discriminate|].
  unfold mbind at 1. change (ipGet s) with (Ok (f_get (u_field (w_uni (s_w s) (r_uni (s_r s)))) (r_pos (s_r s)), s)).
  cbv beta iota. set (c := f_get _ _).
  pose proof (fish_execute_tame c x s H) as T. unfold mbind at 1.
  destruct (fish_execute false c x s) as [[[e x1] s1]|b]; cbn [tame] in T; [|exact T].
  destruct T as [C1 T]. unfold mbind at 1.
  pose proof (error_safe e s1 C1) as P. destruct (fishError e s1) as [[e2 s2]|b] eqn:Er; [|rewrite P; discriminate].
  destruct P as [C2 N2].
  assert (Hd : e <> EUnspec -> held x1 s2).
  { intros Ne. destruct (T Ne) as [_ R]. split; [exact C2|]. rewrite N2. exact R. }
  assert (Ks : e2 = ENone \/ e2 = ESkip -> e <> EUnspec).
  { intros K ->. cbn [fishError] in Er. unfold mbind in Er. destruct (killAll 1 s1) as [[u s3]|]; [|discriminate].
    cbn in Er. injection Er as <- _. destruct K; discriminate. }
  assert (St : e = EUnspec -> r_stopped (s_r s2) = true).
  { intros ->. cbn [fishError] in Er. unfold mbind in Er. destruct (killAll 1 s1) as [[u s3]|] eqn:K; [|discriminate].
    cbn in Er. injection Er as _ <-. exact (kill_stops 1 s1 C1 u s3 K). }
  assert (De : e = EUnspec \/ e <> EUnspec) by (destruct e; (left; reflexivity) || (right; discriminate)).
  pose proof (safe_ipNext s2 C2) as P. unfold mbind, ret.
  destruct e2; try (destruct De as [De|De]; [left; exact (St De)|right; exact (Hd De)]).
  - destruct (ipNext s2) as [[u s3]|b]; [|rewrite P; discriminate]. destruct P as [C3 N3].
    right. destruct (Hd (Ks (or_introl eq_refl))) as [_ R]. split; [exact C3|]. rewrite N3. exact R.
  - destruct (ipNext s2) as [[u s3]|b]; [|rewrite P; discriminate]. destruct P as [C3 N3].
    destruct (Hd (Ks (or_intror eq_refl))) as [_ R]. split; [exact C3|]. rewrite N3. exact R.
Qed.

(** [Runs x s x' s']: started in [(x, s)], the interpreter comes to a point where
    the next instruction is about to be executed, in [(x', s')]. *)
Inductive Runs (x : fx) (s : st) : fx -> st -> Prop :=
| runs_start : Runs x s x s
| runs_skip x1 s1 x2 s2 : Runs x s x1 s1 -> fish_tick_step false x1 s1 = Ok (inl x2, s2) -> Runs x s x2 s2
| runs_next x1 s1 x2 s2 : Runs x s x1 s1 -> fish_tick_step false x1 s1 = Ok (inr x2, s2) ->
    r_stopped (s_r s2) = false -> Runs x s x2 s2.

Lemma runs_held x s x' s' : Runs x s x' s' -> held x s -> held x' s'.
Proof.
  intros R H. induction R as [|x1 s1 x2 s2 R IH E|x1 s1 x2 s2 R IH E St]; [exact H| |];
    pose proof (tick_step_tame x1 s1 IH) as T; rewrite E in T; [exact T|].
  destruct T as [T|T]; [congruence|exact T].
Qed.
Lemma runs_trans x s x1 s1 x2 s2 : Runs x s x1 s1 -> Runs x1 s1 x2 s2 -> Runs x s x2 s2.
Proof. intros A B. induction B; [exact A|eapply runs_skip; eauto|eapply runs_next; eauto]. Qed.

(** A loop fails where one of its iterations fails, or because its fuel ran out. *)
Lemma loopM_cause {A B} F (f : A -> M (A + B)) (I : A -> st -> Prop) :
  (forall a s a' s', I a s -> f a s = Ok (inl a', s') -> I a' s') ->
  forall a s b, I a s -> loopM F f a s = Bad b -> b = BadFuel \/ exists a' s', I a' s' /\ f a' s' = Bad b.
Proof.
  intros H. induction F as [|F IH] using Pos.peano_ind; intros a s b Ia E.
  - unfold loopM, loop in E. cbn in E. destruct (f a s) as [[[a1|b1] s1]|e] eqn:Ef; try discriminate.
    + left. congruence.
    + right. exists a, s. injection E as <-. auto.
  - rewrite loopM_step in E. destruct (f a s) as [[[a1|b1] s1]|e] eqn:Ef; try discriminate.
    + exact (IH a1 s1 b (H _ _ _ _ Ia Ef) E).
    + right. exists a, s. injection E as <-. auto.
Qed.
Lemma loopM_reaches {A B} F (f : A -> M (A + B)) (I : A -> st -> Prop) :
  (forall a s a' s', I a s -> f a s = Ok (inl a', s') -> I a' s') ->
  forall a s b s', I a s -> loopM F f a s = Ok (b, s') -> exists a1 s1, I a1 s1 /\ f a1 s1 = Ok (inr b, s').
Proof.
  intros H. induction F as [|F IH] using Pos.peano_ind; intros a s b s' Ia E.
  - unfold loopM, loop in E. cbn in E. destruct (f a s) as [[[a1|b1] s1]|e] eqn:Ef; try discriminate.
    exists a, s. injection E as <- <-. auto.
  - rewrite loopM_step in E. destruct (f a s) as [[[a1|b1] s1]|e] eqn:Ef; try discriminate.
    + exact (IH a1 s1 b s' (H _ _ _ _ Ia Ef) E).
    + exists a, s. injection E as <- <-. auto.
Qed.

Lemma run_cause F x s b : r_stopped (s_r s) = false -> fish_run false F x s = Bad b -> b <> BadFuel ->
  exists x1 s1, Runs x s x1 s1 /\ fish_tick_step false x1 s1 = Bad b.
Proof.
  intros St E Nb. unfold fish_run in E.
  set (I := fun x1 s1 => r_stopped (s_r s1) = true \/ Runs x s x1 s1).
  assert (Sk : forall y t y' t', Runs x s y t -> fish_tick_step false y t = Ok (inl y', t') -> Runs x s y' t')
    by (intros y t y' t' Ry Ey; eapply runs_skip; eauto).
  assert (Pr : forall x1 s1 x2 s2, I x1 s1 -> fish_run_step false F x1 s1 = Ok (inl x2, s2) -> I x2 s2).
  { intros x1 s1 x2 s2 I1 E1. unfold fish_run_step in E1. unfold mbind at 1, getR at 1 in E1.
    destruct (r_stopped (s_r s1)) eqn:S1; [discriminate|]. destruct I1 as [I1|I1]; [congruence|].
    unfold mbind in E1. destruct (fish_tick false F x1 s1) as [[x3 s3]|e] eqn:Et; [|discriminate].
    cbn in E1. injection E1 as <- <-. unfold I.
    destruct (r_stopped (s_r s3)) eqn:S3; [left; reflexivity|right].
    unfold fish_tick in Et.
    destruct (loopM_reaches F _ (Runs x s) Sk x1 s1 x3 s3 I1 Et) as (x4 & s4 & R4 & E4).
    eapply runs_next; eauto. }
  destruct (loopM_cause F _ I Pr x s b (or_intror (runs_start x s)) E) as [X|(x1 & s1 & I1 & E1)]; [contradiction|].
  - unfold fish_run_step in E1. unfold mbind at 1, getR at 1 in E1.
    destruct (r_stopped (s_r s1)) eqn:S1; [discriminate|]. destruct I1 as [I1|I1]; [congruence|].
    unfold mbind in E1. destruct (fish_tick false F x1 s1) as [[x3 s3]|e] eqn:Et; [discriminate|].
    injection E1 as <-. unfold fish_tick in Et.
    destruct (loopM_cause F _ (Runs x s) Sk x1 s1 e I1 Et) as [X|(x4 & s4 & R4 & E4)]; [contradiction|].
    exists x4, s4. auto.
Qed.

(** The first state of a program. *)
Lemma boot_held F data c input fs rnd s :
  fish_boot false F data c (world0 input fs rnd) = Ok s -> held fx0 s /\ r_stopped (s_r s) = false.
Proof.
  unfold fish_boot. destruct (multi_create_file F data c (world0 input fs rnd)) as [w1|e] eqn:E1; [|discriminate].
  cbn [bind]. unfold multi_create_file in E1.
  destruct (loop _ _ _) as [name|e]; [|discriminate]. cbn [bind] in E1.
  destruct (f_parse _ _ _ _) as [df|e]; [|discriminate]. cbn [bind] in E1. injection E1 as <-.
  set (u := {| u_cfg := _; u_field := _; u_queue := _; u_running := _; u_exit := _ |}).
  cbn [w_nuni world0]. set (w1 := set_w_nuni _ _).
  unfold fish_runner. cbn [w_nrun].
  destruct (if testmode MODE_HOVER (w_uni w1 0) then _ else _) as [d|e]; [|discriminate]. cbn [bind].
  intros E. injection E as <-.
  assert (Q : u_queue (w_uni w1 0) = []) by reflexivity.
  destruct (observe_keeps d (set_r_delta d (set_r_pos (mkvec [0]) (set_r_handler true (runner_blank (w_nrun w1) 0 ss_new [])))))
    as (A & B & D).
  split; [|cbn [s_r run_setmode r_stopped set_r_ss]; unfold observe_delta; cbn [r_fish set_r_delta set_r_pos set_r_handler runner_blank]; reflexivity].
  split; [|reflexivity]. unfold calm, mySS. cbn [s_r s_w]. unfold run_setmode. cbn [r_ss set_r_ss r_uni r_id].
  split; [reflexivity|]. split; [discriminate|].
  unfold add_runner. rewrite upd_uni_same. reflexivity.
Qed.
