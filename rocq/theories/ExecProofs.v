(** * Reasoning about the execution of instructions (see CoreModel.v). *)

From Coq Require Import ZArith List Bool Lia.
From Verif Require Import Base BaseProofs VectorModel VectorProofs StackModel StackProofs
  FieldModel FieldProofs World IpModel LoadModel FingModel CoreModel.
Import ListNotations.
Open Scope Z_scope.

(** ** The monad *)

Lemma run_bind {A B} (m : M A) (k : A -> M B) s a s' :
  m s = Ok (a, s') -> mbind m k s = k a s'.
Proof. intros H. unfold mbind. now rewrite H. Qed.
Lemma run_bind_bad {A B} (m : M A) (k : A -> M B) s e :
  m s = Bad e -> mbind m k s = Bad e.
Proof. intros H. unfold mbind. now rewrite H. Qed.
Lemma run_bind_inv {A B} (m : M A) (k : A -> M B) s b s' :
  mbind m k s = Ok (b, s') -> exists a s1, m s = Ok (a, s1) /\ k a s1 = Ok (b, s').
Proof. unfold mbind. destruct (m s) as [[a s1]|e]; [eauto|discriminate]. Qed.
Lemma run_lift {A} (x : res A) a s : x = Ok a -> lift x s = Ok (a, s).
Proof. intros ->. reflexivity. Qed.

(** ** The selected stack of the executing IP *)

Definition mySS (s : st) : sstk := r_ss (s_r s).

(** The selected stack holds [l], top first, and the modes that change the
    meaning of push and pop are off. *)
Definition Holds (s : st) (l : list Z) : Prop :=
  exists k, ss_top (mySS s) = Ok k /\ plain k /\ s_list k = l.

Definition setSS (x : sstk) (s : st) : st :=
  {| s_w := s_w s; s_r := set_r_ss x (s_r s) |}.

(** [s'] is [s] with the contents of the selected stack replaced by [l']: no
    other part of the interpreter differs, except that stack's count of
    operations. *)
Definition Only_stack (s s' : st) (l' : list Z) : Prop :=
  exists k k', ss_top (mySS s) = Ok k /\ s_mode k' = s_mode k /\ s_list k' = l' /\
    s' = setSS (ss_set (mySS s) (ss_sel (mySS s)) k') s.

Lemma lupd_nth_error {A} (l : list A) : forall n x y,
  nth_error l n = Some y -> nth_error (lupd l n x) n = Some x.
Proof.
  induction l as [|a l IH]; intros [|n] x y H; cbn in *; try discriminate; eauto.
Qed.
Lemma lupd_lupd {A} (l : list A) : forall n x y, lupd (lupd l n x) n y = lupd l n y.
Proof. induction l as [|a l IH]; intros [|n] x y; cbn; auto. now rewrite IH. Qed.
Lemma lupd_same {A} (l : list A) : forall n x, nth_error l n = Some x -> lupd l n x = l.
Proof.
  induction l as [|a l IH]; intros [|n] x H; cbn in *; try discriminate; auto.
  - congruence.
  - now rewrite IH.
Qed.

Lemma setSS_setSS x y s : setSS x (setSS y s) = setSS x s.
Proof. reflexivity. Qed.
Lemma mySS_setSS x s : mySS (setSS x s) = x.
Proof. reflexivity. Qed.

Lemma ss_top_set x n k k' : ss_top x = Ok k -> n = ss_sel x -> ss_top (ss_set x n k') = Ok k'.
Proof.
  intros H ->. unfold ss_top, ss_at, ss_set in *. cbn [ss_sel ss_list].
  destruct (nth_error (ss_list x) (ss_sel x)) eqn:E; [|discriminate].
  now rewrite (lupd_nth_error _ _ _ _ E).
Qed.

Lemma Only_stack_holds s s' l l' : Holds s l -> Only_stack s s' l' -> Holds s' l'.
Proof.
  intros (k & E & P & _) (k1 & k' & E1 & M & L & ->).
  rewrite E in E1. inversion E1; subst k1.
  exists k'. rewrite mySS_setSS. split; [now apply (ss_top_set _ _ k)|]. split; auto.
  unfold plain in *. rewrite M. exact P.
Qed.
Lemma Only_stack_trans s s1 s2 l1 l2 : Only_stack s s1 l1 -> Only_stack s1 s2 l2 -> Only_stack s s2 l2.
Proof.
  intros (k & k' & E & M & L & ->) (k1 & k2 & E2 & M2 & L2 & ->).
  rewrite mySS_setSS in *. rewrite (ss_top_set _ _ k) in E2 by auto. inversion E2; subst k1.
  exists k, k2. split; auto. split; [congruence|]. split; auto.
  rewrite setSS_setSS. unfold ss_set at 1. cbn [ss_sel ss_list].
  unfold ss_set at 1 2. cbn [ss_sel ss_list]. now rewrite lupd_lupd.
Qed.
Lemma Only_stack_refl s l : Holds s l -> Only_stack s s l.
Proof.
  intros (k & E & P & L). exists k, k. split; auto. split; auto. split; auto.
  unfold ss_top, ss_at in E. destruct (nth_error (ss_list (mySS s)) (ss_sel (mySS s))) eqn:N; [|discriminate].
  inversion E; subst k. unfold ss_set. rewrite lupd_same by auto.
  destruct s as [w r]. unfold setSS, mySS. cbn [s_w s_r].
  destruct r as [r_id r_uni r_fld r_pos r_delta r_storage r_stopped r_ss r_parent]. cbn.
  now destruct r_ss.
Qed.

Lemma popS_plain s l : Holds s l -> exists s', popS s = Ok (hd 0 l, s') /\ Only_stack s s' (tl l).
Proof.
  intros (k & E & (Q & I) & L). unfold popS, popAt, onStack, TOP.
  unfold ss_top in E. fold (mySS s). rewrite E. unfold stk_pop. rewrite L.
  destruct l as [|x t].
  - cbn [fst snd hd tl]. eexists. split; [reflexivity|].
    exists k. eexists. split; [exact E|]. split; [|split; [|reflexivity]]; reflexivity.
  - rewrite Q. cbn [fst snd hd tl]. eexists. split; [reflexivity|].
    exists k. eexists. split; [exact E|]. split; [|split; [|reflexivity]]; reflexivity.
Qed.
Lemma pushS_plain s l x : Holds s l -> exists s', pushS x s = Ok (tt, s') /\ Only_stack s s' (x :: l).
Proof.
  intros (k & E & (Q & I) & L). unfold pushS, pushAt, onStack, TOP.
  unfold ss_top in E. fold (mySS s). rewrite E. cbn [fst snd]. eexists. split; [reflexivity|].
  exists k. eexists. split; [exact E|]. split; [|split; [|reflexivity]]; [reflexivity|].
  unfold stk_push. rewrite I, L. reflexivity.
Qed.
Lemma clearS_plain s l : Holds s l -> exists s', clearS s = Ok (tt, s') /\ Only_stack s s' [].
Proof.
  intros (k & E & (Q & I) & L). unfold clearS, onStack, TOP.
  unfold ss_top in E. fold (mySS s). rewrite E. cbn [fst snd]. eexists. split; [reflexivity|].
  exists k. eexists. split; [exact E|]. split; [|split; [|reflexivity]]; reflexivity.
Qed.

(** One symbolic step. *)
Ltac os_finish :=
  match goal with
  | |- Only_stack ?s ?s' _ =>
      repeat match goal with
        | A : Only_stack s ?x _, B : Only_stack ?x ?y _ |- _ =>
            let C := fresh "C" in pose proof (Only_stack_trans _ _ _ _ _ A B) as C; clear B
        end; eassumption
  end.
Ltac xpop :=
  match goal with
  | H : Holds ?s ?l |- context [mbind popS ?k ?s] =>
      let s' := fresh "s" in let E := fresh "E" in let C := fresh "C" in let H' := fresh "H" in
      destruct (popS_plain s l H) as (s' & E & C);
      rewrite (run_bind popS k s _ s' E);
      pose proof (Only_stack_holds s s' _ _ H C) as H'; cbv beta
  end.
Ltac xpush :=
  match goal with
  | H : Holds ?s ?l |- context [mbind (pushS ?x) ?k ?s] =>
      let s' := fresh "s" in let E := fresh "E" in let C := fresh "C" in let H' := fresh "H" in
      destruct (pushS_plain s l x H) as (s' & E & C);
      rewrite (run_bind (pushS x) k s _ s' E);
      pose proof (Only_stack_holds s s' _ _ H C) as H'; cbv beta
  end.

(** ** Dispatch *)

(** Every instruction of the Funge-98 core, with its meaning. *)
Definition std_sem (c : Z) : option sem :=
  assoc c (table_t98 ++ table_b98 ++ table_b93 ++ table_u98 ++ table_u93).

(** The IP is not in string mode, no DIVE mode hides instructions, and the
    character [c] has its built-in meaning (no fingerprint overrides it). *)
Definition Normal (s : st) (c : Z) : Prop :=
  r_string (s_r s) = false /\
  testmode MODE_DIVE (w_uni (s_w s) (r_uni (s_r s))) = false /\
  sem_top c (r_sem (s_r s)) = std_sem c.

Lemma execute_normal F D c s m mv :
  Normal s c -> std_sem c = Some {| sm_act := ABase m; sm_move := mv |} ->
  execute F (S D) c s = run_meth F (execute F D) m s.
Proof.
  intros (NS & ND & T) E. cbn [execute].
  unfold mbind at 1. unfold getR at 1. rewrite NS.
  unfold exec_normal. unfold mbind at 1. unfold getR at 1. rewrite T, E.
  unfold isMode. unfold mbind at 1. unfold mbind at 1. unfold getU at 1. unfold ret at 1. rewrite ND.
  reflexivity.
Qed.

(** ** Vectors and strings on the selected stack *)

Definition dims_of (s : st) : nat := c_dims (u_cfg (w_uni (s_w s) (r_uni (s_r s)))).

Lemma Only_stack_w s s' l : Only_stack s s' l -> s_w s' = s_w s.
Proof. intros (k & k' & _ & _ & _ & ->). reflexivity. Qed.
Lemma Only_stack_r s s' l : Only_stack s s' l -> s_r s' = set_r_ss (mySS s') (s_r s).
Proof. intros (k & k' & _ & _ & _ & ->). reflexivity. Qed.

(** The coordinates [n-1 .. 0], the first popped being the last coordinate. *)
Definition vec_of (n : nat) (l : list Z) (i : nat) : Z :=
  if Nat.ltb i n then nth (n - 1 - i) l 0 else 0.

Lemma skipn_tl {A} (n : nat) (l : list A) : skipn n (tl l) = skipn (S n) l.
Proof. destruct l; cbn; auto. now rewrite skipn_nil. Qed.
Lemma nth_tl (n : nat) (l : list Z) : nth n (tl l) 0 = nth (S n) l 0.
Proof. destruct l; cbn; auto. now destruct n. Qed.
Lemma hd_nth (l : list Z) : hd 0 l = nth 0 l 0.
Proof. now destruct l. Qed.

Lemma popVecLoop_plain n : forall s l v, Holds s l ->
  exists s' v', popVecLoop TOP n v s = Ok (v', s') /\ Only_stack s s' (skipn n l) /\
    (forall i, vget v' i = if Nat.ltb i n then nth (n - 1 - i) l 0 else vget v i) /\
    (n <> O -> vwf v' /\ v' <> []).
Proof.
  induction n as [|n IH]; intros s l v H; cbn [popVecLoop].
  - exists s, v. split; auto. split; [now apply Only_stack_refl|]. split; [reflexivity|congruence].
  - fold popS. destruct (popS_plain s l H) as (s1 & E1 & C1).
    rewrite (run_bind _ _ _ _ _ E1). pose proof (Only_stack_holds _ _ _ _ H C1) as H1.
    destruct (IH s1 (tl l) (vset v n (hd 0 l)) H1) as (s2 & v2 & E2 & C2 & G & W).
    exists s2, v2. split; auto. split.
    { rewrite <- skipn_tl. eapply Only_stack_trans; eauto. }
    split.
    + intros i. rewrite G. destruct (Nat.ltb_spec i n), (Nat.ltb_spec i (S n)); try lia.
      * rewrite nth_tl. f_equal. lia.
      * rewrite vget_vset. assert (i = n) by lia. subst. rewrite Nat.eqb_refl.
        replace (S n - 1 - n)%nat with 0%nat by lia. apply hd_nth.
      * rewrite vget_vset. destruct (Nat.eqb_spec i n); [lia|reflexivity].
    + intros _. destruct n.
      * cbn [popVecLoop] in E2. inversion E2; subst. split; [apply vset_wf|apply vset_not_nil].
      * apply W. lia.
Qed.

Lemma popVec_plain s l : Holds s l ->
  exists s' v, popVec s = Ok (v, s') /\ Only_stack s s' (skipn (dims_of s) l) /\
    (forall i, vget v i = vec_of (dims_of s) l i) /\ (dims_of s <> O -> vwf v /\ v <> []).
Proof.
  intros H. unfold popVec, popVecAt.
  destruct (popVecLoop_plain (dims_of s) s l [] H) as (s' & v & E & C & G & W).
  exists s', v. split; [exact E|]. split; [exact C|]. split; [exact G|exact W].
Qed.

Lemma push_vec_loop_plain n : forall i g k, plain k ->
  s_list (stk_push_vec_loop n i g k) = rev (map g (seq i n)) ++ s_list k /\
  s_mode (stk_push_vec_loop n i g k) = s_mode k.
Proof.
  induction n as [|n IH]; intros i g k P; cbn [stk_push_vec_loop seq map rev app]; auto.
  destruct (push_plain (g i) k P) as [H1 H2].
  destruct (IH (S i) g (stk_push (g i) k)) as [H3 H4].
  { unfold plain. rewrite H2. exact P. }
  rewrite H3, H4, H1, H2, <- app_assoc. auto.
Qed.

Lemma onStack_plain {A} (f : stk -> A * stk) s l (l' : list Z) a :
  Holds s l ->
  (forall k, plain k -> s_list k = l -> fst (f k) = a /\ s_list (snd (f k)) = l' /\ s_mode (snd (f k)) = s_mode k) ->
  exists s', onStack TOP f s = Ok (a, s') /\ Only_stack s s' l'.
Proof.
  intros (k & E & P & L) F. destruct (F k P L) as (A1 & A2 & A3).
  unfold onStack, TOP. unfold ss_top in E. fold (mySS s). rewrite E.
  eexists. rewrite A1. split; [reflexivity|].
  exists k, (snd (f k)). split; auto.
Qed.

Lemma pushVec_plain s l v : Holds s l ->
  exists s', pushVec v s = Ok (tt, s') /\
    Only_stack s s' (rev (map (vget v) (seq 0 (dims_of s))) ++ l).
Proof.
  intros H. unfold pushVec, pushVecAt.
  destruct (onStack_plain (fun k => (tt, stk_push_vec_loop (dims_of s) 0 (vget v) k)) s l
              (rev (map (vget v) (seq 0 (dims_of s))) ++ l) tt H) as (s' & E & C).
  - intros k P L. cbn [fst snd]. destruct (push_vec_loop_plain (dims_of s) 0 (vget v) k P) as [H1 H2].
    rewrite H1, L. auto.
  - exists s'. split; auto. unfold mbind at 1. unfold mbind at 1.
    change (getC s) with (Ok (u_cfg (w_uni (s_w s) (r_uni (s_r s))), s)).
    cbv beta iota. fold (dims_of s). unfold mbind. rewrite E. reflexivity.
Qed.

(** ** Moving *)

(** The part of the interpreter that only a movement instruction changes. *)
Lemma ipSetDelta_run v s :
  testmode MODE_HOVER (w_uni (s_w s) (r_uni (s_r s))) = false ->
  ipSetDelta v s = Ok (tt, {| s_w := s_w s; s_r := observe_delta v (set_r_delta v (s_r s)) |}).
Proof.
  intros H. unfold ipSetDelta, mbind, getR, getU. rewrite H. reflexivity.
Qed.
Lemma observe_nofish d r : r_fish r = None -> observe_delta d r = r.
Proof. intros H. unfold observe_delta. now rewrite H. Qed.

(** Where [InstructionPointer::next] takes the IP of [s]. *)
Definition next_of (s : st) : res (vec * vec) :=
  let u := w_uni (s_w s) (r_uni (s_r s)) in
  ip_next (c_torus (u_cfg u)) (c_dims (u_cfg u)) (u_field u) (r_pos (s_r s)) (r_delta (s_r s)).
Definition moved (s : st) (p d : vec) : st :=
  {| s_w := s_w s; s_r := set_r_delta d (set_r_pos p (s_r s)) |}.
Lemma ipNext_run s p d :
  r_stopped (s_r s) = false -> next_of s = Ok (p, d) -> ipNext s = Ok (tt, moved s p d).
Proof.
  intros H E. unfold ipNext, mbind, getR, getU. rewrite H. unfold lift, next_of in *. rewrite E. reflexivity.
Qed.
Lemma ipNext_stopped s : r_stopped (s_r s) = true -> ipNext s = Ok (tt, s).
Proof. intros H. unfold ipNext, mbind, getR, getU. rewrite H. reflexivity. Qed.
