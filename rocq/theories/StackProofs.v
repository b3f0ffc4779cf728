(** * Stack and StackStack facts (see StackModel.v). *)

From Coq Require Import ZArith List Bool Lia.
From Verif Require Import Base BaseProofs VectorModel StackModel.
Import ListNotations.
Open Scope Z_scope.

(** ** Specification: a double-ended sequence

    [dq] lists the values from the front to the back; the two flags say which
    end pushes and pops use. *)

Record deque := { dq : list Z; dq_queue : bool; dq_invert : bool }.

Inductive sop :=
| OPush (x : Z) | OPop | OPeek | OClear | OSize | OMode (m : Z).

Definition dback (l : list Z) : Z := last l 0.
Definition dfront (l : list Z) : Z := hd 0 l.

(** Effect of one operation and the value it returns (0 when nothing). *)
Definition dstep (d : deque) (o : sop) : deque * Z :=
  match o with
  | OPush x =>
      ({| dq := if dq_invert d then x :: dq d else dq d ++ [x];
          dq_queue := dq_queue d; dq_invert := dq_invert d |}, 0)
  | OPop =>
      ({| dq := if dq_queue d then tl (dq d) else removelast (dq d);
          dq_queue := dq_queue d; dq_invert := dq_invert d |},
       if dq_queue d then dfront (dq d) else dback (dq d))
  | OPeek => (d, if dq_queue d then dfront (dq d) else dback (dq d))
  | OClear => ({| dq := []; dq_queue := dq_queue d; dq_invert := dq_invert d |}, 0)
  | OSize => (d, Z.of_nat (length (dq d)))
  | OMode m =>
      ({| dq := dq d; dq_queue := Z.testbit m MODE_QUEUE;
          dq_invert := Z.testbit m MODE_INVERT |}, 0)
  end.

Fixpoint drun (d : deque) (os : list sop) : deque * list Z :=
  match os with
  | [] => (d, [])
  | o :: t => let '(d', r) := dstep d o in
              let '(d'', rs) := drun d' t in (d'', r :: rs)
  end.

(** Number of operations that age a stack. *)
Fixpoint aging (os : list sop) : Z :=
  match os with
  | [] => 0
  | OPush _ :: t | OPop :: t | OClear :: t => 1 + aging t
  | _ :: t => aging t
  end.

(** ** The model performing the same operations *)

Definition sstep (s : stk) (o : sop) : stk * Z :=
  match o with
  | OPush x => (stk_push x s, 0)
  | OPop => (snd (stk_pop s), fst (stk_pop s))
  | OPeek => (s, stk_peek s)
  | OClear => (stk_clear s, 0)
  | OSize => (s, stk_size s)
  | OMode m => (stk_setmode m s, 0)
  end.

Fixpoint srun (s : stk) (os : list sop) : stk * list Z :=
  match os with
  | [] => (s, [])
  | o :: t => let '(s', r) := sstep s o in
              let '(s'', rs) := srun s' t in (s'', r :: rs)
  end.

Definition abs (s : stk) : deque :=
  {| dq := rev (s_list s);
     dq_queue := Z.testbit (s_mode s) MODE_QUEUE;
     dq_invert := Z.testbit (s_mode s) MODE_INVERT |}.

Lemma last_rev (l : list Z) : last (rev l) 0 = hd 0 l.
Proof. destruct l; simpl; auto. apply last_last. Qed.
Lemma hd_rev (l : list Z) : hd 0 (rev l) = last l 0.
Proof. rewrite <- (rev_involutive l) at 2. now rewrite last_rev. Qed.
Lemma removelast_rev (l : list Z) : removelast (rev l) = rev (tl l).
Proof. destruct l; simpl; auto. apply removelast_last. Qed.
Lemma tl_rev (l : list Z) : tl (rev l) = rev (removelast l).
Proof.
  rewrite <- (rev_involutive l) at 2. rewrite removelast_rev. now rewrite rev_involutive.
Qed.

Lemma sstep_refines s o :
  abs (fst (sstep s o)) = fst (dstep (abs s) o) /\ snd (sstep s o) = snd (dstep (abs s) o).
Proof.
  destruct s as [m l n].
  destruct o; unfold sstep, dstep, abs, stk_push, stk_clear, stk_size, stk_setmode;
    cbn [fst snd s_list s_mode s_ops dq dq_queue dq_invert].
  - destruct (Z.testbit m MODE_INVERT) eqn:E; split; auto.
    now rewrite rev_app_distr.
  - unfold stk_pop; cbn [s_list s_mode s_ops].
    destruct l as [|y l].
    + cbn [fst snd rev tl removelast s_list s_mode].
      destruct (Z.testbit m MODE_QUEUE); auto.
    + destruct (Z.testbit m MODE_QUEUE) eqn:E; cbn [fst snd s_list s_mode]; split.
      * rewrite tl_rev. rewrite E. reflexivity.
      * unfold dfront, front. now rewrite hd_rev.
      * rewrite removelast_rev. rewrite E. reflexivity.
      * unfold dback. now rewrite last_rev.
  - unfold stk_peek; cbn [s_list s_mode]. split; auto. destruct l as [|y l].
    + cbn [fst snd rev tl removelast s_list s_mode].
      destruct (Z.testbit m MODE_QUEUE); auto.
    + destruct (Z.testbit m MODE_QUEUE); unfold dfront, dback, front.
      * now rewrite hd_rev.
      * now rewrite last_rev.
  - auto.
  - rewrite rev_length. auto.
  - auto.
Qed.

Lemma srun_refines os : forall s,
  abs (fst (srun s os)) = fst (drun (abs s) os) /\ snd (srun s os) = snd (drun (abs s) os).
Proof.
  induction os as [|o os IH]; intros s; cbn [srun drun]; auto.
  destruct (sstep_refines s o) as [H1 H2].
  destruct (sstep s o) as [s' r]. destruct (dstep (abs s) o) as [d' r'].
  cbn [fst snd] in *. subst. destruct (IH s') as [H3 H4].
  destruct (srun s' os). destruct (drun (abs s') os). cbn [fst snd] in *. subst. auto.
Qed.

Lemma sstep_age s o : s_ops (fst (sstep s o)) = s_ops s + aging [o].
Proof.
  destruct o; unfold sstep, stk_push, stk_clear, stk_setmode, stk_pop;
    cbn [fst s_ops aging]; try lia.
  destruct (s_list s); cbn [snd s_ops]; try lia.
  destruct (Z.testbit (s_mode s) MODE_QUEUE); cbn [snd s_ops]; lia.
Qed.

Lemma srun_age os : forall s, s_ops (fst (srun s os)) = s_ops s + aging os.
Proof.
  induction os as [|o os IH]; intros s; cbn [srun]; [cbn; lia|].
  pose proof (sstep_age s o). destruct (sstep s o) as [s' r]. cbn [fst] in H.
  specialize (IH s'). destruct (srun s' os). cbn [fst] in *.
  destruct o; cbn [aging] in *; lia.
Qed.

(** ** [get n] is what the [n]-th next pop returns *)

Fixpoint pop_n (n : nat) (s : stk) : Z :=
  match n with
  | O => fst (stk_pop s)
  | S n' => pop_n n' (snd (stk_pop s))
  end.

Lemma pop_list_queue s : Z.testbit (s_mode s) MODE_QUEUE = true ->
  fst (stk_pop s) = last (s_list s) 0 /\ s_list (snd (stk_pop s)) = removelast (s_list s)
  /\ s_mode (snd (stk_pop s)) = s_mode s.
Proof.
  intros E. unfold stk_pop. destruct (s_list s) eqn:L; auto.
  rewrite E. cbn [fst snd s_list s_mode]. auto.
Qed.
Lemma pop_list_stack s : Z.testbit (s_mode s) MODE_QUEUE = false ->
  fst (stk_pop s) = hd 0 (s_list s) /\ s_list (snd (stk_pop s)) = tl (s_list s)
  /\ s_mode (snd (stk_pop s)) = s_mode s.
Proof.
  intros E. unfold stk_pop. destruct (s_list s) eqn:L; auto. rewrite E. auto.
Qed.

Lemma pop_n_stack n : forall s, Z.testbit (s_mode s) MODE_QUEUE = false ->
  pop_n n s = nth n (s_list s) 0.
Proof.
  induction n as [|n IH]; intros s E; cbn [pop_n];
    destruct (pop_list_stack s E) as (H1 & H2 & H3).
  - rewrite H1. destruct (s_list s); auto.
  - rewrite IH by (now rewrite H3). rewrite H2. destruct (s_list s); auto. destruct n; auto.
Qed.

Lemma pop_n_queue n : forall s, Z.testbit (s_mode s) MODE_QUEUE = true ->
  pop_n n s = nth n (rev (s_list s)) 0.
Proof.
  induction n as [|n IH]; intros s E; cbn [pop_n];
    destruct (pop_list_queue s E) as (H1 & H2 & H3).
  - rewrite H1, <- hd_rev. destruct (rev (s_list s)); auto.
  - rewrite IH by (now rewrite H3). rewrite H2, <- tl_rev.
    destruct (rev (s_list s)); auto. destruct n; auto.
Qed.

Lemma get_pop_n s n :
  stk_get (Z.of_nat (S n)) s = pop_n n s.
Proof.
  unfold stk_get. destruct (Z.testbit (s_mode s) MODE_QUEUE) eqn:E.
  - rewrite (pop_n_queue n s E).
    destruct (Z.leb_spec (Z.of_nat (S n)) (stk_size s)).
    + destruct (Z.ltb_spec 0 (Z.of_nat (S n))); [|lia]. cbn [andb].
      f_equal. lia.
    + cbn [andb]. rewrite nth_overflow; auto. rewrite rev_length. unfold stk_size in *. lia.
  - rewrite (pop_n_stack n s E).
    destruct (Z.leb_spec (Z.of_nat (S n)) (stk_size s)).
    + destruct (Z.ltb_spec 0 (Z.of_nat (S n))); [|lia]. cbn [andb].
      f_equal. lia.
    + cbn [andb]. rewrite nth_overflow; auto. unfold stk_size in *. lia.
Qed.

(** ** StackStack *)

Lemma ss_copy_rev s : ss_list (ss_copy s) = rev (map stk_copy (ss_list s)).
Proof.
  unfold ss_copy; cbn [ss_list]. generalize (ss_list s) as l. intros l.
  assert (G : forall l acc, fold_left (fun acc x => stk_copy x :: acc) l acc
              = rev (map stk_copy l) ++ acc).
  { clear. induction l as [|x l IH]; intros acc; cbn; auto.
    rewrite IH, <- app_assoc. reflexivity. }
  rewrite G. apply app_nil_r.
Qed.

(** Operations on a stack-stack. *)
Inductive ssop := SPush | SPop | SInc | SDec | SInsert (p : nat) | SRemove (p : nat).

Definition ssstep (s : sstk) (o : ssop) : res sstk :=
  match o with
  | SPush => Ok (ss_push s)
  | SPop => ss_pop s
  | SInc => Ok (match ss_increment s with Some s' => s' | None => s end)
  | SDec => Ok (match ss_decrement s with Some s' => s' | None => s end)
  | SInsert p => ss_insert p s
  | SRemove p => ss_remove p s
  end.
Fixpoint ssrun (s : sstk) (os : list ssop) : res sstk :=
  match os with
  | [] => Ok s
  | o :: t => s' <-- ssstep s o ;; ssrun s' t
  end.

Definition sel_ok (s : sstk) : Prop := (ss_sel s < length (ss_list s))%nat.

Definition grows (o : ssop) : bool :=
  match o with SPop | SRemove _ => false | _ => true end.

Lemma ssstep_sel s o s' :
  sel_ok s -> grows o = true -> ssstep s o = Ok s' -> sel_ok s'.
Proof.
  unfold sel_ok. intros H G E. destruct o; try discriminate; cbn in E.
  - inversion E; subst. cbn. lia.
  - unfold ss_increment in E. destruct (ss_sel s) eqn:Q; inversion E; subst; cbn; lia.
  - unfold ss_decrement in E.
    destruct (Nat.ltb_spec (ss_sel s) (length (ss_list s) - 1)); inversion E; subst; cbn; lia.
  - unfold ss_insert in E.
    destruct (Nat.leb_spec (p + ss_sel s) (length (ss_list s))); inversion E; subst.
    cbn [ss_sel ss_list]. rewrite app_length. cbn [length].
    rewrite firstn_length, skipn_length. lia.
Qed.

Lemma ssrun_sel os : forall s s',
  sel_ok s -> forallb grows os = true -> ssrun s os = Ok s' -> sel_ok s'.
Proof.
  induction os as [|o os IH]; intros s s' H G E; cbn in *.
  - inversion E; subst; auto.
  - apply andb_true_iff in G. destruct G as [G1 G2].
    apply bind_ok in E. destruct E as (s1 & E1 & E2).
    exact (IH s1 s' (ssstep_sel s o s1 H G1 E1) G2 E2).
Qed.

(** ** Strings on a stack *)

Definition plain (s : stk) : Prop :=
  Z.testbit (s_mode s) MODE_QUEUE = false /\ Z.testbit (s_mode s) MODE_INVERT = false.

Lemma push_plain x s : plain s ->
  s_list (stk_push x s) = x :: s_list s /\ s_mode (stk_push x s) = s_mode s.
Proof. intros [_ E]. unfold stk_push; cbn [s_list s_mode]. now rewrite E. Qed.

Lemma pushes_plain l : forall s, plain s ->
  s_list (stk_pushes l s) = rev l ++ s_list s /\ s_mode (stk_pushes l s) = s_mode s.
Proof.
  induction l as [|x l IH]; intros s P; cbn [stk_pushes fold_left rev app]; auto.
  destruct (push_plain x s P) as [H1 H2].
  destruct (IH (stk_push x s)) as [H3 H4].
  { unfold plain. rewrite H2. exact P. }
  unfold stk_pushes in *. rewrite H3, H4, H1, H2, <- app_assoc. auto.
Qed.

Lemma push_string_plain str s : plain s ->
  s_list (stk_push_string str s) = str ++ 0 :: s_list s /\
  s_mode (stk_push_string str s) = s_mode s.
Proof.
  intros P. unfold stk_push_string. destruct (push_plain 0 s P) as [H1 H2].
  destruct (pushes_plain (rev str) (stk_push 0 s)) as [H3 H4].
  { unfold plain. rewrite H2. exact P. }
  rewrite H3, H4, H1, H2, rev_involutive. auto.
Qed.

Lemma pop_string_loop_plain fuel : forall str rest acc s,
  Z.testbit (s_mode s) MODE_QUEUE = false ->
  Forall (fun c => -128 <= c <= 127 /\ c <> 0) str ->
  s_list s = str ++ 0 :: rest -> (length str < fuel)%nat ->
  exists s', stk_pop_string_loop fuel acc s = (acc ++ str, s') /\ s_list s' = rest /\ s_mode s' = s_mode s.
Proof.
  induction fuel as [|fuel IH]; intros str rest acc s E F L Hf; [lia|].
  cbn [stk_pop_string_loop]. destruct (pop_list_stack s E) as (H1 & H2 & H3).
  destruct (stk_pop s) as [c s']. cbn [fst snd] in *. rewrite L in H1, H2.
  destruct str as [|x str]; cbn in H1, H2; subst c.
  - rewrite Z.eqb_refl. exists s'. rewrite app_nil_r. auto.
  - inversion F as [|? ? [R NZ] F']; subst.
    destruct (Z.eqb_spec x 0); [lia|].
    destruct (IH str rest (acc ++ [to_i8 x]) s') as (s2 & G1 & G2 & G3); auto.
    { now rewrite H3. }
    { cbn in Hf. lia. }
    exists s2. rewrite G1, <- app_assoc, (to_i8_id x R), G3. auto.
Qed.
