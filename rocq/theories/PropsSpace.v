(** * Properties C92, C94-: string vectors, orthogonal easement, N-dimensional
    directions and the timer (JSTR, ORTH, NFUN, HRTI). *)

From Coq Require Import String ZArith List Bool Lia.
From Verif Require Import Base BaseProofs VectorModel VectorProofs TextModel TextProofs
  StackModel StackProofs FieldModel FieldProofs World IpModel LoadModel FingModel CoreModel
  UniModel ExecProofs FlowProofs States PropsStack PropsBlocks Effects SchedProofs PropsIO PropsTurn PropsLoad
  PropsFing PropsStrn PropsMath.
Import ListNotations.
Open Scope Z_scope.
Local Notation length := List.length.

(** ** C92 JSTR *)

(** The point [k] steps of [d] away from [a]. *)
Definition Along (a d : nat -> Z) (k : nat) (q : vec) : Prop :=
  forall i, vget q i = a i + Z.of_nat k * d i.

Lemma sas_trans s s1 s2 n f1 f2 l1 l2 :
  Space_and_stack s s1 n f1 l1 -> Space_and_stack s1 s2 n f2 l2 -> Space_and_stack s s2 n f2 l2.
Proof.
  intros (A & B & C & a & O & R) (A' & B' & C' & b & O' & R').
  split; [rewrite A', A; reflexivity|]. split; [intros k K; rewrite B', B; auto|].
  split; [rewrite C', C; reflexivity|].
  destruct (only_stack_r a s1 b l2 O' R) as (c & O2 & R2). exists c.
  split; [exact (Only_stack_trans _ _ _ _ _ O O2)|congruence].
Qed.
Lemma sas_stack s s' n l : Only_stack s s' l -> Space_and_stack s s' n (field_of s n) l.
Proof.
  intros O. pose proof (Only_stack_w _ _ _ O) as W. unfold Space_and_stack, field_of. rewrite W.
  split; [now destruct (w_uni (s_w s) n)|]. split; [auto|].
  split; [now destruct (s_w s)|]. exists s'. auto.
Qed.
Lemma sas_put s n p v l : Holds s l -> exists s', fput n p v s = Ok (tt, s') /\
  Space_and_stack s s' n (f_put p v (field_of s n)) l.
Proof.
  intros H. destruct (fput_run n p v s) as (s' & E & R & U & O & W). exists s'. split; [exact E|].
  split; [exact U|]. split; [exact O|]. split; [exact W|]. exists s. split; [now apply Only_stack_refl|exact R].
Qed.
Lemma sas_holds s s' n f l l' : Holds s l -> Space_and_stack s s' n f l' -> Holds s' l'.
Proof.
  intros H (_ & _ & _ & a & O & R). pose proof (Only_stack_holds _ _ _ _ H O) as X.
  unfold Holds, mySS in *. now rewrite R.
Qed.
Lemma sas_field s s' n f l : Space_and_stack s s' n f l -> field_of s' n = f.
Proof. intros (A & _). unfold field_of. now rewrite A. Qed.

Lemma vadd_along (a d : nat -> Z) p vd k : Along a d k p -> (forall i, vget vd i = d i) ->
  (forall i, in64 (a i + Z.of_nat (S k) * d i)) -> exists q, vadd p vd = Ok q /\ Along a d (S k) q.
Proof.
  intros P V I. destruct (vadd_defined p vd) as (q & E).
  - intros i. rewrite P, V. replace (a i + Z.of_nat k * d i + d i) with (a i + Z.of_nat (S k) * d i); [apply I|]. lia.
  - exists q. split; [exact E|]. intros i. rewrite (vadd_get _ _ _ E), P, V. lia.
Qed.

Lemma jstr_put_run n : forall fld vd (a d : nat -> Z) k s l p,
  Holds s l -> Along a d k p -> (forall i, vget vd i = d i) -> (exists i, d i <> 0) ->
  (forall j i, (j <= k + n)%nat -> in64 (a i + Z.of_nat j * d i)) ->
  exists s' f', jstr_put n fld p vd s = Ok (tt, s') /\ Space_and_stack s s' fld f' (skipn n l) /\
    f_char f' = f_char (field_of s fld) /\
    (forall j q, (k <= j < k + n)%nat -> Along a d j q ->
       f_get f' q = cellval (f_char (field_of s fld)) (nth (j - k) l 0)) /\
    (forall q, (forall j, (k <= j < k + n)%nat -> ~ Along a d j q) -> f_get f' q = f_get (field_of s fld) q).
Proof.
  induction n as [|n IH]; intros fld vd a d k s l p H P V Nz I; cbn [jstr_put].
  - exists s, (field_of s fld). split; [reflexivity|]. split; [apply sas_stack; now apply Only_stack_refl|].
    split; [reflexivity|]. split; [intros; lia|auto].
  - xpop. destruct (sas_put s0 fld p (hd 0 l) _ H0) as (s1 & E1 & S1). rewrite (run_bind _ _ _ _ _ E1).
    destruct (vadd_along a d p vd k P V) as (q1 & Eq & Q1); [intros i; apply I; lia|].
    rewrite (run_bind (lift (vadd p vd)) _ s1 q1 s1 (run_lift _ _ _ Eq)).
    pose proof (sas_trans _ _ _ _ _ _ _ _ (sas_stack s s0 fld _ C) S1) as S01.
    destruct (IH fld vd a d (S k) s1 (tl l) q1) as (s' & f' & E' & S' & Ch & A & B); auto.
    + exact (sas_holds _ _ _ _ _ _ H S01).
    + intros j i J. apply I. lia.
    + assert (F0 : field_of s0 fld = field_of s fld) by (unfold field_of; now rewrite (Only_stack_w _ _ _ C)).
      pose proof (sas_field _ _ _ _ _ S01) as F1. rewrite F0 in F1. rewrite F1 in *. rewrite f_put_char in *.
      exists s', f'. split; [exact E'|].
      replace (skipn (S n) l) with (skipn n (tl l)) by (destruct l; [now rewrite skipn_nil|reflexivity]).
      split; [exact (sas_trans _ _ _ _ _ _ _ _ S01 S')|]. split; [exact Ch|]. split.
      * intros j q J Q. destruct (Nat.eq_dec j k) as [->|Nk].
        -- rewrite B.
           ++ rewrite Nat.sub_diag. rewrite f_get_put_same; [now rewrite hd_nth|]. intros i. rewrite P, Q. reflexivity.
           ++ intros j J' Q'. destruct Nz as (i & Ni). specialize (Q i). specialize (Q' i).
              assert ((Z.of_nat j - Z.of_nat k) * d i = 0) as K by lia. apply Z.mul_eq_0 in K. lia.
        -- rewrite (A j q) by (auto; lia). f_equal. replace (j - k)%nat with (S (j - S k)) by lia. now destruct l; [destruct (j - S k)%nat|].
      * intros q Nq. rewrite B by (intros j J; apply Nq; lia). apply f_get_put_other.
        intros Sm. apply (Nq k); [lia|]. intros i. rewrite <- Sm, P. reflexivity.
Qed.
Lemma jstr_get_run n : forall fld vd (a d : nat -> Z) k s l p,
  Holds s l -> Along a d k p -> (forall i, vget vd i = d i) ->
  (forall j i, (j <= k + n)%nat -> in64 (a i + Z.of_nat j * d i)) ->
  exists s' cells, jstr_get n fld p vd s = Ok (tt, s') /\ Only_stack s s' (rev cells ++ l) /\
    length cells = n /\
    (forall j q, (k <= j < k + n)%nat -> Along a d j q -> nth (j - k) cells 0 = f_get (field_of s fld) q).
Proof.
  induction n as [|n IH]; intros fld vd a d k s l p H P V I; cbn [jstr_get].
  - exists s, []. split; [reflexivity|]. split; [now apply Only_stack_refl|]. split; [reflexivity|]. intros; lia.
  - rewrite (run_bind (fget fld p) _ s (f_get (field_of s fld) p) s) by reflexivity. xpush.
    destruct (vadd_along a d p vd k P V) as (q1 & Eq & Q1); [intros i; apply I; lia|].
    rewrite (run_bind (lift (vadd p vd)) _ s0 q1 s0 (run_lift _ _ _ Eq)).
    destruct (IH fld vd a d (S k) s0 _ q1 H0 Q1 V) as (s' & cells & E' & O' & Ln & A); [intros j i J; apply I; lia|].
    exists s', (f_get (field_of s fld) p :: cells). split; [exact E'|].
    split; [cbn [rev]; rewrite <- app_assoc; os_finish|]. split; [cbn [List.length]; lia|].
    assert (F0 : field_of s0 fld = field_of s fld) by (unfold field_of; now rewrite (Only_stack_w _ _ _ C)).
    rewrite F0 in A. intros j q J Q. destruct (Nat.eq_dec j k) as [->|Nk].
    + rewrite Nat.sub_diag. cbn [nth]. apply f_get_ext. intros i. now rewrite P, Q.
    + replace (j - k)%nat with (S (j - S k)) by lia. cbn [nth]. apply A; [lia|exact Q].
Qed.

(** The address and the step on the stack below the count: the vector popped
    first plus the storage offset, and the vector below it. *)
Definition step_of (s : st) (l : list Z) : nat -> Z := vec_of (dims_of s) (skipn (dims_of s) l).
Definition rest_of (s : st) (l : list Z) : list Z := skipn (2 * dims_of s) l.

(** What both instructions take from the stack. *)
Lemma jstr_args s n l : Holds s (n :: l) ->
  (forall i, in64 (address s l i)) ->
  exists s' va vd p, Only_stack s s' (rest_of s l) /\
    (forall (k : Z -> vec -> vec -> M err), (n0 <- popS ;; va <- popVec ;; vd <- popVec ;; k n0 va vd) s = k n va vd s') /\
    vadd va (r_storage (s_r s')) = Ok p /\
    (forall i, vget vd i = step_of s l i) /\ Along (address s l) (step_of s l) 0 p.
Proof.
  intros H I. destruct (popS_plain s _ H) as (s0 & E & C). pose proof (Only_stack_holds _ _ _ _ H C) as H0. cbn [hd tl] in *.
  destruct (popVec_plain s0 l H0) as (s1 & va & E1 & C1 & G1 & _). pose proof (Only_stack_holds _ _ _ _ H0 C1) as H1.
  destruct (popVec_plain s1 _ H1) as (s2 & vd & E2 & C2 & G2 & _).
  assert (D0 : dims_of s0 = dims_of s) by (unfold dims_of; rewrite (Only_stack_w _ _ _ C), (Only_stack_r _ _ _ C); reflexivity).
  assert (D1 : dims_of s1 = dims_of s0) by (unfold dims_of; rewrite (Only_stack_w _ _ _ C1), (Only_stack_r _ _ _ C1); reflexivity).
  rewrite D1, D0 in *.
  assert (O : Only_stack s s2 (skipn (dims_of s) (skipn (dims_of s) l))) by os_finish.
  assert (St : r_storage (s_r s2) = r_storage (s_r s)) by (rewrite (Only_stack_r _ _ _ O); reflexivity).
  destruct (vadd_defined va (r_storage (s_r s2))) as (p & Ep).
  { intros i. rewrite St, G1. apply I. }
  exists s2, va, vd, p. split.
  { unfold rest_of. replace (2 * dims_of s)%nat with (dims_of s + dims_of s)%nat by lia. rewrite <- skip_skip. exact O. }
  split; [|split; [exact Ep|split; [exact G2|]]].
  - intros k. rewrite (run_bind _ _ _ _ _ E), (run_bind _ _ _ _ _ E1), (run_bind _ _ _ _ _ E2). reflexivity.
  - intros i. rewrite (vadd_get _ _ _ Ep), St, G1. unfold address. lia.
Qed.

(** P writes the next [n] cells of the stack, the top first, to the address and
    on in steps of the vector.  Nothing else changes. *)
Theorem C92_put : forall F D s fld n l,
  Letter s FP_JSTR fld 80 -> Holds s (n :: l) -> f_char (field_of s fld) = false ->
  (forall j i, (j <= Z.to_nat n)%nat -> in64 (address s l i + Z.of_nat j * step_of s l i)) ->
  (exists i, step_of s l i <> 0) ->
  exists s' f', execute F (S D) 80 s = Ok (ENone, s') /\
    Space_and_stack s s' fld f' (skipn (Z.to_nat n) (rest_of s l)) /\
    (forall j q, (j < Z.to_nat n)%nat -> Along (address s l) (step_of s l) j q -> f_get f' q = nth j (rest_of s l) 0) /\
    (forall q, (forall j, (j < Z.to_nat n)%nat -> ~ Along (address s l) (step_of s l) j q) ->
       f_get f' q = f_get (field_of s fld) q).
Proof.
  intros F D s fld n l L H Ch I Nz. rewrite (execute_letter F D _ _ _ _ L).
  change (fp_exec F FP_JSTR fld 80) with (jstr_exec fld 80). unfold jstr_exec. cbn [Z.eqb Pos.eqb].
  destruct (jstr_args s n l H) as (s1 & va & vd & p & O & K & Ep & Gd & Ap).
  { intros i. specialize (I 0%nat i). rewrite Z.mul_0_l, Z.add_0_r in I. apply I. lia. }
  rewrite K. rewrite (run_bind getStorage _ s1 (r_storage (s_r s1)) s1) by reflexivity.
  rewrite (run_bind (lift _) _ s1 p s1) by (now apply run_lift).
  pose proof (Only_stack_holds _ _ _ _ H O) as H1.
  destruct (jstr_put_run (Z.to_nat n) fld vd (address s l) (step_of s l) 0 s1 _ p H1 Ap Gd Nz)
    as (s' & f' & E' & S' & Ch' & A & B); [intros j i J; apply I; lia|].
  rewrite (run_bind _ _ _ _ _ E'). exists s', f'. split; [reflexivity|].
  assert (F1 : field_of s1 fld = field_of s fld) by (unfold field_of; now rewrite (Only_stack_w _ _ _ O)).
  rewrite F1, Ch in *. split; [exact (sas_trans _ _ _ _ _ _ _ _ (sas_stack _ _ fld _ O) S')|]. split.
  - intros j q J Q. rewrite (A j q) by (auto; lia). now rewrite Nat.sub_0_r.
  - intros q N. apply B. intros j J. apply N. lia.
Qed.
(** G pushes a zero and then the [n] cells from the address on, so that the
    last one ends up on top. *)
Theorem C92_get : forall F D s fld n l,
  Letter s FP_JSTR fld 71 -> Holds s (n :: l) ->
  (forall j i, (j <= Z.to_nat n)%nat -> in64 (address s l i + Z.of_nat j * step_of s l i)) ->
  exists s' cells, execute F (S D) 71 s = Ok (ENone, s') /\
    Only_stack s s' (rev cells ++ 0 :: rest_of s l) /\ length cells = Z.to_nat n /\
    (forall j q, (j < Z.to_nat n)%nat -> Along (address s l) (step_of s l) j q ->
       nth j cells 0 = f_get (field_of s fld) q).
Proof.
  intros F D s fld n l L H I. rewrite (execute_letter F D _ _ _ _ L).
  change (fp_exec F FP_JSTR fld 71) with (jstr_exec fld 71). unfold jstr_exec. cbn [Z.eqb Pos.eqb].
  destruct (jstr_args s n l H) as (s1 & va & vd & p & O & K & Ep & Gd & Ap).
  { intros i. specialize (I 0%nat i). rewrite Z.mul_0_l, Z.add_0_r in I. apply I. lia. }
  rewrite K. rewrite (run_bind getStorage _ s1 (r_storage (s_r s1)) s1) by reflexivity.
  rewrite (run_bind (lift _) _ s1 p s1) by (now apply run_lift).
  pose proof (Only_stack_holds _ _ _ _ H O) as H1. xpush.
  destruct (jstr_get_run (Z.to_nat n) fld vd (address s l) (step_of s l) 0 s0 _ p H0 Ap Gd)
    as (s' & cells & E' & O' & Ln & A); [intros j i J; apply I; lia|].
  rewrite (run_bind _ _ _ _ _ E'). exists s', cells. split; [reflexivity|]. split; [os_finish|]. split; [exact Ln|].
  assert (F1 : field_of s0 fld = field_of s fld).
  { unfold field_of. rewrite (Only_stack_w _ _ _ C), (Only_stack_w _ _ _ O). reflexivity. }
  rewrite F1 in A. intros j q J Q. specialize (A j q). rewrite Nat.sub_0_r in A. apply A; [lia|exact Q].
Qed.
(** So G after P does not restore the cells: it leaves them in reverse order.
    Here P writes "AB" at (0,5), and G finds "BA" there. *)
Theorem C92_refuted : exists s1 s2,
  Holds (loaded [FP_JSTR] [2; 5; 0; 0; 1; 65; 66; 2; 5; 0; 0; 1]) [2; 5; 0; 0; 1; 65; 66; 2; 5; 0; 0; 1] /\
  Letter (loaded [FP_JSTR] [2; 5; 0; 0; 1; 65; 66; 2; 5; 0; 0; 1]) FP_JSTR 0 80 /\
  execute 1 1 80 (loaded [FP_JSTR] [2; 5; 0; 0; 1; 65; 66; 2; 5; 0; 0; 1]) = Ok (ENone, s1) /\
  execute 1 1 71 s1 = Ok (ENone, s2) /\ Holds s2 [66; 65; 0].
Proof.
  destruct (execute 1 1 80 (loaded [FP_JSTR] [2; 5; 0; 0; 1; 65; 66; 2; 5; 0; 0; 1])) as [[e1 s1]|] eqn:E1;
    [|vm_compute in E1; discriminate].
  destruct (execute 1 1 71 s1) as [[e2 s2]|] eqn:E2; [|vm_compute in E1; inversion E1; subst; vm_compute in E2; discriminate].
  exists s1, s2. split; [apply holds_with_list; vm_compute; [reflexivity|discriminate]|].
  split; [apply letterb_ok; vm_compute; reflexivity|].
  vm_compute in E1. inversion E1; subst. vm_compute in E2. inversion E2; subst.
  split; [reflexivity|]. split; [reflexivity|]. eexists. vm_compute. repeat split.
Qed.

Example C92_ex :
  Letter (loaded [FP_JSTR] [2; 5; 0; 1; 1; 65; 66]) FP_JSTR 0 80 /\
  Letter (loaded [FP_JSTR] [2; 5; 0; 1; 1; 65; 66]) FP_JSTR 0 71 /\
  Holds (loaded [FP_JSTR] [2; 5; 0; 1; 1; 65; 66]) [2; 5; 0; 1; 1; 65; 66] /\
  f_char (field_of (loaded [FP_JSTR] [2; 5; 0; 1; 1; 65; 66]) 0) = false /\
  map (address (loaded [FP_JSTR] [2; 5; 0; 1; 1; 65; 66]) [5; 0; 1; 1; 65; 66]) [0; 1]%nat = [0; 5] /\
  map (step_of (loaded [FP_JSTR] [2; 5; 0; 1; 1; 65; 66]) [5; 0; 1; 1; 65; 66]) [0; 1]%nat = [1; 1] /\
  rest_of (loaded [FP_JSTR] [2; 5; 0; 1; 1; 65; 66]) [5; 0; 1; 1; 65; 66] = [65; 66].
Proof.
  split; [apply letterb_ok; vm_compute; reflexivity|]. split; [apply letterb_ok; vm_compute; reflexivity|].
  split; [apply holds_with_list; vm_compute; [reflexivity|discriminate]|].
  repeat split; vm_compute; reflexivity.
Qed.
Print Assumptions C92_put.
Print Assumptions C92_get.
Print Assumptions C92_refuted.
