(** * Property C51: STRN *)

From Coq Require Import String ZArith List Bool Lia.
From Verif Require Import Base BaseProofs VectorModel VectorProofs TextModel TextProofs
  StackModel StackProofs FieldModel FieldProofs World IpModel LoadModel FingModel CoreModel
  UniModel ExecProofs FlowProofs States PropsStack PropsBlocks Effects SchedProofs PropsIO PropsLoad PropsFing.
Import ListNotations.
Open Scope Z_scope.

(** ** Specification *)

(** A string [b] on the stack is its characters, the first one on top, and a zero. *)
Definition str (b : bytes) (l : list Z) : list Z := b ++ 0 :: l.
(** The order of strings as sequences of unsigned bytes. *)
Inductive before : bytes -> bytes -> Prop :=
| before_nil y b : before [] (y :: b)
| before_lt x y a b : x mod 256 < y mod 256 -> before (x :: a) (y :: b)
| before_eq x a b : before a b -> before (x :: a) (x :: b).
(** [pre] leads to the first occurrence of [b] in [a]. *)
Definition First_at (b a pre suf : bytes) : Prop :=
  a = pre ++ b ++ suf /\ forall pre' suf', a = pre' ++ b ++ suf' -> (length pre <= length pre')%nat.
(** [q] is the cell [k] places east of [p]. *)
Definition East (p : nat -> Z) (k : Z) (q : vec) : Prop :=
  vget q 0 = p 0%nat + k /\ forall i, (1 <= i)%nat -> vget q i = p i.
(** [s'] is [s] with another Funge-space [f'] in universe [n] and another stack. *)
Definition Space_and_stack (s s' : st) (n : nat) (f' : field) (l' : list Z) : Prop :=
  w_uni (s_w s') n = set_u_field f' (w_uni (s_w s) n) /\
  (forall k, k <> n -> w_uni (s_w s') k = w_uni (s_w s) k) /\
  s_w s' = set_w_uni (w_uni (s_w s')) (s_w s) /\
  exists s1, Only_stack s s1 l' /\ s_r s' = s_r s1.

(** ** The stack instructions *)

Lemma u8_inj x y : -128 <= x <= 127 -> -128 <= y <= 127 -> x mod 256 = y mod 256 -> x = y.
Proof. intros. Z.div_mod_to_equations. lia. Qed.
Lemma before_irrefl a : ~ before a a.
Proof.
  intros H. remember a as b eqn:E in H at 2. revert E.
  induction H; intros E; inversion E; subst; try lia. auto.
Qed.
Lemma before_asym a b : before a b -> before b a -> False.
Proof.
  induction 1; intros K; inversion K; subst; try lia. auto.
Qed.
Lemma str_compare_spec a : forall b, char_str a -> char_str b ->
  (str_compare a b = 0 /\ a = b) \/ (str_compare a b < 0 /\ before a b) \/ (str_compare a b > 0 /\ before b a).
Proof.
  induction a as [|x a IH]; intros [|y b] A B; cbn [str_compare].
  - auto.
  - right. left. split; [cbn [length]; lia|constructor].
  - right. right. split; [cbn [length]; lia|constructor].
  - inversion A; subst. inversion B; subst. unfold to_u8. change (2 ^ 8) with 256.
    destruct (Z.eqb_spec (x mod 256) (y mod 256)) as [E|N].
    + apply u8_inj in E; try tauto. subst y.
      destruct (IH b) as [(E & ->)|[(E & K)|(E & K)]]; auto.
      * right. left. split; [exact E|now constructor].
      * right. right. split; [exact E|now constructor].
    + destruct (Z.lt_trichotomy (x mod 256) (y mod 256)) as [L|[L|L]]; [|contradiction|].
      * right. left. split; [lia|now constructor].
      * right. right. split; [lia|now constructor].
Qed.
Lemma is_prefix_spec p : forall s, is_prefix p s = true <-> exists r, s = p ++ r.
Proof.
  induction p as [|x p IH]; intros s; cbn [is_prefix].
  - split; [intros _; exists s; reflexivity|auto].
  - destruct s as [|y s]; [split; [discriminate|intros (r & E); discriminate]|].
    rewrite andb_true_iff, IH, Z.eqb_eq. split.
    + intros (-> & r & ->). exists r. reflexivity.
    + intros (r & E). inversion E; subst. eauto.
Qed.
Lemma str_find_spec p : forall s,
  match str_find p s with
  | Some r => exists pre suf, r = p ++ suf /\ First_at p s pre suf
  | None => forall pre suf, s <> pre ++ p ++ suf
  end.
Proof.
  induction s as [|x s IH]; cbn [str_find].
  - destruct (is_prefix p []) eqn:E.
    + apply is_prefix_spec in E. destruct E as (r & E). exists [], r. split; [exact E|].
      split; [exact E|]. intros; cbn; lia.
    + intros pre suf K. destruct pre; [|discriminate]. cbn in K.
      assert (X : is_prefix p [] = true) by (apply is_prefix_spec; eauto). congruence.
  - destruct (is_prefix p (x :: s)) eqn:E.
    + apply is_prefix_spec in E. destruct E as (r & E). exists [], r. split; [exact E|].
      split; [exact E|]. intros; cbn; lia.
    + assert (N : forall suf, x :: s <> p ++ suf).
      { intros suf K. assert (X : is_prefix p (x :: s) = true) by (apply is_prefix_spec; eauto). congruence. }
      destruct (str_find p s) as [r|].
      * destruct IH as (pre & suf & -> & -> & M). exists (x :: pre), suf. split; [reflexivity|].
        split; [reflexivity|]. intros [|y pre'] suf' K; [exfalso; exact (N suf' K)|].
        inversion K; subst. cbn [length]. specialize (M pre' suf' H1). lia.
      * intros [|y pre] suf K; [exact (N suf K)|]. inversion K; subst. eapply IH. reflexivity.
Qed.

(** The upper string is [a], the one below it [b].  A concatenates, N measures, L, R
    and M take a prefix, a suffix and a part, F finds, C compares. *)
Theorem C51_strings : forall F D s fld l a b,
  char_str a -> char_str b ->
  (Letter s FP_STRN fld 65 (* A *) -> Holds s (str a (str b l)) ->
     exists s', execute F (S D) 65 s = Ok (ENone, s') /\ Only_stack s s' (str (a ++ b) l)) /\
  (Letter s FP_STRN fld 78 (* N *) -> Holds s (str a l) ->
     exists s', execute F (S D) 78 s = Ok (ENone, s') /\ Only_stack s s' (Z.of_nat (length a) :: str a l)) /\
  (Letter s FP_STRN fld 67 (* C *) -> Holds s (str a (str b l)) ->
     exists s' n, execute F (S D) 67 s = Ok (ENone, s') /\ Only_stack s s' (n :: l) /\
       (n = 0 <-> a = b) /\ (n < 0 <-> before a b) /\ (n > 0 <-> before b a)) /\
  (Letter s FP_STRN fld 70 (* F *) -> Holds s (str a (str b l)) ->
     exists s' r, execute F (S D) 70 s = Ok (ENone, s') /\ Only_stack s s' (str r l) /\
       ((exists pre suf, First_at b a pre suf /\ r = b ++ suf) \/
        (forall pre suf, a <> pre ++ b ++ suf) /\ r = [])) /\
  (forall n, Letter s FP_STRN fld 76 (* L *) -> 0 <= n -> Holds s (n :: str a l) ->
     exists s', execute F (S D) 76 s = Ok (ENone, s') /\ Only_stack s s' (str (firstn (Z.to_nat n) a) l)) /\
  (forall n, Letter s FP_STRN fld 82 (* R *) -> 0 <= n -> Holds s (n :: str a l) ->
     exists s', execute F (S D) 82 s = Ok (ENone, s') /\
       Only_stack s s' (str (skipn (length a - Z.to_nat n) a) l)) /\
  (forall n p, Letter s FP_STRN fld 77 (* M *) -> 0 <= n -> 0 <= p <= Z.of_nat (length a) ->
     Holds s (n :: p :: str a l) ->
     exists s', execute F (S D) 77 s = Ok (ENone, s') /\
       Only_stack s s' (str (firstn (Z.to_nat n) (skipn (Z.to_nat p) a)) l)).
Proof.
  intros F D s fld l a b A B.
  split; [|split; [|split; [|split; [|split; [|split]]]]].
  - intros L H. rewrite (execute_letter F D _ _ _ _ L). change (fp_exec F FP_STRN fld 65 s) with (strn_exec F fld 65 s).
    cbn [strn_exec Z.eqb Pos.eqb].
    destruct (popString_plain s a _ A H) as (s1 & E1 & C1). rewrite (run_bind _ _ _ _ _ E1).
    pose proof (Only_stack_holds _ _ _ _ H C1) as H1.
    destruct (popString_plain s1 b _ B H1) as (s2 & E2 & C2). rewrite (run_bind _ _ _ _ _ E2).
    pose proof (Only_stack_holds _ _ _ _ H1 C2) as H2.
    destruct (pushString_plain s2 _ (a ++ b) H2) as (s3 & E3 & C3). rewrite (run_bind _ _ _ _ _ E3).
    exists s3. split; [reflexivity|]. os_finish.
  - intros L H. rewrite (execute_letter F D _ _ _ _ L). change (fp_exec F FP_STRN fld 78 s) with (strn_exec F fld 78 s).
    cbn [strn_exec Z.eqb Pos.eqb].
    destruct (popString_plain s a _ A H) as (s1 & E1 & C1). rewrite (run_bind _ _ _ _ _ E1).
    pose proof (Only_stack_holds _ _ _ _ H C1) as H1.
    destruct (pushString_plain s1 _ a H1) as (s2 & E2 & C2). rewrite (run_bind _ _ _ _ _ E2).
    pose proof (Only_stack_holds _ _ _ _ H1 C2) as H2. clear H H1. xpush.
    eexists. split; [reflexivity|]. os_finish.
  - intros L H. rewrite (execute_letter F D _ _ _ _ L). change (fp_exec F FP_STRN fld 67 s) with (strn_exec F fld 67 s).
    cbn [strn_exec Z.eqb Pos.eqb].
    destruct (popString_plain s a _ A H) as (s1 & E1 & C1). rewrite (run_bind _ _ _ _ _ E1).
    pose proof (Only_stack_holds _ _ _ _ H C1) as H1.
    destruct (popString_plain s1 b _ B H1) as (s2 & E2 & C2). rewrite (run_bind _ _ _ _ _ E2).
    pose proof (Only_stack_holds _ _ _ _ H1 C2) as H2. clear H H1. xpush.
    eexists. exists (str_compare a b). split; [reflexivity|]. split; [os_finish|].
    destruct (str_compare_spec a b A B) as [(E0 & ->)|[(E0 & K)|(E0 & K)]].
    + split; [tauto|]. split; split; intros X; try lia; exfalso; eapply before_irrefl; eauto.
    + split; [split; [lia|intros ->; exfalso; eapply before_irrefl; eauto]|].
      split; [split; auto; lia|]. split; [lia|intros X; exfalso; eapply before_asym; eauto].
    + split; [split; [lia|intros ->; exfalso; eapply before_irrefl; eauto]|].
      split; [split; [lia|intros X; exfalso; eapply before_asym; eauto]|split; auto; lia].
  - intros L H. rewrite (execute_letter F D _ _ _ _ L). change (fp_exec F FP_STRN fld 70 s) with (strn_exec F fld 70 s).
    cbn [strn_exec Z.eqb Pos.eqb].
    destruct (popString_plain s a _ A H) as (s1 & E1 & C1). rewrite (run_bind _ _ _ _ _ E1).
    pose proof (Only_stack_holds _ _ _ _ H C1) as H1.
    destruct (popString_plain s1 b _ B H1) as (s2 & E2 & C2). rewrite (run_bind _ _ _ _ _ E2).
    pose proof (Only_stack_holds _ _ _ _ H1 C2) as H2. clear H H1.
    pose proof (str_find_spec b a) as K. destruct (str_find b a) as [r|].
    + destruct K as (pre & suf & -> & K).
      destruct (pushString_plain s2 _ (b ++ suf) H2) as (s3 & E3 & C3). rewrite (run_bind _ _ _ _ _ E3).
      exists s3, (b ++ suf). split; [reflexivity|]. split; [os_finish|]. left. eauto.
    + xpush. eexists. exists []. split; [reflexivity|]. split; [os_finish|]. auto.
  - intros n L N H. rewrite (execute_letter F D _ _ _ _ L). change (fp_exec F FP_STRN fld 76 s) with (strn_exec F fld 76 s).
    cbn [strn_exec Z.eqb Pos.eqb]. xpop. cbn [hd tl] in *.
    replace (n <? 0) with false by (symmetry; now apply Z.ltb_ge).
    destruct (popString_plain s0 a _ A H0) as (s1 & E1 & C1). rewrite (run_bind _ _ _ _ _ E1).
    pose proof (Only_stack_holds _ _ _ _ H0 C1) as H1.
    destruct (pushString_plain s1 _ (firstn (Z.to_nat n) a) H1) as (s2 & E2 & C2). rewrite (run_bind _ _ _ _ _ E2).
    exists s2. split; [reflexivity|]. os_finish.
  - intros n L N H. rewrite (execute_letter F D _ _ _ _ L). change (fp_exec F FP_STRN fld 82 s) with (strn_exec F fld 82 s).
    cbn [strn_exec Z.eqb Pos.eqb]. xpop. cbn [hd tl] in *.
    replace (n <? 0) with false by (symmetry; now apply Z.ltb_ge).
    destruct (popString_plain s0 a _ A H0) as (s1 & E1 & C1). rewrite (run_bind _ _ _ _ _ E1).
    pose proof (Only_stack_holds _ _ _ _ H0 C1) as H1. cbv zeta.
    replace (Z.to_nat (Z.of_nat (length a) - (if n >? Z.of_nat (length a) then Z.of_nat (length a) else n)))
      with (length a - Z.to_nat n)%nat
      by (rewrite Z.gtb_ltb; destruct (Z.ltb_spec (Z.of_nat (length a)) n); lia).
    destruct (pushString_plain s1 _ (skipn (length a - Z.to_nat n) a) H1) as (s2 & E2 & C2). rewrite (run_bind _ _ _ _ _ E2).
    exists s2. split; [reflexivity|]. os_finish.
  - intros n p L N P H. rewrite (execute_letter F D _ _ _ _ L). change (fp_exec F FP_STRN fld 77 s) with (strn_exec F fld 77 s).
    cbn [strn_exec Z.eqb Pos.eqb]. xpop. cbn [hd tl] in *. xpop. cbn [hd tl] in *.
    replace (n <? 0) with false by (symmetry; now apply Z.ltb_ge).
    replace (p <? 0) with false by (symmetry; apply Z.ltb_ge; lia). cbn [orb].
    destruct (popString_plain s1 a _ A H1) as (s2 & E2 & C2). rewrite (run_bind _ _ _ _ _ E2).
    pose proof (Only_stack_holds _ _ _ _ H1 C2) as H2.
    rewrite Z.gtb_ltb. replace (Z.of_nat (length a) <? p) with false by (symmetry; apply Z.ltb_ge; lia).
    destruct (pushString_plain s2 _ (firstn (Z.to_nat n) (skipn (Z.to_nat p) a)) H2) as (s3 & E3 & C3). rewrite (run_bind _ _ _ _ _ E3).
    exists s3. split; [reflexivity|]. os_finish.
Qed.
(** Negative counts and a part starting behind the end are refused: the IP reflects. *)
Theorem C51_refuses : forall F D s fld l a, char_str a ->
  (forall c n, c = 76 \/ c = 82 -> n < 0 -> Letter s FP_STRN fld c -> Holds s (n :: l) ->
     exists s', execute F (S D) c s = Ok (EUnspec, s') /\ Only_stack s s' l) /\
  (forall n p, n < 0 \/ p < 0 -> Letter s FP_STRN fld 77 -> Holds s (n :: p :: l) ->
     exists s', execute F (S D) 77 s = Ok (EUnspec, s') /\ Only_stack s s' l) /\
  (forall n p, 0 <= n -> Z.of_nat (length a) < p -> Letter s FP_STRN fld 77 -> Holds s (n :: p :: str a l) ->
     exists s', execute F (S D) 77 s = Ok (EUnspec, s') /\ Only_stack s s' l).
Proof.
  intros F D s fld l a A. split; [|split].
  - intros c n Hc N L H. rewrite (execute_letter F D _ _ _ _ L). change (fp_exec F FP_STRN fld c s) with (strn_exec F fld c s).
    destruct Hc as [-> | ->]; cbn [strn_exec Z.eqb Pos.eqb]; xpop; cbn [hd tl] in *;
      replace (n <? 0) with true by (symmetry; now apply Z.ltb_lt);
      eexists; (split; [reflexivity|exact C]).
  - intros n p N L H. rewrite (execute_letter F D _ _ _ _ L). change (fp_exec F FP_STRN fld 77 s) with (strn_exec F fld 77 s).
    cbn [strn_exec Z.eqb Pos.eqb]. xpop. cbn [hd tl] in *. xpop. cbn [hd tl] in *.
    replace ((n <? 0) || (p <? 0)) with true by (symmetry; apply orb_true_iff; rewrite !Z.ltb_lt; auto).
    eexists. split; [reflexivity|]. os_finish.
  - intros n p N P L H. rewrite (execute_letter F D _ _ _ _ L). change (fp_exec F FP_STRN fld 77 s) with (strn_exec F fld 77 s).
    cbn [strn_exec Z.eqb Pos.eqb]. xpop. cbn [hd tl] in *. xpop. cbn [hd tl] in *.
    replace (n <? 0) with false by (symmetry; now apply Z.ltb_ge).
    replace (p <? 0) with false by (symmetry; apply Z.ltb_ge; lia). cbn [orb].
    destruct (popString_plain s1 a _ A H1) as (s2 & E2 & C2). rewrite (run_bind _ _ _ _ _ E2).
    rewrite Z.gtb_ltb. replace (Z.of_nat (length a) <? p) with true by (symmetry; apply Z.ltb_lt; lia).
    eexists. split; [reflexivity|]. os_finish.
Qed.

(** ** P and G *)

Lemma east_step (p : vec) r k q : (forall i, vget r i = vget p i + nth i [1] 0) ->
  East (vget r) k q <-> East (vget p) (k + 1) q.
Proof.
  intros E. unfold East. pose proof (E 0%nat) as E0. cbn [nth] in E0. rewrite E0.
  assert (X : forall i, (1 <= i)%nat -> vget r i = vget p i).
  { intros i Hi. rewrite E. destruct i as [|[|i]]; [lia| |]; cbn [nth]; lia. }
  split; intros (A & B); (split; [lia|]); intros i Hi; rewrite B, X; auto.
Qed.
Lemma next_east (p : vec) : (forall i, in64 (vget p i)) -> in64 (vget p 0 + 1) ->
  exists r, vadd p (mkvec [1]) = Ok r /\ (forall i, vget r i = vget p i + nth i [1] 0).
Proof.
  intros I I0. destruct (vadd_defined p (mkvec [1])) as (r & E).
  - intros i. rewrite vget_mkvec. destruct i as [|[|i]]; cbn [nth]; rewrite ?Z.add_0_r; auto.
  - exists r. split; [exact E|]. intros i. rewrite (vadd_get _ _ _ E), vget_mkvec. reflexivity.
Qed.

Definition field_of (s : st) (n : nat) : field := u_field (w_uni (s_w s) n).
Lemma fput_run n p v s : exists s', fput n p v s = Ok (tt, s') /\ s_r s' = s_r s /\
  w_uni (s_w s') n = set_u_field (f_put p v (field_of s n)) (w_uni (s_w s) n) /\
  (forall k, k <> n -> w_uni (s_w s') k = w_uni (s_w s) k) /\
  s_w s' = set_w_uni (w_uni (s_w s')) (s_w s).
Proof.
  eexists. split; [reflexivity|]. cbn [s_r s_w]. split; [reflexivity|].
  split; [rewrite upd_uni_same; reflexivity|]. split; [intros k Hk; now rewrite upd_uni_other|reflexivity].
Qed.

Lemma strn_put_run n b : forall s (p : vec),
  char_str b -> (forall i, in64 (vget p i)) -> in64 (vget p 0 + Z.of_nat (length b)) ->
  exists s' f', strn_put n p b s = Ok (tt, s') /\ s_r s' = s_r s /\
    w_uni (s_w s') n = set_u_field f' (w_uni (s_w s) n) /\
    (forall k, k <> n -> w_uni (s_w s') k = w_uni (s_w s) k) /\
    s_w s' = set_w_uni (w_uni (s_w s')) (s_w s) /\
    f_char f' = f_char (field_of s n) /\
    (forall k q, (k <= length b)%nat -> East (vget p) (Z.of_nat k) q -> f_get f' q = nth k (b ++ [0]) 0) /\
    (forall q, (forall k, (k <= length b)%nat -> ~ East (vget p) (Z.of_nat k) q) -> f_get f' q = f_get (field_of s n) q).
Proof.
  induction b as [|c b IH]; intros s p CB I I0; cbn [strn_put].
  - destruct (fput_run n p 0 s) as (s' & E & R & U & O & W). exists s', (f_put p 0 (field_of s n)).
    split; [exact E|]. split; [exact R|]. split; [exact U|]. split; [exact O|]. split; [exact W|].
    split; [apply f_put_char|]. split.
    + intros k q K (Q0 & Q1). destruct k; [|cbn [length] in K; lia]. cbn [app nth].
      rewrite f_get_put_same.
      * unfold cellval. destruct (f_char _); reflexivity.
      * intros i. destruct i; [lia|]. rewrite Q1 by lia. reflexivity.
    + intros q N. apply f_get_put_other. intros S. apply (N 0%nat); [cbn; lia|].
      split; [rewrite <- S; cbn; lia|]. intros i _. now rewrite <- S.
  - destruct (fput_run n p c s) as (s1 & E1 & R1 & U1 & O1 & W1). rewrite (run_bind _ _ _ _ _ E1).
    inversion CB as [|? ? Cc CB']; subst. cbn [length] in I0.
    destruct (next_east p I) as (r & Er & Gr); [unfold in64 in *; specialize (I 0%nat); lia|].
    rewrite (run_bind (lift _) _ s1 r s1) by (now apply run_lift).
    assert (F1 : field_of s1 n = f_put p c (field_of s n)) by (unfold field_of; rewrite U1; reflexivity).
    destruct (IH s1 r CB') as (s' & f' & E & R & U & O & W & Ch & A & B).
    { intros i. rewrite Gr. destruct i as [|i]; cbn [nth]; [unfold in64 in *; specialize (I 0%nat); lia|].
      destruct i; rewrite Z.add_0_r; auto. }
    { rewrite Gr. cbn [nth]. replace (vget p 0 + 1 + Z.of_nat (length b)) with (vget p 0 + Z.of_nat (S (length b))) by lia. exact I0. }
    exists s', f'. split; [exact E|]. split; [congruence|].
    split; [rewrite U, U1; reflexivity|]. split; [intros k Hk; rewrite O, O1; auto|].
    split; [rewrite W, W1; reflexivity|]. rewrite F1 in *. rewrite f_put_char in Ch.
    split; [exact Ch|]. split.
    + intros k q K Q. destruct k as [|k].
      * cbn [app nth]. rewrite B.
        -- rewrite f_get_put_same.
           ++ unfold cellval. destruct (f_char (field_of s n)); [apply to_i8_id; lia|reflexivity].
           ++ destruct Q as (Q0 & Q1). intros i. destruct i; [lia|]. rewrite Q1 by lia. reflexivity.
        -- intros k _ Q'. apply (east_step p r _ q Gr) in Q'. destruct Q as (Q0 & _), Q' as (Q0' & _). lia.
      * cbn [app nth]. apply A; [cbn [length] in K; lia|]. apply (east_step p r _ q Gr).
        replace (Z.of_nat k + 1) with (Z.of_nat (S k)) by lia. exact Q.
    + intros q N. rewrite B.
      * apply f_get_put_other. intros S. apply (N 0%nat); [lia|].
        split; [rewrite <- S; cbn; lia|]. intros i _. now rewrite <- S.
      * intros k K Q. apply (N (S k)); [cbn [length]; lia|]. apply (east_step p r _ q Gr) in Q.
        replace (Z.of_nat (S k)) with (Z.of_nat k + 1) by lia. exact Q.
Qed.

(** P takes a vector and a string and writes the string and a zero to the cells east
    of the addressed one.  No other cell changes, and nothing else but the stack. *)
Theorem C51_P : forall F D s fld l b r,
  Letter s FP_STRN fld 80 -> Holds s l -> skipn (dims_of s) l = str b r -> char_str b ->
  (forall i, in64 (address s l i)) -> in64 (address s l 0 + Z.of_nat (length b)) ->
  exists s' f', execute F (S D) 80 s = Ok (ENone, s') /\ Space_and_stack s s' fld f' r /\
    f_char f' = f_char (field_of s fld) /\
    (forall k q, (k <= length b)%nat -> East (address s l) (Z.of_nat k) q -> f_get f' q = nth k (b ++ [0]) 0) /\
    (forall q, (forall k, (k <= length b)%nat -> ~ East (address s l) (Z.of_nat k) q) ->
       f_get f' q = f_get (field_of s fld) q).
Proof.
  intros F D s fld l b r L H K CB I I0. rewrite (execute_letter F D _ _ _ _ L).
  change (fp_exec F FP_STRN fld 80 s) with (strn_exec F fld 80 s). cbn [strn_exec Z.eqb Pos.eqb].
  destruct (popVec_plain s l H) as (s1 & v & E1 & C1 & G1 & _). rewrite (run_bind _ _ _ _ _ E1).
  pose proof (Only_stack_holds _ _ _ _ H C1) as H1. rewrite K in H1.
  destruct (vadd_address _ _ l _ v C1 G1 I) as (p & Ep & Gp).
  rewrite (run_bind getStorage _ s1 (r_storage (s_r s1)) s1) by reflexivity.
  rewrite (run_bind (lift _) _ s1 p s1) by (now apply run_lift).
  destruct (popString_plain s1 b _ CB H1) as (s2 & E2 & C2). rewrite (run_bind _ _ _ _ _ E2).
  pose proof (Only_stack_trans _ _ _ _ _ C1 C2) as C.
  assert (PE : forall k q, East (vget p) k q <-> East (address s l) k q).
  { intros k q. unfold East. rewrite Gp. split; intros (A & B); (split; [exact A|]); intros i Hi; rewrite B; auto. }
  destruct (strn_put_run fld b s2 p CB) as (s' & f' & E & R & U & O & W & Ch & A & B).
  { intros i. rewrite Gp. apply I. }
  { rewrite Gp. exact I0. }
  rewrite (run_bind _ _ _ _ _ E). pose proof (Only_stack_w _ _ _ C) as WW.
  unfold field_of in *. rewrite WW in *.
  exists s', f'. split; [reflexivity|]. split.
  { split; [exact U|]. split; [exact O|]. split; [exact W|]. exists s2. auto. }
  split; [exact Ch|]. split.
  - intros k q Kk Q. apply A; [exact Kk|]. now apply PE.
  - intros q N. apply B. intros k Kk Q. apply PE in Q. exact (N k Kk Q).
Qed.

Lemma strn_get_run n b : forall F s (p : vec) acc,
  char_str b -> (forall i, in64 (vget p i)) -> in64 (vget p 0 + Z.of_nat (length b)) ->
  (forall k q, (k <= length b)%nat -> East (vget p) (Z.of_nat k) q -> f_get (field_of s n) q = nth k (b ++ [0]) 0) ->
  (length b < Pos.to_nat F)%nat ->
  loopM F (strn_get_step n) (p, acc) s = Ok (acc ++ b, s).
Proof.
  induction b as [|c b IH]; intros F s p acc CB I I0 G L.
  - apply loopM_inr. unfold strn_get_step, fget, mbind. cbn [fst snd].
    assert (X : f_get (field_of s n) p = 0).
    { apply (G 0%nat p); [cbn; lia|]. split; [cbn; lia|]. auto. }
    unfold field_of in X. rewrite X. cbn [Z.eqb]. rewrite app_nil_r. reflexivity.
  - inversion CB as [|? ? Cc CB']; subst. cbn [length] in *.
    destruct (next_east p I) as (r & Er & Gr); [unfold in64 in *; specialize (I 0%nat); lia|].
    assert (X : f_get (field_of s n) p = c).
    { apply (G 0%nat p); [lia|]. split; [cbn; lia|]. auto. }
    rewrite (loopM_inl F (strn_get_step n) _ s (r, acc ++ [c]) s); [|lia|].
    + rewrite IH; [now rewrite <- app_assoc| | | | |].
      * exact CB'.
      * intros i. rewrite Gr. destruct i as [|i]; cbn [nth]; [unfold in64 in *; specialize (I 0%nat); lia|].
        destruct i; rewrite Z.add_0_r; auto.
      * rewrite Gr. cbn [nth]. replace (vget p 0 + 1 + Z.of_nat (length b)) with (vget p 0 + Z.of_nat (S (length b))) by lia. exact I0.
      * intros k q K Q. apply (east_step p r _ q Gr) in Q.
        apply (G (S k) q); [lia|]. replace (Z.of_nat (S k)) with (Z.of_nat k + 1) by lia. exact Q.
      * rewrite Pos2Nat.inj_pred by lia. lia.
    + unfold strn_get_step, fget, mbind. cbn [fst snd]. unfold field_of in X. rewrite X.
      destruct (Z.eqb_spec c 0) as [E|_]; [exfalso; tauto|].
      unfold lift. rewrite Er. unfold ret. rewrite to_i8_id by lia. reflexivity.
Qed.
(** G pushes the string found in the cells east of the address, up to the first zero. *)
Theorem C51_G : forall F D s fld l b,
  Letter s FP_STRN fld 71 -> Holds s l -> char_str b ->
  (forall i, in64 (address s l i)) -> in64 (address s l 0 + Z.of_nat (length b)) ->
  (forall k q, (k <= length b)%nat -> East (address s l) (Z.of_nat k) q ->
     f_get (field_of s fld) q = nth k (b ++ [0]) 0) ->
  (length b < Pos.to_nat F)%nat ->
  exists s', execute F (S D) 71 s = Ok (ENone, s') /\ Only_stack s s' (str b (skipn (dims_of s) l)).
Proof.
  intros F D s fld l b L H CB I I0 G LF. rewrite (execute_letter F D _ _ _ _ L).
  change (fp_exec F FP_STRN fld 71 s) with (strn_exec F fld 71 s). cbn [strn_exec Z.eqb Pos.eqb].
  destruct (popVec_plain s l H) as (s1 & v & E1 & C1 & G1 & _). rewrite (run_bind _ _ _ _ _ E1).
  pose proof (Only_stack_holds _ _ _ _ H C1) as H1.
  destruct (vadd_address _ _ l _ v C1 G1 I) as (p & Ep & Gp).
  rewrite (run_bind getStorage _ s1 (r_storage (s_r s1)) s1) by reflexivity.
  rewrite (run_bind (lift _) _ s1 p s1) by (now apply run_lift).
  assert (PE : forall k q, East (vget p) k q <-> East (address s l) k q).
  { intros k q. unfold East. rewrite Gp. split; intros (A & B); (split; [exact A|]); intros i Hi; rewrite B; auto. }
  assert (E2 : loopM F (strn_get_step fld) (p, []) s1 = Ok (b, s1)).
  { apply (strn_get_run fld b F s1 p []); auto.
    - intros i. rewrite Gp. apply I.
    - rewrite Gp. exact I0.
    - intros k q K Q. unfold field_of. rewrite (Only_stack_w _ _ _ C1). apply G; [exact K|now apply PE]. }
  rewrite (run_bind _ _ _ _ _ E2).
  destruct (pushString_plain s1 _ b H1) as (s3 & E3 & C3). rewrite (run_bind _ _ _ _ _ E3).
  exists s3. split; [reflexivity|]. unfold str. os_finish.
Qed.
(** So what P wrote, G reads back, with the same address and storage offset, as long
    as the cells were not written in between. *)
Theorem C51_roundtrip : forall F D s fld l b r s1 s2 l2,
  Letter s FP_STRN fld 80 -> Holds s l -> skipn (dims_of s) l = str b r -> char_str b ->
  (forall i, in64 (address s l i)) -> in64 (address s l 0 + Z.of_nat (length b)) ->
  execute F (S D) 80 s = Ok (ENone, s1) ->
  (forall k q, (k <= length b)%nat -> East (address s l) (Z.of_nat k) q ->
     f_get (field_of s2 fld) q = f_get (field_of s1 fld) q) ->
  Letter s2 FP_STRN fld 71 -> Holds s2 l2 -> (forall i, address s2 l2 i = address s l i) ->
  (length b < Pos.to_nat F)%nat ->
  exists s3, execute F (S D) 71 s2 = Ok (ENone, s3) /\ Only_stack s2 s3 (str b (skipn (dims_of s2) l2)).
Proof.
  intros F D s fld l b r s1 s2 l2 L H K CB I I0 E1 Same L2 H2 A2 LF.
  destruct (C51_P F D s fld l b r L H K CB I I0) as (s1' & f' & E & (U & _) & _ & A & _).
  rewrite E1 in E. inversion E; subst s1'.
  assert (PE : forall k q, East (address s2 l2) k q <-> East (address s l) k q).
  { intros k q. unfold East. rewrite A2. split; intros (X & Y); (split; [exact X|]); intros i Hi; rewrite Y; auto. }
  apply (C51_G F D s2 fld l2 b); auto.
  - intros i. rewrite A2. apply I.
  - rewrite A2. exact I0.
  - intros k q Kk Q. apply PE in Q. rewrite (Same k q Kk Q).
    unfold field_of. rewrite U. cbn [u_field set_u_field]. now apply A.
Qed.
(** If there is no zero east of the address, G never succeeds: it reads on for ever, or
    until the coordinate overflows. *)
Theorem C51_G_endless : forall F D s fld l e s',
  Letter s FP_STRN fld 71 -> Holds s l -> (forall i, in64 (address s l i)) ->
  (forall k q, 0 <= k -> East (address s l) k q -> f_get (field_of s fld) q <> 0) ->
  execute F (S D) 71 s <> Ok (e, s').
Proof.
  intros F D s fld l e s' L H I N. rewrite (execute_letter F D _ _ _ _ L).
  change (fp_exec F FP_STRN fld 71 s) with (strn_exec F fld 71 s). cbn [strn_exec Z.eqb Pos.eqb].
  destruct (popVec_plain s l H) as (s1 & v & E1 & C1 & G1 & _). rewrite (run_bind _ _ _ _ _ E1).
  destruct (vadd_address _ _ l _ v C1 G1 I) as (p & Ep & Gp).
  rewrite (run_bind getStorage _ s1 (r_storage (s_r s1)) s1) by reflexivity.
  rewrite (run_bind (lift _) _ s1 p s1) by (now apply run_lift).
  intros E. apply run_bind_inv in E. destruct E as (b & s2 & E2 & _). unfold loopM in E2.
  refine (loop_inv _ (fun y => snd y = s1 /\ exists k, 0 <= k /\ East (address s l) k (fst (fst y))) (fun _ => False) _ _ _ _ _ _ E2).
  - cbn [fst snd]. split; [reflexivity|]. exists 0. split; [lia|]. split; [rewrite Gp; lia|]. auto.
  - intros [[q acc] t] [[q' acc'] t'] (-> & k & K & Q). cbn [fst snd] in *. unfold strn_get_step, fget, mbind. cbn [fst snd].
    destruct (_ =? 0); [discriminate|]. unfold lift. destruct (vadd q (mkvec [1])) as [q1|] eqn:Eq; [|discriminate].
    intros X. inversion X; subst. split; [reflexivity|]. exists (k + 1). split; [lia|].
    pose proof (vadd_get _ _ _ Eq) as G. destruct Q as (Q0 & Q1). split.
    + rewrite G, vget_mkvec. cbn [nth]. lia.
    + intros i Hi. rewrite G, vget_mkvec, Q1 by auto. destruct i as [|[|i]]; [lia| |]; cbn [nth]; lia.
  - intros [[q acc] t] y (-> & k & K & Q). cbn [fst snd] in *. unfold strn_get_step, fget, mbind. cbn [fst snd].
    pose proof (N k q K Q) as Z. unfold field_of in Z. rewrite (Only_stack_w _ _ _ C1).
    destruct (Z.eqb_spec (f_get (u_field (w_uni (s_w s) fld)) q) 0); [contradiction|].
    unfold lift. destruct (vadd q (mkvec [1])); discriminate.
Qed.
(** V on a string that is not a number ends the interpreter with an exception. *)
Theorem C51_V_throws : exists s fld, Letter s FP_STRN fld 86 /\ Holds s (str (chars "Q") []) /\
  forall F D, execute F (S D) 86 s = Bad BadThrow.
Proof.
  exists (loaded [FP_STRN] (str (chars "Q") [])), 0%nat.
  assert (A : Letter (loaded [FP_STRN] (str (chars "Q") [])) FP_STRN 0 86) by (apply letterb_ok; vm_compute; reflexivity).
  split; [exact A|]. split; [apply holds_with_list; vm_compute; [reflexivity|discriminate]|].
  intros F D. rewrite (execute_letter F D _ _ _ _ A). vm_compute. reflexivity.
Qed.

(** The hypotheses are met: a string is written at (4, 7) and read back. *)
Definition ex_strn (l : list Z) : st := loaded [FP_STRN] l.
Example C51_ex : let l := 7 :: 4 :: str (chars "Hi") [9] in let s := ex_strn l in
  Letter s FP_STRN 0 80 /\ Letter s FP_STRN 0 71 /\ Holds s l /\ dims_of s = 2%nat /\
  skipn 2 l = str (chars "Hi") [9] /\ char_str (chars "Hi") /\
  address s l 0 = 4 /\ address s l 1 = 7 /\
  match execute 100 1 80 s with
  | Ok (ENone, s1) =>
      stack_of s1 = [9] /\ run_stack (execute 100 1 71) (with_list [7; 4; 5] s1) = Ok (ENone, str (chars "Hi") [5])
  | _ => False
  end /\
  run_stack (execute 100 1 65) (ex_strn (str (chars "ab") (str (chars "cd") [1]))) = Ok (ENone, str (chars "abcd") [1]) /\
  run_stack (execute 100 1 70) (ex_strn (str (chars "banana") (str (chars "an") [1]))) = Ok (ENone, str (chars "anana") [1]) /\
  run_stack (execute 100 1 82) (ex_strn (2 :: str (chars "abc") [])) = Ok (ENone, str (chars "bc") []).
Proof.
  cbv zeta. split; [apply letterb_ok; vm_compute; reflexivity|]. split; [apply letterb_ok; vm_compute; reflexivity|].
  split; [apply holds_with_list; vm_compute; [reflexivity|discriminate]|].
  split; [vm_compute; reflexivity|]. split; [reflexivity|].
  split; [vm_compute; repeat (apply Forall_cons; [split; [split|]; discriminate|]); apply Forall_nil|].
  do 2 (split; [vm_compute; reflexivity|]). split; [vm_compute; auto|].
  do 2 (split; [vm_compute; reflexivity|]). vm_compute. reflexivity.
Qed.
Print Assumptions C51_strings.
Print Assumptions C51_refuses.
Print Assumptions C51_P.
Print Assumptions C51_G.
Print Assumptions C51_roundtrip.
Print Assumptions C51_G_endless.
Print Assumptions C51_V_throws.
