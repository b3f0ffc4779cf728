(** * Property C133: structured programs.  Programs of a small language with
    variables, conditionals and loops, translated to one row of Funge-98 and run
    from the bytes of the program file to the output. *)

From Coq Require Import ZArith Lia String List Bool.
From Verif Require Import Base BaseProofs VectorModel VectorProofs TextModel TextProofs
  StackModel StackProofs FieldModel FieldProofs World IpModel IpProofs LoadModel FingModel CoreModel
  UniModel OptModel ExecProofs States FlowProofs PropsStack PropsIO Effects PropsString PropsTurn PropsFlow
  PropsFileIO PropsWhole.
Import ListNotations.
Open Scope Z_scope.

(** ** The language *)

(** Variables have the numbers 0 to 15. *)
Inductive aexp := ANum (n : Z) | AVar (k : Z) | ANot (a : aexp) | ABin (op : Z) (a b : aexp).
Inductive stm :=
| SSkip | SRead (k : Z) | SSet (k : Z) (a : aexp) | SPrint (a : aexp) | SChar (a : aexp)
| SSeq (s t : stm) | SIf (a : aexp) (s t : stm) | SWhile (a : aexp) (s : stm).

Definition env := Z -> Z.
Definition update (v : env) (k x : Z) : env := fun j => if j =? k then x else v j.
Fixpoint aval (v : env) (a : aexp) : Z :=
  match a with
  | ANum n => n
  | AVar k => v k
  | ANot a => if aval v a =? 0 then 1 else 0
  | ABin op a b => arith op (aval v a) (aval v b)
  end.
(** No operation overflows or is otherwise undefined. *)
Fixpoint adef (v : env) (a : aexp) : Prop :=
  match a with
  | ANum _ | AVar _ => True
  | ANot a => adef v a
  | ABin op a b => adef v a /\ adef v b /\ ~ undefined op (aval v a) (aval v b)
  end.

Inductive event := Number (n : Z) | Character (c : Z).
(** [Exec s v i v' i' e]: started with the variables [v] and the input [i], [s] ends
    with [v'] and leaves the input [i'], and has printed [e]. *)
Inductive Exec : stm -> env -> bytes -> env -> bytes -> list event -> Prop :=
| E_skip v i : Exec SSkip v i v i []
| E_read v c i k : Exec (SRead k) v (c :: i) (update v k c) i []
| E_set v i k a : adef v a -> Exec (SSet k a) v i (update v k (aval v a)) i []
| E_print v i a : adef v a -> -2147483648 <= aval v a <= 2147483647 -> Exec (SPrint a) v i v i [Number (aval v a)]
| E_char v i a : adef v a -> Exec (SChar a) v i v i [Character (aval v a)]
| E_seq v v1 v2 i i1 i2 s t e1 e2 : Exec s v i v1 i1 e1 -> Exec t v1 i1 v2 i2 e2 -> Exec (SSeq s t) v i v2 i2 (e1 ++ e2)
| E_then v v1 i i1 a s t e : adef v a -> aval v a <> 0 -> Exec s v i v1 i1 e -> Exec (SIf a s t) v i v1 i1 e
| E_else v v1 i i1 a s t e : adef v a -> aval v a = 0 -> Exec t v i v1 i1 e -> Exec (SIf a s t) v i v1 i1 e
| E_end v i a s : adef v a -> aval v a = 0 -> Exec (SWhile a s) v i v i []
| E_again v v1 v2 i i1 i2 a s e1 e2 : adef v a -> aval v a <> 0 -> Exec s v i v1 i1 e1 ->
    Exec (SWhile a s) v1 i1 v2 i2 e2 -> Exec (SWhile a s) v i v2 i2 (e1 ++ e2).
(** [Endless s v i]: started with [v] and the input [i], [s] never ends. *)
CoInductive Endless : stm -> env -> bytes -> Prop :=
| L_seq1 v i s t : Endless s v i -> Endless (SSeq s t) v i
| L_seq2 v v1 i i1 s t e : Exec s v i v1 i1 e -> Endless t v1 i1 -> Endless (SSeq s t) v i
| L_then v i a s t : adef v a -> aval v a <> 0 -> Endless s v i -> Endless (SIf a s t) v i
| L_else v i a s t : adef v a -> aval v a = 0 -> Endless t v i -> Endless (SIf a s t) v i
| L_body v i a s : adef v a -> aval v a <> 0 -> Endless s v i -> Endless (SWhile a s) v i
| L_again v v1 i i1 a s e : adef v a -> aval v a <> 0 -> Exec s v i v1 i1 e -> Endless (SWhile a s) v1 i1 ->
    Endless (SWhile a s) v i.

(** [Wrong s v i]: started with [v] and the input [i], [s] comes to an expression
    that is not defined. *)
Inductive Wrong : stm -> env -> bytes -> Prop :=
| W_set v i k a : ~ adef v a -> Wrong (SSet k a) v i
| W_print v i a : ~ adef v a -> Wrong (SPrint a) v i
| W_char v i a : ~ adef v a -> Wrong (SChar a) v i
| W_seq1 v i s t : Wrong s v i -> Wrong (SSeq s t) v i
| W_seq2 v v1 i i1 s t e : Exec s v i v1 i1 e -> Wrong t v1 i1 -> Wrong (SSeq s t) v i
| W_if v i a s t : ~ adef v a -> Wrong (SIf a s t) v i
| W_then v i a s t : adef v a -> aval v a <> 0 -> Wrong s v i -> Wrong (SIf a s t) v i
| W_else v i a s t : adef v a -> aval v a = 0 -> Wrong t v i -> Wrong (SIf a s t) v i
| W_while v i a s : ~ adef v a -> Wrong (SWhile a s) v i
| W_body v i a s : adef v a -> aval v a <> 0 -> Wrong s v i -> Wrong (SWhile a s) v i
| W_again v v1 i i1 a s e : adef v a -> aval v a <> 0 -> Exec s v i v1 i1 e -> Wrong (SWhile a s) v1 i1 ->
    Wrong (SWhile a s) v i.

(** The text printed: numbers in decimal, each followed by a blank. *)
Inductive Printed : list event -> bytes -> Prop :=
| P_none : Printed [] []
| P_number n e t t' : decimal n t -> Printed e t' -> Printed (Number n :: e) (t ++ [32] ++ t')
| P_character c e t' : Printed e t' -> Printed (Character c :: e) ((c mod 256) :: t').

Definition digit (n : Z) : Z := if n <? 10 then 48 + n else 87 + n.
Fixpoint awritten (a : aexp) : Prop :=
  match a with
  | ANum n => 0 <= n <= 15
  | AVar k => 0 <= k <= 15
  | ANot a => awritten a
  | ABin op a b => In op [43; 45; 42; 47; 37; 96] /\ awritten a /\ awritten b
  end.
Fixpoint swritten (s : stm) : Prop :=
  match s with
  | SSkip => True
  | SRead k => 0 <= k <= 15
  | SSet k a => 0 <= k <= 15 /\ awritten a
  | SPrint a | SChar a => awritten a
  | SSeq s t => swritten s /\ swritten t
  | SIf a s t => awritten a /\ swritten s /\ swritten t
  | SWhile a s => awritten a /\ swritten s
  end.

(** ** The translation *)

(** Variable [k] is the cell in column [k] of row 1. *)
Fixpoint acode (a : aexp) : bytes :=
  match a with
  | ANum n => [digit n]
  | AVar k => [digit k; 49; 103]
  | ANot a => acode a ++ [33]
  | ABin op a b => acode a ++ acode b ++ [op]
  end.
(** A number of [w] + 1 hexadecimal digits. *)
Fixpoint hex (w : nat) (n : Z) : aexp :=
  match w with
  | O => ANum (n mod 16)
  | S w => ABin 43 (ABin 42 (hex w (n / 16)) (ABin 43 (ANum 8) (ANum 8))) (ANum (n mod 16))
  end.
Definition len (c : bytes) : Z := Z.of_nat (length c).
Fixpoint scode (s : stm) : bytes :=
  match s with
  | SSkip => []
  | SRead k => [126; digit k; 49; 112]
  | SSet k a => acode a ++ [digit k; 49; 112]
  | SPrint a => acode a ++ [46]
  | SChar a => acode a ++ [44]
  | SSeq s t => scode s ++ scode t
  | SIf a s t =>
      acode (ABin 42 (ANot a) (hex 7 (len (scode s) + 44))) ++ [106] ++ scode s ++
      acode (hex 7 (len (scode t))) ++ [106] ++ scode t
  | SWhile a s =>
      acode (ABin 42 (ANot a) (hex 7 (len (scode s) + 46))) ++ [106] ++ scode s ++
      acode (ABin 45 (ANum 0) (hex 7 (len (acode a) + len (scode s) + 92))) ++ [106]
  end.
(** The program file. *)
Definition program (s : stm) : bytes := 122 :: scode s ++ [64].

Lemma hex_len w n : length (acode (hex w n)) = (1 + 6 * w)%nat.
Proof.
  revert n. induction w as [|w IH]; intros n; [reflexivity|]. cbn [hex acode]. rewrite !app_length, IH. cbn [length]. lia.
Qed.
Lemma hex_val v w : forall n, 0 <= n < 16 ^ (Z.of_nat w + 1) -> aval v (hex w n) = n.
Proof.
  induction w as [|w IH]; intros n Hn; cbn [hex aval].
  - apply Z.mod_small. exact Hn.
  - rewrite IH.
    + change (arith 43 8 8) with 16. change (arith 43 ?a ?b) with (a + b). change (arith 42 ?a ?b) with (a * b).
      pose proof (Z.div_mod n 16). lia.
    + replace (Z.of_nat (S w) + 1) with (Z.succ (Z.of_nat w + 1)) in Hn by lia. rewrite Z.pow_succ_r in Hn by lia.
      split; [apply Z.div_pos; lia|apply Z.div_lt_upper_bound; lia].
Qed.
Lemma in64_defined op b a : In op [43; 45; 42] -> in64 (arith op b a) -> ~ undefined op b a.
Proof.
  intros H I [[_ U]|[[U|U] _]]; [exact (U I)| |]; subst op; cbn in H; lia.
Qed.
Lemma hex_def v w : forall n, (w <= 7)%nat -> 0 <= n < 16 ^ (Z.of_nat w + 1) -> adef v (hex w n).
Proof.
  induction w as [|w IH]; intros n Hw Hn; cbn [hex adef]; [exact I|].
  assert (Hq : 0 <= n / 16 < 16 ^ (Z.of_nat w + 1)).
  { replace (Z.of_nat (S w) + 1) with (Z.succ (Z.of_nat w + 1)) in Hn by lia. rewrite Z.pow_succ_r in Hn by lia.
    split; [apply Z.div_pos; lia|apply Z.div_lt_upper_bound; lia]. }
  assert (HB : n / 16 < 16 ^ 7).
  { eapply Z.lt_le_trans; [apply Hq|]. apply Z.pow_le_mono_r; lia. }
  pose proof (Z.mod_pos_bound n 16 ltac:(lia)) as HM. change (16 ^ 7) with 268435456 in HB.
  repeat split; [apply IH; [lia|exact Hq]|apply in64_defined; [cbn; auto|vm_compute; split; discriminate] | | ].
  - cbn [aval]. rewrite hex_val by exact Hq. apply in64_defined; [cbn; auto|].
    change (arith 43 8 8) with 16. change (arith 42 ?a ?b) with (a * b). unfold in64, INT64_MIN, INT64_MAX. lia.
  - cbn [aval]. rewrite hex_val by exact Hq. apply in64_defined; [cbn; auto|].
    change (arith 43 8 8) with 16. change (arith 42 ?a ?b) with (a * b). change (arith 43 ?a ?b) with (a + b).
    unfold in64, INT64_MIN, INT64_MAX. lia.
Qed.
Lemma hex_written w : forall n, awritten (hex w n).
Proof.
  induction w as [|w IH]; intros n; cbn [hex awritten]; pose proof (Z.mod_pos_bound n 16 ltac:(lia)).
  - lia.
  - repeat split; try lia; try apply IH; cbn; auto.
Qed.

(** ** The Funge-space of a running program *)

(** The row of the program is unchanged, and the cells of row 1 hold the
    variables. *)
Record Vars (p : bytes) (v : env) (f : field) : Prop := {
  V_char : f_char f = false;
  V_row : forall k, (k < length p)%nat -> f_get f [Z.of_nat k] = nth k p 32;
  V_var : forall k, 0 <= k <= 15 -> f_get f [k; 1] = v k;
  V_cov : covered f;
  V_org : origin_in f;
  V_keys : keys_nonempty f }.
Definition fits (p : bytes) : Prop := nth 0 p 32 <> 32 /\ last p 32 <> 32 /\ len p <= 2147483647.
Definition blanks : env := fun _ => 32.

Lemma vars_begin p : Vars p blanks (prog_field p).
Proof.
  destruct (prog_good p) as (C & O & K). constructor; auto.
  - unfold prog_field. now rewrite row_put_char.
  - intros k H. now apply prog_get.
  - intros k _. unfold prog_field. rewrite row_put_left; [reflexivity|].
    intros j _ S. specialize (S 1%nat). discriminate S.
Qed.
Lemma vars_next p v f x d : fits p -> Vars p v f -> In_row p (x + d) -> Next f x d (x + d).
Proof.
  intros (_ & L & B) H I. unfold Next, ip_next. unfold In_row in I. unfold len in B.
  rewrite vadd1 by (unfold in64, INT64_MIN, INT64_MAX; lia). cbn [bind]. unfold lahey_wrap.
  replace (in_field 2 f [x + d]) with true; [reflexivity|]. symmetry. apply in_field_spec. intros i Hi.
  assert (Q : f_get f [Z.of_nat (length p - 1)] <> 32).
  { rewrite (V_row _ _ _ H) by lia.
    assert (Hne : p <> []) by (intros ->; cbn in I; lia).
    destruct (exists_last Hne) as (t & z & ->). rewrite last_last in L. rewrite app_length. cbn [length].
    replace (length t + 1 - 1)%nat with (length t) by lia. rewrite app_nth2, Nat.sub_diag by lia. exact L. }
  pose proof (covered_dim0 _ _ (V_cov _ _ _ H) (V_keys _ _ _ H) Q) as C.
  change (vget [Z.of_nat (length p - 1)] 0) with (Z.of_nat (length p - 1)) in C.
  pose proof (V_org _ _ _ H i) as Oi. destruct i as [|[|i]]; [|exact Oi|lia].
  change (vget [x + d] 0) with (x + d). lia.
Qed.
Lemma origin_erase p f k w : In (k, w) (f_cells f) -> (forall i, vget k i = 0) -> veqb k p = false ->
  length (f_mins f) = length (f_maxs f) -> origin_in f -> origin_in (f_put p 32 f).
Proof.
  intros Hin Z0 E L O i. specialize (O i). rewrite f_min_nth, f_max_nth in *.
  unfold f_put. rewrite Z.eqb_refl. cbn [f_mins f_maxs].
  assert (Hin' : In (k, w) (cells_erase p (f_cells f))).
  { unfold cells_erase. apply filter_In. split; [exact Hin|]. cbn [fst]. now rewrite E. }
  destruct (Nat.lt_ge_cases i (Nat.max (length (f_maxs f)) (vsize p))).
  - rewrite !mapi_nth by (rewrite grow_length; lia). cbn [Nat.add]. rewrite !grow_nth. split.
    + destruct (Nat.ltb i (vsize p) && (nth i (f_mins f) 0 =? vget p i)); [|lia].
      rewrite <- (Z0 i). unfold scan_min. eapply scan_min_le; eauto.
    + destruct (Nat.ltb i (vsize p) && (nth i (f_maxs f) 0 =? vget p i)); [|lia].
      rewrite <- (Z0 i). unfold scan_max. eapply scan_max_ge; eauto.
  - rewrite !nth_overflow by (rewrite mapi_length, grow_length; lia). lia.
Qed.
Lemma vars_put p v f q k x : fits p -> Vars p v f -> same q [k; 1] -> Vars p (update v k x) (f_put q x f).
Proof.
  intros (HF & _ & _) H S.
  assert (S1 : vget q 1 = 1) by (rewrite (S 1%nat); reflexivity).
  assert (Hq : q <> []) by (intros ->; discriminate S1).
  destruct H as [C R V Co Or Ke]. constructor.
  - now rewrite f_put_char.
  - intros j Hj. rewrite f_get_put_other; [now apply R|]. intros S2. specialize (S2 1%nat). rewrite S1 in S2. discriminate S2.
  - intros j Hj. unfold update. destruct (Z.eqb_spec j k) as [->|N].
    + rewrite f_get_put_same by exact S. now rewrite C.
    + rewrite f_get_put_other; [now apply V|]. intros S2. apply N. specialize (S2 0%nat). rewrite (S 0%nat) in S2.
      symmetry. exact S2.
  - now apply covered_put.
  - destruct (Z.eq_dec x 32) as [->|N].
    + assert (P0 : (0 < length p)%nat) by (destruct p; [exfalso; apply HF; reflexivity|cbn; lia]).
      specialize (R 0%nat P0). change (Z.of_nat 0) with 0 in R. rewrite <- R in HF.
      destruct (nonspace_in _ _ HF) as (k0 & w & Hin & S0). apply (origin_erase q f k0 w Hin); auto; [| |apply Co].
      * intros i. rewrite (S0 i). destruct i as [|[|i]]; reflexivity.
      * destruct (veqb k0 q) eqn:E; [|reflexivity]. apply veqb_same in E. specialize (E 1%nat).
        rewrite (S0 1%nat), S1 in E. discriminate E.
    + apply origin_put; auto. apply Co.
  - now apply keys_put.
Qed.
Lemma vars_ext p v f : Vars p v f -> forall v', (forall k, 0 <= k <= 15 -> v k = v' k) -> Vars p v' f.
Proof. intros H v' E. destruct H. constructor; auto. intros k Hk. rewrite <- E by exact Hk. auto. Qed.

(** ** Instructions that change the Funge-space *)

Lemma step_at F D c f x l i o f1 x1 l1 i1 o1 x2 w r s1 :
  w_run w 0 = Some r -> Run f x 1 false 0 l i o {| s_w := w; s_r := r |} -> f_get f [x] = c ->
  execute F (S D) c {| s_w := w; s_r := r |} = Ok (ENone, s1) -> Run f1 x1 1 false 0 l1 i1 o1 s1 ->
  Next f1 x1 1 x2 ->
  exists w', Goes F (S D) 1 w w' /\ RunW f1 x2 1 false 0 l1 i1 o1 w'.
Proof.
  intros R H C E1 H1 N. destruct (run_next _ _ _ _ _ _ _ _ _ _ H1 N) as (s2 & E2 & H2).
  assert (E : tick F (S D) {| s_w := w; s_r := r |} = Ok (tt, s2)).
  { apply loopM_inr. rewrite (tick_step_exec F (S D) _ c ENone s1);
      [|exact (run_nodebug _ _ _ _ _ _ _ _ _ H)|rewrite (run_cell _ _ _ _ _ _ _ _ _ H); exact C|exact E1].
    unfold mbind, ret. rewrite E2. reflexivity. }
  assert (X : exists w', run_step F (S D) 0 w = Ok (inl w') /\ RunW f1 x2 1 false 0 l1 i1 o1 w').
  { unfold run_step, uni_step. pose proof (R_queue _ _ _ _ _ _ _ _ _ H) as Q. cbn [s_w] in Q. rewrite Q, R.
    pose proof (R_stopped _ _ _ _ _ _ _ _ _ H) as ST. cbn [s_r] in ST. rewrite ST. unfold as_runner. rewrite R, E.
    cbn [bind].
    pose proof (R_uni _ _ _ _ _ _ _ _ _ H2) as U2. pose proof (R_stopped _ _ _ _ _ _ _ _ _ H2) as ST2.
    pose proof (R_queue _ _ _ _ _ _ _ _ _ H2) as Q2.
    cbn [w_run upd_uni upd_run]. cbn. rewrite U2, ST2. cbn. eexists. split; [reflexivity|].
    exists (s_r s2). split; [reflexivity|]. destruct H2. constructor; cbn; auto. rewrite Q2. reflexivity. }
  destruct X as (w' & X & H'). exists w'. split; [now apply goes_one|exact H'].
Qed.
Lemma run_address f x dx l i o s k t : Run f x dx false 0 (1 :: k :: l) i o s -> t = 1 :: k :: l ->
  forall j, address s t j = vget [k; 1] j.
Proof.
  intros H -> j. unfold address, vec_of, dims_of. destruct (R_cfg _ _ _ _ _ _ _ _ _ H) as (nm & ar & en & RC).
  rewrite (R_uni _ _ _ _ _ _ _ _ _ H), RC, (R_storage _ _ _ _ _ _ _ _ _ H).
  destruct j as [|[|j]]; cbn; [lia|reflexivity|]. destruct j; reflexivity.
Qed.
Lemma address_in64 k j : 0 <= k <= 15 -> in64 (vget [k; 1] j).
Proof.
  intros H. unfold in64, INT64_MIN, INT64_MAX. destruct j as [|[|j]]; cbn; [lia|lia|]. destruct j; cbn; lia.
Qed.
Lemma X_get F D f x dx k l i o : 0 <= k <= 15 ->
  Does F D 103 f x dx false 0 (1 :: k :: l) i o x dx false 0 (f_get f [k; 1] :: l) i o.
Proof.
  intros Hk s H. pose proof (run_address _ _ _ _ _ _ _ _ _ H eq_refl) as A.
  destruct (C21_get F D s (1 :: k :: l)) as (s1 & E & C).
  - unfold Home. now rewrite (R_fld _ _ _ _ _ _ _ _ _ H), (R_uni _ _ _ _ _ _ _ _ _ H).
  - exact (run_normal _ _ _ _ _ _ _ _ 103 H eq_refl).
  - exact (R_stack _ _ _ _ _ _ _ _ _ H).
  - intros j. rewrite A. now apply address_in64.
  - specialize (C [k; 1] (fun j => eq_sym (A j))). exists s1. split; [exact E|].
    apply (run_stack_step _ _ _ _ _ _ _ _ _ _ _ H).
    destruct (R_cfg _ _ _ _ _ _ _ _ _ H) as (nm & ar & en & RC).
    unfold dims_of, space in C. rewrite (R_uni _ _ _ _ _ _ _ _ _ H), RC, (R_field _ _ _ _ _ _ _ _ _ H) in C.
    exact C.
Qed.
Lemma X_put F D f x dx k a l i o s : 0 <= k <= 15 -> Run f x dx false 0 (1 :: k :: a :: l) i o s ->
  exists s1 q, execute F (S D) 112 s = Ok (ENone, s1) /\ same q [k; 1] /\
    Run (f_put q a f) x dx false 0 l i o s1.
Proof.
  intros Hk H. pose proof (run_address _ _ _ _ _ _ _ _ _ H eq_refl) as A.
  rewrite (execute_normal F D _ s _ _ (run_normal _ _ _ _ _ _ _ _ 112 H eq_refl) eq_refl). cbn [run_meth].
  pose proof (R_stack _ _ _ _ _ _ _ _ _ H) as HS.
  destruct (popVec_plain s _ HS) as (s1 & v & E1 & C1 & G1 & _).
  rewrite (run_bind _ _ _ _ _ E1). pose proof (Only_stack_holds _ _ _ _ HS C1) as H1.
  destruct (vadd_address _ _ (1 :: k :: a :: l) _ v C1 G1) as (p & Ep & Gp).
  { intros j. rewrite A. now apply address_in64. }
  rewrite (run_bind getStorage _ s1 (r_storage (s_r s1)) s1) by reflexivity.
  rewrite (run_bind (lift _) _ s1 p s1) by (now apply run_lift).
  assert (DM : dims_of s = 2%nat).
  { unfold dims_of. destruct (R_cfg _ _ _ _ _ _ _ _ _ H) as (nm & ar & en & RC). now rewrite (R_uni _ _ _ _ _ _ _ _ _ H), RC. }
  rewrite DM in *. cbn [skipn] in C1, H1.
  destruct (popS_plain s1 _ H1) as (s0 & E & C). cbn [hd tl] in E, C.
  rewrite (run_bind _ _ _ _ _ E).
  rewrite (run_bind getR _ s0 (s_r s0) s0) by reflexivity.
  pose proof (Only_stack_trans _ _ _ _ _ C1 C) as C2.
  pose proof (run_stack_step _ _ _ _ _ _ _ _ _ _ _ H C2) as H2.
  exists {| s_w := upd_uni 0 (fun u => set_u_field (f_put p a (u_field u)) u) (s_w s0); s_r := s_r s0 |}, p.
  split; [|split].
  - rewrite (R_fld _ _ _ _ _ _ _ _ _ H2). reflexivity.
  - intros j. now rewrite Gp, A.
  - pose proof (R_field _ _ _ _ _ _ _ _ _ H2) as FE. destruct H2.
    constructor; cbn [s_w s_r]; rewrite ?uni_updated; cbn; auto. now rewrite FE.
Qed.

(** ** Pieces of code *)

(** The IP is in column [x] of the program [p], with the variables [v]. *)
Definition At (p : bytes) (v : env) (x : Z) (l : list Z) (i o : bytes) (w : world) : Prop :=
  exists f, Vars p v f /\ RunW f x 1 false 0 l i o w.
(** The piece [c], entered with the variables [v] and the stack [l], is left at its
    end after [n] iterations with [v'] and [l'], having printed [t]. *)
Definition Act (c : bytes) (v : env) (l : list Z) (v' : env) (l' : list Z) (n : nat) (t : bytes) : Prop :=
  forall F D p pre suf i o w, fits p -> p = pre ++ c ++ suf -> pre <> [] -> suf <> [] ->
  At p v (len pre) l i o w ->
  exists w', Goes F (S D) n w w' /\ At p v' (len (pre ++ c)) l' i (o ++ t) w'.

Lemma len_app a b : len (a ++ b) = len a + len b.
Proof. unfold len. rewrite app_length. lia. Qed.
Lemma act_nil v l : Act [] v l v l 0 [].
Proof.
  intros F D p pre suf i o w _ _ _ _ H. exists w. split; [constructor|]. rewrite !app_nil_r. exact H.
Qed.
Lemma act_app c1 c2 v l v1 l1 v2 l2 n1 n2 t1 t2 : Act c1 v l v1 l1 n1 t1 -> Act c2 v1 l1 v2 l2 n2 t2 ->
  Act (c1 ++ c2) v l v2 l2 (n1 + n2) (t1 ++ t2).
Proof.
  intros A1 A2 F D p pre suf i o w HF E P S H.
  destruct (A1 F D p pre (c2 ++ suf) i o w HF) as (w1 & G1 & H1); auto.
  - rewrite E, <- app_assoc. reflexivity.
  - destruct c2; [exact S|discriminate].
  - destruct (A2 F D p (pre ++ c1) suf i (o ++ t1) w1 HF) as (w2 & G2 & H2); auto.
    + rewrite E, <- !app_assoc. reflexivity.
    + destruct pre; [contradiction|discriminate].
    + exists w2. split; [exact (goes_trans _ _ _ _ _ _ _ G1 G2)|]. rewrite !app_assoc. exact H2.
Qed.
Lemma at_cell p pre c suf v f : p = pre ++ c :: suf -> Vars p v f -> f_get f [len pre] = c.
Proof.
  intros E H. unfold len. rewrite (V_row _ _ _ H) by (rewrite E, app_length; cbn [length]; lia).
  rewrite E. now rewrite app_nth2, Nat.sub_diag by lia.
Qed.
Lemma len_row p pre c suf : p = pre ++ c ++ suf -> suf <> [] -> In_row p (len (pre ++ c)).
Proof.
  intros E S. unfold In_row, len. rewrite E, !app_length. destruct suf; [contradiction|cbn [length]; lia].
Qed.
Lemma act_one c v l l' t :
  (forall F D p f x i o, Vars p v f -> Does F D c f x 1 false 0 l i o x 1 false 0 l' i (o ++ t)) -> Act [c] v l v l' 1 t.
Proof.
  intros DO F D p pre suf i o w HF E _ S (f & HV & H).
  assert (N : Next f (len pre) 1 (len (pre ++ [c]))).
  { replace (len (pre ++ [c])) with (len pre + 1) by (rewrite len_app; reflexivity).
    apply (vars_next p v); auto. replace (len pre + 1) with (len (pre ++ [c])) by (rewrite len_app; reflexivity).
    exact (len_row p pre [c] suf E S). }
  destruct (step_gen F D c f _ _ _ _ _ _ _ _ _ _ _ _ _ _ _ w H (at_cell p pre c suf v f E HV) (DO F D p f (len pre) i o HV) N)
    as (w' & G & H').
  exists w'. split; [exact G|]. exists f. split; assumption.
Qed.
Lemma act_digit v l n : 0 <= n <= 15 -> Act [digit n] v l v (n :: l) 1 [].
Proof. intros H. apply act_one. intros F D p f x i o _. rewrite app_nil_r. now apply X_num. Qed.

Definition wide (v : env) : Prop := forall k, in64 (v k).
Lemma aval_in64 v a : wide v -> awritten a -> adef v a -> in64 (aval v a).
Proof.
  intros W. induction a as [n|k|a IH|op a IHa b IHb]; cbn [awritten adef aval].
  - intros H _. unfold in64, INT64_MIN, INT64_MAX. lia.
  - intros _ _. apply W.
  - intros _ _. destruct (aval v a =? 0); unfold in64, INT64_MIN, INT64_MAX; lia.
  - intros (Ho & A & B) (DA & DB & U). apply arith_in64; auto.
Qed.
Lemma act_exp v a : wide v -> awritten a -> adef v a ->
  forall l, Act (acode a) v l v (aval v a :: l) (length (acode a)) [].
Proof.
  intros W. induction a as [n|k|a IH|op a IHa b IHb]; cbn [awritten adef aval acode]; intros HW HD l.
  - now apply act_digit.
  - apply (act_app [digit k] [49; 103] v l v (k :: l) v _ 1 2 [] []); [now apply act_digit|].
    apply (act_app [49] [103] v _ v (1 :: k :: l) v _ 1 1 [] []); [exact (act_digit v (k :: l) 1 ltac:(lia))|].
    apply act_one. intros F D p f x i o HV. rewrite app_nil_r, <- (V_var _ _ _ HV k HW). now apply X_get.
  - rewrite app_length. apply (act_app _ _ v l v (aval v a :: l) v _ _ _ [] []); [now apply IH|].
    apply act_one. intros F D p f x i o _. rewrite app_nil_r. apply X_not.
  - destruct HW as (Ho & WA & WB), HD as (DA & DB & U). rewrite !app_length.
    apply (act_app _ _ v l v (aval v a :: l) v _ _ _ [] []); [now apply IHa|].
    apply (act_app _ _ v _ v (aval v b :: aval v a :: l) v _ _ _ [] []); [now apply IHb|].
    apply act_one. intros F D p f x i o _. rewrite app_nil_r. apply X_bin; auto using aval_in64.
Qed.

(** ** Jumps *)

Lemma run_steps f d q pv l i o : forall n x s,
  Run f x d q pv l i o s -> (forall j, 0 <= j < Z.of_nat n -> Next f (x + j * d) d (x + j * d + d)) ->
  exists s', repM n ipNext s = Ok (tt, s') /\ Run f (x + Z.of_nat n * d) d q pv l i o s'.
Proof.
  induction n as [|n IH]; intros x s H N.
  - exists s. split; [reflexivity|]. replace (x + Z.of_nat 0 * d) with x by lia. exact H.
  - assert (N0 : Next f x d (x + d)) by (specialize (N 0 ltac:(lia)); now rewrite Z.mul_0_l, Z.add_0_r in N).
    destruct (run_next _ _ _ _ _ _ _ _ _ _ H N0) as (s1 & E1 & H1).
    destruct (IH (x + d) s1 H1) as (s2 & E2 & H2).
    { intros j Hj. specialize (N (j + 1) ltac:(lia)). replace (x + d + j * d) with (x + (j + 1) * d) by lia. exact N. }
    exists s2. split; [|replace (x + Z.of_nat (S n) * d) with (x + d + Z.of_nat n * d) by lia; exact H2].
    cbn [repM]. rewrite (run_bind _ _ _ _ _ E1). exact E2.
Qed.
Lemma run_reflect f x dx q pv l i o s : Run f x dx q pv l i o s -> in64 (- dx) ->
  exists s', ipReflect s = Ok (tt, s') /\ Run f x (- dx) q pv l i o s'.
Proof.
  intros HS B. exists {| s_w := s_w s; s_r := set_r_delta [- dx] (s_r s) |}. split.
  - unfold ipReflect, ipTurn, mbind, getR, lift. rewrite (R_delta _ _ _ _ _ _ _ _ _ HS).
    assert (V : vrev [dx] = Ok [- dx]).
    { unfold vrev. cbn [vsize length vrev_loop Nat.ltb Nat.leb]. change (vget [dx] 0) with dx.
      unfold neg64. rewrite chk64_ok by exact B. cbn [bind]. rewrite vset1. reflexivity. }
    rewrite V. reflexivity.
  - destruct HS. constructor; cbn; auto.
Qed.
(** j with [n] on the stack. *)
Lemma X_jump F D p v f x n l i o : fits p -> Vars p v f -> -2147483648 < n <= 2147483647 ->
  In_row p x -> In_row p (x + n) ->
  Does F D 106 f x 1 false 0 (n :: l) i o (x + n) 1 false 0 l i o.
Proof.
  intros HF HV Hn Hx Hxn s H. unfold In_row in Hx, Hxn.
  rewrite (execute_normal F D _ s _ _ (run_normal _ _ _ _ _ _ _ _ 106 H eq_refl) eq_refl). cbn [run_meth].
  destruct (popS_plain s _ (R_stack _ _ _ _ _ _ _ _ _ H)) as (s1 & E1 & C1). cbn [hd tl] in E1, C1.
  rewrite (run_bind _ _ _ _ _ E1). pose proof (run_stack_step _ _ _ _ _ _ _ _ _ _ _ H C1) as H1.
  cbv zeta. rewrite to_i32_id by lia.
  destruct (Z.ltb_spec n 0) as [L|L].
  - destruct (run_reflect _ _ _ _ _ _ _ _ _ H1) as (s2 & E2 & H2); [unfold in64, INT64_MIN, INT64_MAX; lia|].
    rewrite (run_bind _ _ _ _ _ E2).
    rewrite (run_bind (lift _) _ s2 (Z.abs n) s2)
      by (apply run_lift; destruct (Z.eqb_spec n (-2147483648)); [lia|reflexivity]).
    destruct (run_steps f (- (1)) false 0 l i o (Z.to_nat (Z.abs n)) x s2 H2) as (s3 & E3 & H3).
    { intros j Hj. apply (vars_next p v); auto. unfold In_row. lia. }
    rewrite (run_bind _ _ _ _ _ E3).
    destruct (run_reflect _ _ _ _ _ _ _ _ _ H3) as (s4 & E4 & H4); [unfold in64, INT64_MIN, INT64_MAX; lia|].
    rewrite (run_bind _ _ _ _ _ E4). exists s4. split; [reflexivity|].
    replace (x + n) with (x + Z.of_nat (Z.to_nat (Z.abs n)) * - (1)) by lia. exact H4.
  - rewrite (run_bind (ret tt) _ s1 tt s1) by reflexivity.
    rewrite (run_bind (lift _) _ s1 (Z.abs n) s1)
      by (apply run_lift; destruct (Z.eqb_spec n (-2147483648)); [lia|reflexivity]).
    destruct (run_steps f 1 false 0 l i o (Z.to_nat (Z.abs n)) x s1 H1) as (s3 & E3 & H3).
    { intros j Hj. apply (vars_next p v); auto. unfold In_row. lia. }
    rewrite (run_bind _ _ _ _ _ E3). rewrite (run_bind (ret tt) _ s3 tt s3) by reflexivity.
    exists s3. split; [reflexivity|].
    replace (x + n) with (x + Z.of_nat (Z.to_nat (Z.abs n)) * 1) by lia. exact H3.
Qed.
Lemma at_jump F D p v pre suf n l i o w : fits p -> p = pre ++ 106 :: suf -> -2147483648 < n <= 2147483647 ->
  In_row p (len pre + n) -> In_row p (len pre + n + 1) -> At p v (len pre) (n :: l) i o w ->
  exists w', Goes F (S D) 1 w w' /\ At p v (len pre + n + 1) l i o w'.
Proof.
  intros HF E Hn I1 I2 (f & HV & H).
  assert (I0 : In_row p (len pre)) by (unfold In_row, len; rewrite E, app_length; cbn [length]; lia).
  destruct (step_gen F D 106 f _ _ _ _ _ _ _ _ _ _ _ _ _ _ _ w H (at_cell p pre 106 suf v f E HV)
    (X_jump F D p v f (len pre) n l i o HF HV Hn I0 I1) (vars_next p v f _ 1 HF HV I2)) as (w' & G & H').
  exists w'. split; [exact G|]. exists f. split; assumption.
Qed.

Lemma jump_len a d : length (acode (ABin 42 (ANot a) (hex 7 d))) = (length (acode a) + 45)%nat.
Proof. cbn [acode]. rewrite !app_length, hex_len. cbn [length]. lia. Qed.
Lemma hex_ok v d : 0 <= d <= 2147483647 -> aval v (hex 7 d) = d /\ adef v (hex 7 d).
Proof.
  intros H. assert (B : 0 <= d < 16 ^ (Z.of_nat 7 + 1)) by (change (16 ^ (Z.of_nat 7 + 1)) with 4294967296; lia).
  split; [now apply hex_val|apply hex_def; [lia|exact B]].
Qed.

(** The test of a conditional or a loop, and the jump after it. *)
Lemma at_test F D p v a d pre rest i o w : wide v -> awritten a -> adef v a -> fits p ->
  p = pre ++ acode (ABin 42 (ANot a) (hex 7 d)) ++ 106 :: rest -> pre <> [] -> 0 <= d < len rest ->
  At p v (len pre) [] i o w ->
  exists w', Goes F (S D) (length (acode a) + 46) w w' /\
    At p v (len pre + len (acode a) + 46 + (if aval v a =? 0 then d else 0)) [] i o w'.
Proof.
  intros W HW HD HF E P Hd H.
  set (c := acode (ABin 42 (ANot a) (hex 7 d))) in *.
  assert (LC : len c = len (acode a) + 45) by (unfold c, len; rewrite jump_len; lia).
  assert (LP : len p = len pre + len c + 1 + len rest).
  { rewrite E, !len_app. unfold len. cbn [length]. lia. }
  pose proof (proj2 (proj2 HF)) as LB.
  assert (NN : 0 <= len pre /\ 0 <= len c /\ 0 <= len (acode a)) by (unfold len; lia).
  destruct (hex_ok v d) as (HV & HX); [lia|].
  assert (VN : aval v (ABin 42 (ANot a) (hex 7 d)) = if aval v a =? 0 then d else 0).
  { cbn [aval]. rewrite HV. change (arith 42 ?a ?b) with (a * b). destruct (aval v a =? 0); lia. }
  destruct (act_exp v (ABin 42 (ANot a) (hex 7 d)) W) with (l := @nil Z) (F := F) (D := D) (p := p) (pre := pre)
    (suf := 106 :: rest) (i := i) (o := o) (w := w) as (w1 & G1 & H1); auto; [| |discriminate|].
  { cbn [awritten]. split; [cbn; auto|]. split; [exact HW|apply hex_written]. }
  { cbn [adef]. split; [exact HD|]. split; [exact HX|]. apply in64_defined; [cbn; auto|].
    cbn [aval] in VN |- *. rewrite VN. unfold in64, INT64_MIN, INT64_MAX. destruct (aval v a =? 0); lia. }
  rewrite VN, app_nil_r in H1. fold c in G1, H1.
  set (n := if aval v a =? 0 then d else 0) in *.
  assert (Hn : 0 <= n <= d) by (unfold n; destruct (aval v a =? 0); lia).
  assert (E1 : p = (pre ++ c) ++ 106 :: rest) by (rewrite E, <- app_assoc; reflexivity).
  destruct (at_jump F D p v (pre ++ c) rest n [] i o w1 HF E1) as (w2 & G2 & H2); auto;
    [lia|unfold In_row; rewrite len_app; fold (len p); lia|unfold In_row; rewrite len_app; fold (len p); lia|].
  exists w2. split.
  - replace (length (acode a) + 46)%nat with (length c + 1)%nat by (unfold c; rewrite jump_len; lia).
    exact (goes_trans _ _ _ _ _ _ _ G1 G2).
  - replace (len pre + len (acode a) + 46 + n) with (len (pre ++ c) + n + 1) by (rewrite len_app; lia). exact H2.
Qed.
(** An unconditional jump over or back. *)
Lemma at_skip F D p v e n pre rest i o w : wide v -> awritten e -> adef v e -> aval v e = n -> fits p ->
  p = pre ++ acode e ++ 106 :: rest -> pre <> [] -> -2147483648 < n <= 2147483647 ->
  In_row p (len pre + len (acode e) + n) -> In_row p (len pre + len (acode e) + n + 1) ->
  At p v (len pre) [] i o w ->
  exists w', Goes F (S D) (length (acode e) + 1) w w' /\ At p v (len pre + len (acode e) + n + 1) [] i o w'.
Proof.
  intros W HW HD VN HF E P Hn I1 I2 H.
  destruct (act_exp v e W HW HD []) with (F := F) (D := D) (p := p) (pre := pre)
    (suf := 106 :: rest) (i := i) (o := o) (w := w) as (w1 & G1 & H1); auto; [discriminate|].
  rewrite VN, app_nil_r in H1. rewrite <- len_app in I1, I2 |- *.
  assert (E1 : p = (pre ++ acode e) ++ 106 :: rest) by (rewrite E, <- app_assoc; reflexivity).
  destruct (at_jump F D p v (pre ++ acode e) rest n [] i o w1 HF E1) as (w2 & G2 & H2); auto.
  exists w2. split; [exact (goes_trans _ _ _ _ _ _ _ G1 G2)|exact H2].
Qed.

Lemma act_store v k y : 0 <= k <= 15 -> Act [digit k; 49; 112] v [y] (update v k y) [] 3 [].
Proof.
  intros Hk.
  apply (act_app [digit k] [49; 112] v _ v [k; y] _ _ 1 2 [] []); [now apply act_digit|].
  apply (act_app [49] [112] v _ v [1; k; y] _ _ 1 1 [] []); [exact (act_digit v _ 1 ltac:(lia))|].
  intros F D p pre suf i o w HF E _ S (f & HV & r & R & H).
  destruct (X_put F D f _ 1 k y [] i o _ Hk H) as (s1 & q & E1 & SQ & H1).
  pose proof (vars_put p v f q k y HF HV SQ) as HV1.
  assert (N : Next (f_put q y f) (len pre) 1 (len pre + 1)).
  { apply (vars_next p (update v k y)); auto.
    replace (len pre + 1) with (len (pre ++ [112])) by (rewrite len_app; reflexivity). exact (len_row p pre [112] suf E S). }
  assert (ST : exists w', Goes F (Datatypes.S D) 1 w w' /\ RunW (f_put q y f) (len pre + 1) 1 false 0 [] i o w').
  { apply (step_at F D 112 f (len pre) [1; k; y] i o _ (len pre) [] i o _ w r s1 R H); auto.
    exact (at_cell p pre 112 suf v f E HV). }
  destruct ST as (w' & G & H'). exists w'. split; [exact G|]. rewrite app_nil_r.
  replace (len (pre ++ [112])) with (len pre + 1) by (rewrite len_app; reflexivity).
  exists (f_put q y f). split; assumption.
Qed.
Lemma act_set v k a : wide v -> 0 <= k <= 15 -> awritten a -> adef v a ->
  Act (acode a ++ [digit k; 49; 112]) v [] (update v k (aval v a)) [] (length (acode a) + 3) [].
Proof.
  intros W Hk HW HD. apply (act_app _ _ v [] v [aval v a] _ _ _ _ [] []); [now apply act_exp|]. now apply act_store.
Qed.

(** A piece that may read: the input is [i] before and [i'] after it. *)
Definition ActI (c : bytes) (v : env) (i : bytes) (v' : env) (i' : bytes) (n : nat) (t : bytes) : Prop :=
  forall F D p pre suf o w, fits p -> p = pre ++ c ++ suf -> pre <> [] -> suf <> [] ->
  At p v (len pre) [] i o w ->
  exists w', Goes F (S D) n w w' /\ At p v' (len (pre ++ c)) [] i' (o ++ t) w'.
Lemma acti_act c v v' n t i : Act c v [] v' [] n t -> ActI c v i v' i n t.
Proof. intros A F D p pre suf o w. apply A. Qed.
Lemma acti_app c1 c2 v i v1 i1 v2 i2 n1 n2 t1 t2 : ActI c1 v i v1 i1 n1 t1 -> ActI c2 v1 i1 v2 i2 n2 t2 ->
  ActI (c1 ++ c2) v i v2 i2 (n1 + n2) (t1 ++ t2).
Proof.
  intros A1 A2 F D p pre suf o w HF E P S H.
  destruct (A1 F D p pre (c2 ++ suf) o w HF) as (w1 & G1 & H1); auto.
  - rewrite E, <- app_assoc. reflexivity.
  - destruct c2; [exact S|discriminate].
  - destruct (A2 F D p (pre ++ c1) suf (o ++ t1) w1 HF) as (w2 & G2 & H2); auto.
    + rewrite E, <- !app_assoc. reflexivity.
    + destruct pre; [contradiction|discriminate].
    + exists w2. split; [exact (goes_trans _ _ _ _ _ _ _ G1 G2)|]. rewrite !app_assoc. exact H2.
Qed.
Lemma acti_read v k c i : 0 <= k <= 15 -> c <> 13 ->
  ActI [126; digit k; 49; 112] v (c :: i) (update v k c) i 4 [].
Proof.
  intros Hk Hc F D p pre suf o w HF E P S (f & HV & H).
  assert (E1 : p = (pre ++ [126]) ++ [digit k; 49; 112] ++ suf) by (rewrite E, <- app_assoc; reflexivity).
  assert (N : Next f (len pre) 1 (len pre + 1)).
  { apply (vars_next p v); auto. replace (len pre + 1) with (len (pre ++ [126])) by (rewrite len_app; reflexivity).
    apply (len_row p pre [126] ([digit k; 49; 112] ++ suf)); [rewrite E; reflexivity|discriminate]. }
  destruct (step_gen F D 126 f _ _ _ _ _ _ _ _ _ _ _ _ _ _ _ w H (at_cell p pre 126 _ v f E HV)
    (X_in F D f (len pre) 1 c [] i o Hc) N) as (w1 & G1 & H1).
  destruct (act_store v k c Hk F D p (pre ++ [126]) suf i o w1 HF E1) as (w2 & G2 & H2); auto.
  - destruct pre; [contradiction|discriminate].
  - exists f. split; [exact HV|]. replace (len (pre ++ [126])) with (len pre + 1) by (rewrite len_app; reflexivity). exact H1.
  - exists w2. split; [exact (goes_trans _ _ _ _ _ _ _ G1 G2)|]. rewrite <- app_assoc in H2. exact H2.
Qed.

(** ** Statements *)

Lemma printed_app e1 t1 e2 t2 : Printed e1 t1 -> Printed e2 t2 -> Printed (e1 ++ e2) (t1 ++ t2).
Proof.
  induction 1; intros H2; cbn [app]; [exact H2| |constructor; auto].
  rewrite <- app_assoc. constructor; auto.
Qed.
Lemma wide_update v k x : wide v -> in64 x -> wide (update v k x).
Proof. intros W H j. unfold update. destruct (j =? k); auto. Qed.

(** What the pieces of a conditional and of a loop do, whatever its parts do. *)
Section Pieces.
  Variables (F : positive) (D : nat) (p : bytes) (v : env) (a : aexp).
  Hypotheses (W : wide v) (HW : awritten a) (HD : adef v a) (HF : fits p).

  Lemma if_test s t pre suf i o w : p = pre ++ scode (SIf a s t) ++ suf -> pre <> [] -> suf <> [] ->
    At p v (len pre) [] i o w ->
    exists w', Goes F (S D) (length (acode a) + 46) w w' /\
      At p v (len pre + len (acode a) + 46 + (if aval v a =? 0 then len (scode s) + 44 else 0)) [] i o w'.
  Proof.
    intros E P S H. cbn [scode] in E.
    apply (at_test F D p v a _ pre (scode s ++ acode (hex 7 (len (scode t))) ++ [106] ++ scode t ++ suf)); auto.
    - rewrite E, <- !app_assoc. reflexivity.
    - rewrite !len_app. unfold len at 4. rewrite hex_len. destruct suf; [contradiction|]. unfold len. cbn [length]. lia.
  Qed.
  Lemma while_test s pre suf i o w : p = pre ++ scode (SWhile a s) ++ suf -> pre <> [] -> suf <> [] ->
    At p v (len pre) [] i o w ->
    exists w', Goes F (S D) (length (acode a) + 46) w w' /\
      At p v (len pre + len (acode a) + 46 + (if aval v a =? 0 then len (scode s) + 46 else 0)) [] i o w'.
  Proof.
    intros E P S H. cbn [scode] in E.
    apply (at_test F D p v a _ pre
      (scode s ++ acode (ABin 45 (ANum 0) (hex 7 (len (acode a) + len (scode s) + 92))) ++ [106] ++ suf)); auto.
    - rewrite E, <- !app_assoc. reflexivity.
    - rewrite !len_app. cbn [acode]. rewrite !len_app. unfold len at 5. rewrite hex_len.
      destruct suf; [contradiction|]. unfold len. cbn [length]. lia.
  Qed.
End Pieces.

Definition if_head a (s : stm) : bytes := acode (ABin 42 (ANot a) (hex 7 (len (scode s) + 44))) ++ [106].
Definition while_head a (s : stm) : bytes := acode (ABin 42 (ANot a) (hex 7 (len (scode s) + 46))) ++ [106].
Lemma if_head_len a s : len (if_head a s) = len (acode a) + 46.
Proof. unfold if_head. rewrite len_app. unfold len. rewrite jump_len. cbn [length]. lia. Qed.
Lemma while_head_len a s : len (while_head a s) = len (acode a) + 46.
Proof. unfold while_head. rewrite len_app. unfold len. rewrite jump_len. cbn [length]. lia. Qed.
Lemma hex7_len n : len (acode (hex 7 n)) = 43.
Proof. unfold len. rewrite hex_len. reflexivity. Qed.
Lemma back_len n : len (acode (ABin 45 (ANum 0) (hex 7 n))) = 45.
Proof. cbn [acode]. rewrite !len_app. unfold len. rewrite hex_len. cbn [length]. lia. Qed.

(** One round of a loop. *)
Lemma while_round F D p v a : wide v -> awritten a -> adef v a -> fits p ->
  forall s v1 n1 t1 pre suf i i1 o w, aval v a <> 0 -> wide v1 -> ActI (scode s) v i v1 i1 n1 t1 ->
  p = pre ++ scode (SWhile a s) ++ suf -> pre <> [] -> suf <> [] -> At p v (len pre) [] i o w ->
  exists w', Goes F (S D) (length (acode a) + 46 + (n1 + 46)) w w' /\ At p v1 (len pre) [] i1 (o ++ t1) w'.
Proof.
  intros W HA HD HF s v1 n1 t1 pre suf i i1 o w HC W1 A1 E PR SF H.
  destruct (while_test F D p v a W HA HD HF s pre suf i o w E PR SF H) as (w1 & G1 & H1).
  destruct (Z.eqb_spec (aval v a) 0) as [|_]; [contradiction|].
  set (B := len (acode a) + len (scode s) + 92).
  set (back := ABin 45 (ANum 0) (hex 7 B)).
  assert (E1 : p = (pre ++ while_head a s) ++ scode s ++ (acode back ++ 106 :: suf)).
  { rewrite E. unfold while_head, back, B. cbn [scode]. rewrite <- !app_assoc. reflexivity. }
  destruct (A1 F D p (pre ++ while_head a s) (acode back ++ 106 :: suf) o w1 HF E1) as (w2 & G2 & H2).
  { destruct pre; [contradiction|discriminate]. }
  { discriminate. }
  { rewrite len_app, while_head_len. replace (len pre + (len (acode a) + 46)) with (len pre + len (acode a) + 46 + 0) by lia. exact H1. }
  set (front := (pre ++ while_head a s) ++ scode s) in *.
  assert (E2 : p = front ++ acode back ++ 106 :: suf) by (unfold front; rewrite E1, <- !app_assoc; reflexivity).
  assert (LK : len (acode back) = 45) by apply back_len.
  assert (LF : len front = len pre + B - 46).
  { unfold front, B. rewrite !len_app, while_head_len. lia. }
  assert (LP : len p = len front + 45 + 1 + len suf).
  { rewrite E2, !len_app, LK. unfold len. cbn [length]. lia. }
  assert (PL : 0 < len pre) by (destruct pre; [contradiction|unfold len; cbn [length]; lia]).
  assert (BL : 92 <= B) by (unfold B, len; lia).
  assert (SL : 0 < len suf) by (destruct suf; [contradiction|unfold len; cbn [length]; lia]).
  pose proof (proj2 (proj2 HF)) as LB.
  destruct (hex_ok v1 B) as (HV & HX); [lia|].
  destruct (at_skip F D p v1 back (- B) front suf i1 (o ++ t1) w2 W1) as (w3 & G3 & H3); auto.
  { unfold back. cbn [awritten]. split; [cbn; auto|]. split; [lia|apply hex_written]. }
  { unfold back. cbn [adef]. split; [exact I|]. split; [exact HX|]. apply in64_defined; [cbn; auto|].
    cbn [aval]. rewrite HV. change (arith 45 ?a ?b) with (a - b). unfold in64, INT64_MIN, INT64_MAX. lia. }
  { unfold back. cbn [aval]. rewrite HV. change (arith 45 ?a ?b) with (a - b). lia. }
  { unfold front. destruct pre; [contradiction|discriminate]. }
  { lia. }
  { unfold In_row. fold (len p). lia. }
  { unfold In_row. fold (len p). lia. }
  exists w3. split.
  - replace 46%nat with (length (acode back) + 1)%nat at 2 by (unfold len in LK; lia).
    exact (goes_trans _ _ _ _ _ _ _ G1 (goes_trans _ _ _ _ _ _ _ G2 G3)).
  - replace (len pre) with (len front + len (acode back) + - B + 1) by lia. exact H3.
Qed.

(** The bytes of an input without carriage returns. *)
Definition readable (i : bytes) : Prop := Forall (fun c => 0 <= c <= 255 /\ c <> 13) i.
Lemma exec_runs s v i v' i' e : Exec s v i v' i' e -> swritten s -> wide v -> readable i ->
  wide v' /\ readable i' /\ exists n t, Printed e t /\ ActI (scode s) v i v' i' n t.
Proof.
  induction 1 as [v j|v c j k|v j k a HD|v j a HD HB|v j a HD|v v1 v2 j j1 j2 s t e1 e2 X1 IH1 X2 IH2
    |v v1 j j1 a s t e HD HC X IH|v v1 j j1 a s t e HD HC X IH
    |v j a s HD HC|v v1 v2 j j1 j2 a s e1 e2 HD HC X1 IH1 X2 IH2]; cbn [swritten]; intros HW W RD.
  - split; [exact W|]. split; [exact RD|]. exists 0%nat, []. split; [constructor|apply acti_act, act_nil].
  - inversion RD as [|? ? (RC & RN) RD']; subst. split; [apply wide_update; [exact W|unfold in64, INT64_MIN, INT64_MAX; lia]|].
    split; [exact RD'|]. exists 4%nat, []. split; [constructor|]. now apply acti_read.
  - destruct HW as (Hk & HA). split; [apply wide_update; [exact W|now apply aval_in64]|]. split; [exact RD|].
    exists (length (acode a) + 3)%nat, []. split; [constructor|]. apply acti_act. now apply act_set.
  - split; [exact W|]. split; [exact RD|]. exists (length (acode a) + 1)%nat, (dec (aval v a) ++ [32] ++ []). split; [constructor; [apply dec_decimal|constructor]|].
    cbn [scode]. apply acti_act, (act_app _ _ v [] v [aval v a] v [] (length (acode a)) 1 [] (dec (aval v a) ++ [32] ++ [])); [now apply act_exp|].
    apply act_one. intros F D p f x i o _. rewrite app_nil_r. pose proof (X_numout F D f x 1 (aval v a) [] i o) as Q.
    rewrite to_i32_id in Q by lia. exact Q.
  - split; [exact W|]. split; [exact RD|]. exists (length (acode a) + 1)%nat, [aval v a mod 256]. split; [constructor; constructor|].
    cbn [scode]. apply acti_act, (act_app _ _ v [] v [aval v a] v [] (length (acode a)) 1 [] [aval v a mod 256]); [now apply act_exp|].
    apply act_one. intros F D p f x i o _. apply X_out.
  - destruct HW as (HS & HT). destruct (IH1 HS W RD) as (W1 & RD1 & n1 & t1 & P1 & A1).
    destruct (IH2 HT W1 RD1) as (W2 & RD2 & n2 & t2 & P2 & A2). split; [exact W2|]. split; [exact RD2|].
    exists (n1 + n2)%nat, (t1 ++ t2). split; [now apply printed_app|]. cbn [scode]. exact (acti_app _ _ _ _ _ _ _ _ _ _ _ _ A1 A2).
  - destruct HW as (HA & HS & HT). destruct (IH HS W RD) as (W1 & RD1 & n & tx & P & A). split; [exact W1|]. split; [exact RD1|].
    exists (length (acode a) + 46 + (n + (43 + 1)))%nat, tx. split; [exact P|].
    intros F D p pre suf o w HF E PR SF H.
    destruct (if_test F D p v a W HA HD HF s t pre suf j o w E PR SF H) as (w1 & G1 & H1).
    destruct (Z.eqb_spec (aval v a) 0) as [|_]; [contradiction|].
    assert (E1 : p = (pre ++ if_head a s) ++ scode s ++ (acode (hex 7 (len (scode t))) ++ 106 :: scode t ++ suf)).
    { rewrite E. unfold if_head. cbn [scode]. rewrite <- !app_assoc. reflexivity. }
    destruct (A F D p (pre ++ if_head a s) (acode (hex 7 (len (scode t))) ++ 106 :: scode t ++ suf) o w1 HF E1)
      as (w2 & G2 & H2).
    { destruct pre; [contradiction|discriminate]. }
    { intros Q. apply (f_equal (@length Z)) in Q. rewrite app_length, hex_len in Q. discriminate Q. }
    { rewrite len_app, if_head_len. replace (len pre + (len (acode a) + 46)) with (len pre + len (acode a) + 46 + 0) by lia. exact H1. }
    assert (E2 : p = ((pre ++ if_head a s) ++ scode s) ++ acode (hex 7 (len (scode t))) ++ 106 :: (scode t ++ suf))
      by (rewrite E1, <- !app_assoc; reflexivity).
    assert (LH : len (acode (hex 7 (len (scode t)))) = 43) by (unfold len; rewrite hex_len; reflexivity).
    assert (LP : len p = len ((pre ++ if_head a s) ++ scode s) + 43 + 1 + len (scode t) + len suf).
    { rewrite E2, (len_app _ (acode _ ++ _)), (len_app (acode _)), LH. unfold len. cbn [length]. rewrite !app_length. lia. }
    assert (SL : 0 < len suf) by (destruct suf; [contradiction|unfold len; cbn [length]; lia]).
    assert (TL : 0 <= len (scode t) /\ 0 <= len ((pre ++ if_head a s) ++ scode s)) by (unfold len; lia).
    pose proof (proj2 (proj2 HF)) as LB.
    destruct (hex_ok v1 (len (scode t))) as (HV & HX); [lia|].
    destruct (at_skip F D p v1 (hex 7 (len (scode t))) (len (scode t)) ((pre ++ if_head a s) ++ scode s) (scode t ++ suf)
      j1 (o ++ tx) w2 W1) as (w3 & G3 & H3); auto using hex_written;
      [destruct pre; [contradiction|discriminate]|lia|unfold In_row; fold (len p); lia|unfold In_row; fold (len p); lia|].
    exists w3. split.
    + rewrite hex_len in G3. exact (goes_trans _ _ _ _ _ _ _ G1 (goes_trans _ _ _ _ _ _ _ G2 G3)).
    + replace (len (pre ++ scode (SIf a s t))) with
        (len ((pre ++ if_head a s) ++ scode s) + len (acode (hex 7 (len (scode t)))) + len (scode t) + 1); [exact H3|].
      rewrite !len_app, if_head_len, LH. cbn [scode]. rewrite !len_app, LH. unfold len. rewrite jump_len. cbn [length]. lia.
  - destruct HW as (HA & HS & HT). destruct (IH HT W RD) as (W1 & RD1 & n & tx & P & A). split; [exact W1|]. split; [exact RD1|].
    exists (length (acode a) + 46 + n)%nat, tx. split; [exact P|].
    intros F D p pre suf o w HF E PR SF H.
    destruct (if_test F D p v a W HA HD HF s t pre suf j o w E PR SF H) as (w1 & G1 & H1).
    rewrite HC, Z.eqb_refl in H1.
    set (front := pre ++ if_head a s ++ scode s ++ acode (hex 7 (len (scode t))) ++ [106]).
    assert (E1 : p = front ++ scode t ++ suf).
    { rewrite E. unfold front, if_head. cbn [scode]. rewrite <- !app_assoc. reflexivity. }
    assert (LF : len front = len pre + len (acode a) + 46 + (len (scode s) + 44)).
    { unfold front. rewrite !len_app, if_head_len. unfold len at 4. rewrite hex_len. unfold len. cbn [length]. lia. }
    rewrite <- LF in H1.
    destruct (A F D p front suf o w1 HF E1) as (w2 & G2 & H2); auto.
    { unfold front. destruct pre; [contradiction|discriminate]. }
    exists w2. split; [exact (goes_trans _ _ _ _ _ _ _ G1 G2)|].
    replace (len (pre ++ scode (SIf a s t))) with (len (front ++ scode t)); [exact H2|].
    unfold front, if_head. cbn [scode]. rewrite !len_app. lia.
  - destruct HW as (HA & HS). split; [exact W|]. split; [exact RD|]. exists (length (acode a) + 46)%nat, []. split; [constructor|].
    intros F D p pre suf o w HF E PR SF H.
    destruct (while_test F D p v a W HA HD HF s pre suf j o w E PR SF H) as (w1 & G1 & H1).
    rewrite HC, Z.eqb_refl in H1. exists w1. split; [exact G1|]. rewrite app_nil_r.
    replace (len (pre ++ scode (SWhile a s))) with (len pre + len (acode a) + 46 + (len (scode s) + 46)); [exact H1|].
    cbn [scode]. rewrite !len_app, back_len. unfold len. rewrite jump_len. cbn [length]. lia.
  - pose proof HW as HW0. destruct HW as (HA & HS). destruct (IH1 HS W RD) as (W1 & RD1 & n1 & t1 & P1 & A1).
    destruct (IH2 HW0 W1 RD1) as (W2 & RD2 & n2 & t2 & P2 & A2). split; [exact W2|]. split; [exact RD2|].
    exists (length (acode a) + 46 + (n1 + (46 + n2)))%nat, (t1 ++ t2). split; [now apply printed_app|].
    intros F D p pre suf o w HF E PR SF H.
    destruct (while_round F D p v a W HA HD HF s v1 n1 t1 pre suf j j1 o w HC W1 A1 E PR SF H) as (w2 & G2 & H2).
    destruct (A2 F D p pre suf (o ++ t1) w2 HF E PR SF H2) as (w3 & G3 & H3).
    exists w3. split; [|rewrite app_assoc; exact H3].
    replace (length (acode a) + 46 + (n1 + (46 + n2)))%nat with (length (acode a) + 46 + (n1 + 46) + n2)%nat by lia.
    exact (goes_trans _ _ _ _ _ _ _ G2 G3).
Qed.

Lemma endless_runs : forall n s v i, Endless s v i -> swritten s -> wide v -> readable i ->
  forall F D p pre suf o w, fits p -> p = pre ++ scode s ++ suf -> pre <> [] -> suf <> [] ->
  At p v (len pre) [] i o w -> exists m w', (n <= m)%nat /\ Goes F (S D) m w w'.
Proof.
  induction n as [|n IHn]; intros s; [intros; exists 0%nat, w; split; [lia|constructor]|].
  induction s as [|k|k a|a|a|s IHs t IHt|a s IHs t IHt|a s IHs]; intros v i L; inversion L; subst;
    cbn [swritten]; intros HW W RD F D p pre suf o w HF E PR SF HH.
  - destruct HW as (HS & HT). eapply IHs; [eassumption|exact HS|exact W|exact RD|exact HF| |exact PR| |exact HH].
    + rewrite E. cbn [scode]. rewrite <- app_assoc. reflexivity.
    + destruct (scode t); [exact SF|discriminate].
  - destruct HW as (HS & HT).
    match goal with X : Exec s v _ _ _ _ |- _ => destruct (exec_runs _ _ _ _ _ _ X HS W RD) as (W1 & RD1 & n1 & t1 & _ & A1) end.
    destruct (A1 F D p pre (scode t ++ suf) o w HF) as (w1 & G1 & HQ); auto.
    { rewrite E. cbn [scode]. rewrite <- app_assoc. reflexivity. }
    { destruct (scode t); [exact SF|discriminate]. }
    edestruct IHt as (m & w2 & Hm & G2); [eassumption|exact HT|exact W1|exact RD1|exact HF| | |exact SF|exact HQ|].
    { rewrite E. cbn [scode]. rewrite <- !app_assoc. reflexivity. }
    { destruct pre; [contradiction|discriminate]. }
    exists (n1 + m)%nat, w2. split; [lia|]. exact (goes_trans _ _ _ _ _ _ _ G1 G2).
  - destruct HW as (HA & HS & HT).
    destruct (if_test F D p v a W HA ltac:(assumption) HF s t pre suf i o w E PR SF HH) as (w1 & G1 & HQ).
    destruct (Z.eqb_spec (aval v a) 0) as [|_]; [contradiction|].
    edestruct (IHs v i ltac:(assumption) HS W RD F D p (pre ++ if_head a s)
      (acode (hex 7 (len (scode t))) ++ 106 :: scode t ++ suf) o w1 HF) as (m & w2 & Hm & G2).
    { rewrite E. unfold if_head. cbn [scode]. rewrite <- !app_assoc. reflexivity. }
    { destruct pre; [contradiction|discriminate]. }
    { intros Q. apply (f_equal (@length Z)) in Q. rewrite app_length, hex_len in Q. discriminate Q. }
    { rewrite len_app, if_head_len. replace (len pre + (len (acode a) + 46)) with (len pre + len (acode a) + 46 + 0) by lia. exact HQ. }
    exists (length (acode a) + 46 + m)%nat, w2. split; [lia|]. exact (goes_trans _ _ _ _ _ _ _ G1 G2).
  - destruct HW as (HA & HS & HT).
    destruct (if_test F D p v a W HA ltac:(assumption) HF s t pre suf i o w E PR SF HH) as (w1 & G1 & HQ).
    destruct (Z.eqb_spec (aval v a) 0) as [_|]; [|contradiction].
    edestruct (IHt v i ltac:(assumption) HT W RD F D p
      (pre ++ if_head a s ++ scode s ++ acode (hex 7 (len (scode t))) ++ [106]) suf o w1 HF) as (m & w2 & Hm & G2).
    { rewrite E. unfold if_head. cbn [scode]. rewrite <- !app_assoc. reflexivity. }
    { destruct pre; [contradiction|discriminate]. }
    { exact SF. }
    { replace (len (pre ++ if_head a s ++ scode s ++ acode (hex 7 (len (scode t))) ++ [106])) with
        (len pre + len (acode a) + 46 + (len (scode s) + 44)); [exact HQ|].
      rewrite !len_app, if_head_len, hex7_len. unfold len. cbn [length]. lia. }
    exists (length (acode a) + 46 + m)%nat, w2. split; [lia|]. exact (goes_trans _ _ _ _ _ _ _ G1 G2).
  - destruct HW as (HA & HS).
    destruct (while_test F D p v a W HA ltac:(assumption) HF s pre suf i o w E PR SF HH) as (w1 & G1 & HQ).
    destruct (Z.eqb_spec (aval v a) 0) as [|_]; [contradiction|].
    edestruct (IHs v i ltac:(assumption) HS W RD F D p (pre ++ while_head a s)
      (acode (ABin 45 (ANum 0) (hex 7 (len (acode a) + len (scode s) + 92))) ++ 106 :: suf) o w1 HF) as (m & w2 & Hm & G2).
    { rewrite E. unfold while_head. cbn [scode]. rewrite <- !app_assoc. reflexivity. }
    { destruct pre; [contradiction|discriminate]. }
    { discriminate. }
    { rewrite len_app, while_head_len. replace (len pre + (len (acode a) + 46)) with (len pre + len (acode a) + 46 + 0) by lia. exact HQ. }
    exists (length (acode a) + 46 + m)%nat, w2. split; [lia|]. exact (goes_trans _ _ _ _ _ _ _ G1 G2).
  - pose proof HW as HW0. destruct HW as (HA & HS).
    match goal with X : Exec s v _ _ _ _ |- _ => destruct (exec_runs _ _ _ _ _ _ X HS W RD) as (W1 & RD1 & n1 & t1 & _ & A1) end.
    destruct (while_round F D p v a W HA ltac:(assumption) HF s _ n1 t1 pre suf i _ o w ltac:(assumption) W1 A1 E PR SF HH) as (w2 & G2 & HR).
    edestruct IHn as (m & w3 & Hm & G3); [eassumption|exact HW0|exact W1|exact RD1|exact HF|exact E|exact PR|exact SF|exact HR|].
    exists (length (acode a) + 46 + (n1 + 46) + m)%nat, w3. split; [lia|]. exact (goes_trans _ _ _ _ _ _ _ G2 G3).
Qed.

(** ** Undefined operations *)

Definition Fails (c : bytes) (v : env) (l : list Z) (i : bytes) (n : nat) : Prop :=
  forall F D p pre suf o w, fits p -> p = pre ++ c ++ suf -> pre <> [] -> suf <> [] ->
  At p v (len pre) l i o w ->
  exists w', Goes F (S D) n w w' /\
    (run_step F (S D) 0 w' = Bad BadOverflow \/ run_step F (S D) 0 w' = Bad BadDiv).
Lemma fails_left c1 c2 v l i n : Fails c1 v l i n -> Fails (c1 ++ c2) v l i n.
Proof.
  intros A F D p pre suf o w HF E P S H. apply (A F D p pre (c2 ++ suf) o w); auto.
  - rewrite E, <- app_assoc. reflexivity.
  - destruct c2; [exact S|discriminate].
Qed.
Lemma fails_act c1 c2 v l v1 l1 n1 t1 i n2 : Act c1 v l v1 l1 n1 t1 -> Fails c2 v1 l1 i n2 ->
  Fails (c1 ++ c2) v l i (n1 + n2).
Proof.
  intros A1 A2 F D p pre suf o w HF E P S H.
  destruct (A1 F D p pre (c2 ++ suf) i o w HF) as (w1 & G1 & H1); auto.
  - rewrite E, <- app_assoc. reflexivity.
  - destruct c2; [exact S|discriminate].
  - destruct (A2 F D p (pre ++ c1) suf (o ++ t1) w1 HF) as (w2 & G2 & H2); auto.
    + rewrite E, <- !app_assoc. reflexivity.
    + destruct pre; [contradiction|discriminate].
    + exists w2. split; [exact (goes_trans _ _ _ _ _ _ _ G1 G2)|exact H2].
Qed.
Lemma adef_dec v a : adef v a \/ ~ adef v a.
Proof.
  induction a as [n|k|a IH|op a IHa b IHb]; cbn [adef]; [tauto|tauto|tauto|].
  destruct (defined_dec op (aval v a) (aval v b)); tauto.
Qed.
Lemma exp_fails v a i : wide v -> awritten a -> ~ adef v a -> forall l, exists n, Fails (acode a) v l i n.
Proof.
  intros W. induction a as [n|k|a IH|op a IHa b IHb]; cbn [awritten adef acode]; intros HW ND l; [tauto|tauto| |].
  - destruct (IH HW ND l) as (n & A). exists n. now apply fails_left.
  - destruct HW as (Ho & WA & WB).
    destruct (adef_dec v a) as [DA|DA]; [|destruct (IHa WA DA l) as (n & A); exists n; now apply fails_left].
    destruct (adef_dec v b) as [DB|DB].
    + exists (length (acode a) + (length (acode b) + 0))%nat.
      apply (fails_act _ _ v l v (aval v a :: l) _ []); [now apply act_exp|].
      apply (fails_act _ _ v _ v (aval v b :: aval v a :: l) _ []); [now apply act_exp|].
      intros F D p pre suf o w HF E P S (f & HV & H). exists w. split; [constructor|].
      apply (step_undefined F D f _ _ op _ _ _ _ _ w H (at_cell p pre op suf v f E HV) Ho); auto using aval_in64.
      destruct (defined_dec op (aval v a) (aval v b)); tauto.
    + destruct (IHb WB DB (aval v a :: l)) as (n & A). exists (length (acode a) + n)%nat.
      apply (fails_act _ _ v l v (aval v a :: l) _ []); [now apply act_exp|]. now apply fails_left.
Qed.
Lemma wrong_runs s v i : Wrong s v i -> swritten s -> wide v -> readable i -> exists n, Fails (scode s) v [] i n.
Proof.
  induction 1 as [v i k a ND|v i a ND|v i a ND|v i s t X IH|v v1 i i1 s t e X1 X2 IH|v i a s t ND|v i a s t HD HC X IH|v i a s t HD HC X IH
    |v i a s ND|v i a s HD HC X IH|v v1 i i1 a s e HD HC X1 X2 IH]; cbn [swritten]; intros HW W RD.
  - destruct (exp_fails v a i W (proj2 HW) ND []) as (n & A). exists n. now apply fails_left.
  - destruct (exp_fails v a i W HW ND []) as (n & A). exists n. now apply fails_left.
  - destruct (exp_fails v a i W HW ND []) as (n & A). exists n. now apply fails_left.
  - destruct (IH (proj1 HW) W RD) as (n & A). exists n. now apply fails_left.
  - destruct HW as (HS & HT). destruct (exec_runs _ _ _ _ _ _ X1 HS W RD) as (W1 & RD1 & n1 & t1 & _ & A1).
    destruct (IH HT W1 RD1) as (n & A). exists (n1 + n)%nat. cbn [scode].
    intros F D p pre suf o w HF E PR SF H.
    destruct (A1 F D p pre (scode t ++ suf) o w HF) as (w1 & G1 & H1); auto.
    { rewrite E, <- app_assoc. reflexivity. }
    { destruct (scode t); [exact SF|discriminate]. }
    destruct (A F D p (pre ++ scode s) suf (o ++ t1) w1 HF) as (w2 & G2 & H2); auto.
    { rewrite E, <- !app_assoc. reflexivity. }
    { destruct pre; [contradiction|discriminate]. }
    exists w2. split; [exact (goes_trans _ _ _ _ _ _ _ G1 G2)|exact H2].
  - destruct HW as (HA & _). destruct (exp_fails v (ABin 42 (ANot a) (hex 7 (len (scode s) + 44))) i W) with (l := @nil Z) as (n & A).
    { cbn [awritten]. split; [cbn; auto|]. split; [exact HA|apply hex_written]. }
    { cbn [adef]. tauto. }
    exists n. cbn [scode]. now apply fails_left.
  - destruct HW as (HA & HS & HT). destruct (IH HS W RD) as (n & A). exists (length (acode a) + 46 + n)%nat.
    intros F D p pre suf o w HF E PR SF H.
    destruct (if_test F D p v a W HA HD HF s t pre suf i o w E PR SF H) as (w1 & G1 & H1).
    destruct (Z.eqb_spec (aval v a) 0) as [|_]; [contradiction|].
    destruct (A F D p (pre ++ if_head a s) (acode (hex 7 (len (scode t))) ++ 106 :: scode t ++ suf) o w1 HF) as (w2 & G2 & H2).
    { rewrite E. unfold if_head. cbn [scode]. rewrite <- !app_assoc. reflexivity. }
    { destruct pre; [contradiction|discriminate]. }
    { intros Q. apply (f_equal (@length Z)) in Q. rewrite app_length, hex_len in Q. discriminate Q. }
    { rewrite len_app, if_head_len. replace (len pre + (len (acode a) + 46)) with (len pre + len (acode a) + 46 + 0) by lia. exact H1. }
    exists w2. split; [exact (goes_trans _ _ _ _ _ _ _ G1 G2)|exact H2].
  - destruct HW as (HA & HS & HT). destruct (IH HT W RD) as (n & A). exists (length (acode a) + 46 + n)%nat.
    intros F D p pre suf o w HF E PR SF H.
    destruct (if_test F D p v a W HA HD HF s t pre suf i o w E PR SF H) as (w1 & G1 & H1).
    rewrite HC, Z.eqb_refl in H1.
    destruct (A F D p (pre ++ if_head a s ++ scode s ++ acode (hex 7 (len (scode t))) ++ [106]) suf o w1 HF) as (w2 & G2 & H2).
    { rewrite E. unfold if_head. cbn [scode]. rewrite <- !app_assoc. reflexivity. }
    { destruct pre; [contradiction|discriminate]. }
    { exact SF. }
    { replace (len (pre ++ if_head a s ++ scode s ++ acode (hex 7 (len (scode t))) ++ [106])) with
        (len pre + len (acode a) + 46 + (len (scode s) + 44)); [exact H1|].
      rewrite !len_app, if_head_len, hex7_len. unfold len. cbn [length]. lia. }
    exists w2. split; [exact (goes_trans _ _ _ _ _ _ _ G1 G2)|exact H2].
  - destruct HW as (HA & _). destruct (exp_fails v (ABin 42 (ANot a) (hex 7 (len (scode s) + 46))) i W) with (l := @nil Z) as (n & A).
    { cbn [awritten]. split; [cbn; auto|]. split; [exact HA|apply hex_written]. }
    { cbn [adef]. tauto. }
    exists n. cbn [scode]. now apply fails_left.
  - destruct HW as (HA & HS). destruct (IH HS W RD) as (n & A). exists (length (acode a) + 46 + n)%nat.
    intros F D p pre suf o w HF E PR SF H.
    destruct (while_test F D p v a W HA HD HF s pre suf i o w E PR SF H) as (w1 & G1 & H1).
    destruct (Z.eqb_spec (aval v a) 0) as [|_]; [contradiction|].
    destruct (A F D p (pre ++ while_head a s)
      (acode (ABin 45 (ANum 0) (hex 7 (len (acode a) + len (scode s) + 92))) ++ 106 :: suf) o w1 HF) as (w2 & G2 & H2).
    { rewrite E. unfold while_head. cbn [scode]. rewrite <- !app_assoc. reflexivity. }
    { destruct pre; [contradiction|discriminate]. }
    { discriminate. }
    { rewrite len_app, while_head_len. replace (len pre + (len (acode a) + 46)) with (len pre + len (acode a) + 46 + 0) by lia. exact H1. }
    exists w2. split; [exact (goes_trans _ _ _ _ _ _ _ G1 G2)|exact H2].
  - pose proof HW as HW0. destruct HW as (HA & HS).
    destruct (exec_runs _ _ _ _ _ _ X1 HS W RD) as (W1 & RD1 & n1 & t1 & _ & A1).
    destruct (IH HW0 W1 RD1) as (n & A). exists (length (acode a) + 46 + (n1 + 46) + n)%nat.
    intros F D p pre suf o w HF E PR SF H.
    destruct (while_round F D p v a W HA HD HF s v1 n1 t1 pre suf i i1 o w HC W1 A1 E PR SF H) as (w2 & G2 & H2).
    destruct (A F D p pre suf (o ++ t1) w2 HF E PR SF H2) as (w3 & G3 & H3).
    exists w3. split; [exact (goes_trans _ _ _ _ _ _ _ G2 G3)|exact H3].
Qed.

Lemma digit_plain n : 0 <= n <= 15 -> plain_char (digit n).
Proof. unfold plain_char, digit. destruct (Z.ltb_spec n 10); lia. Qed.
Lemma acode_plain a : awritten a -> Forall plain_char (acode a).
Proof.
  induction a as [n|k|a IH|op a IHa b IHb]; cbn [awritten acode]; intros H.
  - constructor; [now apply digit_plain|constructor].
  - constructor; [now apply digit_plain|]. unfold plain_char. repeat constructor; lia.
  - apply Forall_app. split; [auto|]. unfold plain_char. repeat constructor; lia.
  - destruct H as (H & A & B). apply Forall_app. split; [auto|]. apply Forall_app. split; [auto|].
    constructor; [|constructor]. unfold plain_char. repeat (destruct H as [<-|H]); [lia|lia|lia|lia|lia|lia|contradiction].
Qed.
Lemma scode_plain s : swritten s -> Forall plain_char (scode s).
Proof.
  assert (J : Forall plain_char [106]) by (unfold plain_char; repeat constructor; lia).
  induction s as [|k|k a|a|a|s IHs t IHt|a s IHs t IHt|a s IHs]; cbn [swritten scode]; intros H.
  - constructor.
  - constructor; [unfold plain_char; lia|]. constructor; [now apply digit_plain|]. unfold plain_char. repeat constructor; lia.
  - apply Forall_app. split; [now apply acode_plain|]. constructor; [now apply digit_plain|].
    unfold plain_char. repeat constructor; lia.
  - apply Forall_app. split; [now apply acode_plain|]. unfold plain_char. repeat constructor; lia.
  - apply Forall_app. split; [now apply acode_plain|]. unfold plain_char. repeat constructor; lia.
  - apply Forall_app. tauto.
  - destruct H as (A & S & T). apply Forall_app. split; [apply acode_plain; cbn [awritten]; split; [cbn; auto|split; [exact A|apply hex_written]]|].
    apply Forall_app. split; [exact J|]. apply Forall_app. split; [auto|].
    apply Forall_app. split; [apply acode_plain, hex_written|]. apply Forall_app. split; [exact J|auto].
  - destruct H as (A & S). apply Forall_app. split; [apply acode_plain; cbn [awritten]; split; [cbn; auto|split; [exact A|apply hex_written]]|].
    apply Forall_app. split; [exact J|]. apply Forall_app. split; [auto|].
    apply Forall_app. split; [|exact J]. apply acode_plain. cbn [awritten]. split; [cbn; auto|split; [lia|apply hex_written]].
Qed.
Lemma program_fits s : len (program s) <= 2147483647 -> fits (program s).
Proof.
  intros H. split; [discriminate|]. split; [|exact H]. unfold program. rewrite app_comm_cons, last_last. discriminate.
Qed.
Lemma X_noop F D f x dx l i o : Does F D 122 f x dx false 0 l i o x dx false 0 l i o.
Proof.
  intros s H. exists s. split; [|exact H].
  now rewrite (execute_normal F D _ s _ _ (run_normal _ _ _ _ _ _ _ _ 122 H eq_refl) eq_refl).
Qed.
(** The first instruction. *)
Lemma program_plain s : swritten s -> len (program s) <= 2147483647 ->
  Forall plain_char (program s) /\ Z.of_nat (length (program s)) <= INT64_MAX.
Proof.
  intros HW HL. split.
  - constructor; [unfold plain_char; lia|]. apply Forall_app. split; [now apply scode_plain|].
    unfold plain_char. repeat constructor; lia.
  - unfold INT64_MAX. unfold len in HL. lia.
Qed.
Lemma program_goes F D s input w : len (program s) <= 2147483647 ->
  RunW (prog_field (program s)) 0 1 false 0 [] input [] w ->
  exists w1, Goes F (S D) 1 w w1 /\ At (program s) blanks (len [122]) [] input [] w1.
Proof.
  intros HL H. pose proof (program_fits s HL) as HF.
  pose proof (vars_begin (program s)) as HV.
  assert (N : Next (prog_field (program s)) 0 1 (0 + 1)).
  { apply (vars_next (program s) blanks); auto. unfold In_row, program. cbn [length]. rewrite app_length. cbn [length]. lia. }
  destruct (step_gen F D 122 _ _ _ _ _ _ _ _ _ _ _ _ _ _ _ _ w H (at_cell (program s) [] 122 _ blanks _ eq_refl HV)
    (X_noop F D _ 0 1 [] input []) N) as (w1 & G & H1).
  exists w1. split; [exact G|]. exists (prog_field (program s)). split; [exact HV|exact H1].
Qed.
Lemma program_begins F D s input : swritten s -> len (program s) <= 2147483647 ->
  exists w w1, boot F (program s) c98 (world0 input (fun _ => None) (fun _ => 0)) = Ok w /\
    Goes F (S D) 1 w w1 /\ At (program s) blanks (len [122]) [] input [] w1.
Proof.
  intros HW HL. destruct (program_plain s HW HL) as [P1 P2].
  destruct (boots F (program s) input P1 P2) as (w & E & H).
  destruct (program_goes F D s input w HL H) as (w1 & G & H1). exists w, w1. auto.
Qed.
Lemma goes_fuel F D m w w' : Goes F D m w w' -> forall k, (k <= m)%nat -> loopNr (run_step F D 0) k w = Bad BadFuel.
Proof.
  induction 1 as [w|n w w1 w2 E G IH]; intros k Hk.
  - replace k with 0%nat by lia. reflexivity.
  - destruct k as [|k]; [reflexivity|]. rewrite loopNr_unfold, E. apply IH. lia.
Qed.

(** ** C133 *)

Lemma program_runs s input v rest e : swritten s -> readable input ->
  Exec s blanks input v rest e -> len (program s) <= 2147483647 ->
  exists N text, Printed e text /\
    forall F D w, (N <= Pos.to_nat F)%nat -> RunW (prog_field (program s)) 0 1 false 0 [] input [] w -> Prints F (S D) w text.
Proof.
  intros HW RD X HL.
  destruct (exec_runs s blanks input v rest e X HW) as (_ & _ & n & t & P & A); [|exact RD|].
  { intros k. unfold blanks, in64, INT64_MIN, INT64_MAX. lia. }
  exists (1 + n + 2)%nat, t. split; [exact P|]. intros F D w HN HR.
  destruct (program_goes F D s input w HL HR) as (w1 & G1 & H1).
  destruct (A F D (program s) [122] [64] [] w1 (program_fits s HL)) as (w2 & G2 & f & HV & H2);
    [reflexivity|discriminate|discriminate|exact H1|].
  destruct (goes_ends F D (1 + n) _ _ _ _ _ _ _ _ _ (goes_trans _ _ _ _ _ _ _ G1 G2) H2) as (w3 & E3 & O & XT).
  - exact (at_cell (program s) ([122] ++ scode s) 64 [] v f eq_refl HV).
  - exact HN.
  - exists w3. auto.
Qed.
(** A program that ends prints what the language says it prints, and the
    interpreter ends with exit code 0. *)
Theorem C133_program : forall s input v rest e, swritten s -> readable input ->
  Exec s blanks input v rest e -> len (program s) <= 2147483647 ->
  exists N text, Printed e text /\
    forall F D, (N <= Pos.to_nat F)%nat -> run_program F (S D) c98 (program s) input = Ok (text, 0).
Proof.
  intros s input v rest e HW RD X HL.
  destruct (exec_runs s blanks input v rest e X HW) as (_ & _ & n & t & P & A); [|exact RD|].
  { intros k. unfold blanks, in64, INT64_MIN, INT64_MAX. lia. }
  exists (1 + n + 2)%nat, t. split; [exact P|]. intros F D HN.
  destruct (program_begins F D s input HW HL) as (w & w1 & E & G1 & H1).
  destruct (A F D (program s) [122] [64] [] w1 (program_fits s HL)) as (w2 & G2 & f & HV & H2);
    [reflexivity|discriminate|discriminate|exact H1|].
  destruct (goes_ends F D (1 + n) _ _ _ _ _ _ _ _ _ (goes_trans _ _ _ _ _ _ _ G1 G2) H2) as (w3 & E3 & O & XT).
  - exact (at_cell (program s) ([122] ++ scode s) 64 [] v f eq_refl HV).
  - exact HN.
  - unfold run_program. rewrite E. cbn [bind]. rewrite E3. cbn [bind]. now rewrite O, XT.
Qed.
(** A program that never ends is run for ever: no number of iterations is
    enough. *)
Theorem C133_endless : forall F D s input, swritten s -> readable input -> Endless s blanks input ->
  len (program s) <= 2147483647 -> run_program F (S D) c98 (program s) input = Bad BadFuel.
Proof.
  intros F D s input HW RD L HL.
  destruct (program_begins F D s input HW HL) as (w & w1 & E & G1 & H1).
  destruct (endless_runs (Pos.to_nat F) s blanks input L HW) with (F := F) (D := D) (p := program s) (pre := [122]) (suf := [64])
    (o := @nil Z) (w := w1) as (m & w2 & Hm & G2);
    [intros k; unfold blanks, in64, INT64_MIN, INT64_MAX; lia|exact RD|exact (program_fits s HL)|reflexivity|discriminate|discriminate|exact H1|].
  unfold run_program. rewrite E. cbn [bind]. unfold run_universe. rewrite loop_loopNr.
  rewrite (goes_fuel F (S D) (1 + m) w w2 (goes_trans _ _ _ _ _ _ _ G1 G2)) by lia. reflexivity.
Qed.

(** A program that comes to an operation C++ does not define makes the
    interpreter do the same. *)
Theorem C133_undefined : forall s input, swritten s -> readable input -> Wrong s blanks input ->
  len (program s) <= 2147483647 ->
  exists N, forall F D, (N <= Pos.to_nat F)%nat ->
    run_program F (S D) c98 (program s) input = Bad BadOverflow \/ run_program F (S D) c98 (program s) input = Bad BadDiv.
Proof.
  intros s input HW RD X HL.
  destruct (wrong_runs s blanks input X HW) as (n & A); [|exact RD|].
  { intros k. unfold blanks, in64, INT64_MIN, INT64_MAX. lia. }
  exists (1 + n + 1)%nat. intros F D HN.
  destruct (program_begins F D s input HW HL) as (w & w1 & E & G1 & H1).
  destruct (A F D (program s) [122] [64] [] w1 (program_fits s HL)) as (w2 & G2 & R);
    [reflexivity|discriminate|discriminate|exact H1|].
  unfold run_program. rewrite E. cbn [bind]. unfold run_universe. rewrite loop_loopNr.
  replace (Pos.to_nat F) with (1 + n + S (Pos.to_nat F - (1 + n + 1)))%nat by lia.
  rewrite (goes_loop _ _ _ _ _ _ (goes_trans _ _ _ _ _ _ _ G1 G2)), loopNr_unfold.
  destruct R as [R|R]; rewrite R; auto.
Qed.

(** Counting down from a digit of the input, and a line break made from an unset
    variable's 32. *)
Definition C133_count : stm :=
  SSeq (SSeq (SRead 0) (SSet 0 (ABin 45 (AVar 0) (ABin 42 (ANum 6) (ANum 8)))))
    (SSeq (SWhile (AVar 0) (SSeq (SPrint (AVar 0)) (SSet 0 (ABin 45 (AVar 0) (ANum 1)))))
          (SIf (ABin 96 (AVar 1) (ANum 15)) (SChar (ABin 45 (AVar 1) (ABin 43 (ANum 11) (ANum 11)))) (SPrint (ANum 0)))).
Lemma count_exec : exists v, Exec C133_count blanks [51; 52] v [52] [Number 3; Number 2; Number 1; Character 10].
Proof.
  assert (R : forall v (e1 e2 : list event), aval v (AVar 0) <> 0 -> -100 <= v 0 <= 100 -> e1 = [Number (v 0)] -> forall v2 i,
    Exec (SWhile (AVar 0) (SSeq (SPrint (AVar 0)) (SSet 0 (ABin 45 (AVar 0) (ANum 1))))) (update v 0 (v 0 - 1)) i v2 i e2 ->
    Exec (SWhile (AVar 0) (SSeq (SPrint (AVar 0)) (SSet 0 (ABin 45 (AVar 0) (ANum 1))))) v i v2 i (e1 ++ e2)).
  { intros v e1 e2 N B -> v2 i X. eapply E_again; [exact I|exact N| |exact X].
    change [Number (v 0)] with ([Number (v 0)] ++ []). eapply E_seq.
    - apply (E_print v i (AVar 0)); [exact I|cbn [aval]; lia].
    - apply (E_set v i 0 (ABin 45 (AVar 0) (ANum 1))). cbn [adef aval]. split; [exact I|]. split; [exact I|].
      apply in64_defined; [cbn; auto|]. change (arith 45 ?a ?b) with (a - b). unfold in64, INT64_MIN, INT64_MAX. lia. }
  eexists. change [Number 3; Number 2; Number 1; Character 10] with (([] ++ []) ++ ([Number 3] ++ [Number 2] ++ [Number 1] ++ []) ++ [Character 10]).
  eapply E_seq; [eapply E_seq; [apply E_read|apply E_set]|].
  { cbn [adef aval]. split; [exact I|]. split.
    - split; [exact I|]. split; [exact I|]. apply in64_defined; [cbn; auto|vm_compute; split; discriminate].
    - apply in64_defined; [cbn; auto|vm_compute; split; discriminate]. }
  eapply E_seq.
  - apply R; [discriminate|cbn; lia|reflexivity|]. apply R; [discriminate|cbn; lia|reflexivity|].
    apply R; [discriminate|cbn; lia|reflexivity|]. apply E_end; [exact I|reflexivity].
  - apply E_then; [|discriminate|].
    + cbn [adef aval]. split; [exact I|]. split; [exact I|]. intros [[[Q|[Q|Q]] _]|[[Q|Q] _]]; discriminate Q.
    + match goal with |- Exec _ ?v _ _ _ _ => change [Character 10] with [Character (aval v (ABin 45 (AVar 1) (ABin 43 (ANum 11) (ANum 11))))] end.
      apply E_char. cbn [adef aval]. split; [exact I|]. split.
      * split; [exact I|]. split; [exact I|]. apply in64_defined; [cbn; auto|vm_compute; split; discriminate].
      * apply in64_defined; [cbn; auto|vm_compute; split; discriminate].
Qed.
Example C133_ex : swritten C133_count /\ readable [51; 52] /\ len (program C133_count) <= 2147483647 /\
  (exists v, Exec C133_count blanks [51; 52] v [52] [Number 3; Number 2; Number 1; Character 10]) /\
  run_program 2000 1 c98 (program C133_count) [51; 52] = Ok ([51; 32; 50; 32; 49; 32; 10], 0).
Proof.
  split; [|split; [|split; [|split; [exact count_exec|]]]].
  - cbn. repeat split; auto; try lia; auto 8.
  - repeat constructor; lia.
  - vm_compute. discriminate.
  - vm_compute. reflexivity.
Qed.
Definition C133_forever : stm := SWhile (ANum 1) (SChar (ANum 10)).
Example C133_endless_ex : swritten C133_forever /\ len (program C133_forever) <= 2147483647 /\ forall i, Endless C133_forever blanks i.
Proof.
  split; [cbn; lia|]. split; [vm_compute; discriminate|].
  intros i. cofix IH. eapply L_again; [exact I|discriminate|apply E_char; exact I|exact IH].
Qed.
Print Assumptions C133_program.
(** Squaring 9 again and again overflows. *)
Definition C133_square : stm := SSeq (SSet 0 (ANum 9)) (SWhile (AVar 0) (SSet 0 (ABin 42 (AVar 0) (AVar 0)))).
Example C133_undefined_ex : swritten C133_square /\ len (program C133_square) <= 2147483647 /\ Wrong C133_square blanks [] /\
  run_program 2000 1 c98 (program C133_square) [] = Bad BadOverflow.
Proof.
  split; [cbn; repeat split; auto; lia|]. split; [vm_compute; discriminate|]. split; [|vm_compute; reflexivity].
  eapply W_seq2; [apply E_set; exact I|].
  do 4 (eapply W_again; [exact I|vm_compute; discriminate|
    apply E_set; cbn [adef]; split; [exact I|]; split; [exact I|]; apply in64_defined; [cbn; auto|vm_compute; split; discriminate]|]).
  apply W_body; [exact I|vm_compute; discriminate|]. apply W_set. cbn [adef].
  intros (_ & _ & U). apply U. left. split; [auto|]. vm_compute. intros (_ & Q). apply Q. reflexivity.
Qed.
Print Assumptions C133_endless.
Print Assumptions C133_undefined.
