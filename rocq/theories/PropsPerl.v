(** * Property C123: what the shell and Perl receive from PERL. *)

From Coq Require Import String ZArith List Bool Lia.
From Verif Require Import Base BaseProofs VectorModel VectorProofs TextModel TextProofs
  StackModel StackProofs FieldModel FieldProofs World IpModel LoadModel FingModel CoreModel
  UniModel ExecProofs FlowProofs States PropsStack PropsBlocks Effects SchedProofs PropsIO PropsLoad PropsFing
  PropsMath.
Import ListNotations.
Open Scope Z_scope.
Local Notation length := List.length.

(** ** The shell

    Double quotes of the POSIX shell (Shell Command Language, 2.2.3).
    [in_quotes t r]: after an opening quote the shell reads [t], whose last
    character is the closing quote, without expanding anything, and the quoted
    text is [r]. *)
Definition QUOTE : Z := 34.
Definition DOLLAR : Z := 36.
Definition BACKQUOTE : Z := 96.
Definition BACKSLASH : Z := 92.
Definition special (c : Z) : Prop := In c [QUOTE; DOLLAR; BACKQUOTE; BACKSLASH].
Inductive in_quotes : bytes -> bytes -> Prop :=
| iq_close : in_quotes [QUOTE] []
| iq_plain c t r : ~ special c -> in_quotes t r -> in_quotes (c :: t) (c :: r)
| iq_escape c t r : special c -> in_quotes t r -> in_quotes (BACKSLASH :: c :: t) (c :: r)
| iq_continue t r : in_quotes t r -> in_quotes (BACKSLASH :: 10 :: t) r
| iq_backslash c t r : ~ special c -> c <> 10 -> in_quotes (c :: t) r ->
    in_quotes (BACKSLASH :: c :: t) (BACKSLASH :: r).
(** The shell reaches an unescaped occurrence of [c] in the quoted text [t],
    what precedes it being the text [r] and what follows it being [u]. *)
Definition reaches (c : Z) (t : bytes) (r u : bytes) : Prop :=
  exists p, t = p ++ c :: u /\ in_quotes (p ++ [QUOTE]) r.
(** The shell itself runs [cmd], and replaces the variable [name]. *)
Definition substitutes (t cmd : bytes) : Prop :=
  exists r u, reaches BACKQUOTE t r (cmd ++ BACKQUOTE :: u) /\ ~ In BACKQUOTE cmd /\ ~ In BACKSLASH cmd.
Definition letter (c : Z) : Prop := 65 <= c <= 90 \/ 97 <= c <= 122 \/ c = 95.
Definition in_name (c : Z) : Prop := letter c \/ 48 <= c <= 57.
Definition replaces (t name : bytes) : Prop :=
  exists r u x n, reaches DOLLAR t r (name ++ u) /\ name = x :: n /\ letter x /\ Forall in_name n /\
    ~ in_name (hd 0 u).

(** The meaning of a quoted text is determined by the text. *)
Lemma in_quotes_unique t r : in_quotes t r -> forall r', in_quotes t r' -> r = r'.
Proof.
  assert (N : ~ special 10) by (unfold special; cbn; unfold QUOTE, DOLLAR, BACKQUOTE, BACKSLASH; lia).
  assert (B : special BACKSLASH) by (unfold special; cbn; auto).
  assert (Q : special QUOTE) by (unfold special; cbn; auto).
  induction 1 as [|c t r S H IH|c t r S H IH|t r H IH|c t r S J H IH]; intros r' H'; inversion H'; subst;
    try contradiction; try (f_equal; auto; fail); auto.
  all: match goal with X : in_quotes [] _ |- _ => inversion X end.
Qed.

(** ** What PERL asks for *)

(** The world after [system()] was called with [cmd]; its answer. *)
Definition asked (cmd : bytes) (w : world) : world := set_w_nsys (S (w_nsys w)) (logged (EvSystem cmd) w).
Definition answer (w : world) : Z := w_sys w (w_nsys w).
(** The wait status of a program that exited with [e].  That of one ended by
    signal [n] is [n]. *)
Definition exited (e : Z) : Z := e * 256.

Definition perl_text (code : bytes) : bytes := chars "exit(eval{" ++ code ++ chars "})".

(** [quoted] as the shell reads it. *)
Lemma quoted_app p b : flat_map (fun c => if (c =? 34) || (c =? 92) then [92; c] else [c]) (p ++ b) =
  flat_map (fun c => if (c =? 34) || (c =? 92) then [92; c] else [c]) p ++
  flat_map (fun c => if (c =? 34) || (c =? 92) then [92; c] else [c]) b.
Proof. apply flat_map_app. Qed.
Lemma quoted_reads b : ~ In DOLLAR b -> ~ In BACKQUOTE b ->
  in_quotes (flat_map (fun c => if (c =? 34) || (c =? 92) then [92; c] else [c]) b ++ [QUOTE]) b.
Proof.
  induction b as [|c b IH]; intros D K; [constructor|]. cbn [flat_map].
  cbn [In] in D, K. assert (I := IH ltac:(tauto) ltac:(tauto)).
  destruct (c =? 34) eqn:E1; [|destruct (c =? 92) eqn:E2]; cbn [orb app].
  - apply Z.eqb_eq in E1. subst. apply iq_escape; [unfold special; cbn; auto|exact I].
  - apply Z.eqb_eq in E2. subst. apply iq_escape; [unfold special; cbn; auto|exact I].
  - apply Z.eqb_neq in E1, E2. apply iq_plain; [|exact I]. unfold special, QUOTE, DOLLAR, BACKQUOTE, BACKSLASH in *.
    cbn [In]. intuition congruence.
Qed.
Lemma quoted_plain b : ~ In QUOTE b -> ~ In BACKSLASH b ->
  flat_map (fun c => if (c =? 34) || (c =? 92) then [92; c] else [c]) b = b.
Proof.
  induction b as [|c b IH]; intros D K; [reflexivity|]. cbn [flat_map]. cbn [In] in D, K.
  rewrite IH by tauto. unfold QUOTE, BACKSLASH in *.
  destruct (Z.eqb_spec c 34); [tauto|]. destruct (Z.eqb_spec c 92); [tauto|]. reflexivity.
Qed.
Lemma cstr_all b : ~ In 0 b -> cstr b = b.
Proof.
  induction b as [|c b IH]; intros N; [reflexivity|]. cbn [cstr]. cbn [In] in N.
  destruct (Z.eqb_spec c 0); [tauto|]. now rewrite IH by tauto.
Qed.
Lemma char_str_no0 b : char_str b -> ~ In 0 b.
Proof.
  intros C I. unfold char_str in C. rewrite Forall_forall in C. specialize (C _ I). cbn in C. lia.
Qed.
Lemma quoted_no0 b : ~ In 0 b -> ~ In 0 (quoted b).
Proof.
  intros N I. unfold quoted in I. cbn [app In] in I. destruct I as [I|I]; [discriminate|].
  apply in_app_or in I. destruct I as [I|[I|[]]]; [|discriminate].
  apply in_flat_map in I. destruct I as (c & Ic & I).
  destruct ((c =? 34) || (c =? 92)); cbn [In] in I; intuition (subst; try discriminate; try contradiction).
Qed.

(** The instructions that call Perl, and what they push for the number [e]. *)
Definition perl_answer (c e : Z) (b : list Z) : Prop :=
  c = 69 /\ (exists t, decimal e t /\ b = t ++ [0]) \/ c = 73 /\ b = [e].

Lemma perl_runs F D s c code l :
  Ready s FP_PERL c (code ++ 0 :: l) -> c = 69 \/ c = 73 -> char_str code -> c_exec (my_cfg s) = true ->
  exists s' b, execute F (S D) c s = Ok (ENone, s') /\
    World_and_stack s s' (asked (chars "perl -e " ++ quoted (perl_text code)) (s_w s)) (b ++ l) /\
    perl_answer c (Z.shiftr (to_i32 (answer (s_w s))) 8) b.
Proof.
  intros ((fld & L) & H) Cc Ch X. rewrite (execute_letter F D _ _ _ _ L).
  change (fp_exec F FP_PERL fld c) with (perl_exec c).
  set (e := Z.shiftr (to_i32 (answer (s_w s))) 8).
  set (cmd := chars "perl -e " ++ quoted (perl_text code)).
  destruct (popString_plain s code l Ch H) as (s1 & E1 & O1). pose proof (Only_stack_holds _ _ _ _ H O1) as H1.
  assert (R : perl code s1 = Ok (e, {| s_w := asked cmd (s_w s1); s_r := s_r s1 |})).
  { unfold perl, system. change str_perl with (chars "perl -e "). change (str_exit ++ code ++ str_close) with (perl_text code).
    fold cmd. rewrite cstr_all.
    - unfold e. rewrite <- (Only_stack_w _ _ _ O1). reflexivity.
    - intros I. unfold cmd in I. apply in_app_or in I. destruct I as [I|I].
      + cbn in I. intuition discriminate.
      + revert I. apply quoted_no0. unfold perl_text. intros I. apply in_app_or in I.
        destruct I as [I|I]; [cbn in I; intuition discriminate|]. apply in_app_or in I.
        destruct I as [I|I]; [exact (char_str_no0 _ Ch I)|cbn in I; intuition discriminate]. }
  assert (H2 : Holds {| s_w := asked cmd (s_w s1); s_r := s_r s1 |} l) by exact H1.
  assert (G : forall s' b, Only_stack {| s_w := asked cmd (s_w s1); s_r := s_r s1 |} s' (b ++ l) ->
    World_and_stack s s' (asked cmd (s_w s)) (b ++ l)).
  { intros s' b O. split.
    - rewrite (Only_stack_w _ _ _ O). cbn [s_w]. now rewrite (Only_stack_w _ _ _ O1).
    - destruct (only_stack_r s1 _ s' _ O eq_refl) as (s2 & O2 & Er). exists s2. split; [|exact Er].
      exact (Only_stack_trans _ _ _ _ _ O1 O2). }
  unfold perl_exec. destruct Cc as [-> | ->]; cbn [Z.eqb Pos.eqb].
  - rewrite (run_bind getC _ s (my_cfg s) s) by reflexivity. rewrite X.
    rewrite (run_bind _ _ _ _ _ E1), (run_bind _ _ _ _ _ R).
    destruct (pushString_plain _ _ (dec e) H2) as (s' & E' & O). rewrite (run_bind _ _ _ _ _ E').
    exists s', (dec e ++ [0]). split; [reflexivity|]. split.
    + apply G. rewrite <- app_assoc. exact O.
    + left. split; [reflexivity|]. exists (dec e). split; [apply dec_decimal|reflexivity].
  - rewrite (run_bind getC _ s (my_cfg s) s) by reflexivity. rewrite X.
    rewrite (run_bind _ _ _ _ _ E1), (run_bind _ _ _ _ _ R).
    destruct (pushS_plain _ _ e H2) as (s' & E' & O). rewrite (run_bind _ _ _ _ _ E').
    exists s', [e]. split; [reflexivity|]. split; [|right; split; reflexivity]. apply G. exact O.
Qed.

Lemma status e : 0 <= e <= 255 -> Z.shiftr (to_i32 (exited e)) 8 = e.
Proof.
  intros R. unfold exited. rewrite to_i32_id by lia.
  rewrite Z.shiftr_div_pow2 by lia. change (2 ^ 8) with 256. apply Z.div_mul. lia.
Qed.

(** One command is run.  It is perl -e with one argument in double quotes.
    If the code has neither a dollar sign nor a back quote, the shell hands
    exit(eval{code}) to Perl, character for character, and E and I push
    the number with which Perl exits, as text and as a number. *)
Theorem C123_partial : forall F D s c code l e,
  Ready s FP_PERL c (code ++ 0 :: l) -> c = 69 \/ c = 73 -> char_str code -> c_exec (my_cfg s) = true ->
  ~ In DOLLAR code -> ~ In BACKQUOTE code ->
  answer (s_w s) = exited e -> 0 <= e <= 255 ->
  exists s' b word, execute F (S D) c s = Ok (ENone, s') /\
    World_and_stack s s' (asked (chars "perl -e " ++ QUOTE :: word) (s_w s)) (b ++ l) /\
    in_quotes word (chars "exit(eval{" ++ code ++ chars "})") /\ perl_answer c e b.
Proof.
  intros F D s c code l e R Cc Ch X ND NB An Re.
  destruct (perl_runs F D s c code l R Cc Ch X) as (s' & b & E & W & P).
  rewrite An, (status e Re) in P. eexists s', b, _. split; [exact E|]. split; [exact W|]. split; [|exact P].
  apply quoted_reads; intros I; apply in_app_or in I; (destruct I as [I|I]; [cbn in I; intuition discriminate|]);
    apply in_app_or in I; (destruct I as [I|I]; [contradiction|cbn in I; intuition discriminate]).
Qed.

(** Code in back quotes is run by the shell, whatever it is, before Perl starts. *)
Theorem C123_commands_refuted : forall F D s c a cmd z l,
  Ready s FP_PERL c ((a ++ BACKQUOTE :: cmd ++ BACKQUOTE :: z) ++ 0 :: l) -> c = 69 \/ c = 73 ->
  char_str (a ++ BACKQUOTE :: cmd ++ BACKQUOTE :: z) -> c_exec (my_cfg s) = true ->
  ~ In DOLLAR a -> ~ In BACKQUOTE a -> ~ In BACKQUOTE cmd -> ~ In QUOTE cmd -> ~ In BACKSLASH cmd ->
  exists s' b word, execute F (S D) c s = Ok (ENone, s') /\
    World_and_stack s s' (asked (chars "perl -e " ++ QUOTE :: word) (s_w s)) (b ++ l) /\
    substitutes word cmd.
Proof.
  intros F D s c a cmd z l R Cc Ch X ND NB N1 N2 N3.
  destruct (perl_runs F D s c _ l R Cc Ch X) as (s' & b & E & W & P).
  eexists s', b, _. split; [exact E|]. split; [exact W|].
  exists (chars "exit(eval{" ++ a). eexists. split; [|split; [exact N1|exact N3]].
  exists (flat_map (fun c => if (c =? 34) || (c =? 92) then [92; c] else [c]) (chars "exit(eval{" ++ a)). split.
  - unfold perl_text. rewrite !quoted_app. cbn [flat_map]. rewrite !quoted_app. cbn [flat_map].
    rewrite (quoted_plain cmd) by assumption. unfold BACKQUOTE. cbn [Z.eqb Pos.eqb orb app].
    rewrite <- !app_assoc. cbn [app]. rewrite <- !app_assoc. reflexivity.
  - apply quoted_reads; intros I; apply in_app_or in I; (destruct I as [I|I]; [cbn in I; intuition discriminate|contradiction]).
Qed.
(** A variable of the Perl code is replaced by the shell, so Perl does not see it. *)
Theorem C123_variables_refuted : forall F D s c a x n z l,
  Ready s FP_PERL c ((a ++ DOLLAR :: (x :: n) ++ z) ++ 0 :: l) -> c = 69 \/ c = 73 ->
  char_str (a ++ DOLLAR :: (x :: n) ++ z) -> c_exec (my_cfg s) = true ->
  ~ In DOLLAR a -> ~ In BACKQUOTE a -> letter x -> Forall in_name n -> ~ in_name (hd 0 z) ->
  exists s' b word, execute F (S D) c s = Ok (ENone, s') /\
    World_and_stack s s' (asked (chars "perl -e " ++ QUOTE :: word) (s_w s)) (b ++ l) /\
    replaces word (x :: n).
Proof.
  intros F D s c a x n z l R Cc Ch X ND NB Lx Ln Nz.
  destruct (perl_runs F D s c _ l R Cc Ch X) as (s' & b & E & W & P).
  eexists s', b, _. split; [exact E|]. split; [exact W|].
  set (fm := flat_map (fun c => if (c =? 34) || (c =? 92) then [92; c] else [c])).
  exists (chars "exit(eval{" ++ a), (fm z ++ fm (chars "})") ++ [34]), x, n.
  split; [|split; [reflexivity|split; [exact Lx|split; [exact Ln|]]]].
  - exists (fm (chars "exit(eval{" ++ a)). split.
    + unfold perl_text, fm. rewrite !quoted_app. cbn [flat_map]. rewrite !quoted_app. cbn [flat_map].
      assert (P1 : forall y, in_name y -> y <> 34 /\ y <> 92) by (unfold in_name, letter; intros; lia).
      assert (P2 : ~ In QUOTE n /\ ~ In BACKSLASH n).
      { rewrite Forall_forall in Ln. split; intros I; apply Ln, P1 in I; unfold QUOTE, BACKSLASH in I; lia. }
      rewrite (quoted_plain n) by apply P2. destruct (P1 x (or_introl Lx)) as [X1 X2].
      rewrite (proj2 (Z.eqb_neq _ _) X1), (proj2 (Z.eqb_neq _ _) X2). unfold DOLLAR. cbn [Z.eqb Pos.eqb orb app].
      rewrite <- !app_assoc. cbn [app]. rewrite <- !app_assoc. reflexivity.
    + apply quoted_reads; intros I; apply in_app_or in I; (destruct I as [I|I]; [cbn in I; intuition discriminate|contradiction]).
  - destruct z as [|y z]; [change (~ in_name 125); unfold in_name, letter; lia|]. cbn [hd] in Nz. unfold fm. cbn [flat_map].
    destruct ((y =? 34) || (y =? 92)); cbn [app hd]; [unfold in_name, letter; lia|exact Nz].
Qed.
(** That Perl was ended by a signal looks like success. *)
Theorem C123_signal_refuted : forall F D s code l n,
  Ready s FP_PERL 73 (code ++ 0 :: l) -> char_str code -> c_exec (my_cfg s) = true ->
  answer (s_w s) = n -> 1 <= n <= 127 ->
  exists s' cmd, execute F (S D) 73 s = Ok (ENone, s') /\ World_and_stack s s' (asked cmd (s_w s)) (0 :: l).
Proof.
  intros F D s code l n R Ch X An Rn.
  destruct (perl_runs F D s 73 code l R (or_intror eq_refl) Ch X) as (s' & b & E & W & P).
  destruct P as [[P _]|[_ P]]; [discriminate|]. subst b. rewrite An in W.
  rewrite to_i32_id in W by lia.
  rewrite Z.shiftr_div_pow2 in W by lia. change (2 ^ 8) with 256 in W. rewrite Z.div_small in W by lia.
  exists s'. eexists. split; [exact E|exact W].
Qed.
(** S says that Perl is not loaded; without permission E and I fail and nothing is run. *)
Theorem C123_other : forall F D s l,
  (Ready s FP_PERL 83 l -> exists s', execute F (S D) 83 s = Ok (ENone, s') /\ Only_stack s s' (1 :: l)) /\
  (forall c, Ready s FP_PERL c l -> c = 69 \/ c = 73 -> c_exec (my_cfg s) = false ->
     execute F (S D) c s = Ok (EUnspec, s)).
Proof.
  intros F D s l. split.
  - intros ((fld & L) & H). rewrite (execute_letter F D _ _ _ _ L).
    change (fp_exec F FP_PERL fld 83) with (perl_exec 83). unfold perl_exec. cbn [Z.eqb Pos.eqb].
    xpush. eexists. split; [reflexivity|os_finish].
  - intros c ((fld & L) & H) Cc X. rewrite (execute_letter F D _ _ _ _ L).
    change (fp_exec F FP_PERL fld c) with (perl_exec c). unfold perl_exec.
    destruct Cc as [-> | ->]; cbn [Z.eqb Pos.eqb]; rewrite (run_bind getC _ s (my_cfg s) s) by reflexivity; rewrite X; reflexivity.
Qed.

(** [code] on the stack and a Perl that exits with 0. *)
Definition perl_demo (code : bytes) : st := loaded [FP_PERL] (code ++ [0; 9]).
Example C123_ex :
  let code := chars "length(""a\\b"")" in
  Ready (perl_demo code) FP_PERL 69 (code ++ 0 :: [9]) /\ char_str code /\
  ~ In DOLLAR code /\ ~ In BACKQUOTE code /\
  answer (s_w (perl_demo code)) = exited 0.
Proof.
  cbv zeta. split; [demo|]. split; [|split; [|split; [|reflexivity]]].
  - unfold char_str. cbn. repeat constructor; cbn; lia.
  - cbn. unfold DOLLAR. intuition discriminate.
  - cbn. unfold BACKQUOTE. intuition discriminate.
Qed.
Example C123_permission_ex : c_exec (my_cfg (perl_demo (chars "1"))) = true.
Proof. vm_compute. reflexivity. Qed.
Example C123_refuted_ex :
  Ready (perl_demo (chars "`rm f`")) FP_PERL 73 (([] ++ BACKQUOTE :: chars "rm f" ++ BACKQUOTE :: []) ++ 0 :: [9]) /\
  Ready (perl_demo (chars "$x=1")) FP_PERL 73 (([] ++ DOLLAR :: (120 :: []) ++ chars "=1") ++ 0 :: [9]) /\
  letter 120 /\ ~ in_name (hd 0 (chars "=1")).
Proof. split; [demo|]. split; [demo|]. unfold in_name, letter. cbn. lia. Qed.

(** A Perl that exits with 42, and one that is killed. *)
Definition answering (x : Z) (s : st) : st := {| s_w := set_w_sys (fun _ => x) (s_w s); s_r := s_r s |}.
Lemma answering_ready x s fp c l : Ready s fp c l -> Ready (answering x s) fp c l.
Proof. intros R. exact R. Qed.
Lemma answering_perm x s : c_exec (my_cfg (answering x s)) = c_exec (my_cfg s).
Proof. reflexivity. Qed.
Example C123_status_ex :
  let s := answering (exited 42) (perl_demo (chars "6*7")) in let k := answering 9 (perl_demo (chars "6*7")) in
  Ready s FP_PERL 73 (chars "6*7" ++ 0 :: [9]) /\ answer (s_w s) = exited 42 /\ c_exec (my_cfg s) = true /\
  Ready k FP_PERL 73 (chars "6*7" ++ 0 :: [9]) /\ answer (s_w k) = 9 /\ c_exec (my_cfg k) = true.
Proof.
  assert (R : Ready (perl_demo (chars "6*7")) FP_PERL 73 (chars "6*7" ++ 0 :: [9])) by demo.
  assert (X : c_exec (my_cfg (perl_demo (chars "6*7"))) = true) by (vm_compute; reflexivity).
  cbv zeta. split; [apply answering_ready, R|]. split; [reflexivity|]. split; [rewrite answering_perm; exact X|].
  split; [apply answering_ready, R|]. split; [reflexivity|rewrite answering_perm; exact X].
Qed.

Print Assumptions C123_partial.
Print Assumptions C123_commands_refuted.
Print Assumptions C123_variables_refuted.
Print Assumptions C123_signal_refuted.
Print Assumptions C123_other.
