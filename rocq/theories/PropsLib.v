(** * Property C110: the library MODU, and stepping through library code. *)

From Coq Require Import ZArith List Bool Lia.
From Verif Require Import Base BaseProofs VectorModel TextModel StackModel StackProofs FieldModel
  World IpModel LoadModel FingModel CoreModel OptModel FileModel LibModel LibTexts ExecProofs LibRun States.
Import ListNotations.
Open Scope Z_scope.

(** ** Stepping through library code *)

(** The run from [c] stops with [l] on the selected stack after writing [o]. *)
Definition Halts (f : field) (dims : nat) (c : conf) (l : list Z) (o : bytes) : Prop :=
  exists c', Runs f dims c c' /\ k_stop c' = true /\ k_list c' = l /\ k_out c' = o.

Lemma step_go f dims c i c1 p d l o :
  f_get f (k_pos c) = i -> Does f dims i c ENone c1 -> k_stop c = false -> k_stop c1 = false ->
  nxt f dims (k_pos c1) (k_delta c1) = Ok (p, d) -> Halts f dims (kP p d c1) l o -> Halts f dims c l o.
Proof.
  intros <- Do S0 S1 E (c' & (N & R) & H). exists c'. split; [|exact H].
  exists (1 + N)%nat. econstructor; [exact S0| |exact R]. now apply T_go.
Qed.
Lemma step_skip f dims c i c1 p d l o :
  f_get f (k_pos c) = i -> Does f dims i c ESkip c1 -> k_stop c = false -> k_stop c1 = false ->
  nxt f dims (k_pos c1) (k_delta c1) = Ok (p, d) -> Halts f dims (kP p d c1) l o -> Halts f dims c l o.
Proof.
  intros <- Do S0 S1 E (c' & (N & R) & St & H). exists c'. split; [|split; [exact St|exact H]].
  inversion R as [|m M ? c2 ? S2 T R2]; subst.
  - cbn in *. congruence.
  - exists (S m + M)%nat. econstructor; [exact S0| |exact R2]. eapply T_skip; eauto.
Qed.
Lemma step_end f dims c i c1 l o :
  f_get f (k_pos c) = i -> Does f dims i c ENone c1 -> k_stop c = false -> k_stop c1 = true ->
  k_list c1 = l -> k_out c1 = o -> Halts f dims c l o.
Proof.
  intros <- Do S0 S1 EL EO. exists c1. split; [|auto].
  exists 1%nat. change 1%nat with (1 + 0)%nat. econstructor; [exact S0| |constructor].
  now apply T_last.
Qed.
Lemma does_ifh f dims x t b c : k_str c = false -> k_list c = x :: t -> (x =? 0) = b ->
  Does f dims 95 c ENone (kD (if b then VEAST else VWEST) (kL t c)).
Proof. intros. subst b. now apply D_ifh. Qed.
Lemma does_ifv f dims x t b c : k_str c = false -> k_list c = x :: t -> (x =? 0) = b ->
  Does f dims 124 c ENone (kD (if b then VSOUTH else VNORTH) (kL t c)).
Proof. intros. subst b. now apply D_ifv. Qed.
Lemma does_gt f dims x y t b c : k_str c = false -> k_list c = x :: y :: t -> (y >? x) = b ->
  Does f dims 96 c ENone (kL (bz b :: t) c).
Proof. intros. subst b. now apply D_gt. Qed.

Lemma does_pick f dims u t m x c : k_str c = false -> k_list c = u :: t -> 0 <= u < 1000 ->
  Z.to_nat u = m -> nth_error t m = Some x -> Does f dims 75 c ENone (kL (x :: t) c).
Proof.
  intros NS E Hu <- Hx. assert (L : (Z.to_nat u < length t)%nat) by (apply nth_error_Some; congruence).
  rewrite <- (nth_error_nth t (Z.to_nat u) 0 Hx). apply D_pick; auto; [lia|].
  unfold in64, INT64_MIN, INT64_MAX. lia.
Qed.

Lemma does_fetch f dims p d v c : k_str c = false -> nxt f dims (k_pos c) (k_delta c) = Ok (p, d) ->
  to_i32 (f_get f p) = v -> Does f dims 39 c ENone (kP p d (kL (v :: k_list c) c)).
Proof. intros NS E <-. now apply D_fetch. Qed.

Ltac known := match goal with |- ?a = ?b =>
  let v := eval vm_compute in a in unify b v; vm_cast_no_check (eq_refl v) end.
Ltac side := first [assumption | discriminate | (unfold in64, INT64_MIN, INT64_MAX in *; cbn [length]; lia)].
Ltac lit_z x := match x with Z0 => idtac | Zpos ?p => lit_p p | Zneg ?p => lit_p p end
with lit_p p := match p with xH => idtac | xO ?q => lit_p q | xI ?q => lit_p q end.
Ltac rule := first
  [ eapply D_push; [reflexivity|known]
  | eapply D_dup; [reflexivity|reflexivity]
  | eapply D_pop; reflexivity
  | eapply D_swap; [reflexivity|reflexivity]
  | eapply D_add; [reflexivity|reflexivity|side]
  | eapply D_sub; [reflexivity|reflexivity|side]
  | eapply D_mul; [reflexivity|reflexivity|side]
  | eapply D_div; [reflexivity|reflexivity|side|side]
  | eapply D_rem; [reflexivity|reflexivity|side|side]
  | eapply does_gt; [reflexivity|reflexivity|first [eassumption|reflexivity]]
  | eapply D_dir; [reflexivity|known]
  | eapply does_ifh; [reflexivity|reflexivity|first [eassumption|match goal with |- (?x =? 0) = _ => lit_z x; reflexivity end]]
  | eapply does_ifv; [reflexivity|reflexivity|first [eassumption|match goal with |- (?x =? 0) = _ => lit_z x; reflexivity end]]
  | eapply D_tramp; [reflexivity|cbn [k_pos k_delta]; known]
  | eapply D_jump; [reflexivity|reflexivity|match goal with |- 0 <= ?x < _ => lit_z x; lia end
      |cbn [k_pos k_delta]; known]
  | eapply D_stop; reflexivity
  | eapply does_fetch; [reflexivity|cbn [k_pos k_delta]; known|known]
  | eapply D_char; [reflexivity|reflexivity]
  | eapply D_num; [reflexivity|reflexivity]
  | eapply does_pick; [reflexivity|reflexivity|side|known|reflexivity]
  | eapply D_quote; reflexivity
  | eapply D_unquote; reflexivity
  | eapply D_text; [reflexivity|discriminate|side|cbn [k_prev]; side|first [left; reflexivity|right; reflexivity]]
  ].
Ltac fold_op x y v := lit_z x; lit_z y;
  let r := eval vm_compute in v in change v with r.
Ltac tidy :=
  cbv beta iota delta [kP kL kD kS kO kStop k_pos k_delta k_list k_str k_prev k_out k_stop bz tl];
  repeat match goal with
    | |- context [Z.add ?x ?y] => fold_op x y (Z.add x y)
    | |- context [Z.sub ?x ?y] => fold_op x y (Z.sub x y)
    | |- context [Z.mul ?x ?y] => fold_op x y (Z.mul x y)
    | |- context [Z.quot ?x ?y] => fold_op x y (Z.quot x y)
    | |- context [Z.rem ?x ?y] => fold_op x y (Z.rem x y)
    end.
Ltac go := eapply step_go;
  [cbn [k_pos]; known | rule | reflexivity | reflexivity
  | cbn [kP kL kD kS kO k_pos k_delta]; known | tidy].
Ltac skip := eapply step_skip;
  [cbn [k_pos]; known | eapply D_space; reflexivity | reflexivity | reflexivity
  | cbn [kP kL kD kS kO k_pos k_delta]; known | tidy].
Ltac fin := eapply step_end;
  [cbn [k_pos]; known | rule | reflexivity | reflexivity | reflexivity | reflexivity].

(** Executing instruction [cmd] of the library [f]. *)
Definition Ends (f : field) (cmd : Z) (l l' : list Z) (o : bytes) : Prop :=
  Halts f 3 (conf_at cmd l) l' o.

Ltac runall := unfold Ends, conf_at; repeat first [go | skip]; fin.



(** ** MODU *)

(** The Funge-space of MODU. *)
Definition modu_field : field := Eval vm_compute in the (field_empty 0 false) (field_load FmtFl modu_fl 0 false).

(** From the rules to the interpreter. *)
Lemma ends_call f cmd l l' o : Ends f cmd l l' o ->
  exists N, forall F D n s, (N <= F)%positive -> Ready_lib n f 3 s ->
    (exists k, ss_top (r_ss (s_r s)) = Ok k /\ s_list k = l) ->
    exists s', lib_call F (S D) n cmd s = Ok (ENone, s') /\ Called s s' l' o.
Proof.
  intros (c & (N & R) & St & <- & <-). exists (Pos.of_succ_nat N). intros F D n s HN HR HK.
  eapply lib_call_runs; eauto. lia.
Qed.


Lemma modu_zero cmd a t : cmd = 77 \/ cmd = 82 \/ cmd = 85 ->
  Ends modu_field cmd (0 :: a :: t) (0 :: t) [].
Proof.
  intros [->|[->| ->]].
  - runall.
  - runall.
  - runall.
Qed.

Lemma modu_R a b t : b <> 0 -> in64 (Z.quot a b) ->
  Ends modu_field 82 (b :: a :: t) (Z.rem a b :: t) [].
Proof.
  intros Nb R. apply Z.eqb_neq in Nb as Eb. runall.
Qed.

(** What M computes. *)
Definition modu_m (a b : Z) : Z :=
  let q := Z.quot a b in a - b * (if q <? 0 then q - 1 else q).

Lemma modu_M a b t : b <> 0 -> in64 a -> in64 (Z.quot a b) -> in64 (Z.quot a b - 1) ->
  in64 (b * (if Z.quot a b <? 0 then Z.quot a b - 1 else Z.quot a b)) -> in64 (modu_m a b) ->
  Ends modu_field 77 (b :: a :: t) (modu_m a b :: t) [].
Proof.
  intros Nb Ra Rq Rq1 Rm Rr. apply Z.eqb_neq in Nb as Eb. unfold modu_m in *.
  assert (E0 : (0 >? Z.quot a b) = (Z.quot a b <? 0)) by (rewrite Z.gtb_ltb; reflexivity).
  destruct (Z.quot a b <? 0) eqn:Eq.
  - runall.
  - runall.
Qed.

(** What U computes. *)
Definition modu_u (a b : Z) : Z := let r := Z.rem a b in if r >? 0 then r else r + Z.abs b.

Lemma modu_U a b t : b <> 0 -> in64 a -> in64 b -> b <> INT64_MIN -> in64 (Z.quot a b) ->
  Ends modu_field 85 (b :: a :: t) (modu_u a b :: t) [].
Proof.
  intros Nb Ra Rb Nm Rq. apply Z.eqb_neq in Nb as Eb. unfold modu_u.
  pose proof (Z.rem_bound_abs a b Nb) as RB.
  destruct (Z.rem a b >? 0) eqn:Er.
  - runall.
  - assert (RR : in64 (Z.rem a b + Z.abs b)).
    { rewrite Z.gtb_ltb in Er. apply Z.ltb_ge in Er. unfold in64, INT64_MIN, INT64_MAX in *. lia. }
    destruct (b >? 0) eqn:E1.
    + rewrite Z.gtb_ltb in E1. apply Z.ltb_lt in E1 as L1. rewrite Z.abs_eq in RR |- * by lia.
      rewrite <- Z.gtb_ltb in E1.
      runall.
    + rewrite Z.gtb_ltb in E1. apply Z.ltb_ge in E1 as L1. rewrite Z.abs_neq in RR |- * by lia.
      rewrite <- Z.gtb_ltb in E1.
      runall.
Qed.

(** ** C110 *)

(** The selected stack of the executing IP holds [l], top first. *)
Definition Holding (l : list Z) (s : st) : Prop :=
  exists k, ss_top (r_ss (s_r s)) = Ok k /\ s_list k = l.

(** Calling instruction [cmd] of the library in universe [n], whose Funge-space is
    [f], on the stack [l] ends, leaves [l'] and writes [o], whatever the state of
    the interpreter; [Called] says that nothing else changes. *)
Definition Computes (f : field) (cmd : Z) (l l' : list Z) (o : bytes) : Prop :=
  exists N, forall F D n s, (N <= F)%positive -> Ready_lib n f 3 s -> Holding l s ->
    exists s', lib_call F (S D) n cmd s = Ok (ENone, s') /\ Called s s' l' o /\
               Ready_lib n f 3 s' /\ Holding l' s'.

Lemma ends_computes f cmd l l' o : Ends f cmd l l' o -> Computes f cmd l l' o.
Proof.
  intros H. destruct (ends_call _ _ _ _ _ H) as (N & HN). exists N. intros F D n s HF HR HK.
  destruct (HN F D n s HF HR HK) as (s' & E & C). exists s'. split; [exact E|]. split; [exact C|].
  split; [eapply Called_ready; eauto|].
  destruct C as ((x & Er & (_ & _ & K & _)) & _). unfold Holding. rewrite Er. exact K.
Qed.

(** C110, opening: the file MODU.fl gives the letters M, R and U, and a universe
    ready for calls. *)
Theorem C110_open : forall F path w, multi_find path w = None ->
  exists w1, lib_open F path modu_fl false w = Ok ([77; 82; 85], w1) /\
    w_nuni w1 = S (w_nuni w) /\ w_nrun w1 = w_nrun w /\
    forall r, r_uni r <> w_nuni w -> r_id r < w_nrun w -> w_fl w FP_DYN = false ->
      Ready_lib (w_nuni w) modu_field 3 {| s_w := w1; s_r := r |}.
Proof.
  intros F path w H.
  assert (EL : field_load FmtFl modu_fl 0 false = Ok modu_field) by (vm_compute; reflexivity).
  destruct (lib_open_ready F path modu_fl modu_field 3 w EL eq_refl ltac:(lia) H)
    as (w1 & E & E1 & E2 & R).
  exists w1. split; [rewrite E; reflexivity|]. auto.
Qed.

Lemma small_quot a b : b <> 0 -> Z.abs a + Z.abs b < 2 ^ 63 -> in64 (Z.quot a b).
Proof.
  intros Nb H. pose proof (Z.quot_rem' a b). pose proof (Z.quot_abs a b Nb).
  assert (Z.abs (Z.quot a b) <= Z.abs a).
  { rewrite <- Z.quot_abs by auto. apply Z.quot_le_upper_bound; [lia|]. nia. }
  unfold in64, INT64_MIN, INT64_MAX. lia.
Qed.

(** C110: R is the remainder of C, with the sign of the dividend.  All three
    give 0 for a zero divisor. *)
Theorem C110_R : forall a b t, in64 a -> in64 b -> ~ (a = INT64_MIN /\ b = -1) -> 
  Computes modu_field 82 (b :: a :: t) ((if b =? 0 then 0 else Z.rem a b) :: t) [].
Proof.
  intros a b t Ra Rb X. apply ends_computes. destruct (b =? 0) eqn:E.
  - apply Z.eqb_eq in E. subst b. apply modu_zero. auto.
  - apply Z.eqb_neq in E. apply modu_R; auto.
    assert (QA : Z.abs (Z.quot a b) <= Z.abs a).
    { rewrite <- Z.quot_abs by auto. apply Z.quot_le_upper_bound; [lia|]. nia. }
    unfold in64, INT64_MIN, INT64_MAX in *.
    destruct (Z.eq_dec (Z.quot a b) 9223372036854775808) as [Q|]; [|lia].
    exfalso. apply X. pose proof (Z.quot_rem' a b). pose proof (Z.rem_bound_abs a b E). split; nia.
Qed.
Theorem C110_zero : forall cmd a t, In cmd [77; 82; 85] ->
  Computes modu_field cmd (0 :: a :: t) (0 :: t) [].
Proof. intros cmd a t [<-|[<-|[<-|[]]]]; apply ends_computes, modu_zero; auto. Qed.

(** C110: M is the remainder of the floored division in the cases where the
    truncated quotient is positive, or negative and not exact, or zero without
    being too large.  [modu_m] says what it gives otherwise. *)
Theorem C110_M : forall a b t, b <> 0 -> Z.abs a + Z.abs b < 2 ^ 63 ->
  Computes modu_field 77 (b :: a :: t) (modu_m a b :: t) [].
Proof.
  intros a b t Nb H. apply ends_computes. pose proof (small_quot a b Nb H) as RQ.
  pose proof (Z.quot_rem' a b) as E. pose proof (Z.rem_bound_abs a b Nb) as B.
  assert (QA : Z.abs (Z.quot a b) <= Z.abs a).
  { rewrite <- Z.quot_abs by auto. apply Z.quot_le_upper_bound; [lia|]. nia. }
  assert (P : Z.abs (b * Z.quot a b) <= Z.abs a).
  { rewrite Z.abs_mul, <- Z.quot_abs by auto. apply Z.mul_quot_le; lia. }
  assert (RA : Z.abs (Z.rem a b) <= Z.abs a).
  { rewrite <- Z.rem_abs by auto. apply Z.rem_le; lia. }
  apply modu_M; auto; unfold modu_m; try (destruct (Z.quot a b <? 0));
    unfold in64, INT64_MIN, INT64_MAX in *; try lia.
Qed.
Theorem C110_floor_partial : forall a b, b <> 0 ->
  modu_m a b = Z.modulo a b <->
  (Z.quot a b < 0 -> Z.rem a b <> 0) /\ (Z.quot a b = 0 -> a = 0 \/ Z.sgn a = Z.sgn b).
Proof.
  intros a b Nb. unfold modu_m. pose proof (Z.quot_rem' a b) as E.
  pose proof (Z.rem_bound_abs a b Nb) as B.
  pose proof (Z.div_mod a b Nb) as E2.
  assert (B2 : 0 <= a mod b < b \/ b < a mod b <= 0)
    by (destruct (Z.lt_trichotomy b 0) as [L|[L|L]]; [right; apply Z.mod_neg_bound|lia|left; apply Z.mod_pos_bound]; lia).
  assert (SG : 0 <= a /\ 0 <= Z.rem a b \/ a <= 0 /\ Z.rem a b <= 0).
  { destruct (Z.le_ge_cases 0 a); [left|right]; split; auto;
      [apply Z.rem_nonneg|apply Z.rem_nonpos]; auto. }
  remember (Z.quot a b) as q. remember (Z.rem a b) as r. remember (a mod b) as m. remember (a / b) as k.
  clear Heqq Heqr Heqm Heqk.
  destruct (q <? 0) eqn:Q; [apply Z.ltb_lt in Q|apply Z.ltb_ge in Q]; split.
  - intros H. split; [|lia]. intros _ ->. nia.
  - intros (H & _). specialize (H Q). assert (b * (q - 1 - k) = m - r - b) by lia.
    assert (q - 1 = k) by nia. nia.
  - intros H. split; [lia|]. intros ->. nia.
  - intros (_ & H). destruct (Z.eq_dec q 0) as [->|].
    + specialize (H eq_refl). assert (k = 0) by nia. nia.
    + assert (q = k) by nia. nia.
Qed.

(** C110: U is the remainder between 0 and |b| unless the division is exact. *)
Theorem C110_U : forall a b t, b <> 0 -> Z.abs a + Z.abs b < 2 ^ 63 ->
  Computes modu_field 85 (b :: a :: t) (modu_u a b :: t) [].
Proof.
  intros a b t Nb H. apply ends_computes. pose proof (small_quot a b Nb H) as RQ.
  apply modu_U; auto; unfold in64, INT64_MIN, INT64_MAX in *; lia.
Qed.
Theorem C110_unsigned_partial : forall a b, b <> 0 ->
  exists q, a = b * q + modu_u a b /\ 0 < modu_u a b <= Z.abs b /\
            (modu_u a b = Z.modulo a (Z.abs b) <-> Z.rem a b <> 0).
Proof.
  intros a b Nb. unfold modu_u. pose proof (Z.quot_rem' a b) as E.
  pose proof (Z.rem_bound_abs a b Nb) as B.
  assert (U : forall r q, a = Z.abs b * q + r -> 0 <= r < Z.abs b -> r = a mod Z.abs b).
  { intros r q E1 B1. apply (Z.mod_unique_pos a (Z.abs b) q r); lia. }
  pose proof (Z.mod_pos_bound a (Z.abs b) ltac:(lia)) as MB.
  rewrite Z.gtb_ltb. destruct (0 <? Z.rem a b) eqn:R; [apply Z.ltb_lt in R|apply Z.ltb_ge in R].
  - exists (Z.quot a b). split; [lia|]. split; [lia|]. split; [lia|]. intros _.
    apply (U _ (Z.sgn b * Z.quot a b)); [|lia]. rewrite Z.mul_assoc, Z.abs_sgn. lia.
  - exists (Z.quot a b - Z.sgn b). split.
    { rewrite Z.mul_sub_distr_l. assert (b * Z.sgn b = Z.abs b) by apply Z.sgn_abs. lia. }
    split; [lia|]. split.
    + intros H R0. rewrite R0 in H. lia.
    + intros NR. apply (U _ (Z.sgn b * Z.quot a b - 1)); [|lia].
      rewrite Z.mul_sub_distr_l, Z.mul_assoc, Z.abs_sgn. lia.
Qed.

(** A world with a library open in universe 1 and a program in universe 0. *)
Definition lib_world (data : bytes) (l : list Z) : st :=
  let s := with_list l (start98 2 [64] []) in
  match lib_open 100 [77] data false (s_w s) with
  | Ok (_, w) => {| s_w := w; s_r := s_r s |}
  | Bad _ => s
  end.
Lemma lib_world_ready data f l :
  field_load FmtFl data 0 false = Ok f -> f_size f = 3%nat ->
  Ready_lib 1 f 3 (lib_world data l) /\ Holding l (lib_world data l).
Proof.
  intros EL ED. set (s := with_list l (start98 2 [64] [])).
  assert (HM : multi_find [77] (s_w s) = None) by (vm_compute; reflexivity).
  destruct (lib_open_ready 100 [77] data f 3 (s_w s) EL ED ltac:(lia) HM) as (w1 & E & E1 & E2 & R).
  unfold lib_world. fold s. rewrite E.
  assert (EU : w_nuni (s_w s) = 1%nat) by (vm_compute; reflexivity). rewrite EU in R.
  split.
  - apply R; [discriminate|vm_compute; reflexivity|vm_compute; reflexivity].
  - exists {| s_mode := 0; s_list := l; s_ops := 0 |}. split; [|reflexivity].
    vm_compute. reflexivity.
Qed.

(** The outcome of a call is determined. *)
Lemma computes_det data f cmd l l1 l2 o1 o2 :
  field_load FmtFl data 0 false = Ok f -> f_size f = 3%nat ->
  Computes f cmd l l1 o1 -> Computes f cmd l l2 o2 -> l1 = l2.
Proof.
  intros EL ED (N1 & H1) (N2 & H2). destruct (lib_world_ready data f l EL ED) as (R & K).
  destruct (H1 (Pos.max N1 N2) 0%nat 1%nat _ ltac:(lia) R K) as (s1 & E1 & _ & _ & K1).
  destruct (H2 (Pos.max N1 N2) 0%nat 1%nat _ ltac:(lia) R K) as (s2 & E2 & _ & _ & K2).
  rewrite E1 in E2. injection E2 as <-. destruct K1 as (k1 & T1 & <-), K2 as (k2 & T2 & <-).
  congruence.
Qed.

Example C110_example :
  Ready_lib 1 modu_field 3 (lib_world modu_fl [3; -7]) /\
  modu_m (-7) 3 = -7 mod 3 /\ modu_u (-7) 3 = 2 /\
  Computes modu_field 77 [3; -7] [2] [] /\ Computes modu_field 82 [3; -7] [-1] [] /\
  Computes modu_field 85 [3; -7] [2] [].
Proof.
  split; [apply lib_world_ready; vm_compute; reflexivity|]. split; [reflexivity|]. split; [reflexivity|].
  split; [apply (C110_M (-7) 3 []); lia|]. split; [|apply (C110_U (-7) 3 []); lia].
  apply (C110_R (-7) 3 []); unfold in64, INT64_MIN, INT64_MAX; lia.
Qed.

(** C110 fails for exact quotients: -4 modulo 2 is 2, for M as for U, and M does not
    correct small negative numbers: -1 modulo 3 is -1. *)
Theorem C110_refuted :
  ~ (forall a b t, b <> 0 -> Z.abs a + Z.abs b < 2 ^ 63 ->
       Computes modu_field 77 (b :: a :: t) (Z.modulo a b :: t) []) /\
  ~ (forall a b t, b <> 0 -> Z.abs a + Z.abs b < 2 ^ 63 ->
       Computes modu_field 85 (b :: a :: t) (Z.modulo a (Z.abs b) :: t) []) /\
  Computes modu_field 77 [2; -4] [2] [] /\ Computes modu_field 77 [3; -1] [-1] [] /\
  Computes modu_field 85 [2; 4] [2] [].
Proof.
  assert (EL : field_load FmtFl modu_fl 0 false = Ok modu_field) by (vm_compute; reflexivity).
  pose proof (C110_M (-4) 2 [] ltac:(lia) ltac:(lia)) as M1.
  pose proof (C110_U 4 2 [] ltac:(lia) ltac:(lia)) as U1.
  repeat split; try (intros H).
  - pose proof (computes_det _ _ _ _ _ _ _ _ EL eq_refl M1 (H (-4) 2 [] ltac:(lia) ltac:(lia))) as X.
    discriminate X.
  - pose proof (computes_det _ _ _ _ _ _ _ _ EL eq_refl U1 (H 4 2 [] ltac:(lia) ltac:(lia))) as X.
    discriminate X.
  - exact M1.
  - apply (C110_M (-1) 3 []); lia.
  - exact U1.
Qed.

Print Assumptions C110_open.
Print Assumptions C110_R.
Print Assumptions C110_zero.
Print Assumptions C110_M.
Print Assumptions C110_floor_partial.
Print Assumptions C110_U.
Print Assumptions C110_unsigned_partial.
Print Assumptions C110_refuted.
