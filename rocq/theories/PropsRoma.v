(** * Property C111: the library ROMA. *)

From Coq Require Import ZArith List Bool Lia.
From Verif Require Import Base BaseProofs VectorModel TextModel StackModel StackProofs FieldModel
  World IpModel LoadModel FingModel CoreModel OptModel FileModel LibModel LibTexts ExecProofs LibRun
  States PropsLib.
Import ListNotations.
Open Scope Z_scope.

(** The Funge-space of ROMA. *)
Definition roma_field : field := Eval vm_compute in the (field_empty 0 false) (field_load FmtFl roma_fl 0 false).

(** ** Specification *)

(** A decimal digit in Roman numerals: [i], [v] and [x] are the symbols for one,
    five and ten. *)
Definition roman_digit (i v x : Z) (d : Z) : bytes :=
  if d <? 4 then repeat i (Z.to_nat d)
  else if d =? 4 then [i; v]
  else if d <? 9 then v :: repeat i (Z.to_nat (d - 5))
  else [i; x].
(** The numeral of [n]: as many M as there are thousands, then hundreds (C, D, M),
    tens (X, L, C) and units (I, V, X). *)
Definition roman (n : Z) : bytes :=
  repeat 77 (Z.to_nat (n / 1000)) ++ roman_digit 67 68 77 (n / 100 mod 10) ++
  roman_digit 88 76 67 (n / 10 mod 10) ++ roman_digit 73 86 88 (n mod 10).

(** ** Running P *)

Definition rm (p : vec) (l : list Z) (o : bytes) : conf :=
  {| k_pos := p; k_delta := [1]; k_list := l; k_str := false; k_prev := 0; k_out := o; k_stop := false |}.

Ltac until p := match goal with
  | |- Halts _ _ {| k_pos := ?q |} _ _ => constr_eq p q
  | _ => first [go | skip]; until p end.

Lemma thousands n t o l' o' : (n >? 999) = true -> in64 n ->
  Halts roma_field 3 (rm [5; 1; 15] (n - 1000 :: t) (o ++ [77])) l' o' ->
  Halts roma_field 3 (rm [5; 1; 15] (n :: t) o) l' o'.
Proof.
  intros G R H. pose proof G as L. rewrite Z.gtb_ltb in L. apply Z.ltb_lt in L.
  unfold rm. go. until [5; 1; 15]. exact H.
Qed.

Lemma hundreds n t o l' o' : 0 <= n < 1000 ->
  Halts roma_field 3 (rm [38; 0; 15] (n mod 100 :: t) (o ++ roman_digit 67 68 77 (n / 100 mod 10))) l' o' ->
  Halts roma_field 3 (rm [5; 1; 15] (n :: t) o) l' o'.
Proof.
  intros L H. assert (G : (n >? 999) = false) by (rewrite Z.gtb_ltb; apply Z.ltb_ge; lia).
  assert (Q : n ÷ 100 = n / 100) by (apply Z.quot_div_nonneg; lia).
  pose proof (Z.div_mod n 100 ltac:(lia)) as E. pose proof (Z.mod_pos_bound n 100 ltac:(lia)) as B.
  assert (D : n / 100 mod 10 = n / 100) by (apply Z.mod_small; lia).
  rewrite D in H.
  assert (C : In (n / 100) [0; 1; 2; 3; 4; 5; 6; 7; 8; 9]) by (cbn; lia).
  unfold rm. until [25; 1; 15]. rewrite Q.
  destruct C as [C|[C|[C|[C|[C|[C|[C|[C|[C|[C|[]]]]]]]]]]]; rewrite <- C in *.
  all: until [38; 0; 15].
  all: match goal with |- Halts _ _ {| k_list := ?x :: _ |} _ _ =>
    replace x with (n mod 100) by lia end.
  all: rewrite <- ?app_assoc; try exact H.
  cbn in H. rewrite app_nil_r in H. exact H.
Qed.

Lemma tens n t o l' o' : 0 <= n < 100 ->
  Halts roma_field 3 (rm [59; 0; 15] (n mod 10 :: t) (o ++ roman_digit 88 76 67 (n / 10 mod 10))) l' o' ->
  Halts roma_field 3 (rm [38; 0; 15] (n :: t) o) l' o'.
Proof.
  intros L H.
  assert (Q : n ÷ 10 = n / 10) by (apply Z.quot_div_nonneg; lia).
  pose proof (Z.div_mod n 10 ltac:(lia)) as E. pose proof (Z.mod_pos_bound n 10 ltac:(lia)) as B.
  assert (D : n / 10 mod 10 = n / 10) by (apply Z.mod_small; lia).
  rewrite D in H.
  assert (C : In (n / 10) [0; 1; 2; 3; 4; 5; 6; 7; 8; 9]) by (cbn; lia).
  unfold rm. until [44; 0; 15]. rewrite Q.
  destruct C as [C|[C|[C|[C|[C|[C|[C|[C|[C|[C|[]]]]]]]]]]]; rewrite <- C in *.
  all: until [59; 0; 15].
  all: match goal with |- Halts _ _ {| k_list := ?x :: _ |} _ _ =>
    replace x with (n mod 10) by lia end.
  all: rewrite <- ?app_assoc; try exact H.
  cbn in H. rewrite app_nil_r in H. exact H.
Qed.

Lemma units n t o : 0 <= n < 10 ->
  Halts roma_field 3 (rm [59; 0; 15] (n :: t) o) t (o ++ roman_digit 73 86 88 n ++ [32]).
Proof.
  intros L. assert (C : In n [0; 1; 2; 3; 4; 5; 6; 7; 8; 9]) by (cbn; lia).
  unfold rm. destruct C as [C|[C|[C|[C|[C|[C|[C|[C|[C|[C|[]]]]]]]]]]]; subst n.
  all: repeat first [go|skip].
  all: eapply step_end; [cbn [k_pos]; known | rule | reflexivity | reflexivity | reflexivity |].
  all: cbv beta iota delta [kStop k_out]; rewrite <- ?app_assoc; reflexivity.
Qed.

Lemma roma_P n t : 0 < n -> in64 n -> Ends roma_field 80 (n :: t) t (roman n ++ [32]).
Proof.
  intros L R. assert (G : (n >? 0) = true) by (rewrite Z.gtb_ltb; apply Z.ltb_lt; lia).
  unfold Ends, conf_at. until [5; 1; 15].
  assert (X : forall k n o, n < Z.of_nat k * 1000 -> 0 <= n -> in64 n ->
    Halts roma_field 3 (rm [5; 1; 15] (n :: t) o) t (o ++ roman n ++ [32])).
  { clear. induction k as [|k IH]; intros n o B L R; [lia|].
    destruct (n >? 999) eqn:G.
    - rewrite Z.gtb_ltb in G. apply Z.ltb_lt in G as G1. rewrite <- Z.gtb_ltb in G.
      apply thousands; auto.
      replace (o ++ roman n ++ [32]) with ((o ++ [77]) ++ roman (n - 1000) ++ [32]).
      + apply IH; try lia. unfold in64, INT64_MIN, INT64_MAX in *. lia.
      + rewrite <- !app_assoc. f_equal. unfold roman. rewrite <- !app_assoc.
        replace (n - 1000) with (n + (-1) * 1000) by lia.
        rewrite Z.div_add by lia.
        replace ((n + (-1) * 1000) / 100) with (n / 100 + (-1) * 10)
          by (rewrite <- Z.div_add by lia; f_equal; lia).
        replace ((n + (-1) * 1000) / 10) with (n / 10 + (-10) * 10)
          by (rewrite <- Z.div_add by lia; f_equal; lia).
        replace (n + (-1) * 1000) with (n + (-100) * 10) by lia.
        rewrite !Z.mod_add by lia.
        assert (1 <= n / 1000) by (apply Z.div_le_lower_bound; lia).
        replace (Z.to_nat (n / 1000)) with (S (Z.to_nat (n / 1000 + -1))) by lia. reflexivity.
    - rewrite Z.gtb_ltb in G. apply Z.ltb_ge in G. apply hundreds; [lia|].
      pose proof (Z.mod_pos_bound n 100 ltac:(lia)). apply tens; [lia|].
      replace (n mod 100 mod 10) with (n mod 10)
        by (change 100 with (10 * 10); rewrite Z.rem_mul_r, Z.mul_comm, Z.mod_add, Z.mod_mod; lia).
      replace (n mod 100 / 10 mod 10) with (n / 10 mod 10)
        by (change 100 with (10 * 10); rewrite Z.rem_mul_r, Z.mul_comm, Z.div_add, (Z.div_small (n mod 10)), Z.add_0_l, Z.mod_mod; try lia; apply Z.mod_pos_bound; lia).
      pose proof (Z.mod_pos_bound n 10 ltac:(lia)).
      unfold roman. rewrite (Z.div_small n 1000) by lia. cbn [Z.to_nat repeat app].
      rewrite <- !app_assoc. rewrite !app_assoc. rewrite <- (app_assoc _ _ [32]). apply units. lia. }
  apply (X (Z.to_nat (n / 1000 + 1)) n []); try lia; auto.
  pose proof (Z.div_mod n 1000 ltac:(lia)). pose proof (Z.mod_pos_bound n 1000 ltac:(lia)). 
  pose proof (Z.div_pos n 1000 ltac:(lia) ltac:(lia)). lia.
Qed.

Lemma roma_P0 n t : n <= 0 -> Ends roma_field 80 (n :: t) t [48; 32].
Proof.
  intros L. assert (G : (n >? 0) = false) by (rewrite Z.gtb_ltb; apply Z.ltb_ge; lia). runall.
Qed.

(** ** C111 *)

(** C111, opening: the file ROMA.fl gives I, V, X, L, C, D, M and P. *)
Theorem C111_open : forall F path w, multi_find path w = None ->
  exists w1, lib_open F path roma_fl false w = Ok ([73; 86; 88; 76; 67; 68; 77; 80], w1) /\
    w_nuni w1 = S (w_nuni w) /\ w_nrun w1 = w_nrun w /\
    forall r, r_uni r <> w_nuni w -> r_id r < w_nrun w -> w_fl w FP_DYN = false ->
      Ready_lib (w_nuni w) roma_field 3 {| s_w := w1; s_r := r |}.
Proof.
  intros F path w H.
  assert (EL : field_load FmtFl roma_fl 0 false = Ok roma_field) by (vm_compute; reflexivity).
  destruct (lib_open_ready F path roma_fl roma_field 3 w EL eq_refl ltac:(lia) H)
    as (w1 & E & E1 & E2 & R).
  exists w1. split; [rewrite E; reflexivity|]. auto.
Qed.

(** C111: each letter pushes its value. *)
Theorem C111_values : forall c v t,
  In (c, v) [(73, 1); (86, 5); (88, 10); (76, 50); (67, 100); (68, 500); (77, 1000)] ->
  Computes roma_field c t (v :: t) [].
Proof.
  intros c v t H. apply ends_computes.
  repeat (destruct H as [[= <- <-]|H]; [runall|]). destruct H.
Qed.

(** C111: P takes a number and writes its Roman numeral and a blank, and the digit
    0 for numbers that have none. *)
Theorem C111_print : forall n t, in64 n ->
  Computes roma_field 80 (n :: t) t ((if 0 <? n then roman n else [48]) ++ [32]).
Proof.
  intros n t R. apply ends_computes. destruct (0 <? n) eqn:E.
  - apply Z.ltb_lt in E. now apply roma_P.
  - apply Z.ltb_ge in E. now apply roma_P0.
Qed.

(** The specification: reading a numeral back, a symbol smaller than the next one
    counting negative, gives the number. *)
Definition symbol (b : Z) : Z :=
  if b =? 73 then 1 else if b =? 86 then 5 else if b =? 88 then 10 else if b =? 76 then 50
  else if b =? 67 then 100 else if b =? 68 then 500 else if b =? 77 then 1000 else 0.
Fixpoint reading (l : bytes) : Z :=
  match l with
  | [] => 0
  | a :: t =>
      (if symbol a <? match t with [] => 0 | b :: _ => symbol b end then - symbol a else symbol a)
      + reading t
  end.

Theorem C111_reading : forall n, 0 <= n -> reading (roman n) = n.
Proof.
  assert (T : forallb (fun k => let r := Z.of_nat k in
    reading (roman_digit 67 68 77 (r / 100) ++ roman_digit 88 76 67 (r / 10 mod 10) ++ roman_digit 73 86 88 (r mod 10))
      =? r) (seq 0 1000) = true) by (vm_compute; reflexivity).
  intros n Hn. pose proof (Z.div_mod n 1000 ltac:(lia)) as E.
  pose proof (Z.mod_pos_bound n 1000 ltac:(lia)) as B. pose proof (Z.div_pos n 1000 ltac:(lia) ltac:(lia)) as P.
  unfold roman. set (r := n mod 1000) in *.
  assert (Hd : n / 100 mod 10 = r / 100).
  { unfold r. change 1000 with (100 * 10). rewrite Z.rem_mul_r by lia.
    rewrite Z.mul_comm, Z.div_add by lia. rewrite (Z.div_small (n mod 100)); [reflexivity|].
    apply Z.mod_pos_bound. lia. }
  assert (Td : n / 10 mod 10 = r / 10 mod 10).
  { rewrite E. replace (1000 * (n / 1000) + r) with (r + (n / 1000 * 100) * 10) by lia.
    rewrite Z.div_add by lia. replace (n / 1000 * 100) with (n / 1000 * 10 * 10) by lia.
    now rewrite Z.mod_add by lia. }
  assert (Ud : n mod 10 = r mod 10).
  { rewrite E at 1. replace (1000 * (n / 1000) + r) with (r + (n / 1000 * 100) * 10) by lia.
    now rewrite Z.mod_add by lia. }
  rewrite Hd, Td, Ud. rewrite forallb_forall in T. specialize (T (Z.to_nat r)).
  cbv zeta in T. rewrite Z2Nat.id in T by lia.
  set (w := roman_digit 67 68 77 (r / 100) ++ _) in *.
  assert (W : reading w = r) by (apply Z.eqb_eq, T, in_seq; lia).
  assert (X : forall k, reading (repeat 77 k ++ w) = Z.of_nat k * 1000 + r).
  { clear - W. induction k as [|k IH]; [cbn [repeat app]; lia|].
    change (repeat 77 (S k) ++ w) with (77 :: repeat 77 k ++ w). cbn [reading].
    rewrite IH. change (symbol 77) with 1000.
    assert (Y : (1000 <? match repeat 77 k ++ w with [] => 0 | b :: _ => symbol b end) = false).
    { destruct (repeat 77 k ++ w) as [|b ?]; [reflexivity|]. apply Z.ltb_ge. unfold symbol.
      repeat match goal with |- context [if ?x then _ else _] => destruct x end; lia. }
    rewrite Y. lia. }
  rewrite X. lia.
Qed.

Example C111_example :
  Ready_lib 1 roma_field 3 (lib_world roma_fl [1994; 7]) /\
  roman 1994 = [77; 67; 77; 88; 67; 73; 86] /\ roman 3888 = [77; 77; 77; 68; 67; 67; 67; 76; 88; 88; 88; 86; 73; 73; 73] /\
  Computes roma_field 80 [1994; 7] [7] [77; 67; 77; 88; 67; 73; 86; 32].
Proof.
  split; [apply lib_world_ready; vm_compute; reflexivity|]. split; [reflexivity|]. split; [reflexivity|].
  apply (C111_print 1994 [7]). unfold in64, INT64_MIN, INT64_MAX. lia.
Qed.

Print Assumptions C111_open.
Print Assumptions C111_values.
Print Assumptions C111_print.
Print Assumptions C111_reading.
