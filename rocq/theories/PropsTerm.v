(** * Property C112: the library TERM. *)

From Coq Require Import ZArith List Bool Lia.
From Verif Require Import Base BaseProofs VectorModel TextModel TextProofs StackModel StackProofs FieldModel
  World IpModel LoadModel FingModel CoreModel OptModel FileModel LibModel LibTexts ExecProofs LibRun
  States PropsLib PropsRoma.
Import ListNotations.
Open Scope Z_scope.

(** The Funge-space of TERM. *)
Definition term_field : field := Eval vm_compute in the (field_empty 0 false) (field_load FmtFl term_fl 0 false).

(** ** Its loops *)

(** Writing the characters above a zero. *)
Definition Prints (x z : Z) : Prop := forall cs t o l' o',
  Forall (fun c => c <> 0) cs ->
  Halts term_field 3 (rm [x + 4; 0; z] (0 :: t) (o ++ map to_u8 cs)) l' o' ->
  Halts term_field 3 (rm [x; 0; z] (cs ++ 0 :: t) o) l' o'.
Ltac prints p := intros cs t o l' o'; revert o; induction cs as [|c cs IH]; intros o NZ H;
  [ cbn [map] in H; rewrite app_nil_r in H; unfold rm in *; cbn [app]; go; go; go; exact H
  | apply Forall_cons_iff in NZ as (N1 & NZ); apply Z.eqb_neq in N1;
    specialize (IH (o ++ [to_u8 c]) NZ); rewrite <- app_assoc in IH; specialize (IH H);
    unfold rm in *; cbn [app]; go; until p; exact IH ].
Lemma prints_D : Prints 37 3. Proof. prints [37; 0; 3]. Qed.
Lemma prints_U : Prints 37 20. Proof. prints [37; 0; 20]. Qed.

Lemma prints_G1 : Prints 28 6. Proof. prints [28; 0; 6]. Qed.
Lemma prints_G2 : Prints 56 6. Proof. prints [56; 0; 6]. Qed.

(** Writing a number in decimal on the stack. *)
Definition Digits (x z : Z) : Prop := forall f n acc o l' o',
  0 <= n < 10 ^ Z.of_nat (S f) -> in64 n ->
  Halts term_field 3 (rm [x + 14; 0; z] (dec_loop (S f) n acc) o) l' o' ->
  Halts term_field 3 (rm [x; 0; z] (n :: acc) o) l' o'.
Ltac digits p := intros f; induction f as [|f IH]; intros n acc o l' o' B R H;
  assert (Q : n ÷ 10 = n / 10) by (apply Z.quot_div_nonneg; lia);
  assert (M : Z.rem n 10 = n mod 10) by (apply Z.rem_mod_nonneg; lia);
  pose proof (Z.div_mod n 10 ltac:(lia)); pose proof (Z.mod_pos_bound n 10 ltac:(lia));
  cbn [dec_loop] in H; rewrite <- Q, <- M, (Z.add_comm 48) in H;
  (destruct (n ÷ 10 =? 0) eqn:E0;
   [ unfold rm in *; do 12 go; exact H | ]);
  [ apply Z.eqb_neq in E0; cbn in B; lia
  | unfold rm; go; until p; apply IH; rewrite Q;
    [ rewrite Nat2Z.inj_succ, Z.pow_succ_r in B by lia; lia
    | unfold in64, INT64_MIN, INT64_MAX in *; lia
    | rewrite <- Q; exact H ] ].
Lemma digits_D : Digits 16 3. Proof. digits [16; 0; 3]. Qed.
Lemma digits_U : Digits 16 20. Proof. digits [16; 0; 20]. Qed.
Lemma digits_G1 : Digits 8 6. Proof. digits [8; 0; 6]. Qed.
Lemma digits_G2 : Digits 41 6. Proof. digits [41; 0; 6]. Qed.

Lemma dec_loop_acc f : forall n acc, dec_loop f n acc = dec_loop f n [] ++ acc.
Proof.
  induction f as [|f IH]; intros n acc; [reflexivity|]. cbn [dec_loop].
  destruct (n / 10 =? 0); [reflexivity|]. rewrite IH, (IH _ [_]), <- app_assoc. reflexivity.
Qed.
Lemma digits_dec x z n acc o l' o' : Digits x z -> 0 <= n -> in64 n ->
  Halts term_field 3 (rm [x + 14; 0; z] (dec_nat n ++ acc) o) l' o' ->
  Halts term_field 3 (rm [x; 0; z] (n :: acc) o) l' o'.
Proof.
  intros HD L R H. apply (HD (Z.to_nat (Z.log2 n))); auto.
  - split; auto. destruct (Z.eq_dec n 0) as [->|]; [cbn; lia|].
    pose proof (Z.log2_spec n ltac:(lia)) as (_ & LG). pose proof (Z.log2_nonneg n).
    rewrite Nat2Z.inj_succ, Z2Nat.id by auto.
    eapply Z.lt_le_trans; [exact LG|]. apply Z.pow_le_mono_l. lia.
  - rewrite dec_loop_acc. exact H.
Qed.
Lemma dec_nonzero n : 0 <= n -> Forall (fun c => c <> 0) (dec_nat n).
Proof.
  intros H. destruct (dec_nat_spec n H) as (F & _). eapply Forall_impl; [|exact F].
  unfold digit. intros c; lia.
Qed.
Lemma dec_u8 n : 0 <= n -> map to_u8 (dec_nat n) = dec_nat n.
Proof.
  intros H. destruct (dec_nat_spec n H) as (F & _). 
  induction F as [|c l D _ IH]; [reflexivity|]. cbn [map]. rewrite IH. f_equal.
  unfold to_u8, digit in *. apply Z.mod_small. lia.
Qed.

(** ** Its instructions *)

(** Moving the cursor by [n] lines: [n] > 0 in the direction of [a], else of [b]. *)
Definition move (a b n : Z) : bytes := [27; 91] ++ dec (Z.abs n) ++ [if 0 <? n then a else b].

Lemma move_end z (HD : Digits 16 z) (HP : Prints 37 z) n c t :
  0 <= n -> in64 n -> c = 65 \/ c = 66 ->
  (forall l, Halts term_field 3 (rm [37; 0; z] (27 :: 91 :: l) []) t ([27; 91] ++ dec_nat n ++ [c]) ->
     Halts term_field 3 (rm [30; 0; z] l []) t ([27; 91] ++ dec_nat n ++ [c])) ->
  Halts term_field 3 (rm [41; 0; z] (0 :: t) ([27; 91] ++ dec_nat n ++ [c])) t ([27; 91] ++ dec_nat n ++ [c]) ->
  Halts term_field 3 (rm [16; 0; z] (n :: c :: 0 :: t) []) t ([27; 91] ++ dec_nat n ++ [c]).
Proof.
  intros L R Hc H1 H2. apply digits_dec; auto. change (16 + 14) with 30. apply H1.
  change (27 :: 91 :: dec_nat n ++ c :: 0 :: t) with ((27 :: 91 :: dec_nat n) ++ [c] ++ 0 :: t).
  rewrite app_assoc. apply HP.
  - apply Forall_app. split; [|constructor; [lia|constructor]].
    constructor; [lia|]. constructor; [lia|]. now apply dec_nonzero.
  - rewrite map_app. cbn [map app]. rewrite dec_u8 by auto. change (37 + 4) with 41.
    destruct Hc as [->| ->]; exact H2.
Qed.
Ltac moves HD HP z :=
  match goal with |- Ends _ _ (?n :: _) _ _ =>
  assert (AB : in64 (Z.abs n)) by (unfold in64, INT64_MIN, INT64_MAX in *; lia);
  assert (DA : dec (Z.abs n) = dec_nat (Z.abs n))
    by (unfold dec; destruct (Z.ltb_spec (Z.abs n) 0); [lia|reflexivity]);
  unfold move; rewrite DA; unfold Ends, conf_at; rewrite <- Z.gtb_ltb;
  destruct (n >? 0) eqn:G; rewrite Z.gtb_ltb in G;
  [apply Z.ltb_lt in G as L | apply Z.ltb_ge in G as L];
  rewrite <- Z.gtb_ltb in G;
  [replace (Z.abs n) with n in * by lia | replace (Z.abs n) with (n * -1) in * by lia]
  end;
  (until [16; 0; z]; apply (move_end z HD HP);
   [ lia | auto | auto
   | let H := fresh in intros l H; unfold rm in *; until [37; 0; z]; exact H
   | unfold rm; go; fin ]).
Lemma term_D n t : in64 n -> n <> INT64_MIN -> Ends term_field 68 (n :: t) t (move 66 65 n).
Proof. intros R NM. moves digits_D prints_D 3. Qed.
Lemma term_U n t : in64 n -> n <> INT64_MIN -> Ends term_field 85 (n :: t) t (move 65 66 n).
Proof. intros R NM. moves digits_U prints_U 20. Qed.

(** Moving to line [y] and column [x], both counted from 0. *)
Definition goto (x y : Z) : bytes := [27; 91] ++ dec (y + 1) ++ [59] ++ dec (x + 1) ++ [72].

Lemma term_G x y t : 0 <= x -> 0 <= y -> in64 (x + 1) -> in64 (y + 1) ->
  Ends term_field 71 (y :: x :: t) t (goto x y).
Proof.
  intros Lx Ly Rx Ry.
  assert (Dx : dec (x + 1) = dec_nat (x + 1))
    by (unfold dec; destruct (Z.ltb_spec (x + 1) 0); [lia|reflexivity]).
  assert (Dy : dec (y + 1) = dec_nat (y + 1))
    by (unfold dec; destruct (Z.ltb_spec (y + 1) 0); [lia|reflexivity]).
  unfold goto. rewrite Dx, Dy. unfold Ends, conf_at. until [8; 0; 6].
  apply (digits_dec 8 6 (y + 1) _ _ _ _ digits_G1); try lia; auto.
  change (8 + 14) with 22. unfold rm. until [28; 0; 6].
  change (27 :: 91 :: dec_nat (y + 1) ++ 59 :: 0 :: x :: t)
    with ((27 :: 91 :: dec_nat (y + 1)) ++ [59] ++ 0 :: x :: t).
  rewrite app_assoc. apply prints_G1.
  { apply Forall_app. split; [|constructor; [lia|constructor]].
    constructor; [lia|]. constructor; [lia|]. apply dec_nonzero; lia. }
  rewrite map_app. cbn [map app]. rewrite dec_u8 by lia. change (28 + 4) with 32.
  unfold rm. until [41; 0; 6].
  apply (digits_dec 41 6 (x + 1) _ _ _ _ digits_G2); try lia; auto.
  change (41 + 14) with 55. unfold rm. until [56; 0; 6].
  change (dec_nat (x + 1) ++ 72 :: 0 :: t) with (dec_nat (x + 1) ++ [72] ++ 0 :: t).
  rewrite app_assoc. apply prints_G2.
  { apply Forall_app. split; [|constructor; [lia|constructor]]. apply dec_nonzero; lia. }
  rewrite map_app. cbn [map app]. rewrite dec_u8 by lia. change (56 + 4) with 60.
  unfold rm. go. 
  eapply step_end; [cbn [k_pos]; known | rule | reflexivity | reflexivity | reflexivity |].
  cbv beta iota delta [kStop k_out].
  change (to_u8 27) with 27. change (to_u8 91) with 91. change (to_u8 59) with 59. change (to_u8 72) with 72.
  cbn [app]. rewrite <- app_assoc. reflexivity.
Qed.

(** ** C112 *)

(** C112, opening: the file TERM.fl gives C, D, G, H, L, S and U. *)
Theorem C112_open : forall F path w, multi_find path w = None ->
  exists w1, lib_open F path term_fl false w = Ok ([67; 68; 71; 72; 76; 83; 85], w1) /\
    w_nuni w1 = S (w_nuni w) /\ w_nrun w1 = w_nrun w /\
    forall r, r_uni r <> w_nuni w -> r_id r < w_nrun w -> w_fl w FP_DYN = false ->
      Ready_lib (w_nuni w) term_field 3 {| s_w := w1; s_r := r |}.
Proof.
  intros F path w H.
  assert (EL : field_load FmtFl term_fl 0 false = Ok term_field) by (vm_compute; reflexivity).
  destruct (lib_open_ready F path term_fl term_field 3 w EL eq_refl ltac:(lia) H)
    as (w1 & E & E1 & E2 & R).
  exists w1. split; [rewrite E; reflexivity|]. auto.
Qed.

(** C112: clearing the screen (C), to the end of the line (L) and to the end of
    the screen (S), and moving home (H). *)
Theorem C112_fixed : forall c seq t,
  In (c, seq) [(67, [27; 91; 50; 74]); (76, [27; 91; 48; 75]); (83, [27; 91; 48; 74]);
               (72, [27; 91; 49; 59; 49; 72])] ->
  Computes term_field c t t seq.
Proof.
  intros c sq t H. apply ends_computes.
  repeat (destruct H as [[= <- <-]|H]; [runall|]). destruct H.
Qed.

(** C112: moving the cursor down and up, and to a position. *)
Theorem C112_down : forall n t, in64 n -> n <> INT64_MIN ->
  Computes term_field 68 (n :: t) t (move 66 65 n).
Proof. intros. now apply ends_computes, term_D. Qed.
Theorem C112_up : forall n t, in64 n -> n <> INT64_MIN ->
  Computes term_field 85 (n :: t) t (move 65 66 n).
Proof. intros. now apply ends_computes, term_U. Qed.
Theorem C112_goto : forall x y t, 0 <= x < INT64_MAX -> 0 <= y < INT64_MAX ->
  Computes term_field 71 (y :: x :: t) t (goto x y).
Proof.
  intros. apply ends_computes, term_G; unfold in64, INT64_MIN, INT64_MAX in *; lia.
Qed.

(** A terminal: the line of the cursor after a control sequence CSI n A (up) or
    CSI n B (down).  As ECMA-48 terminals do, a count of 0 is taken as the default,
    1.  The screen has no edges. *)
Definition is_digit (c : Z) : bool := (48 <=? c) && (c <=? 57).
Fixpoint number (l : bytes) (k : Z) : Z * bytes :=
  match l with
  | c :: t => if is_digit c then number t (k * 10 + (c - 48)) else (k, l)
  | [] => (k, [])
  end.
Definition line_after (line : Z) (o : bytes) : Z :=
  match o with
  | 27 :: 91 :: t =>
      match number t 0 with
      | (k, [65]) => line - Z.max 1 k
      | (k, [66]) => line + Z.max 1 k
      | _ => line
      end
  | _ => line
  end.

Lemma number_digits ds c t : Forall digit ds -> is_digit c = false -> forall k,
  number (ds ++ c :: t) k = (digits_value k ds, c :: t).
Proof.
  intros F N. induction F as [|d ds D _ IH]; intros k; cbn [app number digits_value].
  - now rewrite N.
  - assert (E : is_digit d = true) by (unfold is_digit, digit in *; apply andb_true_intro; split; apply Z.leb_le; lia).
    rewrite E, IH. reflexivity.
Qed.

(** C112: D moves the cursor [n] lines down and U moves it [n] lines up, for all
    [n] but 0 ... *)
Theorem C112_lines_partial : forall line n, n <> 0 ->
  line_after line (move 66 65 n) = line + n /\ line_after line (move 65 66 n) = line - n.
Proof.
  intros line n N. unfold move, line_after. cbn [app].
  assert (DA : dec (Z.abs n) = dec_nat (Z.abs n))
    by (unfold dec; destruct (Z.ltb_spec (Z.abs n) 0); [lia|reflexivity]).
  destruct (dec_nat_spec (Z.abs n) ltac:(lia)) as (F & _ & V & _). rewrite DA.
  destruct (Z.ltb_spec 0 n); rewrite !number_digits, V by auto; lia.
Qed.
(** ... because for 0 both write a sequence that moves it one line. *)
Theorem C112_lines_refuted : forall line t,
  Computes term_field 68 (0 :: t) t (move 66 65 0) /\ line_after line (move 66 65 0) = line - 1 /\
  Computes term_field 85 (0 :: t) t (move 65 66 0) /\ line_after line (move 65 66 0) = line + 1.
Proof.
  intros line t. split; [|split; [|split]]; try reflexivity; [apply C112_down|apply C112_up];
    unfold in64, INT64_MIN, INT64_MAX; lia.
Qed.

Example C112_example :
  Ready_lib 1 term_field 3 (lib_world term_fl [34; 12; 7]) /\
  Computes term_field 71 [34; 12; 7] [7] [27; 91; 51; 53; 59; 49; 51; 72] /\
  Computes term_field 68 [-15] [] [27; 91; 49; 53; 65] /\
  Computes term_field 85 [-15] [] [27; 91; 49; 53; 66].
Proof.
  split; [apply lib_world_ready; vm_compute; reflexivity|].
  split; [apply (C112_goto 12 34 [7]); unfold INT64_MAX; lia|].
  split; [apply (C112_down (-15) [])|apply (C112_up (-15) [])];
    unfold in64, INT64_MIN, INT64_MAX; lia.
Qed.

Print Assumptions C112_open.
Print Assumptions C112_fixed.
Print Assumptions C112_down.
Print Assumptions C112_up.
Print Assumptions C112_goto.
Print Assumptions C112_lines_partial.
Print Assumptions C112_lines_refuted.
