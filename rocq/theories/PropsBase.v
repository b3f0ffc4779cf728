(** * Property C54: the BASE fingerprint *)

From Coq Require Import String ZArith List Bool Lia.
From Verif Require Import Base BaseProofs VectorModel VectorProofs TextModel TextProofs
  StackModel StackProofs FieldModel World IpModel LoadModel FingModel CoreModel
  UniModel ExecProofs States PropsStack PropsIO PropsFing.
Import ListNotations.
Open Scope Z_scope.

(** ** Specification *)

(** The digits are those of Crockford, without I, L, O and U. *)
Definition symbol (x : Z) : Z := nth (Z.to_nat x)
  [48; 49; 50; 51; 52; 53; 54; 55; 56; 57; 65; 66; 67; 68; 69; 70; 71; 72; 74; 75; 77; 78; 80; 81; 82; 83; 84;
   86; 87; 88; 89; 90] 0.
(** [text] is the numeral of [n] in base [b]: digits below the base, no leading zero. *)
Definition numeral (b n : Z) (text : bytes) : Prop := exists x xs,
  text = map symbol (x :: xs) /\ Forall (fun d => 0 <= d < b) (x :: xs) /\
  (xs <> [] -> x <> 0) /\ fold_left (fun a d => a * b + d) (x :: xs) 0 = n.

(** ** Tables *)

Definition upto (n : nat) : list Z := map Z.of_nat (seq 0 n).
Lemma upto_in n z : 0 <= z < Z.of_nat n -> In z (upto n).
Proof. intros H. apply in_map_iff. exists (Z.to_nat z). split; [lia|]. apply in_seq. lia. Qed.
Lemma symbol_tab x : 0 <= x < 32 -> tab_get digit_map x = Ok (symbol x).
Proof.
  intros H. assert (K : forallb (fun x => match tab_get digit_map x with Ok d => d =? symbol x | Bad _ => false end) (upto 32) = true)
    by (vm_compute; reflexivity).
  rewrite forallb_forall in K. specialize (K x (upto_in 32 x H)). destruct (tab_get digit_map x); [|discriminate].
  apply Z.eqb_eq in K. now subst.
Qed.
Lemma symbol_find b x : 2 <= b <= 32 -> 0 <= x < b -> digit_find (S (Z.to_nat b)) 0 (symbol x) = Ok (Some x).
Proof.
  intros Hb Hx. assert (K : forallb (fun b => forallb (fun x => negb (x <? b) || negb (2 <=? b) ||
      match digit_find (S (Z.to_nat b)) 0 (symbol x) with Ok (Some y) => y =? x | _ => false end) (upto 32)) (upto 33) = true)
    by (vm_compute; reflexivity).
  rewrite forallb_forall in K. specialize (K b (upto_in 33 b ltac:(lia))). cbv beta in K.
  rewrite forallb_forall in K. specialize (K x (upto_in 32 x ltac:(lia))). cbv beta in K.
  destruct (Z.ltb_spec x b); [|lia]. destruct (Z.leb_spec 2 b); [|lia]. cbn [negb orb] in K.
  destruct (digit_find _ 0 (symbol x)) as [[y|]|]; try discriminate. apply Z.eqb_eq in K. now subst.
Qed.
Lemma symbol_char x : 0 <= x < 32 -> toupper (symbol x) = symbol x /\ isspace (symbol x) = false /\ 0 <= symbol x <= 127.
Proof.
  intros H. assert (K : forallb (fun x => (toupper (symbol x) =? symbol x) && negb (isspace (symbol x)) &&
     (0 <=? symbol x) && (symbol x <=? 127)) (upto 32) = true) by (vm_compute; reflexivity).
  rewrite forallb_forall in K. specialize (K x (upto_in 32 x H)). cbv beta in K.
  apply andb_prop in K. destruct K as (K & K4). apply andb_prop in K. destruct K as (K & K3).
  apply andb_prop in K. destruct K as (K1 & K2). apply Z.eqb_eq in K1. apply negb_true_iff in K2.
  split; [exact K1|]. split; [exact K2|]. lia.
Qed.

(** ** Printing *)

Lemma fold_snoc b xs d a : fold_left (fun a d => a * b + d) (xs ++ [d]) a = fold_left (fun a d => a * b + d) xs a * b + d.
Proof. now rewrite fold_left_app. Qed.
Lemma print_base_numeral b : 2 <= b <= 32 -> forall f n low, 0 <= n < 2 ^ Z.of_nat f -> exists text,
  print_base (S f) n b low = Ok text /\ numeral b n text.
Proof.
  intros Hb. induction f as [|f IH]; intros n low Hn.
  - assert (n = 0) by (change (2 ^ Z.of_nat 0) with 1 in Hn; lia). subst n. exists (map symbol [0]). split.
    + cbn [print_base]. rewrite Z.rem_0_l, Z.quot_0_l by lia. cbn [Z.gtb Z.compare bind].
      destruct (Z.leb_spec b 32); [|lia]. reflexivity.
    + exists 0, []. split; [reflexivity|]. split; [constructor; [lia|constructor]|]. split; [congruence|reflexivity].
  - remember (S f) as sf. cbn [print_base]. rewrite Z.rem_mod_nonneg, Z.quot_div_nonneg by lia.
    pose proof (Z.mod_pos_bound n b ltac:(lia)) as Hm. pose proof (Z.div_pos n b ltac:(lia) ltac:(lia)) as Hd.
    pose proof (Z.div_mod n b ltac:(lia)) as Dm.
    rewrite (symbol_tab (n mod b)) by lia. destruct (Z.leb_spec b 32); [|lia].
    destruct (Z.gtb_spec (n / b) 0) as [G|G].
    + destruct (IH (n / b) false) as (text & E & x & xs & T & Fx & Lz & V).
      { split; [lia|]. subst sf. rewrite Nat2Z.inj_succ, Z.pow_succ_r in Hn by lia.
        apply Z.div_lt_upper_bound; [lia|]. nia. }
      rewrite E. cbn [bind]. exists (map symbol (x :: xs ++ [n mod b])). split.
      { rewrite T. cbn [map]. rewrite map_app. reflexivity. }
      exists x, (xs ++ [n mod b]). split; [reflexivity|]. split.
      { apply Forall_cons; [now inversion Fx|]. apply Forall_app. split; [now inversion Fx|]. constructor; [lia|constructor]. }
      split.
      { intros _ ->. destruct xs as [|y ys]; [|apply Lz; [congruence|reflexivity]]. cbn [fold_left] in V. lia. }
      rewrite app_comm_cons, fold_snoc, V. lia.
    + assert (n / b = 0) by lia. cbn [bind]. exists (map symbol [n mod b]). split; [reflexivity|].
      exists (n mod b), []. split; [reflexivity|]. split; [constructor; [lia|constructor]|]. split; [congruence|].
      cbn [fold_left]. lia.
Qed.
Lemma print_base_S f num base low : print_base (S f) num base low =
  (pre <-- (if Z.quot num base >? 0 then print_base f (Z.quot num base) base false else Ok []) ;;
   if base <=? 32 then d <-- tab_get digit_map (Z.rem num base) ;; Ok (pre ++ [d])
   else match assoc base base_map with
        | Some t => d <-- tab_get t (Z.rem num base) ;; Ok (pre ++ [d])
        | None => Ok (pre ++ dec (Z.rem num base) ++ if low then [] else [44])
        end).
Proof. reflexivity. Qed.
(** For any base above one and any number that is not negative the tables are not overrun. *)
Lemma print_base_safe b : 2 <= b -> forall f n low, 0 <= n < 2 ^ Z.of_nat f -> exists text,
  print_base (S f) n b low = Ok text.
Proof.
  intros Hb. induction f as [|f IH]; intros n low Hn.
  all: rewrite print_base_S, Z.rem_mod_nonneg, Z.quot_div_nonneg by lia.
  all: pose proof (Z.mod_pos_bound n b ltac:(lia)) as Hm; pose proof (Z.div_pos n b ltac:(lia) ltac:(lia)) as Hd;
    pose proof (Z.div_mod n b ltac:(lia)) as Dm.
  all: match goal with |- exists _, bind ?x _ = _ => assert (P : exists pre, x = Ok pre) end.
  { change (2 ^ Z.of_nat 0) with 1 in Hn. assert (n / b = 0) by (apply Z.div_small; lia). rewrite H. eexists. reflexivity. }
  2: { destruct (Z.gtb_spec (n / b) 0); [|eexists; reflexivity]. apply IH. split; [lia|].
    rewrite Nat2Z.inj_succ, Z.pow_succ_r in Hn by lia. apply Z.div_lt_upper_bound; [lia|]. nia. }
  all: destruct P as (pre & ->); cbn [bind].
  all: destruct (Z.leb_spec b 32); [rewrite (symbol_tab (n mod b)) by lia; eexists; reflexivity|].
  all: assert (T : forall t k, Z.of_nat (length t) = k -> b = k -> exists d, tab_get t (n mod b) = Ok d)
    by (intros t k Lk ->; unfold tab_get; destruct (Z.leb_spec 0 (n mod k)); [|lia];
        destruct (Z.ltb_spec (n mod k) (Z.of_nat (length t))); [|lia]; eexists; reflexivity).
  all: unfold base_map; cbn [assoc].
  all: destruct (Z.eqb_spec 36 b) as [E|_]; [destruct (T base36 36 eq_refl (eq_sym E)) as (d & ->); eexists; reflexivity|].
  all: destruct (Z.eqb_spec 58 b) as [E|_]; [destruct (T base58 58 eq_refl (eq_sym E)) as (d & ->); eexists; reflexivity|].
  all: destruct (Z.eqb_spec 64 b) as [E|_]; [destruct (T base64 64 eq_refl (eq_sym E)) as (d & ->); eexists; reflexivity|].
  all: destruct (Z.eqb_spec 85 b) as [E|_]; [destruct (T base85 85 eq_refl (eq_sym E)) as (d & ->); eexists; reflexivity|].
  all: eexists; reflexivity.
Qed.

(** ** Reading *)

Lemma fold_up b : 2 <= b -> forall xs a, 0 <= a -> Forall (fun d => 0 <= d < b) xs ->
  a <= fold_left (fun a d => a * b + d) xs a.
Proof.
  intros Hb. induction xs as [|x xs IH]; intros a Ha F; cbn [fold_left]; [lia|]. inversion F; subst.
  assert (K : 0 <= a * b + x) by nia. specialize (IH _ K ltac:(assumption)). nia.
Qed.
Lemma read_base_run b : 2 <= b <= 32 -> forall xs f a x, (length xs < f)%nat -> 0 <= a ->
  Forall (fun d => 0 <= d < b) (x :: xs) -> fold_left (fun a d => a * b + d) (x :: xs) a <= INT64_MAX ->
  read_base f (map symbol (x :: xs)) a b = Ok (fold_left (fun a d => a * b + d) (x :: xs) a).
Proof.
  intros Hb. induction xs as [|y xs IH]; intros f a x Lf Ha Fx M; (destruct f as [|f]; [cbn [length] in Lf; lia|]);
    cbn [read_base]; inversion Fx as [|? ? Hx Fxs]; subst; change (nth 0 (map symbol (x :: _)) 0) with (symbol x);
    rewrite (symbol_find b x Hb Hx); cbn [bind].
  all: assert (Up : map toupper (map symbol (x :: _)) = map symbol (x :: _)) by
    (rewrite map_map; apply map_ext_in; intros z Hz; rewrite Forall_forall in Fx; specialize (Fx z Hz);
     apply symbol_char; lia).
  all: destruct (Z.leb_spec b 36); [|lia]; rewrite Up.
  all: pose proof (fold_up b ltac:(lia) _ (a * b + x) ltac:(nia) Fxs) as U; cbn [fold_left] in M.
  all: unfold mul64, chk64.
  all: assert (I : in64 (a * b)) by (unfold in64, INT64_MIN in *; cbn [fold_left] in U; nia).
  all: assert (I2 : in64 (a * b + x)) by (unfold in64, INT64_MIN in *; cbn [fold_left] in U; nia).
  all: rewrite (proj2 (in64b_true _) I); cbn [bind]; rewrite (to_i64_id _ I2).
  - reflexivity.
  - cbn [map tl]. change (symbol y :: map symbol xs) with (map symbol (y :: xs)). rewrite IH; auto; [cbn [length] in Lf; lia|nia].
Qed.

(** ** The instructions *)

(** What letter [c] prints: the number and the base it takes from the stack [l]. *)
Definition printed (c : Z) (l : list Z) : option (Z * Z * list Z) :=
  if c =? 66 then Some (hd 0 l, 2, tl l)
  else if c =? 79 then Some (hd 0 l, 8, tl l)
  else if c =? 72 then Some (hd 0 l, 16, tl l)
  else if c =? 78 then Some (hd 0 (tl l), hd 0 l, tl (tl l))
  else None.

Lemma base_print F D s fld l c n b l' : Letter s FP_BASE fld c -> Holds s l -> printed c l = Some (n, b, l') ->
  match print_num n b with
  | Ok text => exists s', execute F (S D) c s = Ok (ENone, s') /\
      World_and_stack s s' (set_w_out (w_out (s_w s) ++ text) (s_w s)) l'
  | Bad e => execute F (S D) c s = Bad e
  end.
Proof.
  intros L H P. rewrite (execute_letter F D _ _ _ _ L). change (fp_exec F FP_BASE fld c s) with (base_exec c s).
  unfold printed in P. unfold base_exec.
  assert (Fin : forall s0 text, Only_stack s s0 l' -> exists s', (out text ;;; ok) s0 = Ok (ENone, s') /\
    World_and_stack s s' (set_w_out (w_out (s_w s) ++ text) (s_w s)) l').
  { intros s0 text O. eexists. split; [reflexivity|]. cbn [s_w s_r]. split; [now rewrite (Only_stack_w _ _ _ O)|].
    exists s0. split; [exact O|reflexivity]. }
  destruct (Z.eqb_spec c 66) as [->|N1].
  { inversion P; subst. xpop. unfold mbind at 1, lift. destruct (print_num _ 2); [apply Fin; exact C|reflexivity]. }
  destruct (Z.eqb_spec c 79) as [->|N2].
  { change (79 =? 72) with false. change (79 =? 73) with false. change (79 =? 78) with false. change (79 =? 79) with true. cbv iota.
    inversion P; subst. xpop. unfold mbind at 1, lift. destruct (print_num _ 8); [apply Fin; exact C|reflexivity]. }
  destruct (Z.eqb_spec c 72) as [->|N3].
  { inversion P; subst. xpop. unfold mbind at 1, lift. destruct (print_num _ 16); [apply Fin; exact C|reflexivity]. }
  destruct (Z.eqb_spec c 78) as [->|N4]; [|discriminate].
  change (78 =? 73) with false. cbv iota. inversion P; subst. xpop. xpop. unfold mbind at 1, lift.
  destruct (print_num _ _); [|reflexivity]. apply Fin. eapply Only_stack_trans; eauto.
Qed.

(** A number that is not negative is printed as its numeral followed by a blank. *)
Theorem C54_print_partial : forall F D s fld l c n b l',
  Letter s FP_BASE fld c -> Holds s l -> printed c l = Some (n, b, l') -> 2 <= b <= 32 -> 0 <= n <= INT64_MAX ->
  exists s' text, execute F (S D) c s = Ok (ENone, s') /\ numeral b n text /\
    World_and_stack s s' (set_w_out (w_out (s_w s) ++ text ++ [32]) (s_w s)) l'.
Proof.
  intros F D s fld l c n b l' L H P Hb Hn. pose proof (base_print F D s fld l c n b l' L H P) as K.
  destruct (print_base_numeral b Hb 64 n true) as (text & E & Nu).
  { change (2 ^ Z.of_nat 64) with 18446744073709551616. unfold INT64_MAX in Hn. lia. }
  unfold print_num in K. replace (to_u32 b) with b in K by (unfold to_u32; rewrite Z.mod_small; lia).
  destruct (Z.gtb_spec b 1); [|lia]. rewrite E in K. cbn [bind] in K. destruct K as (s' & E' & W).
  exists s', text. auto.
Qed.
(** Base one: that many zeros. *)
Theorem C54_unary_partial : forall F D s fld n l,
  Letter s FP_BASE fld 78 -> Holds s (1 :: n :: l) -> 0 <= n ->
  exists s', execute F (S D) 78 s = Ok (ENone, s') /\
    World_and_stack s s' (set_w_out (w_out (s_w s) ++ repeat 48 (Z.to_nat n) ++ [32]) (s_w s)) l.
Proof. intros F D s fld n l L H _. exact (base_print F D s fld _ 78 n 1 l L H eq_refl). Qed.
(** No number that is not negative makes it read outside its tables, whatever the base. *)
Theorem C54_safe_partial : forall F D s fld l c n b l',
  Letter s FP_BASE fld c -> Holds s l -> printed c l = Some (n, b, l') -> 0 <= n <= INT64_MAX ->
  exists s' text, execute F (S D) c s = Ok (ENone, s') /\
    World_and_stack s s' (set_w_out (w_out (s_w s) ++ text ++ [32]) (s_w s)) l'.
Proof.
  intros F D s fld l c n b l' L H P Hn. pose proof (base_print F D s fld l c n b l' L H P) as K.
  unfold print_num in K. destruct (Z.gtb_spec (to_u32 b) 1) as [G|G].
  - destruct (print_base_safe (to_u32 b) ltac:(lia) 64 n true) as (text & E).
    { change (2 ^ Z.of_nat 64) with 18446744073709551616. unfold INT64_MAX in Hn. lia. }
    rewrite E in K. cbn [bind] in K. destruct K as (s' & E' & W). exists s', text. auto.
  - cbn [bind] in K. destruct K as (s' & E' & W). eexists s', _. split; [exact E'|exact W].
Qed.
(** The property is false of negative numbers: their digits are outside the table, for
    every base that has one and every negative number the base does not divide. *)
Theorem C54_refuted : forall F D s fld l c n b l',
  Letter s FP_BASE fld c -> Holds s l -> printed c l = Some (n, b, l') -> 2 <= b <= 32 -> n < 0 -> Z.rem n b <> 0 ->
  execute F (S D) c s = Bad BadOob.
Proof.
  intros F D s fld l c n b l' L H P Hb Hn Hr. pose proof (base_print F D s fld l c n b l' L H P) as K.
  unfold print_num in K. replace (to_u32 b) with b in K by (unfold to_u32; rewrite Z.mod_small; lia).
  destruct (Z.gtb_spec b 1); [|lia]. rewrite print_base_S in K.
  assert (Q : Z.quot n b <= 0) by (apply Z.quot_le_upper_bound; lia || (pose proof (Z.quot_opp_l (-n) b ltac:(lia)); rewrite Z.opp_involutive in *; pose proof (Z.quot_pos (-n) b ltac:(lia) ltac:(lia)); lia)).
  destruct (Z.gtb_spec (Z.quot n b) 0); [lia|]. cbn [bind] in K.
  destruct (Z.leb_spec b 32); [|lia].
  assert (R : Z.rem n b < 0). { pose proof (Z.rem_nonpos n b ltac:(lia) ltac:(lia)). lia. }
  unfold tab_get in K. destruct (Z.leb_spec 0 (Z.rem n b)); [lia|]. exact K.
Qed.

(** Reading: blanks, the numeral, and a blank that stays. *)
Lemma take_word_run b xs r : b <= 32 -> Forall (fun d => 0 <= d < b) xs ->
  take_word (map symbol xs ++ 32 :: r) = (map symbol xs, 32 :: r).
Proof.
  intros Hb F. induction F as [|x xs Hx F IH]; [reflexivity|]. cbn [map app take_word].
  destruct (symbol_char x ltac:(lia)) as (_ & -> & _). now rewrite IH.
Qed.
Lemma skipws_blanks bl : Forall (fun c => isspace c = true) bl -> forall r, skipws (bl ++ r) = skipws r.
Proof. intros F r. induction F as [|c bl Hc F IH]; [reflexivity|]. cbn [app skipws]. now rewrite Hc. Qed.

Theorem C54_read_partial : forall F D s fld l b n text blanks rest,
  Letter s FP_BASE fld 73 -> Holds s (b :: l) -> 2 <= b <= 32 -> numeral b n text -> 0 <= n <= INT64_MAX ->
  Forall (fun c => isspace c = true) blanks -> w_in (s_w s) = blanks ++ text ++ 32 :: rest ->
  exists s', execute F (S D) 73 s = Ok (ENone, s') /\
    World_and_stack s s' (set_w_in (32 :: rest) (s_w s)) (n :: l).
Proof.
  intros F D s fld l b n text blanks rest L H Hb (x & xs & T & Fx & _ & V) Hn Bl In.
  rewrite (execute_letter F D _ _ _ _ L). change (fp_exec F FP_BASE fld 73 s) with (base_exec 73 s).
  unfold base_exec. change (73 =? 66) with false. change (73 =? 72) with false. change (73 =? 73) with true. cbv iota.
  xpop. cbn [hd tl] in C.
  set (sm := {| s_w := set_w_in (32 :: rest) (s_w s0); s_r := s_r s0 |}).
  assert (CW : cin_word s0 = Ok (text, sm)).
  { unfold cin_word, mbind, getW. rewrite (Only_stack_w _ _ _ C), In, (skipws_blanks _ Bl), T.
    assert (Sk : skipws (map symbol (x :: xs) ++ 32 :: rest) = map symbol (x :: xs) ++ 32 :: rest).
    { cbn [map app skipws]. inversion Fx; subst. destruct (symbol_char x ltac:(lia)) as (_ & -> & _). reflexivity. }
    rewrite Sk, (take_word_run b) by (lia || assumption). unfold modW, ret, sm.
    rewrite (Only_stack_w _ _ _ C). f_equal. f_equal. rewrite map_map. apply map_ext_in. intros z Hz.
    rewrite Forall_forall in Fx. specialize (Fx z Hz). apply to_i8_id. destruct (symbol_char z ltac:(lia)). lia. }
  cbn [hd]. rewrite (run_bind _ _ _ _ _ CW).
  assert (RN : read_num text b = Ok n).
  { unfold read_num. replace (to_u32 b) with b by (unfold to_u32; rewrite Z.mod_small; lia).
    destruct (Z.leb_spec b 1); [lia|]. destruct (Z.leb_spec b 32); [|lia]. rewrite T, <- V.
    apply read_base_run; [lia| |lia|exact Fx|lia]. rewrite map_length. cbn [length]. lia. }
  rewrite (run_bind (lift _) _ sm n sm) by (now apply run_lift).
  assert (Hm : Holds sm l) by exact (Only_stack_holds _ _ _ _ H C).
  destruct (pushS_plain sm l n Hm) as (s1 & E1 & C1). rewrite (run_bind _ _ _ _ _ E1).
  exists s1. split; [reflexivity|]. split; [rewrite (Only_stack_w _ _ _ C1); unfold sm; cbn [s_w]; now rewrite (Only_stack_w _ _ _ C)|].
  exists {| s_w := s_w s0; s_r := s_r s1 |}. split; [|reflexivity]. apply (Only_stack_trans _ _ _ _ _ C).
  destruct C1 as (k & k' & A1 & A2 & A3 & ->). exists k, k'. split; [exact A1|]. split; [exact A2|]. split; [exact A3|].
  reflexivity.
Qed.

(** Printing and reading back: the number. *)
Theorem C54_partial : forall F D s fld l c n b l' t fld' l2 rest,
  Letter s FP_BASE fld c -> Holds s l -> printed c l = Some (n, b, l') -> 2 <= b <= 32 -> 0 <= n <= INT64_MAX ->
  exists s' o, execute F (S D) c s = Ok (ENone, s') /\ w_out (s_w s') = w_out (s_w s) ++ o /\
    (Letter t FP_BASE fld' 73 -> Holds t (b :: l2) -> w_in (s_w t) = o ++ rest ->
     exists t', execute F (S D) 73 t = Ok (ENone, t') /\
       World_and_stack t t' (set_w_in (32 :: rest) (s_w t)) (n :: l2)).
Proof.
  intros F D s fld l c n b l' t fld' l2 rest L H P Hb Hn.
  destruct (C54_print_partial F D s fld l c n b l' L H P Hb Hn) as (s' & text & E & Nu & W & _).
  exists s', (text ++ [32]). split; [exact E|]. split; [rewrite W; reflexivity|]. intros L2 H2 In.
  apply (C54_read_partial F D t fld' l2 b n text [] rest L2 H2 Hb Nu Hn (Forall_nil _)).
  rewrite In, <- app_assoc. reflexivity.
Qed.
(** Base one reads the length of the word, so a positive number is read back. *)
Theorem C54_read_unary_partial : forall F D s fld l n blanks rest,
  Letter s FP_BASE fld 73 -> Holds s (1 :: l) -> 0 < n ->
  Forall (fun c => isspace c = true) blanks -> w_in (s_w s) = blanks ++ repeat 48 (Z.to_nat n) ++ 32 :: rest ->
  exists s', execute F (S D) 73 s = Ok (ENone, s') /\
    World_and_stack s s' (set_w_in (32 :: rest) (s_w s)) (n :: l).
Proof.
  intros F D s fld l n blanks rest L H Hn Bl In.
  rewrite (execute_letter F D _ _ _ _ L). change (fp_exec F FP_BASE fld 73 s) with (base_exec 73 s).
  unfold base_exec. change (73 =? 66) with false. change (73 =? 72) with false. change (73 =? 73) with true. cbv iota.
  xpop. cbn [hd tl] in C.
  set (sm := {| s_w := set_w_in (32 :: rest) (s_w s0); s_r := s_r s0 |}).
  assert (TW : forall m, take_word (repeat 48 m ++ 32 :: rest) = (repeat 48 m, 32 :: rest)).
  { induction m as [|m IH]; [reflexivity|]. cbn [repeat app take_word]. rewrite IH. reflexivity. }
  assert (CW : cin_word s0 = Ok (repeat 48 (Z.to_nat n), sm)).
  { unfold cin_word, mbind, getW. rewrite (Only_stack_w _ _ _ C), In, (skipws_blanks _ Bl).
    replace (Z.to_nat n) with (S (Z.to_nat (n - 1))) by lia.
    change (skipws (repeat 48 (S (Z.to_nat (n - 1))) ++ 32 :: rest)) with (repeat 48 (S (Z.to_nat (n - 1))) ++ 32 :: rest).
    rewrite TW. unfold modW, ret, sm. rewrite (Only_stack_w _ _ _ C). f_equal. f_equal.
    rewrite <- (map_id (repeat 48 _)) at 2. apply map_ext_in. intros z Hz. apply repeat_spec in Hz. subst. reflexivity. }
  cbn [hd]. rewrite (run_bind _ _ _ _ _ CW).
  assert (RN : read_num (repeat 48 (Z.to_nat n)) 1 = Ok n).
  { unfold read_num. change (to_u32 1 <=? 1) with true. cbv iota. rewrite repeat_length, Z2Nat.id by lia. reflexivity. }
  rewrite (run_bind (lift _) _ sm n sm) by (now apply run_lift).
  assert (Hm : Holds sm l) by exact (Only_stack_holds _ _ _ _ H C).
  destruct (pushS_plain sm l n Hm) as (s1 & E1 & C1). rewrite (run_bind _ _ _ _ _ E1).
  exists s1. split; [reflexivity|]. split; [rewrite (Only_stack_w _ _ _ C1); unfold sm; cbn [s_w]; now rewrite (Only_stack_w _ _ _ C)|].
  exists {| s_w := s_w s0; s_r := s_r s1 |}. split; [|reflexivity]. apply (Only_stack_trans _ _ _ _ _ C).
  destruct C1 as (k & k' & A1 & A2 & A3 & ->). exists k, k'. split; [exact A1|]. split; [exact A2|]. split; [exact A3|].
  reflexivity.
Qed.
(** A numeral is determined by the number, so [numeral] leaves the printer no freedom. *)
Theorem C54_unique : forall b n text text', 2 <= b -> numeral b n text -> numeral b n text' -> text = text'.
Proof.
  intros b n text text' Hb (x & xs & -> & Fx & Lx & Vx) (y & ys & -> & Fy & Ly & Vy). f_equal.
  set (val := fun l => fold_left (fun a d => a * b + d) l 0).
  assert (K : forall l l', Forall (fun d => 0 <= d < b) l -> Forall (fun d => 0 <= d < b) l' ->
    (hd 1 l <> 0) -> (hd 1 l' <> 0) -> val l = val l' -> l = l').
  { induction l as [|d l IH] using rev_ind; intros l'; destruct l' as [|d' l' _] using rev_ind; intros F1 F2 H1 H2 V.
    - reflexivity.
    - exfalso. unfold val in V. cbn [fold_left] in V. rewrite fold_snoc in V. apply Forall_app in F2. destruct F2 as (F2 & F3).
      inversion F3; subst. destruct l' as [|z l']; [cbn in *; lia|]. cbn [hd app] in H2. inversion F2; subst. cbn [fold_left] in V.
      pose proof (fold_up b Hb l' (0 * b + z) ltac:(lia) ltac:(assumption)). nia.
    - exfalso. unfold val in V. cbn [fold_left] in V. rewrite fold_snoc in V. apply Forall_app in F1. destruct F1 as (F1 & F3).
      inversion F3; subst. destruct l as [|z l]; [cbn in *; lia|]. cbn [hd app] in H1. inversion F1; subst. cbn [fold_left] in V.
      pose proof (fold_up b Hb l (0 * b + z) ltac:(lia) ltac:(assumption)). nia.
    - unfold val in V. rewrite !fold_snoc in V. fold (val l) in V. fold (val l') in V.
      apply Forall_app in F1, F2. destruct F1 as (F1 & G1). destruct F2 as (F2 & G2). inversion G1; inversion G2; subst.
      assert (val l = val l' /\ d = d').
      { assert (X : (val l * b + d) / b = (val l' * b + d') / b) by (now rewrite V).
        rewrite !Z.div_add_l, !Z.div_small in X by lia. nia. }
      destruct H as (V1 & ->). f_equal. apply IH; auto.
      + destruct l; cbn in *; [lia|auto].
      + destruct l'; cbn in *; [lia|auto]. }
  destruct xs as [|x2 xs], ys as [|y2 ys].
  - cbn in Vx, Vy. congruence.
  - exfalso. specialize (Ly ltac:(discriminate)). cbn [fold_left] in *. inversion Fx; subst. inversion Fy as [|? ? Y1 Y2]; subst.
    inversion Y2; subst. pose proof (fold_up b Hb ys ((0 * b + y) * b + y2) ltac:(nia) ltac:(assumption)). nia.
  - exfalso. specialize (Lx ltac:(discriminate)). cbn [fold_left] in *. inversion Fy; subst. inversion Fx as [|? ? Y1 Y2]; subst.
    inversion Y2; subst. pose proof (fold_up b Hb xs ((0 * b + x) * b + x2) ltac:(nia) ltac:(assumption)). nia.
  - apply K; auto; [cbn; apply Lx; discriminate|cbn; apply Ly; discriminate|]. unfold val. congruence.
Qed.
(** Reading is not confined to the digits of the base: the next digit counts as well. *)
Theorem C54_digit_refuted : forall F D s fld l b blanks rest,
  Letter s FP_BASE fld 73 -> Holds s (b :: l) -> 2 <= b <= 31 ->
  Forall (fun c => isspace c = true) blanks -> w_in (s_w s) = blanks ++ symbol b :: 32 :: rest ->
  exists s', execute F (S D) 73 s = Ok (ENone, s') /\
    World_and_stack s s' (set_w_in (32 :: rest) (s_w s)) (b :: l).
Proof.
  intros F D s fld l b blanks rest L H Hb Bl In.
  rewrite (execute_letter F D _ _ _ _ L). change (fp_exec F FP_BASE fld 73 s) with (base_exec 73 s).
  unfold base_exec. change (73 =? 66) with false. change (73 =? 72) with false. change (73 =? 73) with true. cbv iota.
  xpop. cbn [hd tl] in C.
  set (sm := {| s_w := set_w_in (32 :: rest) (s_w s0); s_r := s_r s0 |}).
  destruct (symbol_char b ltac:(lia)) as (_ & Sp & Ch).
  assert (CW : cin_word s0 = Ok ([symbol b], sm)).
  { unfold cin_word, mbind, getW. rewrite (Only_stack_w _ _ _ C), In, (skipws_blanks _ Bl).
    cbn [skipws]. rewrite Sp. cbn [take_word]. rewrite Sp. change (isspace 32) with true. cbv iota.
    unfold modW, ret, sm. rewrite (Only_stack_w _ _ _ C). cbn [map]. rewrite to_i8_id by lia. reflexivity. }
  cbn [hd]. rewrite (run_bind _ _ _ _ _ CW).
  assert (RN : read_num [symbol b] b = Ok b).
  { assert (K : forallb (fun b => negb (2 <=? b) || match read_num [symbol b] b with Ok y => y =? b | _ => false end) (upto 32) = true)
      by (vm_compute; reflexivity).
    rewrite forallb_forall in K. specialize (K b (upto_in 32 b ltac:(lia))). cbv beta in K.
    destruct (Z.leb_spec 2 b); [|lia]. cbn [negb orb] in K. destruct (read_num _ _); [|discriminate].
    apply Z.eqb_eq in K. now subst. }
  rewrite (run_bind (lift _) _ sm b sm) by (now apply run_lift).
  assert (Hm : Holds sm l) by exact (Only_stack_holds _ _ _ _ H C).
  destruct (pushS_plain sm l b Hm) as (s1 & E1 & C1). rewrite (run_bind _ _ _ _ _ E1).
  exists s1. split; [reflexivity|]. split; [rewrite (Only_stack_w _ _ _ C1); unfold sm; cbn [s_w]; now rewrite (Only_stack_w _ _ _ C)|].
  exists {| s_w := s_w s0; s_r := s_r s1 |}. split; [|reflexivity]. apply (Only_stack_trans _ _ _ _ _ C).
  destruct C1 as (k & k' & A1 & A2 & A3 & ->). exists k, k'. split; [exact A1|]. split; [exact A2|]. split; [exact A3|].
  reflexivity.
Qed.
(** In base 64 the ten last digits are the character zero. *)
Example C54_base64 : print_num 54 64 = Ok [0; 32] /\ print_num 63 64 = Ok [0; 32].
Proof. vm_compute. auto. Qed.
(** 300 in base 20. *)
Example C54_ex : let s := loaded [FP_BASE] [20; 314] in
  Letter s FP_BASE 0 78 /\ Holds s [20; 314] /\ printed 78 [20; 314] = Some (314, 20, []) /\
  numeral 20 314 [70; 69] /\
  match execute 10 1 78 s with Ok (ENone, s') => w_out (s_w s') = [70; 69; 32] | _ => False end.
Proof.
  cbv zeta. split; [apply letterb_ok; vm_compute; reflexivity|].
  split; [apply holds_with_list; vm_compute; [reflexivity|discriminate]|]. split; [reflexivity|].
  split; [|vm_compute; reflexivity]. exists 15, [14]. split; [reflexivity|].
  split; [repeat constructor; lia|]. split; [lia|reflexivity].
Qed.
Print Assumptions C54_partial.
Print Assumptions C54_print_partial.
Print Assumptions C54_read_partial.
Print Assumptions C54_unary_partial.
Print Assumptions C54_read_unary_partial.
Print Assumptions C54_safe_partial.
Print Assumptions C54_unique.
Print Assumptions C54_refuted.
Print Assumptions C54_digit_refuted.
