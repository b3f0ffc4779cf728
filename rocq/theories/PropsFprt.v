(** * Property C124: the texts FPRT makes. *)

From Coq Require Import String ZArith List Bool Lia Reals Lra.
From Flocq Require Import Core BinarySingleNaN.
From Verif Require Import Base BaseProofs VectorModel VectorProofs TextModel TextProofs
  StackModel StackProofs FieldModel FieldProofs World IpModel LoadModel FingModel CoreModel
  UniModel ExecProofs FlowProofs States PropsStack PropsBlocks Effects SchedProofs PropsIO PropsLoad PropsFing
  DblModel FloatSpec FloatProofs PropsMath PropsFloat PropsPerl.
From Verif Require PropsFishFloat.
Import ListNotations.
Open Scope Z_scope.
Local Notation length := List.length.

(** ** Formats *)

Definition PERCENT : Z := 37.
(** [literal f t]: the format [f] converts nothing and stands for the text [t]. *)
Inductive literal : bytes -> bytes -> Prop :=
| lit_nil : literal [] []
| lit_char c f t : c <> PERCENT -> literal f t -> literal (c :: f) (c :: t)
| lit_percent f t : literal f t -> literal (PERCENT :: PERCENT :: f) (PERCENT :: t).

Lemma literal_text f t : literal f t -> forall g a,
  fprt_text (f ++ g) a = (r <-- fprt_text g a ;; Ok (t ++ r)).
Proof.
  assert (A : forall (x : res bytes) c u, (r <-- (r <-- x ;; Ok (u ++ r)) ;; Ok (c :: r)) = (r <-- x ;; Ok ((c :: u) ++ r)))
    by (intros [] ? ?; reflexivity).
  induction 1 as [|c f t N L IH|f t L IH]; intros g a.
  - cbn [app]. destruct (fprt_text g a); reflexivity.
  - cbn [app fprt_text]. rewrite (proj2 (Z.eqb_neq c 37) N), IH. apply A.
  - cbn [app fprt_text]. unfold PERCENT. cbn [Z.eqb Pos.eqb]. rewrite IH. apply A.
Qed.
Lemma literal_only f t a : literal f t -> fprt_text f a = Ok t.
Proof.
  intros L. pose proof (literal_text f t L [] a) as E. rewrite app_nil_r in E. rewrite E. cbn [fprt_text bind].
  now rewrite app_nil_r.
Qed.

(** ** What the instructions take from the stack *)

(** [given c x l v]: the cells [x], top first, hold the argument [v] of
    instruction [c]; the format is below them. *)
Definition given (c : Z) (x : list Z) (v : arg) : Prop :=
  c = 68 /\ (exists n, x = [n] /\ v = ADbl (dbl_of_bits n)) \/
  c = 70 /\ (exists n, x = [n] /\ v = ADbl (flt_of_bits n)) \/
  c = 73 /\ (exists n, x = [n] /\ v = ALong n) \/
  c = 76 /\ (exists lo hi, x = [lo; hi] /\ v = ALong (to_i64 (hi * 2 ^ 32 + lo mod 2 ^ 32))) \/
  c = 83 /\ (exists t, char_str t /\ x = t ++ [0] /\ v = AStr t).

Lemma fprt_run F D s c x v f l :
  Ready s FP_FPRT c (x ++ f ++ 0 :: l) -> given c x v -> char_str f ->
  match fprt_text f (Some v) with
  | Ok t => exists s', execute F (S D) c s = Ok (ENone, s') /\ Only_stack s s' (firstn 1023 t ++ 0 :: l)
  | Bad e => execute F (S D) c s = Bad e
  end.
Proof.
  intros ((fld & L) & H) G Ch. rewrite (execute_letter F D _ _ _ _ L).
  change (fp_exec F FP_FPRT fld c) with (fprt_exec c).
  assert (T : forall s1 w, Only_stack s s1 (f ++ 0 :: l) -> w = v ->
    match fprt_text f (Some v) with
    | Ok t => exists s', (f0 <- popString ;; t <- lift (fprt_format f0 w) ;; pushString t ;;; ok) s1 = Ok (ENone, s') /\
        Only_stack s s' (firstn 1023 t ++ 0 :: l)
    | Bad e => (f0 <- popString ;; t <- lift (fprt_format f0 w) ;; pushString t ;;; ok) s1 = Bad e
    end).
  { intros s1 w O1 ->. pose proof (Only_stack_holds _ _ _ _ H O1) as H1.
    destruct (popString_plain s1 f l Ch H1) as (s2 & E2 & O2). pose proof (Only_stack_holds _ _ _ _ H1 O2) as H2.
    unfold fprt_format. destruct (fprt_text f (Some v)) as [t|e] eqn:E.
    - destruct (pushString_plain s2 l (firstn 1023 t) H2) as (s3 & E3 & O3).
      exists s3. split.
      + rewrite (run_bind _ _ _ _ _ E2). rewrite (cstr_all f (char_str_no0 f Ch)), E. cbn [bind].
        rewrite (run_bind (lift (Ok (firstn 1023 t))) _ s2 _ s2) by reflexivity.
        rewrite (run_bind _ _ _ _ _ E3). reflexivity.
      + exact (Only_stack_trans _ _ _ _ _ O1 (Only_stack_trans _ _ _ _ _ O2 O3)).
    - rewrite (run_bind _ _ _ _ _ E2). rewrite (cstr_all f (char_str_no0 f Ch)), E. reflexivity. }
  unfold fprt_exec. cbv zeta.
  destruct G as [(-> & n & -> & E)|[(-> & n & -> & E)|[(-> & n & -> & E)|[(-> & lo & hi & -> & E)|(-> & t & Ct & -> & E)]]]];
    cbn [Z.eqb Pos.eqb].
  1-3: cbn [app] in H; destruct (popS_plain s _ H) as (s1 & E1 & O1); rewrite (run_bind _ _ _ _ _ E1); cbn [hd tl] in *;
    apply T; [exact O1|now rewrite E].
  - cbn [app] in H. destruct (popS_plain s _ H) as (s1 & E1 & O1). rewrite (run_bind _ _ _ _ _ E1). cbn [hd tl] in *.
    pose proof (Only_stack_holds _ _ _ _ H O1) as H1.
    destruct (popS_plain s1 _ H1) as (s2 & E2 & O2). rewrite (run_bind _ _ _ _ _ E2). cbn [hd tl] in *.
    apply T; [exact (Only_stack_trans _ _ _ _ _ O1 O2)|now rewrite E].
  - rewrite <- app_assoc in H. cbn [app] in H.
    destruct (popString_plain s t _ Ct H) as (s1 & E1 & O1). rewrite (run_bind _ _ _ _ _ E1).
    apply T; [exact O1|]. rewrite E. now rewrite (cstr_all t (char_str_no0 t Ct)).
Qed.

(** ** C124 Formatting *)

(** I and L print an integer.  L's is made of two cells of 32 bits each. *)
Definition integer (c : Z) (x : list Z) (n : Z) : Prop :=
  c = 73 /\ x = [n] \/
  c = 76 /\ exists lo hi, x = [lo; hi] /\ - 2 ^ 31 <= hi < 2 ^ 31 /\ n = hi * 2 ^ 32 + lo mod 2 ^ 32.
Lemma integer_given c x n : integer c x n -> given c x (ALong n).
Proof.
  unfold given. intros [(-> & ->)|(-> & lo & hi & -> & R & ->)].
  - right; right; left. split; [reflexivity|]. exists n. auto.
  - right; right; right; left. split; [reflexivity|]. exists lo, hi. split; [reflexivity|].
    rewrite to_i64_id; [reflexivity|]. pose proof (Z.mod_pos_bound lo (2 ^ 32) ltac:(reflexivity)).
    unfold in64, INT64_MIN, INT64_MAX. lia.
Qed.

(** What a text longer than 1023 bytes becomes. *)
Lemma fits (t : bytes) : (length t <= 1023)%nat -> firstn 1023 t = t.
Proof. apply firstn_all2. Qed.

Theorem C124_integer_partial : forall F D s c x n f1 f2 t1 t2 conv l,
  Ready s FP_FPRT c (x ++ (f1 ++ conv ++ f2) ++ 0 :: l) -> integer c x n -> char_str (f1 ++ conv ++ f2) ->
  literal f1 t1 -> literal f2 t2 -> conv = chars "%ld" \/ conv = chars "%li" ->
  exists s' m, execute F (S D) c s = Ok (ENone, s') /\ decimal n m /\
    ((length (t1 ++ m ++ t2) <= 1023)%nat -> Only_stack s s' ((t1 ++ m ++ t2) ++ 0 :: l)).
Proof.
  intros F D s c x n f1 f2 t1 t2 conv l R In Ch L1 L2 Cv.
  pose proof (fprt_run F D s c x _ _ l R (integer_given _ _ _ In) Ch) as E.
  assert (T : fprt_text (f1 ++ conv ++ f2) (Some (ALong n)) = Ok (t1 ++ dec n ++ t2)).
  { rewrite (literal_text _ _ L1). destruct Cv; subst conv;
      [change (chars "%ld" ++ f2) with (37 :: 108 :: 100 :: f2)|change (chars "%li" ++ f2) with (37 :: 108 :: 105 :: f2)];
      cbn [fprt_text Z.eqb Pos.eqb orb]; rewrite (literal_only _ _ None L2); reflexivity. }
  rewrite T in E. destruct E as (s' & E & O). exists s', (dec n). split; [exact E|]. split; [apply dec_decimal|].
  intros Le. now rewrite (fits _ Le) in O.
Qed.

(** [numeral_in b h n t]: [t] is the number [n] in base [b] without needless zeros;
    the digits from 10 up are the characters from [h] + 10 on. *)
Definition numeral_in (b h n : Z) (t : bytes) : Prop := exists ds,
  t = map (fun d => if d <? 10 then 48 + d else h + d) ds /\ Forall (fun d => 0 <= d < b) ds /\
  fold_left (fun a d => a * b + d) ds 0 = n /\ (n = 0 /\ ds = [0] \/ exists d r, ds = d :: r /\ d <> 0).
Lemma radix_numeral b h n : 2 <= b -> 0 <= n -> numeral_in b h n (radix_text b h n).
Proof.
  intros Hb Hn. unfold radix_text.
  assert (G : forall fuel m (ds : list Z), 0 <= m -> (Z.to_nat (Z.log2 m) < fuel)%nat -> Forall (fun d => 0 <= d < b) ds ->
    exists ds', radix_loop b h fuel m (map (fun d => if d <? 10 then 48 + d else h + d) ds) =
        map (fun d => if d <? 10 then 48 + d else h + d) (ds' ++ ds) /\
      Forall (fun d => 0 <= d < b) ds' /\ fold_left (fun a d => a * b + d) ds' 0 = m /\
      (m = 0 /\ ds' = [0] \/ exists d r, ds' = d :: r /\ d <> 0)).
  { induction fuel as [|fuel IH]; intros m ds Hm Hf Hd; [lia|]. cbn [radix_loop].
    pose proof (Z.mod_pos_bound m b ltac:(lia)) as M. pose proof (Z.div_mod m b ltac:(lia)) as DM.
    pose proof (Z.div_pos m b Hm ltac:(lia)) as DP.
    destruct (Z.eqb_spec (m / b) 0) as [E|E].
    - exists [m mod b]. split; [reflexivity|]. split; [repeat constructor; lia|].
      split; [cbn [fold_left]; rewrite E in DM; lia|].
      rewrite E in DM. destruct (Z.eq_dec m 0) as [->|N]; [left; split; [reflexivity|now rewrite Z.mod_0_l by lia]|].
      right. exists (m mod b), []. split; [reflexivity|lia].
    - assert (L : Z.log2 (m / b) < Z.log2 m).
      { apply Z.log2_lt_pow2; [lia|]. apply Z.div_lt_upper_bound; [lia|].
        pose proof (Z.log2_spec m) as S. assert (P0 : 0 < m) by (destruct (Z.eq_dec m 0) as [->|]; [rewrite Z.div_0_l in E by lia; lia|lia]).
        specialize (S P0). rewrite Z.pow_succ_r in S by apply Z.log2_nonneg. nia. }
      pose proof (Z.log2_nonneg (m / b)).
      destruct (IH (m / b) (m mod b :: ds) DP) as (ds' & E1 & F1 & V1 & N1); [lia|constructor; [lia|exact Hd]|].
      exists (ds' ++ [m mod b]). split; [cbn [map] in E1; rewrite E1, <- app_assoc; reflexivity|].
      split; [apply Forall_app; split; [exact F1|repeat constructor; lia]|].
      split; [rewrite fold_left_app, V1; cbn [fold_left]; lia|].
      right. destruct N1 as [(N1 & _)|(d & r & -> & Nd)]; [contradiction|]. exists d, (r ++ [m mod b]). auto. }
  destruct (G (S (Z.to_nat (Z.log2 n))) n [] Hn ltac:(lia) (Forall_nil _)) as (ds & E & F & V & N).
  rewrite app_nil_r in E. exists ds. auto.
Qed.
(** The same number as an unsigned one, in decimal, octal and hexadecimal. *)
Theorem C124_unsigned_partial : forall F D s c x n f1 f2 t1 t2 conv b h l,
  Ready s FP_FPRT c (x ++ (f1 ++ conv ++ f2) ++ 0 :: l) -> integer c x n -> char_str (f1 ++ conv ++ f2) ->
  literal f1 t1 -> literal f2 t2 ->
  In (conv, (b, h)) [(chars "%lu", (10, 87)); (chars "%lo", (8, 87)); (chars "%lx", (16, 87)); (chars "%lX", (16, 55))] ->
  exists s' m, execute F (S D) c s = Ok (ENone, s') /\ numeral_in b h (n mod 2 ^ 64) m /\
    ((length (t1 ++ m ++ t2) <= 1023)%nat -> Only_stack s s' ((t1 ++ m ++ t2) ++ 0 :: l)).
Proof.
  intros F D s c x n f1 f2 t1 t2 conv b h l R In Ch L1 L2 Cv.
  pose proof (fprt_run F D s c x _ _ l R (integer_given _ _ _ In) Ch) as E.
  assert (T : 2 <= b /\ fprt_text (f1 ++ conv ++ f2) (Some (ALong n)) = Ok (t1 ++ radix_text b h (n mod 2 ^ 64) ++ t2)).
  { rewrite (literal_text _ _ L1). change (n mod 2 ^ 64) with (to_u64 n).
    destruct Cv as [Q|[Q|[Q|[Q|[]]]]]; inversion Q; subst conv b h; (split; [lia|]);
      [change (chars "%lu" ++ f2) with (37 :: 108 :: 117 :: f2)|change (chars "%lo" ++ f2) with (37 :: 108 :: 111 :: f2)
      |change (chars "%lx" ++ f2) with (37 :: 108 :: 120 :: f2)|change (chars "%lX" ++ f2) with (37 :: 108 :: 88 :: f2)];
      cbn [fprt_text Z.eqb Pos.eqb orb existsb]; rewrite (literal_only _ _ None L2); reflexivity. }
  destruct T as (Hb & T). rewrite T in E. destruct E as (s' & E & O). exists s', (radix_text b h (n mod 2 ^ 64)).
  split; [exact E|]. split; [apply radix_numeral; [exact Hb|apply Z.mod_pos_bound; reflexivity]|].
  intros Le. now rewrite (fits _ Le) in O.
Qed.

(** S inserts a string. *)
Theorem C124_string_partial : forall F D s u f1 f2 t1 t2 l,
  Ready s FP_FPRT 83 ((u ++ [0]) ++ (f1 ++ chars "%s" ++ f2) ++ 0 :: l) -> char_str u ->
  char_str (f1 ++ chars "%s" ++ f2) -> literal f1 t1 -> literal f2 t2 ->
  (length (t1 ++ u ++ t2) <= 1023)%nat ->
  exists s', execute F (S D) 83 s = Ok (ENone, s') /\ Only_stack s s' ((t1 ++ u ++ t2) ++ 0 :: l).
Proof.
  intros F D s u f1 f2 t1 t2 l R Cu Ch L1 L2 Le.
  assert (G : given 83 (u ++ [0]) (AStr u)).
  { do 4 right. split; [reflexivity|]. exists u. auto. }
  pose proof (fprt_run F D s 83 _ _ _ l R G Ch) as E.
  assert (T : fprt_text (f1 ++ chars "%s" ++ f2) (Some (AStr u)) = Ok (t1 ++ u ++ t2)).
  { rewrite (literal_text _ _ L1). change (chars "%s" ++ f2) with (37 :: 115 :: f2).
    cbn [fprt_text Z.eqb Pos.eqb]. rewrite (literal_only _ _ None L2). reflexivity. }
  rewrite T in E. destruct E as (s' & E & O). rewrite (fits _ Le) in O. exists s'. auto.
Qed.

(** D and F print the number held by the bits of the cell with six decimals,
    rounded correctly. *)
Definition real_cell (c n : Z) (x : R) (neg : bool) : Prop :=
  c = 68 /\ number n /\ x = value n /\ neg = sign_field n \/
  c = 70 /\ single_number n /\ x = single_value n /\ neg = single_sign n.
Theorem C124_real_partial : forall F D s c n x neg f1 f2 t1 t2 l,
  Ready s FP_FPRT c (n :: (f1 ++ chars "%f" ++ f2) ++ 0 :: l) -> real_cell c n x neg ->
  char_str (f1 ++ chars "%f" ++ f2) -> literal f1 t1 -> literal f2 t2 ->
  exists s' q m, execute F (S D) c s = Ok (ENone, s') /\
    0 <= q /\ closest (Rabs x * 10 ^ 6)%R q /\ fixed_text neg q m /\
    ((length (t1 ++ m ++ t2) <= 1023)%nat -> Only_stack s s' ((t1 ++ m ++ t2) ++ 0 :: l)).
Proof.
  intros F D s c n x neg f1 f2 t1 t2 l R Rc Ch L1 L2.
  assert (K : exists d, given c [n] (ADbl d) /\ is_finite_SF d = true /\ x = sval d /\ neg = sign_SF d).
  { destruct Rc as [(-> & N & -> & ->)|(-> & N & -> & ->)].
    - exists (dbl_of_bits n). split; [left; split; [reflexivity|]; exists n; auto|].
      split; [exact (proj1 (number_finite _) N)|]. split; [exact (value_sval _ N)|symmetry; exact (sign_bits _ N)].
    - exists (flt_of_bits n). destruct (single_spec _ N) as (V & Fi & Sg).
      split; [right; left; split; [reflexivity|]; exists n; auto|]. auto. }
  destruct K as (d & G & Fi & -> & ->).
  destruct (print_fixed_spec d Fi) as (q & m & Em & Q & K1 & K2).
  pose proof (fprt_run F D s c [n] _ _ l R G Ch) as E.
  assert (T : fprt_text (f1 ++ chars "%f" ++ f2) (Some (ADbl d)) = Ok (t1 ++ m ++ t2)).
  { rewrite (literal_text _ _ L1). change (chars "%f" ++ f2) with (37 :: 102 :: f2).
    cbn [fprt_text Z.eqb Pos.eqb]. rewrite Em, (literal_only _ _ None L2). reflexivity. }
  rewrite T in E. destruct E as (s' & E & O). exists s', q, m. repeat (split; [assumption|]).
  intros Le. now rewrite (fits _ Le) in O.
Qed.

(** ** Flags, widths and precisions *)

(** The conversion between its per cent sign and its letters: flags, then a width, then
    a precision after a point. *)
Definition flag (c : Z) : Prop := In c (chars "-0+ ").
Definition has (c : Z) (fl : bytes) : bool := existsb (Z.eqb c) fl.
Definition width_text (ws : bytes) (w : Z) : Prop := ws = [] /\ w = 0 \/ decimal w ws /\ 0 < w.
Definition prec_text (ps : bytes) (pr : option Z) : Prop :=
  ps = [] /\ pr = None \/
  exists ds, ps = 46 :: ds /\ Forall is_digit ds /\ pr = Some (digits_value 0 ds).
Definition small (w : Z) (pr : option Z) : Prop := w < 2 ^ 20 /\ match pr with Some q => q < 2 ^ 20 | None => True end.
Definition none (pr : option Z) : bool := match pr with None => true | Some _ => false end.
(** [m]: the digits [t] of the number [n] after as many zeros as the precision demands;
    with the precision 0 the number 0 has no digits. *)
Definition at_least (pr : option Z) (n : Z) (t m : bytes) : Prop :=
  match pr with
  | None => m = t
  | Some q => if (n =? 0) && (q =? 0) then m = []
              else exists z, m = repeat 48 z ++ t /\ Z.of_nat (length m) = Z.max q (Z.of_nat (length t))
  end.
(** [m]: the string [u], cut to the precision. *)
Definition at_most (pr : option Z) (u m : bytes) : Prop :=
  match pr with
  | None => m = u
  | Some q => exists r, u = m ++ r /\ Z.of_nat (length m) = Z.min q (Z.of_nat (length u))
  end.
(** The text of [q / 10 ^ k] with [k] decimals; no point without decimals. *)
Definition decimals (k : nat) (q : Z) (t : bytes) : Prop :=
  exists w f, t = w ++ (match k with O => [] | _ => 46 :: f end) /\
    decimal (q / 10 ^ Z.of_nat k) w /\ length f = k /\ Forall is_digit f /\ digits_value 0 f = q mod 10 ^ Z.of_nat k.
Definition places (pr : option Z) : nat := match pr with None => 6 | Some q => Z.to_nat q end.
(** The sign written before a number: always that of a negative one, and a plus or a
    space before others if a flag says so. *)
Definition sign_of (fl : bytes) (neg : bool) : bytes :=
  if neg then chars "-" else if has 43 fl then chars "+" else if has 32 fl then chars " " else [].
(** [filled left zero w sg body t]: [t] is the sign and the body, filled up to the
    width [w]: at the end, or between sign and body with zeros, or at the start. *)
Definition filled (left zero : bool) (w : Z) (sg body t : bytes) : Prop :=
  exists gap, Z.of_nat (length (sg ++ body) + gap) = Z.max w (Z.of_nat (length (sg ++ body))) /\
    t = (if left then sg ++ body ++ repeat 32 gap
         else if zero then sg ++ repeat 48 gap ++ body
         else repeat 32 gap ++ sg ++ body).

Definition wide (a : option arg) : fspec -> bytes -> res bytes :=
  fix wide (p : fspec) (g : bytes) {struct g} : res bytes :=
                 match g with
                 | [] => Bad BadUnmodelled
                 | k :: u =>
                     match spec_step p k with
                     | Some p' => wide p' u
                     | None =>
                         if 2 ^ 20 <=? match fs_width p with Some w => w | None => 0 end then Bad BadUnmodelled
                         else if 2 ^ 20 <=? match fs_prec p with Some q => q | None => 0 end then Bad BadUnmodelled
                         else if k =? 102 then
                           match a with
                           | Some (ADbl d) =>
                               x <-- match fs_prec p with None => print_fixed d | Some q => print_decimals (Z.to_nat q) d end ;;
                               r <-- fprt_text u None ;;
                               Ok (pad p (finite_double d) (sign_text p (negative_double d))
                                     (if negative_double d then tl x else x) ++ r)
                           | _ => Bad BadOob
                           end
                         else if k =? 115 then
                           match a with
                           | Some (AStr s) =>
                               if fs_zero p || fs_plus p || fs_space p then Bad BadUnmodelled
                               else
                                 r <-- fprt_text u None ;;
                                 Ok (pad p false [] (match fs_prec p with None => s | Some q => firstn (Z.to_nat q) s end) ++ r)
                           | _ => Bad BadOob
                           end
                         else if k =? 103 then
                           match a with
                           | Some (ADbl d) =>
                               if no_prec p then
                                 x <-- print_general d ;; r <-- fprt_text u None ;;
                                 Ok (pad p (finite_double d) (sign_text p (negative_double d))
                                       (if negative_double d then tl x else x) ++ r)
                               else Bad BadUnmodelled
                           | _ => Bad BadOob
                           end
                         else if k =? 108 then
                           match u with
                           | e :: v =>
                               if (e =? 100) || (e =? 105) then
                                 match a with
                                 | Some (ALong n) =>
                                     r <-- fprt_text v None ;;
                                     Ok (pad p (no_prec p) (sign_text p (n <? 0)) (min_digits p n (dec (Z.abs n))) ++ r)
                                 | _ => Bad BadOob
                                 end
                               else if existsb (Z.eqb e) [117; 111; 120; 88] then
                                 match a with
                                 | Some (ALong n) =>
                                     r <-- fprt_text v None ;;
                                     Ok (pad p (no_prec p) [] (min_digits p n
                                           (radix_text (if e =? 117 then 10 else if e =? 111 then 8 else 16)
                                              (if e =? 88 then 55 else 87) (to_u64 n))) ++ r)
                                 | _ => Bad BadOob
                                 end
                               else Bad BadUnmodelled
                           | [] => Bad BadUnmodelled
                           end
                         else Bad BadUnmodelled
                     end
                 end.
Definition with_flags (p : fspec) (fl : bytes) : fspec :=
  set_flags p (has 45 fl) (has 48 fl) (has 43 fl) (has 32 fl).
Lemma wide_step a p k g p' : spec_step p k = Some p' -> wide a p (k :: g) = wide a p' g.
Proof. intros E. cbn [wide]. rewrite E. reflexivity. Qed.
Lemma wide_flags a fl : Forall flag fl -> forall p g, fs_width p = None -> fs_prec p = None -> wide a p (fl ++ g) = wide a (with_flags p fl) g.
Proof.
  induction 1 as [|c fl Fc _ IH]; intros p g W Pr.
  - cbn [app]. f_equal. destruct p; unfold with_flags, set_flags, has; cbn. now rewrite !orb_false_r.
  - cbn [app]. destruct p as [l z pl sp w pr]. cbn in W, Pr. subst w pr.
    destruct Fc as [<-|[<-|[<-|[<-|[]]]]]; (erewrite wide_step by reflexivity); rewrite IH by reflexivity;
      f_equal; unfold with_flags, set_flags, has; cbn; now rewrite ?orb_true_r, ?orb_false_r, ?orb_true_l.
Qed.
Lemma digit_is c : 48 <= c <= 57 -> isdigit c = true.
Proof. intros. unfold isdigit. apply andb_true_iff. split; apply Z.leb_le; lia. Qed.
Lemma wide_digits a ds : Forall (fun c => 48 <= c <= 57) ds -> forall p w g, fs_prec p = None ->
  wide a (set_width p w) (ds ++ g) = wide a (set_width p (digits_value w ds)) g.
Proof.
  induction 1 as [|c ds Fc _ IH]; intros p w g Pr; [reflexivity|]. cbn [app digits_value].
  rewrite (wide_step a _ c _ (set_width p (w * 10 + (c - 48)))); [apply IH, Pr|].
  unfold spec_step. cbn [set_width fs_width fs_prec]. rewrite Pr, (digit_is c Fc).
  destruct (Z.eqb_spec c 46); [lia|]. reflexivity.
Qed.
Lemma wide_prec a ds : Forall is_digit ds -> forall p q g,
  wide a (set_prec p q) (ds ++ g) = wide a (set_prec p (digits_value q ds)) g.
Proof.
  induction 1 as [|c ds Fc _ IH]; intros p w g; [reflexivity|]. cbn [app digits_value].
  rewrite (wide_step a _ c _ (set_prec p (w * 10 + (c - 48)))); [apply IH|].
  unfold spec_step. cbn [set_prec fs_prec]. rewrite (digit_is c Fc). reflexivity.
Qed.
Definition add_width (p : fspec) (ws : bytes) (w : Z) : fspec := match ws with [] => p | _ => set_width p w end.
Definition add_prec (p : fspec) (pr : option Z) : fspec := match pr with None => p | Some q => set_prec p q end.
Definition the_spec (fl ws : bytes) (w : Z) (pr : option Z) : fspec :=
  add_prec (add_width (with_flags no_spec fl) ws w) pr.
Lemma wide_all a fl ws w ps pr g : Forall flag fl -> width_text ws w -> prec_text ps pr ->
  wide a no_spec (fl ++ ws ++ ps ++ g) = wide a (the_spec fl ws w pr) g.
Proof.
  intros Ff Wt Pt. rewrite wide_flags by (assumption || reflexivity).
  assert (A : wide a (with_flags no_spec fl) (ws ++ ps ++ g) = wide a (add_width (with_flags no_spec fl) ws w) (ps ++ g)).
  { destruct Wt as [[-> ->] | ((ds & E & Dd & Nd & V & H0) & P)]; [reflexivity|].
    replace (w <? 0) with false in E by (symmetry; apply Z.ltb_ge; lia). cbn [app] in E. subst ws.
    destruct ds as [|c ds]; [contradiction|]. inversion_clear Dd as [|? ? D1 D2]. cbn [app add_width].
    assert (N48 : c <> 48). { intros ->. specialize (H0 eq_refl). injection H0 as ->. cbn in V. lia. }
    rewrite (wide_step a _ c _ (set_width (with_flags no_spec fl) (c - 48))).
    - rewrite wide_digits by (exact D2 || reflexivity). cbn [digits_value] in V. replace (0 * 10 + (c - 48)) with (c - 48) in V by lia.
      rewrite V. do 2 f_equal. lia.
    - unfold spec_step. cbn [with_flags set_flags fs_width fs_prec no_spec].
      destruct (Z.eqb_spec c 46); [lia|]. destruct (Z.eqb_spec c 45); [lia|]. destruct (Z.eqb_spec c 48); [lia|].
      destruct (Z.eqb_spec c 43); [lia|]. destruct (Z.eqb_spec c 32); [lia|]. rewrite (digit_is c D1). reflexivity. }
  rewrite A. unfold the_spec. set (p := add_width (with_flags no_spec fl) ws w).
  destruct Pt as [[-> ->] | (ds & -> & Dd & ->)]; [reflexivity|]. cbn [app add_prec].
  rewrite (wide_step a p 46 _ (set_prec p 0)); [apply wide_prec, Dd|]. unfold p, add_width. destruct ws; reflexivity.
Qed.
Lemma fprt_wide a k g : flag k \/ 48 <= k <= 57 \/ k = 46 -> fprt_text (37 :: k :: g) a = wide a no_spec (k :: g).
Proof.
  intros H. assert (B : k <= 57 /\ k <> 37) by (destruct H as [H|H]; [vm_compute in H|]; lia). clear H.
  unfold wide. cbn [fprt_text]. cbn [Z.eqb Pos.eqb existsb].
  repeat match goal with |- context [k =? ?z] =>
    lazymatch z with 46 => fail | 45 => fail | 48 => fail | 43 => fail | 32 => fail | _ =>
      replace (k =? z) with false by (symmetry; apply Z.eqb_neq; lia) end end.
  cbn [orb]. reflexivity.
Qed.
Lemma fprt_spec a fl ws w ps pr g : Forall flag fl -> width_text ws w -> prec_text ps pr -> fl ++ ws ++ ps <> [] ->
  fprt_text (37 :: fl ++ ws ++ ps ++ g) a = wide a (the_spec fl ws w pr) g.
Proof.
  intros Ff Wt Pt Ne. rewrite <- (wide_all a fl ws w ps pr g Ff Wt Pt).
  replace (fl ++ ws ++ ps ++ g) with ((fl ++ ws ++ ps) ++ g) by now rewrite <- !app_assoc.
  destruct (fl ++ ws ++ ps) as [|k r] eqn:E; [contradiction|]. cbn [app]. apply fprt_wide.
  destruct fl as [|c fl]; [|left; injection E as <- _; now inversion Ff].
  right. cbn [app] in E. destruct ws as [|c ws].
  - right. cbn [app] in E. destruct Pt as [[-> _] | (ds & -> & _)]; [discriminate|]. now injection E.
  - left. injection E as <- _. destruct Wt as [[? _] | ((ds & E & Dd & _) & P)]; [discriminate|].
    replace (w <? 0) with false in E by (symmetry; apply Z.ltb_ge; lia). cbn [app] in E. subst ds. now inversion Dd.
Qed.
Lemma the_width fl ws w pr : width_text ws w -> match fs_width (the_spec fl ws w pr) with Some w => w | None => 0 end = w /\ 0 <= w.
Proof.
  intros Wt. replace (fs_width (the_spec fl ws w pr)) with (fs_width (add_width (with_flags no_spec fl) ws w)) by (destruct pr; reflexivity).
  destruct Wt as [[-> ->] | ((ds & E & _ & Nd & _) & P)]; [split; [reflexivity|lia]|].
  destruct ws as [|c ws]; [|split; [reflexivity|lia]]. destruct ds; [contradiction|]. destruct (w <? 0); discriminate.
Qed.
Lemma the_prec fl ws w pr : fs_prec (the_spec fl ws w pr) = pr.
Proof. destruct pr; [reflexivity|]. destruct ws; reflexivity. Qed.
Lemma the_flags fl ws w pr : let p := the_spec fl ws w pr in
  fs_left p = has 45 fl /\ fs_zero p = has 48 fl /\ fs_plus p = has 43 fl /\ fs_space p = has 32 fl.
Proof. destruct pr, ws; cbn; auto. Qed.
Lemma pad_field fl ws w pr z sg body : width_text ws w ->
  filled (has 45 fl) (has 48 fl && z) w sg body (pad (the_spec fl ws w pr) z sg body).
Proof.
  intros Wt. destruct (the_width fl ws w pr Wt) as [E P]. destruct (the_flags fl ws w pr) as (F1 & F2 & _).
  unfold pad. rewrite E, F1, F2. eexists. split; [|reflexivity]. lia.
Qed.
Lemma the_sign fl ws w pr neg : sign_text (the_spec fl ws w pr) neg = sign_of fl neg.
Proof. unfold sign_text. destruct (the_flags fl ws w pr) as (_ & _ & -> & ->). reflexivity. Qed.
Lemma the_digits fl ws w pr n t : match pr with Some q => 0 <= q | None => True end -> at_least pr n t (min_digits (the_spec fl ws w pr) n t).
Proof.
  intros P. unfold min_digits, at_least. rewrite the_prec. destruct pr as [q|]; [|reflexivity].
  destruct ((n =? 0) && (q =? 0)); [reflexivity|]. eexists. split; [reflexivity|]. rewrite app_length, repeat_length. lia.
Qed.
Lemma prec_pos ps pr : prec_text ps pr -> match pr with Some q => 0 <= q | None => True end.
Proof.
  intros [[_ ->] | (ds & _ & Dd & ->)]; [exact I|].
  assert (G : forall u a, Forall is_digit u -> 0 <= a -> 0 <= digits_value a u).
  { induction u as [|c u IH]; intros a Du Ha; cbn; [exact Ha|]. inversion_clear Du as [|? ? D1 D2]. unfold is_digit in D1. apply IH; [exact D2|lia]. }
  apply G; [exact Dd|lia].
Qed.
Lemma step_letter p k : 58 <= k -> spec_step p k = None.
Proof.
  intros H. unfold spec_step, isdigit. rewrite (proj2 (Z.leb_gt k 57)) by lia. rewrite andb_false_r.
  destruct (fs_prec p); [reflexivity|]. destruct (Z.eqb_spec k 46); [lia|]. destruct (fs_width p); [reflexivity|].
  destruct (Z.eqb_spec k 45); [lia|]. destruct (Z.eqb_spec k 48); [lia|]. destruct (Z.eqb_spec k 43); [lia|].
  destruct (Z.eqb_spec k 32); [lia|]. reflexivity.
Qed.
(** The letters of the conversion, if width and precision are not too large. *)
Section Letters.
Variables (fl ws : bytes) (w : Z) (pr : option Z).
Hypotheses (Wt : width_text ws w) (Sm : small w pr).
Let p := the_spec fl ws w pr.
Lemma bounds : (2 ^ 20 <=? match fs_width p with Some w => w | None => 0 end) = false /\
  (2 ^ 20 <=? match fs_prec p with Some q => q | None => 0 end) = false.
Proof.
  unfold p. destruct (the_width fl ws w pr Wt) as [-> _]. rewrite the_prec. destruct Sm as [A B].
  split; apply Z.leb_gt; [exact A|]. destruct pr; [exact B|reflexivity].
Qed.
Lemma wide_f d g : wide (Some (ADbl d)) p (102 :: g) =
  (x <-- match pr with None => print_fixed d | Some q => print_decimals (Z.to_nat q) d end ;; r <-- fprt_text g None ;;
   Ok (pad p (finite_double d) (sign_of fl (negative_double d)) (if negative_double d then tl x else x) ++ r)).
Proof.
  destruct bounds as [B1 B2]. cbn [wide]. rewrite step_letter by lia. rewrite B1, B2. cbn [Z.eqb Pos.eqb].
  unfold p at 1. rewrite the_prec. unfold p. rewrite the_sign. reflexivity.
Qed.
Lemma wide_s u g : wide (Some (AStr u)) p (115 :: g) =
  (if has 48 fl || has 43 fl || has 32 fl then Bad BadUnmodelled
   else r <-- fprt_text g None ;; Ok (pad p false [] (match pr with None => u | Some q => firstn (Z.to_nat q) u end) ++ r)).
Proof.
  destruct bounds as [B1 B2]. cbn [wide]. rewrite step_letter by lia. rewrite B1, B2. cbn [Z.eqb Pos.eqb].
  destruct (the_flags fl ws w pr) as (_ & F2 & F3 & F4). unfold p in *. rewrite F2, F3, F4, the_prec. reflexivity.
Qed.
Lemma wide_g d g : wide (Some (ADbl d)) p (103 :: g) =
  (if none pr then
     x <-- print_general d ;; r <-- fprt_text g None ;;
     Ok (pad p (finite_double d) (sign_of fl (negative_double d)) (if negative_double d then tl x else x) ++ r)
   else Bad BadUnmodelled).
Proof.
  destruct bounds as [B1 B2]. cbn [wide]. rewrite step_letter by lia. rewrite B1, B2. cbn [Z.eqb Pos.eqb].
  unfold no_prec, p. rewrite the_prec, the_sign. reflexivity.
Qed.
Lemma wide_l n e g : wide (Some (ALong n)) p (108 :: e :: g) =
  (if (e =? 100) || (e =? 105) then
     r <-- fprt_text g None ;; Ok (pad p (none pr) (sign_of fl (n <? 0)) (min_digits p n (dec (Z.abs n))) ++ r)
   else if existsb (Z.eqb e) [117; 111; 120; 88] then
     r <-- fprt_text g None ;;
     Ok (pad p (none pr) [] (min_digits p n (radix_text (if e =? 117 then 10 else if e =? 111 then 8 else 16)
           (if e =? 88 then 55 else 87) (to_u64 n))) ++ r)
   else Bad BadUnmodelled).
Proof.
  destruct bounds as [B1 B2]. cbn [wide]. rewrite step_letter by lia. rewrite B1, B2. cbn [Z.eqb Pos.eqb].
  unfold no_prec, p. rewrite the_prec, the_sign. reflexivity.
Qed.
End Letters.

(** I and L: d and i. *)
Theorem C124_integer_format_partial : forall F D s c x n f1 f2 t1 t2 fl ws w ps pr e l,
  Ready s FP_FPRT c (x ++ (f1 ++ (chars "%" ++ fl ++ ws ++ ps ++ [108; e]) ++ f2) ++ 0 :: l) -> integer c x n ->
  char_str (f1 ++ (chars "%" ++ fl ++ ws ++ ps ++ [108; e]) ++ f2) ->
  literal f1 t1 -> literal f2 t2 -> Forall flag fl -> width_text ws w -> prec_text ps pr -> small w pr ->
  fl ++ ws ++ ps <> [] -> e = 100 \/ e = 105 ->
  exists s' u m t, execute F (S D) c s = Ok (ENone, s') /\ decimal (Z.abs n) u /\ at_least pr n u m /\
    filled (has 45 fl) (has 48 fl && none pr) w (sign_of fl (n <? 0)) m t /\
    ((length (t1 ++ t ++ t2) <= 1023)%nat -> Only_stack s s' ((t1 ++ t ++ t2) ++ 0 :: l)).
Proof.
  intros F D s c x n f1 f2 t1 t2 fl ws w ps pr e l R In Ch L1 L2 Ff Wt Pt Sm Ne He.
  pose proof (fprt_run F D s c x _ _ l R (integer_given _ _ _ In) Ch) as E.
  set (m := min_digits (the_spec fl ws w pr) n (dec (Z.abs n))).
  pose proof (pad_field fl ws w pr (none pr) (sign_of fl (n <? 0)) m Wt) as Pf.
  set (t := pad (the_spec fl ws w pr) (none pr) (sign_of fl (n <? 0)) m) in *.
  assert (T : fprt_text (f1 ++ (chars "%" ++ fl ++ ws ++ ps ++ [108; e]) ++ f2) (Some (ALong n)) = Ok (t1 ++ t ++ t2)).
  { rewrite (literal_text _ _ L1).
    replace ((chars "%" ++ fl ++ ws ++ ps ++ [108; e]) ++ f2) with (37 :: fl ++ ws ++ ps ++ 108 :: e :: f2)
      by (change (chars "%") with [37]; cbn [app]; now rewrite <- !app_assoc).
    rewrite (fprt_spec _ fl ws w ps pr _ Ff Wt Pt Ne), (wide_l _ _ _ _ Wt Sm).
    destruct He as [-> | ->]; cbn [Z.eqb Pos.eqb orb]; rewrite (literal_only _ _ None L2); reflexivity. }
  rewrite T in E. destruct E as (s' & E & O). exists s', (dec (Z.abs n)), m, t. split; [exact E|].
  split; [apply dec_decimal|]. split; [apply the_digits; exact (prec_pos _ _ Pt)|]. split; [exact Pf|]. intros Le. now rewrite (fits _ Le) in O.
Qed.
(** I and L: u, o, x and X. *)
Theorem C124_unsigned_format_partial : forall F D s c x n f1 f2 t1 t2 fl ws w ps pr e b h l,
  Ready s FP_FPRT c (x ++ (f1 ++ (chars "%" ++ fl ++ ws ++ ps ++ [108; e]) ++ f2) ++ 0 :: l) -> integer c x n ->
  char_str (f1 ++ (chars "%" ++ fl ++ ws ++ ps ++ [108; e]) ++ f2) ->
  literal f1 t1 -> literal f2 t2 -> Forall flag fl -> width_text ws w -> prec_text ps pr -> small w pr ->
  fl ++ ws ++ ps <> [] ->
  In (e, (b, h)) [(117, (10, 87)); (111, (8, 87)); (120, (16, 87)); (88, (16, 55))] ->
  exists s' u m t, execute F (S D) c s = Ok (ENone, s') /\ numeral_in b h (n mod 2 ^ 64) u /\ at_least pr n u m /\
    filled (has 45 fl) (has 48 fl && none pr) w [] m t /\
    ((length (t1 ++ t ++ t2) <= 1023)%nat -> Only_stack s s' ((t1 ++ t ++ t2) ++ 0 :: l)).
Proof.
  intros F D s c x n f1 f2 t1 t2 fl ws w ps pr e b h l R In Ch L1 L2 Ff Wt Pt Sm Ne He.
  pose proof (fprt_run F D s c x _ _ l R (integer_given _ _ _ In) Ch) as E.
  set (m := min_digits (the_spec fl ws w pr) n (radix_text b h (n mod 2 ^ 64))).
  pose proof (pad_field fl ws w pr (none pr) [] m Wt) as Pf.
  set (t := pad (the_spec fl ws w pr) (none pr) [] m) in *.
  assert (T : 2 <= b /\ fprt_text (f1 ++ (chars "%" ++ fl ++ ws ++ ps ++ [108; e]) ++ f2) (Some (ALong n)) = Ok (t1 ++ t ++ t2)).
  { rewrite (literal_text _ _ L1).
    replace ((chars "%" ++ fl ++ ws ++ ps ++ [108; e]) ++ f2) with (37 :: fl ++ ws ++ ps ++ 108 :: e :: f2)
      by (change (chars "%") with [37]; cbn [app]; now rewrite <- !app_assoc).
    rewrite (fprt_spec _ fl ws w ps pr _ Ff Wt Pt Ne), (wide_l _ _ _ _ Wt Sm). unfold t, m. change (n mod 2 ^ 64) with (to_u64 n).
    destruct He as [Q|[Q|[Q|[Q|[]]]]]; inversion Q; subst e b h; (split; [lia|]);
      cbn [Z.eqb Pos.eqb orb existsb]; rewrite (literal_only _ _ None L2); reflexivity. }
  destruct T as [Hb T].
  rewrite T in E. destruct E as (s' & E & O). exists s', (radix_text b h (n mod 2 ^ 64)), m, t. split; [exact E|].
  split; [apply radix_numeral; [exact Hb|apply Z.mod_pos_bound; reflexivity]|].
  split; [apply the_digits; exact (prec_pos _ _ Pt)|]. split; [exact Pf|].
  intros Le. now rewrite (fits _ Le) in O.
Qed.
(** S, with no flag but -. *)
Theorem C124_string_format_partial : forall F D s u f1 f2 t1 t2 fl ws w ps pr l,
  Ready s FP_FPRT 83 ((u ++ [0]) ++ (f1 ++ (chars "%" ++ fl ++ ws ++ ps ++ chars "s") ++ f2) ++ 0 :: l) -> char_str u ->
  char_str (f1 ++ (chars "%" ++ fl ++ ws ++ ps ++ chars "s") ++ f2) -> literal f1 t1 -> literal f2 t2 ->
  Forall (fun c => c = 45) fl -> width_text ws w -> prec_text ps pr -> small w pr -> fl ++ ws ++ ps <> [] ->
  exists s' m t, execute F (S D) 83 s = Ok (ENone, s') /\ at_most pr u m /\ filled (has 45 fl) false w [] m t /\
    ((length (t1 ++ t ++ t2) <= 1023)%nat -> Only_stack s s' ((t1 ++ t ++ t2) ++ 0 :: l)).
Proof.
  intros F D s u f1 f2 t1 t2 fl ws w ps pr l R Cu Ch L1 L2 Fm Wt Pt Sm Ne.
  assert (Ff : Forall flag fl) by (eapply Forall_impl; [|exact Fm]; cbn; intros c ->; left; reflexivity).
  assert (No : forall c, c <> 45 -> has c fl = false).
  { intros c Nc. unfold has. clear - Fm Nc. induction Fm as [|d fl -> _ IH]; [reflexivity|]. cbn [existsb].
    rewrite (proj2 (Z.eqb_neq c 45) Nc). exact IH. }
  assert (G : given 83 (u ++ [0]) (AStr u)).
  { do 4 right. split; [reflexivity|]. exists u. auto. }
  pose proof (fprt_run F D s 83 _ _ _ l R G Ch) as E.
  set (m := match pr with None => u | Some q => firstn (Z.to_nat q) u end).
  pose proof (pad_field fl ws w pr false [] m Wt) as Pf. rewrite andb_false_r in Pf.
  set (t := pad (the_spec fl ws w pr) false [] m) in *.
  assert (T : fprt_text (f1 ++ (chars "%" ++ fl ++ ws ++ ps ++ chars "s") ++ f2) (Some (AStr u)) = Ok (t1 ++ t ++ t2)).
  { rewrite (literal_text _ _ L1).
    replace ((chars "%" ++ fl ++ ws ++ ps ++ chars "s") ++ f2) with (37 :: fl ++ ws ++ ps ++ 115 :: f2)
      by (change (chars "%") with [37]; change (chars "s") with [115]; cbn [app]; now rewrite <- !app_assoc).
    rewrite (fprt_spec _ fl ws w ps pr _ Ff Wt Pt Ne), (wide_s _ _ _ _ Wt Sm).
    rewrite !No by discriminate. cbn [orb]. rewrite (literal_only _ _ None L2). reflexivity. }
  rewrite T in E. destruct E as (s' & E & O). exists s', m, t. split; [exact E|]. split.
  { pose proof (prec_pos _ _ Pt) as P. unfold at_most, m. destruct pr as [q|]; [|reflexivity].
    exists (skipn (Z.to_nat q) u). split; [symmetry; apply firstn_skipn|]. rewrite firstn_length. lia. }
  split; [exact Pf|]. intros Le. now rewrite (fits _ Le) in O.
Qed.
(** The cell as a double. *)
Lemma real_double c n x neg : real_cell c n x neg ->
  exists d, given c [n] (ADbl d) /\ is_finite_SF d = true /\ x = sval d /\ neg = sign_SF d /\ finite_double d = true /\ negative_double d = neg.
Proof.
  intros Rc. assert (K : exists d, given c [n] (ADbl d) /\ is_finite_SF d = true /\ x = sval d /\ neg = sign_SF d).
  { destruct Rc as [(-> & N & -> & ->)|(-> & N & -> & ->)].
    - exists (dbl_of_bits n). split; [left; split; [reflexivity|]; exists n; auto|].
      split; [exact (proj1 (number_finite _) N)|]. split; [exact (value_sval _ N)|symmetry; exact (sign_bits _ N)].
    - exists (flt_of_bits n). destruct (single_spec _ N) as (V & Fi & Sg).
      split; [right; left; split; [reflexivity|]; exists n; auto|]. auto. }
  destruct K as (d & G & Fi & -> & ->). exists d. do 4 (split; [auto|]). destruct d; try discriminate; split; reflexivity.
Qed.
Lemma print_decimals_spec k d : is_finite_SF d = true ->
  exists q t, print_decimals k d = Ok (minus (sign_SF d) ++ t) /\ 0 <= q /\ closest (Rabs (sval d) * 10 ^ k)%R q /\ decimals k q t.
Proof.
  assert (Pk : 0 < 10 ^ Z.of_nat k) by (apply Z.pow_pos_nonneg; lia).
  destruct d as [s|s| |s m e]; try discriminate; intros _; unfold print_decimals; cbn [sign_SF].
  - eexists 0, _. split; [reflexivity|]. split; [lia|]. split.
    + cbn [SF2R]. rewrite Rabs_R0, Rmult_0_l. unfold closest. rewrite Rminus_0_r, Rabs_R0. split; [lra|auto].
    + exists [48], (repeat 48 k). rewrite Z.div_0_l, Z.mod_0_l by lia. split; [destruct k; reflexivity|]. split; [exact (dec_decimal 0)|].
      split; [apply repeat_length|]. clear. split; [induction k; constructor; [unfold is_digit; lia|assumption]|].
      induction k; [reflexivity|exact IHk].
  - set (q := div_even (dbl_num m e * 10 ^ Z.of_nat k) (dbl_den e)).
    assert (Q : 0 <= q) by (apply div_even_nonneg; [pose proof (num_pos m e); nia|apply den_pos]).
    exists q. eexists. split; [reflexivity|]. split; [exact Q|]. split.
    + rewrite fraction_value. pose proof (div_even_closest (dbl_num m e * 10 ^ Z.of_nat k) (dbl_den e) (den_pos e)) as C. fold q in C.
      rewrite mult_IZR in C.
      replace (IZR (dbl_num m e) / IZR (dbl_den e) * 10 ^ k)%R with (IZR (dbl_num m e) * IZR (10 ^ Z.of_nat k) / IZR (dbl_den e))%R; [exact C|].
      rewrite <- (pow_IZR 10 k). field. pose proof (den_pos e). apply IZR_neq. lia.
    + destruct (last_digits_spec k q Q) as (A & B & C). exists (dec (q / 10 ^ Z.of_nat k)), (last_digits k q).
      split; [reflexivity|]. split; [apply dec_decimal|]. auto.
Qed.
(** D and F: f. *)
Theorem C124_real_format_partial : forall F D s c n x neg f1 f2 t1 t2 fl ws w ps pr l,
  Ready s FP_FPRT c (n :: (f1 ++ (chars "%" ++ fl ++ ws ++ ps ++ chars "f") ++ f2) ++ 0 :: l) -> real_cell c n x neg ->
  char_str (f1 ++ (chars "%" ++ fl ++ ws ++ ps ++ chars "f") ++ f2) -> literal f1 t1 -> literal f2 t2 ->
  Forall flag fl -> width_text ws w -> prec_text ps pr -> small w pr -> fl ++ ws ++ ps <> [] ->
  exists s' q m t, execute F (S D) c s = Ok (ENone, s') /\
    0 <= q /\ closest (Rabs x * 10 ^ places pr)%R q /\ decimals (places pr) q m /\
    filled (has 45 fl) (has 48 fl) w (sign_of fl neg) m t /\
    ((length (t1 ++ t ++ t2) <= 1023)%nat -> Only_stack s s' ((t1 ++ t ++ t2) ++ 0 :: l)).
Proof.
  intros F D s c n x neg f1 f2 t1 t2 fl ws w ps pr l R Rc Ch L1 L2 Ff Wt Pt Sm Ne.
  destruct (real_double _ _ _ _ Rc) as (d & G & Fi & -> & Sg & D1 & D2).
  assert (P : exists q m, match pr with None => print_fixed d | Some q => print_decimals (Z.to_nat q) d end = Ok (minus neg ++ m) /\
    0 <= q /\ closest (Rabs (sval d) * 10 ^ places pr)%R q /\ decimals (places pr) q m).
  { rewrite Sg. destruct pr as [k|]; [apply print_decimals_spec, Fi|].
    destruct (print_fixed_spec d Fi) as (q & m & Em & Q & K1 & (wh & fr & -> & K2)).
    exists q, (wh ++ 46 :: fr). split; [exact Em|]. split; [exact Q|]. split; [exact K1|]. exists wh, fr. split; [reflexivity|exact K2]. }
  destruct P as (q & m & Em & Q & K1 & K2).
  assert (M : (if neg then tl (minus neg ++ m) else minus neg ++ m) = m) by (destruct neg; reflexivity).
  pose proof (fprt_run F D s c [n] _ _ l R G Ch) as E.
  pose proof (pad_field fl ws w pr true (sign_of fl neg) m Wt) as Pf. rewrite andb_true_r in Pf.
  set (t := pad (the_spec fl ws w pr) true (sign_of fl neg) m) in *.
  assert (T : fprt_text (f1 ++ (chars "%" ++ fl ++ ws ++ ps ++ chars "f") ++ f2) (Some (ADbl d)) = Ok (t1 ++ t ++ t2)).
  { rewrite (literal_text _ _ L1).
    replace ((chars "%" ++ fl ++ ws ++ ps ++ chars "f") ++ f2) with (37 :: fl ++ ws ++ ps ++ 102 :: f2)
      by (change (chars "%") with [37]; change (chars "f") with [102]; cbn [app]; now rewrite <- !app_assoc).
    rewrite (fprt_spec _ fl ws w ps pr _ Ff Wt Pt Ne), (wide_f _ _ _ _ Wt Sm).
    rewrite Em. cbn [bind]. rewrite (literal_only _ _ None L2), D1, D2.
    unfold t. clear. destruct neg; reflexivity. }
  rewrite T in E. destruct E as (s' & E & O). exists s', q, m, t. repeat (split; [assumption|]).
  intros Le. now rewrite (fits _ Le) in O.
Qed.
(** D and F: g, for a number other than 0, has six significant digits. *)
Theorem C124_general_partial : forall F D s c n x neg f1 f2 t1 t2 fl ws w l,
  Ready s FP_FPRT c (n :: (f1 ++ (chars "%" ++ fl ++ ws ++ chars "g") ++ f2) ++ 0 :: l) -> real_cell c n x neg -> x <> 0%R ->
  char_str (f1 ++ (chars "%" ++ fl ++ ws ++ chars "g") ++ f2) -> literal f1 t1 -> literal f2 t2 ->
  Forall flag fl -> width_text ws w -> w < 2 ^ 20 ->
  exists s' v k q e m t, execute F (S D) c s = Ok (ENone, s') /\
    numeral m false v k /\ (IZR v * powerRZ 10 k = IZR q * powerRZ 10 e)%R /\
    10 ^ 5 <= q < 10 ^ 6 /\ closest (Rabs x * powerRZ 10 (- e)) q /\
    filled (has 45 fl) (has 48 fl) w (sign_of fl neg) m t /\
    ((length (t1 ++ t ++ t2) <= 1023)%nat -> Only_stack s s' ((t1 ++ t ++ t2) ++ 0 :: l)).
Proof.
  intros F D s c n x neg f1 f2 t1 t2 fl ws w l R Rc Nx Ch L1 L2 Ff Wt Lt.
  destruct (real_double _ _ _ _ Rc) as (d & G & Fi & -> & Sg & D1 & D2).
  assert (P : exists m v k q e, print_general d = Ok (minus neg ++ m) /\ numeral m false v k /\
    (IZR v * powerRZ 10 k = IZR q * powerRZ 10 e)%R /\ 10 ^ 5 <= q < 10 ^ 6 /\ closest (Rabs (sval d) * powerRZ 10 (- e)) q).
  { destruct d as [g|g| |g mm ee]; try discriminate; [elim Nx; reflexivity|]. cbn [sign_SF] in Sg. subst g.
    destruct (PropsFishFloat.print_general_spec neg mm ee) as (t & v & k & q & y & P & Q1 & Q2 & Q3 & Q4).
    assert (St : exists m, t = minus neg ++ m).
    { destruct neg; [|exists t; reflexivity]. destruct Q1 as (sg & wh & pt & f & ex & nn & -> & -> & _). eexists. reflexivity. }
    destruct St as (m & ->). exists m, v, k, q, (y - 5). split; [exact P|]. split.
    { destruct Q1 as (sg & wh & pt & f & ex & nn & E & S1 & Q1). destruct neg.
      - subst sg. injection E as ->. exists [], wh, pt, f, ex, nn. split; [reflexivity|]. split; [now left|exact Q1].
      - exists sg, wh, pt, f, ex, nn. auto. }
    split; [exact Q2|]. split; [exact Q3|]. replace (- (y - 5)) with (5 - y) by lia. exact Q4. }
  destruct P as (m & v & k & q & e & Em & P1 & P2 & P3 & P4).
  assert (M : (if neg then tl (minus neg ++ m) else minus neg ++ m) = m) by (destruct neg; reflexivity).
  pose proof (fprt_run F D s c [n] _ _ l R G Ch) as E.
  assert (T : exists t, filled (has 45 fl) (has 48 fl) w (sign_of fl neg) m t /\
    fprt_text (f1 ++ (chars "%" ++ fl ++ ws ++ chars "g") ++ f2) (Some (ADbl d)) = Ok (t1 ++ t ++ t2)).
  { rewrite (literal_text _ _ L1).
    replace ((chars "%" ++ fl ++ ws ++ chars "g") ++ f2) with (37 :: fl ++ ws ++ [] ++ 103 :: f2)
      by (change (chars "%") with [37]; change (chars "g") with [103]; cbn [app]; now rewrite <- !app_assoc).
    assert (Pt : prec_text [] None) by (left; auto). assert (Sm : small w None) by (split; [exact Lt|exact I]).
    destruct (fl ++ ws) as [|h r] eqn:Fw.
    - destruct fl; [|discriminate]. cbn [app] in Fw. subst ws. destruct Wt as [[_ ->] | ((ds & Ew & _ & Nd & _) & Pw)].
      2:{ destruct ds; [contradiction|]. destruct (w <? 0); discriminate. }
      exists (minus neg ++ m). split.
      + exists 0%nat. split; [lia|]. cbn [has existsb repeat app]. unfold sign_of. cbn [has existsb]. destruct neg; reflexivity.
      + cbn [app fprt_text Z.eqb Pos.eqb existsb orb]. rewrite Em. cbn [bind]. rewrite (literal_only _ _ None L2). reflexivity.
    - exists (pad (the_spec fl ws w None) true (sign_of fl neg) m). split.
      + pose proof (pad_field fl ws w None true (sign_of fl neg) m Wt) as Pf. rewrite andb_true_r in Pf. exact Pf.
      + rewrite (fprt_spec _ fl ws w [] None _ Ff Wt Pt) by (rewrite app_nil_r, Fw; discriminate).
        rewrite (wide_g _ _ _ _ Wt Sm). cbn [none]. rewrite Em. cbn [bind]. rewrite (literal_only _ _ None L2), D1, D2. clear. destruct neg; reflexivity. }
  destruct T as (t & Ft & T).
  rewrite T in E. destruct E as (s' & E & O). exists s', v, k, q, e, m, t. repeat (split; [assumption|]).
  intros Le. now rewrite (fits _ Le) in O.
Qed.

Lemma double_text k d neg m f1 f2 t1 t2 fl ws w :
  k = 102 /\ print_fixed d = Ok (minus neg ++ m) \/ k = 103 /\ print_general d = Ok (minus neg ++ m) ->
  negative_double d = neg -> literal f1 t1 -> literal f2 t2 -> Forall flag fl -> width_text ws w -> w < 2 ^ 20 ->
  exists t, filled (has 45 fl) (has 48 fl && finite_double d) w (sign_of fl neg) m t /\
    fprt_text (f1 ++ (chars "%" ++ fl ++ ws ++ [k]) ++ f2) (Some (ADbl d)) = Ok (t1 ++ t ++ t2).
Proof.
  intros K D2 L1 L2 Ff Wt Lt. rewrite (literal_text _ _ L1).
  replace ((chars "%" ++ fl ++ ws ++ [k]) ++ f2) with (37 :: fl ++ ws ++ [] ++ k :: f2)
    by (change (chars "%") with [37]; cbn [app]; now rewrite <- !app_assoc).
  assert (Pt : prec_text [] None) by (left; auto). assert (Sm : small w None) by (split; [exact Lt|exact I]).
  destruct (fl ++ ws) as [|h r] eqn:Fw.
  - destruct fl; [|discriminate]. cbn [app] in Fw. subst ws. destruct Wt as [[_ ->] | ((ds & Ew & _ & Nd & _) & Pw)].
    2:{ destruct ds; [contradiction|]. destruct (w <? 0); discriminate. }
    exists (minus neg ++ m). split.
    + exists 0%nat. split; [lia|]. cbn [has existsb repeat app andb]. unfold sign_of. cbn [has existsb]. destruct neg; reflexivity.
    + destruct K as [(-> & Em)|(-> & Em)]; cbn [app fprt_text Z.eqb Pos.eqb existsb orb]; rewrite Em; cbn [bind];
        rewrite (literal_only _ _ None L2); reflexivity.
  - exists (pad (the_spec fl ws w None) (finite_double d) (sign_of fl neg) m). split.
    + exact (pad_field fl ws w None (finite_double d) (sign_of fl neg) m Wt).
    + rewrite (fprt_spec _ fl ws w [] None _ Ff Wt Pt) by (rewrite app_nil_r, Fw; discriminate).
      destruct K as [(-> & Em)|(-> & Em)]; [rewrite (wide_f _ _ _ _ Wt Sm)|rewrite (wide_g _ _ _ _ Wt Sm); cbn [none]];
        rewrite Em; cbn [bind]; rewrite (literal_only _ _ None L2), D2; clear; destruct neg; reflexivity.
Qed.
(** D and F: g of 0 is one digit, after the sign of the zero. *)
Theorem C124_zero_partial : forall F D s c n neg f1 f2 t1 t2 fl ws w l,
  Ready s FP_FPRT c (n :: (f1 ++ (chars "%" ++ fl ++ ws ++ chars "g") ++ f2) ++ 0 :: l) -> real_cell c n 0%R neg ->
  char_str (f1 ++ (chars "%" ++ fl ++ ws ++ chars "g") ++ f2) -> literal f1 t1 -> literal f2 t2 ->
  Forall flag fl -> width_text ws w -> w < 2 ^ 20 ->
  exists s' t, execute F (S D) c s = Ok (ENone, s') /\
    filled (has 45 fl) (has 48 fl) w (sign_of fl neg) (chars "0") t /\
    ((length (t1 ++ t ++ t2) <= 1023)%nat -> Only_stack s s' ((t1 ++ t ++ t2) ++ 0 :: l)).
Proof.
  intros F D s c n neg f1 f2 t1 t2 fl ws w l R Rc Ch L1 L2 Ff Wt Lt.
  destruct (real_double _ _ _ _ Rc) as (d & G & Fi & Zx & Sg & D1 & D2).
  assert (Em : print_general d = Ok (minus neg ++ chars "0")).
  { destruct d as [g|g| |g m e]; try discriminate; [cbn in Sg |- *; now subst g|].
    exfalso. revert Zx. cbn [sval]. unfold F2R. cbn [Fnum Fexp]. intros Zx. symmetry in Zx. apply Rmult_integral in Zx.
    destruct Zx as [Zx|Zx]; [apply (eq_IZR _ 0) in Zx; destruct g; discriminate|].
    generalize (bpow_gt_0 radix2 e). rewrite Zx. apply Rlt_irrefl. }
  destruct (double_text 103 d neg (chars "0") f1 f2 t1 t2 fl ws w (or_intror (conj eq_refl Em)) D2 L1 L2 Ff Wt Lt) as (t & Ft & T).
  rewrite D1, andb_true_r in Ft. pose proof (fprt_run F D s c [n] _ _ l R G Ch) as E. change (chars "g") with [103] in *.
  rewrite T in E. destruct E as (s' & E & O). exists s', t. repeat (split; [assumption|]).
  intros Le. now rewrite (fits _ Le) in O.
Qed.
(** D: f and g of an infinity are its name after the sign, never with zeros before. *)
Theorem C124_infinity_partial : forall F D s n neg f1 f2 t1 t2 fl ws w k l, In k (chars "fg") ->
  Ready s FP_FPRT 68 (n :: (f1 ++ (chars "%" ++ fl ++ ws ++ [k]) ++ f2) ++ 0 :: l) -> infinite neg n ->
  char_str (f1 ++ (chars "%" ++ fl ++ ws ++ [k]) ++ f2) -> literal f1 t1 -> literal f2 t2 ->
  Forall flag fl -> width_text ws w -> w < 2 ^ 20 ->
  exists s' t, execute F (S D) 68 s = Ok (ENone, s') /\
    filled (has 45 fl) false w (sign_of fl neg) (chars "inf") t /\
    ((length (t1 ++ t ++ t2) <= 1023)%nat -> Only_stack s s' ((t1 ++ t ++ t2) ++ 0 :: l)).
Proof.
  intros F D s n neg f1 f2 t1 t2 fl ws w k l Ik R Inf Ch L1 L2 Ff Wt Lt.
  assert (Dn : dbl_of_bits n = SpecFloat.S754_infinity neg).
  { destruct Inf as (I1 & I2 & <-). destruct (kind n) as [[N _]|[[_ X]|[[_ N] _]]]; [elim N; exact I1|exact X|elim N; exact I2]. }
  assert (K : k = 102 /\ print_fixed (dbl_of_bits n) = Ok (minus neg ++ chars "inf") \/
              k = 103 /\ print_general (dbl_of_bits n) = Ok (minus neg ++ chars "inf")).
  { rewrite Dn. destruct Ik as [<-|[<-|[]]]; [left|right]; split; reflexivity. }
  assert (D2 : negative_double (dbl_of_bits n) = neg) by (rewrite Dn; reflexivity).
  destruct (double_text k _ neg (chars "inf") f1 f2 t1 t2 fl ws w K D2 L1 L2 Ff Wt Lt) as (t & Ft & T).
  rewrite Dn in Ft. cbn [finite_double] in Ft. rewrite andb_false_r in Ft.
  assert (G : given 68 [n] (ADbl (dbl_of_bits n))) by (left; split; [reflexivity|]; exists n; auto).
  pose proof (fprt_run F D s 68 [n] _ _ l R G Ch) as E.
  rewrite T in E. destruct E as (s' & E & O). exists s', t. repeat (split; [assumption|]).
  intros Le. now rewrite (fits _ Le) in O.
Qed.

(** A format that converts nothing is copied, whatever the argument. *)
Theorem C124_plain_partial : forall F D s c x v f t l,
  Ready s FP_FPRT c (x ++ f ++ 0 :: l) -> given c x v -> char_str f -> literal f t -> (length t <= 1023)%nat ->
  exists s', execute F (S D) c s = Ok (ENone, s') /\ Only_stack s s' (t ++ 0 :: l).
Proof.
  intros F D s c x v f t l R G Ch L Le. pose proof (fprt_run F D s c x v f l R G Ch) as E.
  rewrite (literal_only _ _ _ L) in E. destruct E as (s' & E & O). rewrite (fits _ Le) in O. exists s'. auto.
Qed.

(** A longer text loses everything after its first 1023 bytes, and no error is
    reported. *)
Theorem C124_long_refuted : forall F D s u f1 f2 t1 t2 l,
  Ready s FP_FPRT 83 ((u ++ [0]) ++ (f1 ++ chars "%s" ++ f2) ++ 0 :: l) -> char_str u ->
  char_str (f1 ++ chars "%s" ++ f2) -> literal f1 t1 -> literal f2 t2 ->
  (1023 < length (t1 ++ u ++ t2))%nat ->
  exists s' kept lost, execute F (S D) 83 s = Ok (ENone, s') /\ Only_stack s s' (kept ++ 0 :: l) /\
    t1 ++ u ++ t2 = kept ++ lost /\ length kept = 1023%nat /\ lost <> [].
Proof.
  intros F D s u f1 f2 t1 t2 l R Cu Ch L1 L2 Le.
  assert (G : given 83 (u ++ [0]) (AStr u)).
  { do 4 right. split; [reflexivity|]. exists u. auto. }
  pose proof (fprt_run F D s 83 _ _ _ l R G Ch) as E.
  assert (T : fprt_text (f1 ++ chars "%s" ++ f2) (Some (AStr u)) = Ok (t1 ++ u ++ t2)).
  { rewrite (literal_text _ _ L1). change (chars "%s" ++ f2) with (37 :: 115 :: f2).
    cbn [fprt_text Z.eqb Pos.eqb]. rewrite (literal_only _ _ None L2). reflexivity. }
  rewrite T in E. destruct E as (s' & E & O). set (w := t1 ++ u ++ t2) in *.
  exists s', (firstn 1023 w), (skipn 1023 w). split; [exact E|]. split; [exact O|].
  split; [symmetry; apply firstn_skipn|]. split; [rewrite firstn_length; lia|].
  intros Z0. apply (f_equal (@length Z)) in Z0. rewrite skipn_length in Z0. cbn [length] in Z0. lia.
Qed.

(** The conversions that take an argument, and which instruction passes one of
    that type: D and F a double, I and L a long, S a string.  Nothing passes an
    int, so that d, i, u, o, x, X and c always read something that is not there,
    and n writes through it. *)
Definition takes (k c : Z) : Prop :=
  In k (chars "feEgGaA") /\ (c = 68 \/ c = 70) \/ In k (chars "sp") /\ c = 83.
Definition conversions : list Z := chars "feEgGaAspdiuoxXcn".
Theorem C124_wrong_refuted : forall F D s c x v f1 t1 k f2 l,
  Ready s FP_FPRT c (x ++ (f1 ++ PERCENT :: k :: f2) ++ 0 :: l) -> given c x v ->
  char_str (f1 ++ PERCENT :: k :: f2) -> literal f1 t1 -> In k conversions -> ~ takes k c ->
  execute F (S D) c s = Bad BadOob.
Proof.
  intros F D s c x v f1 t1 k f2 l R G Ch L1 Ik Nt.
  pose proof (fprt_run F D s c x v _ l R G Ch) as E.
  assert (T : fprt_text (f1 ++ PERCENT :: k :: f2) (Some v) = Bad BadOob); [|now rewrite T in E].
  rewrite (literal_text _ _ L1). unfold PERCENT.
  change conversions with [102; 101; 69; 103; 71; 97; 65; 115; 112; 100; 105; 117; 111; 120; 88; 99; 110] in Ik.
  unfold takes in Nt. change (chars "feEgGaA") with [102; 101; 69; 103; 71; 97; 65] in Nt.
  change (chars "sp") with [115; 112] in Nt.
  destruct G as [(-> & n & -> & ->)|[(-> & n & -> & ->)|[(-> & n & -> & ->)|[(-> & lo & hi & -> & ->)|(-> & t & Ct & -> & ->)]]]];
    repeat (destruct Ik as [<-|Ik]; [first [reflexivity | exfalso; apply Nt; cbn [In]; tauto]|]); destruct Ik.
Qed.

(** Nor is there a second argument: two conversions of the right type. *)
Theorem C124_second_refuted : forall F D s u f1 f2 f3 t1 t2 l,
  Ready s FP_FPRT 83 ((u ++ [0]) ++ (f1 ++ chars "%s" ++ f2 ++ chars "%s" ++ f3) ++ 0 :: l) -> char_str u ->
  char_str (f1 ++ chars "%s" ++ f2 ++ chars "%s" ++ f3) -> literal f1 t1 -> literal f2 t2 ->
  execute F (S D) 83 s = Bad BadOob.
Proof.
  intros F D s u f1 f2 f3 t1 t2 l R Cu Ch L1 L2.
  assert (G : given 83 (u ++ [0]) (AStr u)).
  { do 4 right. split; [reflexivity|]. exists u. auto. }
  pose proof (fprt_run F D s 83 _ _ _ l R G Ch) as E.
  assert (T : fprt_text (f1 ++ chars "%s" ++ f2 ++ chars "%s" ++ f3) (Some (AStr u)) = Bad BadOob); [|now rewrite T in E].
  rewrite (literal_text _ _ L1). change (chars "%s" ++ f2 ++ chars "%s" ++ f3) with (37 :: 115 :: f2 ++ chars "%s" ++ f3).
  cbn [fprt_text Z.eqb Pos.eqb]. rewrite (literal_text _ _ L2). reflexivity.
Qed.

(** ** The hypotheses can be met *)

Definition fprt_demo (l : list Z) : st := loaded [FP_FPRT] l.
Example C124_integer_ex :
  Ready (fprt_demo ([-7] ++ (chars "n%%=" ++ chars "%ld" ++ chars "!") ++ 0 :: [9])) FP_FPRT 73
    ([-7] ++ (chars "n%%=" ++ chars "%ld" ++ chars "!") ++ 0 :: [9]) /\
  Ready (fprt_demo ([-1; 2] ++ ([] ++ chars "%li" ++ []) ++ 0 :: [9])) FP_FPRT 76
    ([-1; 2] ++ ([] ++ chars "%li" ++ []) ++ 0 :: [9]) /\
  integer 76 [-1; 2] 12884901887 /\ literal (chars "n%%=") (chars "n%=").
Proof.
  split; [demo|]. split; [demo|]. split.
  - right. split; [reflexivity|]. exists (-1), 2. split; [reflexivity|]. split; [lia|reflexivity].
  - apply lit_char; [discriminate|]. apply lit_percent. apply lit_char; [discriminate|]. constructor.
Qed.
Example C124_string_ex :
  Ready (fprt_demo ((chars "Hi" ++ [0]) ++ (chars "<" ++ chars "%s" ++ chars ">") ++ 0 :: [9])) FP_FPRT 83
    ((chars "Hi" ++ [0]) ++ (chars "<" ++ chars "%s" ++ chars ">") ++ 0 :: [9]) /\
  char_str (chars "Hi") /\ char_str (chars "<" ++ chars "%s" ++ chars ">").
Proof. split; [demo|]. split; unfold char_str; cbn; repeat constructor; cbn; lia. Qed.
(** The bits of -1.5. *)
Example C124_real_ex :
  Ready (fprt_demo (-4613937818241073152 :: (chars "x" ++ chars "%f" ++ []) ++ 0 :: [9])) FP_FPRT 68
    (-4613937818241073152 :: (chars "x" ++ chars "%f" ++ []) ++ 0 :: [9]) /\
  number (-4613937818241073152).
Proof. split; [demo|]. unfold number, exponent_field. vm_compute. discriminate. Qed.
Example C124_wrong_ex :
  Ready (fprt_demo ([5] ++ (chars "a" ++ PERCENT :: 100 :: []) ++ 0 :: [9])) FP_FPRT 73
    ([5] ++ (chars "a" ++ PERCENT :: 100 :: []) ++ 0 :: [9]) /\ In 100 conversions /\ ~ takes 100 73.
Proof.
  split; [demo|]. split; [cbn; tauto|]. unfold takes. cbn. intuition discriminate.
Qed.

(** -1 is 18446744073709551615, 1777777777777777777777, ffffffffffffffff and
    FFFFFFFFFFFFFFFF. *)
Example C124_unsigned_ex :
  Ready (fprt_demo ([-1] ++ (chars "n%%=" ++ chars "%lx" ++ chars "!") ++ 0 :: [9])) FP_FPRT 73
    ([-1] ++ (chars "n%%=" ++ chars "%lx" ++ chars "!") ++ 0 :: [9]) /\
  char_str (chars "n%%=" ++ chars "%lx" ++ chars "!") /\ literal (chars "n%%=") (chars "n%=") /\
  radix_text 10 87 ((-1) mod 2 ^ 64) = chars "18446744073709551615" /\
  radix_text 8 87 ((-1) mod 2 ^ 64) = chars "1777777777777777777777" /\
  radix_text 16 87 ((-1) mod 2 ^ 64) = chars "ffffffffffffffff" /\
  radix_text 16 55 ((-1) mod 2 ^ 64) = chars "FFFFFFFFFFFFFFFF".
Proof.
  split; [demo|]. split; [vm_compute; repeat constructor; discriminate|]. split.
  - apply lit_char; [discriminate|]. apply lit_percent. apply lit_char; [discriminate|]. constructor.
  - repeat split.
Qed.
(** +00042, "Hi   |", "   -1.500000" and 0002a. *)
Example C124_format_ex :
  Ready (fprt_demo ([42] ++ ([] ++ (chars "%" ++ chars "0+" ++ chars "6" ++ chars ".3" ++ [108; 100]) ++ []) ++ 0 :: [9])) FP_FPRT 73
    ([42] ++ ([] ++ (chars "%" ++ chars "0+" ++ chars "6" ++ chars ".3" ++ [108; 100]) ++ []) ++ 0 :: [9]) /\
  Forall flag (chars "0+") /\ width_text (chars "12") 12 /\ prec_text (chars ".3") (Some 3) /\
  run_stack (execute 1 1 73) (fprt_demo (42 :: chars "%0+6ld" ++ [0; 9])) = Ok (ENone, chars "+00042" ++ [0; 9]) /\
  run_stack (execute 1 1 83) (fprt_demo ((chars "Hi" ++ [0]) ++ chars "%-5s|" ++ [0; 9])) = Ok (ENone, chars "Hi   |" ++ [0; 9]) /\
  run_stack (execute 1 1 68) (fprt_demo (-4613937818241073152 :: chars "%12f" ++ [0; 9])) = Ok (ENone, chars "   -1.500000" ++ [0; 9]) /\
  run_stack (execute 1 1 73) (fprt_demo (42 :: chars "%05lx" ++ [0; 9])) = Ok (ENone, chars "0002a" ++ [0; 9]) /\
  run_stack (execute 1 1 73) (fprt_demo (42 :: chars "%-05ld." ++ [0; 9])) = Ok (ENone, chars "42   ." ++ [0; 9]) /\
  run_stack (execute 1 1 73) (fprt_demo (-42 :: chars "% ld%%" ++ [0; 9])) = Ok (ENone, chars "-42%" ++ [0; 9]) /\
  run_stack (execute 1 1 73) (fprt_demo (42 :: chars "% ld%%" ++ [0; 9])) = Ok (ENone, chars " 42%" ++ [0; 9]) /\
  run_stack (execute 1 1 73) (fprt_demo (42 :: chars "%06.3ld" ++ [0; 9])) = Ok (ENone, chars "   042" ++ [0; 9]) /\
  run_stack (execute 1 1 73) (fprt_demo (0 :: chars "<%.ld>" ++ [0; 9])) = Ok (ENone, chars "<>" ++ [0; 9]) /\
  run_stack (execute 1 1 83) (fprt_demo ((chars "Hello" ++ [0]) ++ chars "%6.2s|" ++ [0; 9])) = Ok (ENone, chars "    He|" ++ [0; 9]) /\
  run_stack (execute 1 1 68) (fprt_demo (-4613937818241073152 :: chars "%.1f" ++ [0; 9])) = Ok (ENone, chars "-1.5" ++ [0; 9]) /\
  run_stack (execute 1 1 68) (fprt_demo (-4613937818241073152 :: chars "%.0f" ++ [0; 9])) = Ok (ENone, chars "-2" ++ [0; 9]) /\
  run_stack (execute 1 1 68) (fprt_demo (-4613937818241073152 :: chars "%06g" ++ [0; 9])) = Ok (ENone, chars "-001.5" ++ [0; 9]) /\
  run_stack (execute 1 1 68) (fprt_demo (- 2 ^ 63 :: chars "%04g" ++ [0; 9])) = Ok (ENone, chars "-000" ++ [0; 9]) /\
  infinite false (2047 * 2 ^ 52) /\
  run_stack (execute 1 1 68) (fprt_demo (2047 * 2 ^ 52 :: chars "%+06f" ++ [0; 9])) = Ok (ENone, chars "  +inf" ++ [0; 9]).
Proof.
  split; [demo|]. split; [unfold flag; cbn; repeat constructor; tauto|].
  split; [right; split; [apply (dec_decimal 12)|lia]|].
  split; [right; exists [51]; split; [reflexivity|]; split; [repeat constructor; discriminate|reflexivity]|].
  do 14 (split; [vm_compute; reflexivity|]). split; [repeat split|vm_compute; reflexivity].
Qed.
Print Assumptions C124_integer_partial.
Print Assumptions C124_integer_format_partial.
Print Assumptions C124_unsigned_format_partial.
Print Assumptions C124_string_format_partial.
Print Assumptions C124_real_format_partial.
Print Assumptions C124_general_partial.
Print Assumptions C124_zero_partial.
Print Assumptions C124_infinity_partial.
Print Assumptions C124_unsigned_partial.
Print Assumptions C124_string_partial.
Print Assumptions C124_real_partial.
Print Assumptions C124_plain_partial.
Print Assumptions C124_long_refuted.
Print Assumptions C124_wrong_refuted.
Print Assumptions C124_second_refuted.
