(** * Properties C22, C23, C33 and C64: cells next to the IP, numbers in and
    out, vectors and strings on the stack.  See PropsStack.v for the
    vocabulary. *)

From Coq Require Import ZArith List Bool Lia.
From Verif Require Import Base BaseProofs VectorModel VectorProofs TextModel TextProofs
  StackModel StackProofs FieldModel FieldProofs World IpModel LoadModel FingModel CoreModel
  UniModel ExecProofs States PropsStack.
Import ListNotations.
Open Scope Z_scope.

(** [s'] is [s] with another world [w'] and another stack. *)
Definition World_and_stack (s s' : st) (w' : world) (l' : list Z) : Prop :=
  s_w s' = w' /\ exists s1, Only_stack s s1 l' /\ s_r s' = s_r s1.

(** ** C22 s then ' transfers a full cell *)

Lemma moved_holds s p d l : Holds s l -> Holds (moved s p d) l.
Proof. intros H. exact H. Qed.
Lemma moved_only s p d s' l' : Only_stack (moved s p d) s' l' ->
  exists s1, Only_stack s s1 l' /\ s' = moved s1 p d.
Proof.
  intros (k & k' & E & M & L & ->). exists (setSS (ss_set (mySS s) (ss_sel (mySS s)) k') s).
  split; [exists k, k'; auto|reflexivity].
Qed.

(** [s'] is [s] with the IP moved to [p] (delta [d]), another Funge-space and
    another stack. *)
Definition Moved_space_stack (s s' : st) (p d : vec) (f' : field) (l' : list Z) : Prop :=
  s_w s' = upd_uni (r_uni (s_r s)) (set_u_field f') (s_w s) /\
  exists s1, Only_stack s s1 l' /\ s_r s' = set_r_delta d (set_r_pos p (s_r s1)).
Definition Moved_stack (s s' : st) (p d : vec) (l' : list Z) : Prop :=
  exists s1, Only_stack s s1 l' /\ s' = moved s1 p d.

(** [next_of s] is the cell the IP would step to. *)
Lemma store_run F D s l p d :
  Normal s 115 -> Holds s l -> r_stopped (s_r s) = false -> next_of s = Ok (p, d) ->
  exists s', execute F (S D) 115 s = Ok (ENone, s') /\
    Moved_space_stack s s' p d (f_put p (to_i8 (to_i32 (hd 0 l))) (space s)) (tl l).
Proof.
  intros HN H St E. rewrite (execute_normal F D _ s _ _ HN eq_refl). cbn [run_meth].
  rewrite (run_bind _ _ _ _ _ (ipNext_run s p d St E)).
  pose proof (moved_holds s p d l H) as H1.
  destruct (popS_plain _ _ H1) as (s1 & E1 & C1). rewrite (run_bind _ _ _ _ _ E1).
  destruct (moved_only _ _ _ _ _ C1) as (s2 & C2 & ->).
  pose proof (Only_stack_w _ _ _ C2) as W2. pose proof (Only_stack_r _ _ _ C2) as R2.
  exists {| s_w := upd_uni (r_uni (s_r s)) (set_u_field (f_put p (to_i8 (to_i32 (hd 0 l))) (space s))) (s_w s);
            s_r := s_r (moved s2 p d) |}.
  split.
  - unfold ipPut, mbind, getR, fput, modW, moved. cbn [s_w s_r]. rewrite W2, R2. reflexivity.
  - split; [reflexivity|]. exists s2. split; auto.
Qed.
Lemma fetch_run F D s l p d :
  Normal s 39 -> Holds s l -> r_stopped (s_r s) = false -> next_of s = Ok (p, d) ->
  exists s', execute F (S D) 39 s = Ok (ENone, s') /\
    Moved_stack s s' p d (to_i32 (f_get (space s) p) :: l).
Proof.
  intros HN H St E. rewrite (execute_normal F D _ s _ _ HN eq_refl). cbn [run_meth].
  rewrite (run_bind _ _ _ _ _ (ipNext_run s p d St E)).
  pose proof (moved_holds s p d l H) as H1.
  rewrite (run_bind ipGet _ (moved s p d) (f_get (space s) p) (moved s p d)) by reflexivity.
  destruct (pushS_plain _ _ (to_i32 (f_get (space s) p)) H1) as (s1 & E1 & C1).
  rewrite (run_bind _ _ _ _ _ E1). destruct (moved_only _ _ _ _ _ C1) as (s2 & C2 & ->).
  eexists. split; [reflexivity|]. exists s2. auto.
Qed.

(** Storing 200 next to the IP and fetching it from there gives -56; a cell
    holding 2^31 is fetched as -2^31. *)
Theorem C22_refuted :
  (exists s s1 s2,
     Normal s 115 /\ Holds s [200] /\
     execute 1 1 115 s = Ok (ENone, s1) /\
     s2 = {| s_w := s_w s1; s_r := set_r_pos (r_pos (s_r s)) (s_r s1) |} /\
     run_stack (execute 1 1 39) s2 = Ok (ENone, [-56])) /\
  (exists s, Normal s 39 /\ next_of s = Ok (mkvec [1], mkvec [1]) /\
     f_get (space s) (mkvec [1]) = 2147483648 /\
     run_stack (execute 1 1 39) s = Ok (ENone, [-2147483648])).
Proof.
  split.
  - set (s := ex98 [200]).
    destruct (execute 1 1 115 s) as [[e s1]|] eqn:E; [|vm_compute in E; discriminate].
    exists s, s1, {| s_w := s_w s1; s_r := set_r_pos (r_pos (s_r s)) (s_r s1) |}.
    assert (e = ENone) as -> by (vm_compute in E; now inversion E).
    split; [vm_compute; repeat split|]. split; [apply holds_with_list; vm_compute; [reflexivity|discriminate]|].
    split; [exact E|]. split; [reflexivity|]. vm_compute in E. inversion E. vm_compute. reflexivity.
  - set (s0 := start98 2 [39; 97; 64] []).
    exists {| s_w := upd_uni 0 (fun u => set_u_field (f_put (mkvec [1]) 2147483648 (u_field u)) u) (s_w s0);
              s_r := s_r s0 |}.
    vm_compute. repeat split.
Qed.

(** What holds: [s] writes the value to the next cell and moves there, and [']
    on that cell pushes it back, for values from -128 to 127. *)
Theorem C22_partial : forall F D s x l p d,
  -128 <= x <= 127 ->
  Normal s 115 -> Holds s (x :: l) -> r_stopped (s_r s) = false -> next_of s = Ok (p, d) ->
  exists s1 f', execute F (S D) 115 s = Ok (ENone, s1) /\
    Moved_space_stack s s1 p d f' l /\
    f_get f' p = x /\
    (forall q, ~ (forall i, vget q i = vget p i) -> f_get f' q = f_get (space s) q) /\
    (** From any state [s2] of that world in which the IP is before [p]. *)
    forall s2 l2 d2, s_w s2 = s_w s1 -> r_uni (s_r s2) = r_uni (s_r s) ->
      Normal s2 39 -> Holds s2 l2 -> r_stopped (s_r s2) = false -> next_of s2 = Ok (p, d2) ->
      exists s3, execute F (S D) 39 s2 = Ok (ENone, s3) /\ Moved_stack s2 s3 p d2 (x :: l2).
Proof.
  intros F D s x l p d R HN H St E.
  destruct (store_run F D s _ p d HN H St E) as (s1 & E1 & C1). cbn [hd tl] in *.
  rewrite (to_i32_id x), (to_i8_id x) in C1 by lia.
  exists s1, (f_put p x (space s)). split; auto. split; auto.
  assert (G : f_get (f_put p x (space s)) p = x).
  { rewrite f_get_put_same by (intros i; reflexivity). unfold cellval.
    destruct (f_char _); auto. now apply to_i8_id. }
  split; auto. split.
  - intros q Hq. apply f_get_put_other. intros C. apply Hq. intros i. symmetry. apply C.
  - intros s2 l2 d2 W2 U2 HN2 H2 St2 E2.
    destruct (fetch_run F D s2 l2 p d2 HN2 H2 St2 E2) as (s3 & E3 & C3).
    exists s3. split; auto.
    assert (X : space s2 = f_put p x (space s)).
    { unfold space at 1. rewrite W2, U2. destruct C1 as [-> _]. unfold upd_uni. cbn [w_uni set_w_uni].
      rewrite Nat.eqb_refl. reflexivity. }
    rewrite X, G, to_i32_id in C3 by lia. exact C3.
Qed.
Example C22_ex : Normal (ex98 [-7; 5]) 115 /\ Normal (ex98 [-7; 5]) 39 /\ Holds (ex98 [-7; 5]) [-7; 5] /\
  next_of (with_list [-7; 5] (start98 2 [115; 97; 64] [])) = Ok (mkvec [1], mkvec [1]).
Proof.
  split; [vm_compute; repeat split|]. split; [vm_compute; repeat split|].
  split; [apply holds_with_list; vm_compute; [reflexivity|discriminate]|]. vm_compute. reflexivity.
Qed.
Print Assumptions C22_refuted.
Print Assumptions C22_partial.

(** ** C23 . prints the popped value *)

(** [text] is the decimal representation of [n]: a minus sign if negative, then
    digits of the right value without a superfluous leading zero. *)
Definition decimal (n : Z) (text : bytes) : Prop :=
  exists ds, text = (if n <? 0 then [45] else []) ++ ds /\
    Forall (fun c => 48 <= c <= 57) ds /\ ds <> [] /\
    digits_value 0 ds = Z.abs n /\ (hd 0 ds = 48 -> ds = [48]).
Lemma dec_decimal n : decimal n (dec n).
Proof.
  exists (dec_nat (Z.abs n)). destruct (dec_nat_spec (Z.abs n) (Z.abs_nonneg n)) as (A & B & C & E).
  split.
  - unfold dec. destruct (Z.ltb_spec n 0).
    + now rewrite Z.abs_neq by lia.
    + now rewrite Z.abs_eq by lia.
  - split; [exact A|]. split; [exact B|]. split; [exact C|]. intros H. now apply E.
Qed.

Lemma numout_run F D s l : Normal s 46 -> Holds s l ->
  exists s', execute F (S D) 46 s = Ok (ENone, s') /\
    World_and_stack s s' (set_w_out (w_out (s_w s) ++ dec (to_i32 (hd 0 l)) ++ [32]) (s_w s)) (tl l).
Proof.
  intros HN H. rewrite (execute_normal F D _ s _ _ HN eq_refl). cbn [run_meth]. xpop.
  pose proof (Only_stack_w _ _ _ C) as W.
  exists {| s_w := set_w_out (w_out (s_w s) ++ dec (to_i32 (hd 0 l)) ++ [32]) (s_w s); s_r := s_r s0 |}.
  split.
  - unfold out, modW, mbind. rewrite W. reflexivity.
  - split; [reflexivity|]. exists s0. auto.
Qed.

(** Printing 2^32 prints 0. *)
Theorem C23_refuted : exists s s', Normal s 46 /\ Holds s [4294967296] /\
  execute 1 1 46 s = Ok (ENone, s') /\ w_out (s_w s') = w_out (s_w s) ++ [48; 32] /\
  ~ decimal 4294967296 [48].
Proof.
  destruct (execute 1 1 46 (ex98 [4294967296])) as [[e s']|] eqn:E; [|vm_compute in E; discriminate].
  exists (ex98 [4294967296]), s'.
  split; [vm_compute; repeat split|]. split; [apply holds_with_list; vm_compute; [reflexivity|discriminate]|].
  vm_compute in E. inversion E. split; [reflexivity|]. split; [reflexivity|].
  intros (ds & A & _ & _ & V & _). cbn in A. subst ds. cbn in V. discriminate.
Qed.
Theorem C23_partial : forall F D s x l,
  -2147483648 <= x <= 2147483647 -> Normal s 46 -> Holds s (x :: l) ->
  exists s' text, execute F (S D) 46 s = Ok (ENone, s') /\ decimal x text /\
    World_and_stack s s' (set_w_out (w_out (s_w s) ++ text ++ [32]) (s_w s)) l.
Proof.
  intros F D s x l R HN H. destruct (numout_run F D s _ HN H) as (s' & E & C). cbn [hd tl] in C.
  rewrite to_i32_id in C by lia. exists s', (dec x). split; auto. split; auto. apply dec_decimal.
Qed.
(** An empty stack prints 0. *)
Theorem C23_empty : forall F D s, Normal s 46 -> Holds s [] ->
  exists s', execute F (S D) 46 s = Ok (ENone, s') /\
    World_and_stack s s' (set_w_out (w_out (s_w s) ++ [48; 32]) (s_w s)) [].
Proof. intros F D s HN H. exact (numout_run F D s _ HN H). Qed.
(** The representation is unique, so [decimal] leaves no freedom. *)
Lemma digits_app l : forall a b, digits_value a (l ++ b) = digits_value (digits_value a l) b.
Proof. induction l as [|c l IH]; intros a b; cbn [app digits_value]; auto. Qed.
Lemma digits_pos ds : forall a, 0 <= a -> Forall (fun c => 48 <= c <= 57) ds ->
  a * 10 ^ Z.of_nat (length ds) <= digits_value a ds < (a + 1) * 10 ^ Z.of_nat (length ds).
Proof.
  induction ds as [|c ds IH]; intros a Ha F.
  - cbn [digits_value length]. change (10 ^ Z.of_nat 0) with 1. lia.
  - inversion F as [|? ? Dc F']; subst. cbn [digits_value length].
    specialize (IH (a * 10 + (c - 48)) ltac:(lia) F').
    rewrite Nat2Z.inj_succ, Z.pow_succ_r by lia.
    assert (0 < 10 ^ Z.of_nat (length ds)) by (apply Z.pow_pos_nonneg; lia). nia.
Qed.
Lemma digits_inj ds : forall es a, Forall (fun c => 48 <= c <= 57) ds -> Forall (fun c => 48 <= c <= 57) es ->
  0 <= a -> length ds = length es -> digits_value a ds = digits_value a es -> ds = es.
Proof.
  induction ds as [|c ds IH]; intros [|e es] a F G Ha L V; cbn [length] in L; try discriminate; auto.
  inversion F as [|? ? Dc F']; subst. inversion G as [|? ? De G']; subst.
  cbn [digits_value] in V. injection L as L.
  pose proof (digits_pos ds (a * 10 + (c - 48)) ltac:(lia) F') as B1.
  pose proof (digits_pos es (a * 10 + (e - 48)) ltac:(lia) G') as B2.
  rewrite <- L in B2. assert (0 < 10 ^ Z.of_nat (length ds)) by (apply Z.pow_pos_nonneg; lia).
  assert (c = e) by nia. subst e. f_equal. apply (IH es (a * 10 + (c - 48))); auto. lia.
Qed.
Theorem C23_unique : forall n t u, decimal n t -> decimal n u -> t = u.
Proof.
  intros n t u (ds & -> & Fd & Nd & Vd & Zd) (es & -> & Fe & Ne & Ve & Ze). f_equal.
  assert (P : forall xs, Forall (fun c => 48 <= c <= 57) xs -> xs <> [] -> digits_value 0 xs = Z.abs n ->
     (hd 0 xs = 48 -> xs = [48]) -> Z.abs n <> 0 ->
     10 ^ (Z.of_nat (length xs) - 1) <= Z.abs n < 10 ^ Z.of_nat (length xs)).
  { intros xs F N V Z0 Hn. destruct xs as [|c xs]; [congruence|]. inversion F as [|? ? Dc F']; subst.
    cbn [digits_value] in V. pose proof (digits_pos xs (0 * 10 + (c - 48)) ltac:(lia) F') as B.
    assert (c <> 48).
    { intros ->. specialize (Z0 eq_refl). inversion Z0; subst. cbn in V. lia. }
    cbn [length]. rewrite Nat2Z.inj_succ. replace (Z.succ (Z.of_nat (length xs)) - 1) with (Z.of_nat (length xs)) by lia.
    rewrite Z.pow_succ_r by lia. assert (0 < 10 ^ Z.of_nat (length xs)) by (apply Z.pow_pos_nonneg; lia). nia. }
  destruct (Z.eq_dec (Z.abs n) 0) as [Hn|Hn].
  - assert (Q : forall xs, Forall (fun c => 48 <= c <= 57) xs -> xs <> [] -> digits_value 0 xs = 0 ->
      (hd 0 xs = 48 -> xs = [48]) -> xs = [48]).
    { intros [|c xs] F N V Z0; [congruence|]. apply Z0. inversion F as [|? ? Dc F']; subst. cbn [digits_value] in V.
      pose proof (digits_pos xs (0 * 10 + (c - 48)) ltac:(lia) F') as B.
      assert (0 < 10 ^ Z.of_nat (length xs)) by (apply Z.pow_pos_nonneg; lia). cbn [hd]. nia. }
    rewrite (Q ds), (Q es); auto; congruence.
  - apply (digits_inj ds es 0); auto; [lia| |congruence].
    pose proof (P ds Fd Nd Vd Zd Hn) as A. pose proof (P es Fe Ne Ve Ze Hn) as B.
    assert (Ld : (0 < length ds)%nat) by (destruct ds; [congruence|cbn; lia]).
    assert (Le : (0 < length es)%nat) by (destruct es; [congruence|cbn; lia]).
    destruct (Nat.lt_trichotomy (length ds) (length es)) as [L|[L|L]]; auto; exfalso.
    + assert (10 ^ Z.of_nat (length ds) <= 10 ^ (Z.of_nat (length es) - 1)) by (apply Z.pow_le_mono_r; lia). lia.
    + assert (10 ^ Z.of_nat (length es) <= 10 ^ (Z.of_nat (length ds) - 1)) by (apply Z.pow_le_mono_r; lia). lia.
Qed.
Example C23_ex : Normal (ex98 [-120; 1]) 46 /\ Holds (ex98 [-120; 1]) [-120; 1] /\
  decimal (-120) [45; 49; 50; 48] /\
  match execute 1 1 46 (ex98 [-120; 1]) with
  | Ok (_, s') => w_out (s_w s') = [45; 49; 50; 48; 32] /\ stack_of s' = [1]
  | Bad _ => False
  end.
Proof.
  split; [vm_compute; repeat split|]. split; [apply holds_with_list; vm_compute; [reflexivity|discriminate]|].
  split; [apply (dec_decimal (-120))|]. vm_compute. repeat split.
Qed.
Print Assumptions C23_refuted.
Print Assumptions C23_partial.
Print Assumptions C23_empty.
Print Assumptions C23_unique.

(** ** C33 & reads a decimal number *)

Definition is_digit (c : Z) : Prop := 48 <= c <= 57.
Lemma isdigit_true c : is_digit c -> isdigit c = true.
Proof. unfold is_digit, isdigit. intros. apply andb_true_iff. split; apply Z.leb_le; lia. Qed.
Lemma isdigit_false c : ~ is_digit c -> isdigit c = false.
Proof.
  unfold is_digit, isdigit. intros. apply andb_false_iff.
  destruct (Z.leb_spec 48 c); auto. destruct (Z.leb_spec c 57); auto. lia.
Qed.
Lemma skip_junk junk : forall l, Forall (fun c => ~ is_digit c) junk ->
  skip_nondigits (junk ++ l) = skip_nondigits l.
Proof.
  induction junk as [|c junk IH]; intros l F; auto. inversion F; subst.
  cbn [app skip_nondigits]. rewrite isdigit_false by auto. auto.
Qed.
Lemma digits_mono ds : forall a, Forall is_digit ds -> 0 <= a -> a <= digits_value a ds.
Proof.
  induction ds as [|c ds IH]; intros a F Ha; cbn [digits_value]; [lia|].
  inversion F as [|? ? Dc F']; subst. unfold is_digit in Dc.
  specialize (IH (a * 10 + (c - 48)) F' ltac:(lia)). lia.
Qed.
Lemma read_digits_ok ds : forall rest a, Forall is_digit ds -> 0 <= a ->
  (match rest with [] => True | c :: _ => ~ is_digit c end) ->
  digits_value a ds <= INT64_MAX ->
  read_digits (ds ++ rest) a =
  Ok (match rest with [] => None | _ => Some (digits_value a ds, rest) end).
Proof.
  induction ds as [|c ds IH]; intros rest a F Ha R V; cbn [app digits_value] in *.
  - destruct rest as [|c t]; auto. cbn [read_digits]. now rewrite isdigit_false.
  - inversion F as [|? ? Dc F']; subst. cbn [read_digits]. rewrite isdigit_true by auto.
    unfold is_digit in Dc. pose proof (digits_mono ds (a * 10 + (c - 48)) F' ltac:(lia)) as Mo.
    unfold mul64, add64. rewrite chk64_ok by (unfold in64, INT64_MIN, INT64_MAX in *; lia). cbn [bind].
    rewrite chk64_ok by (unfold in64, INT64_MIN, INT64_MAX in *; lia). cbn [bind].
    rewrite IH; auto. lia.
Qed.
Lemma read_digits_overflow ds : forall rest a, Forall is_digit ds -> 0 <= a -> a <= INT64_MAX ->
  digits_value a ds > INT64_MAX -> read_digits (ds ++ rest) a = Bad BadOverflow.
Proof.
  induction ds as [|c ds IH]; intros rest a F Ha Ia V; cbn [app digits_value] in *; [lia|].
  inversion F as [|? ? Dc F']; subst. cbn [read_digits]. rewrite isdigit_true by auto. unfold is_digit in Dc.
  unfold mul64, add64. destruct (in64b (a * 10)) eqn:E.
  - apply in64b_true in E. rewrite chk64_ok by auto. cbn [bind].
    destruct (in64b (a * 10 + (c - 48))) eqn:E2.
    + apply in64b_true in E2. rewrite chk64_ok by auto. cbn [bind]. apply IH; auto; unfold in64 in E2; lia.
    + unfold chk64. rewrite E2. reflexivity.
  - unfold chk64. rewrite E. reflexivity.
Qed.

(** With a terminator after the digits: the value is pushed, the rest stays. *)
Theorem C33_reads_partial : forall F D s l junk ds c rest,
  Normal s 38 -> Holds s l ->
  w_in (s_w s) = junk ++ ds ++ c :: rest ->
  Forall (fun c => ~ is_digit c) junk -> Forall is_digit ds -> ds <> [] -> ~ is_digit c ->
  (digits_value 0 ds <= INT64_MAX ->
   exists s', execute F (S D) 38 s = Ok (ENone, s') /\
     World_and_stack s s' (set_w_in (c :: rest) (s_w s)) (digits_value 0 ds :: l)) /\
  (digits_value 0 ds > INT64_MAX -> execute F (S D) 38 s = Bad BadOverflow).
Proof.
  intros F D s l junk ds c rest HN H I J Dg N Nc.
  rewrite (execute_normal F D _ s _ _ HN eq_refl). cbn [run_meth].
  assert (K : skip_nondigits (w_in (s_w s)) = ds ++ c :: rest).
  { rewrite I, skip_junk by auto. destruct ds as [|d ds]; [congruence|].
    inversion Dg; subst. cbn [app skip_nondigits]. now rewrite isdigit_true. }
  unfold numIn. rewrite (run_bind getW _ s (s_w s) s) by reflexivity. rewrite K.
  split; intros V.
  - rewrite read_digits_ok; auto; [|lia].
    rewrite (run_bind (lift (Ok _)) _ s _ s eq_refl). cbv beta iota.
    set (s1 := {| s_w := set_w_in (c :: rest) (s_w s); s_r := s_r s |}).
    rewrite (run_bind (modW (set_w_in (c :: rest))) _ s tt s1) by reflexivity.
    assert (H1 : Holds s1 l) by exact H.
    destruct (pushS_plain s1 l (digits_value 0 ds) H1) as (s2 & E2 & C2).
    rewrite (run_bind _ _ _ _ _ E2). exists s2. split; [reflexivity|].
    split; [exact (Only_stack_w _ _ _ C2)|].
    destruct C2 as (k & k' & A & B & C & ->).
    exists (setSS (ss_set (mySS s) (ss_sel (mySS s)) k') s). split; [|reflexivity].
    exists k, k'. auto.
  - rewrite read_digits_overflow; auto; [lia|unfold INT64_MAX; lia].
Qed.
(** With no digit left, all the input is consumed and the instruction fails
    (so the IP reflects, see C30) without touching the stack. *)
Theorem C33_none : forall F D s,
  Normal s 38 -> Forall (fun c => ~ is_digit c) (w_in (s_w s)) ->
  execute F (S D) 38 s = Ok (EUnspec, {| s_w := set_w_in [] (s_w s); s_r := s_r s |}).
Proof.
  intros F D s HN J. rewrite (execute_normal F D _ s _ _ HN eq_refl). cbn [run_meth].
  assert (K : skip_nondigits (w_in (s_w s)) = []).
  { rewrite <- (app_nil_r (w_in (s_w s))), skip_junk by auto. reflexivity. }
  unfold numIn. rewrite (run_bind getW _ s (s_w s) s) by reflexivity. rewrite K. reflexivity.
Qed.
(** The number is lost when the input ends right after its digits. *)
Theorem C33_refuted : exists s, Normal s 38 /\ Holds s [7] /\ w_in (s_w s) = [52; 50] /\
  run_stack (execute 1 1 38) s = Ok (EUnspec, [7]).
Proof.
  exists (with_list [7] (start98 2 [64] [52; 50])).
  split; [vm_compute; repeat split|]. split; [apply holds_with_list; vm_compute; [reflexivity|discriminate]|].
  vm_compute. repeat split.
Qed.
Example C33_ex : let s := with_list [7] (start98 2 [64] [120; 45; 52; 50; 32; 57]) in
  Normal s 38 /\ Holds s [7] /\ w_in (s_w s) = [120; 45] ++ [52; 50] ++ 32 :: [57] /\
  run_stack (execute 1 1 38) s = Ok (ENone, [42; 7]).
Proof.
  split; [vm_compute; repeat split|]. split; [apply holds_with_list; vm_compute; [reflexivity|discriminate]|].
  vm_compute. repeat split.
Qed.
Print Assumptions C33_reads_partial.
Print Assumptions C33_none.
Print Assumptions C33_refuted.

(** ** C64 Pushing and popping vectors and strings round-trips *)

Lemma pushString_plain s l b : Holds s l ->
  exists s', pushString b s = Ok (tt, s') /\ Only_stack s s' (b ++ 0 :: l).
Proof.
  intros H. unfold pushString. apply (onStack_plain _ s l _ tt H).
  intros k P L. cbn [fst snd]. destruct (push_string_plain b k P) as [A B]. rewrite A, B, L. auto.
Qed.
Definition char_str (b : bytes) : Prop := Forall (fun c => -128 <= c <= 127 /\ c <> 0) b.
Lemma popString_plain s b l : char_str b -> Holds s (b ++ 0 :: l) ->
  exists s', popString s = Ok (b, s') /\ Only_stack s s' l.
Proof.
  intros F H. unfold popString. apply (onStack_plain _ s _ _ b H).
  intros k P L. unfold stk_pop_string.
  destruct (pop_string_loop_plain (S (length (s_list k))) b l [] k (proj1 P) F L) as (k' & E & A & B).
  { rewrite L, app_length. cbn [length]. lia. }
  rewrite E. cbn [fst snd app]. auto.
Qed.

Theorem C64_vector : forall s l v, Holds s l ->
  exists s1 s2 v', pushVec v s = Ok (tt, s1) /\ popVec s1 = Ok (v', s2) /\
    (forall i, vget v' i = if Nat.ltb i (dims_of s) then vget v i else 0) /\
    Only_stack s s2 l.
Proof.
  intros s l v H. destruct (pushVec_plain s l v H) as (s1 & E1 & C1).
  pose proof (Only_stack_holds _ _ _ _ H C1) as H1.
  destruct (popVec_plain s1 _ H1) as (s2 & v' & E2 & C2 & G & _).
  assert (DD : dims_of s1 = dims_of s).
  { unfold dims_of. rewrite (Only_stack_w _ _ _ C1), (Only_stack_r _ _ _ C1). reflexivity. }
  rewrite DD in *.
  exists s1, s2, v'. split; auto. split; auto. split.
  - intros i. rewrite G. unfold vec_of. destruct (Nat.ltb_spec i (dims_of s)) as [L|L]; auto.
    rewrite app_nth1 by (rewrite rev_length, map_length, seq_length; lia).
    rewrite rev_nth by (rewrite map_length, seq_length; lia).
    rewrite map_length, seq_length. replace (dims_of s - S (dims_of s - 1 - i))%nat with i by lia.
    rewrite (nth_indep _ 0 (vget v 0)) by (rewrite map_length, seq_length; lia).
    rewrite map_nth. rewrite seq_nth by lia. reflexivity.
  - assert (X : skipn (dims_of s) (rev (map (vget v) (seq 0 (dims_of s))) ++ l) = l).
    { rewrite skipn_app, rev_length, map_length, seq_length, Nat.sub_diag.
      rewrite skipn_all2 by (rewrite rev_length, map_length, seq_length; lia). reflexivity. }
    rewrite X in C2. exact (Only_stack_trans _ _ _ _ _ C1 C2).
Qed.
Theorem C64_string : forall s l b, Holds s l -> char_str b ->
  exists s1 s2, pushString b s = Ok (tt, s1) /\ popString s1 = Ok (b, s2) /\ Only_stack s s2 l.
Proof.
  intros s l b H F. destruct (pushString_plain s l b H) as (s1 & E1 & C1).
  pose proof (Only_stack_holds _ _ _ _ H C1) as H1.
  destruct (popString_plain s1 b l F H1) as (s2 & E2 & C2).
  exists s1, s2. split; auto. split; auto. exact (Only_stack_trans _ _ _ _ _ C1 C2).
Qed.
(** Where the bytes lie: the string's first character on top, a 0 below. *)
Theorem C64_layout : forall s l b v, Holds s l ->
  (exists s1, pushString b s = Ok (tt, s1) /\ Only_stack s s1 (b ++ 0 :: l)) /\
  (exists s1, pushVec v s = Ok (tt, s1) /\
     Only_stack s s1 (rev (map (vget v) (seq 0 (dims_of s))) ++ l)).
Proof. intros s l b v H. split; [now apply pushString_plain|now apply pushVec_plain]. Qed.
Example C64_ex : Holds (ex98 [9]) [9] /\ char_str [72; 105; -3] /\ dims_of (ex98 [9]) = 2%nat /\
  run_stack (pushVec (mkvec [4; 5; 6])) (ex98 [9]) = Ok (tt, [5; 4; 9]) /\
  run_stack (pushString [72; 105]) (ex98 [9]) = Ok (tt, [72; 105; 0; 9]).
Proof.
  split; [apply holds_with_list; vm_compute; [reflexivity|discriminate]|].
  split; [repeat constructor; lia|]. vm_compute. repeat split.
Qed.
Print Assumptions C64_vector.
Print Assumptions C64_string.
Print Assumptions C64_layout.
