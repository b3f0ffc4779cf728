(** * Properties C19-C23, C33 and C64: arithmetic, stack, cell and number
    instructions.

    The theorems are about [execute F (S D) c s]: executing the character [c]
    in interpreter state [s] with any fuel [F] and [k]-nesting depth [D].
    [Normal s c]: the IP is not in a string, and [c] has its built-in meaning.
    [Holds s l]: the selected stack contains [l], top first, and the MODE flags
    that change push and pop are off.  [Only_stack s s' l']: [s'] is [s] with
    the contents of the selected stack replaced by [l'], nothing else. *)

From Coq Require Import ZArith List Bool Lia.
From Verif Require Import Base BaseProofs VectorModel VectorProofs TextModel TextProofs
  StackModel StackProofs FieldModel FieldProofs World IpModel LoadModel FingModel CoreModel
  UniModel ExecProofs States.
Import ListNotations.
Open Scope Z_scope.

(** ** C19 Arithmetic instructions compute exactly or are undefined *)

(** The exact result of [b c a], [a] being on top of the stack. *)
Definition arith (c b a : Z) : Z :=
  if c =? 43 (* + *) then b + a
  else if c =? 45 (* - *) then b - a
  else if c =? 42 (* * *) then b * a
  else if c =? 47 (* / *) then (if a =? 0 then 0 else Z.quot b a)
  else if c =? 37 (* % *) then (if a =? 0 then 0 else Z.rem b a)
  else (* ` *) if b >? a then 1 else 0.
(** The operand pairs for which C++ leaves the operation undefined. *)
Definition undefined (c b a : Z) : Prop :=
  (c = 43 \/ c = 45 \/ c = 42) /\ ~ in64 (arith c b a) \/
  (c = 47 \/ c = 37) /\ b = INT64_MIN /\ a = -1.

Lemma binop_plain f s l x :
  Holds s l -> f (hd 0 (tl l)) (hd 0 l) = Ok x ->
  exists s', binop f s = Ok (ENone, s') /\ Only_stack s s' (x :: tl (tl l)).
Proof.
  intros H E. unfold binop. xpop. xpop.
  rewrite (run_bind (lift (f (hd 0 (tl l)) (hd 0 l))) _ s1 x s1) by (now apply run_lift).
  xpush. exists s2. split; [reflexivity|]. os_finish.
Qed.
Lemma binop_bad f s l e :
  Holds s l -> f (hd 0 (tl l)) (hd 0 l) = Bad e -> binop f s = Bad e.
Proof.
  intros H E. unfold binop. xpop. xpop.
  apply run_bind_bad. unfold lift. now rewrite E.
Qed.

Lemma quot_in64 b a : in64 b -> in64 a -> ~ (b = INT64_MIN /\ a = -1) -> a <> 0 ->
  in64 (Z.quot b a).
Proof.
  unfold in64, INT64_MIN, INT64_MAX. intros B A N Z0.
  assert (Q : Z.abs (Z.quot b a) <= Z.abs b).
  { rewrite <- Z.quot_abs by lia. destruct (Z.eq_dec b 0) as [->|].
    - rewrite Z.abs_0, Z.quot_0_l; lia.
    - destruct (Z.eq_dec (Z.abs a) 1) as [->|].
      + rewrite Z.quot_1_r. lia.
      + apply Z.lt_le_incl, Z.quot_lt; lia. }
  destruct (Z.eq_dec b (-9223372036854775808)) as [->|]; [|lia].
  destruct (Z.eq_dec a (-1)); [exfalso; auto|].
  destruct (Z_le_dec (Z.quot (-9223372036854775808) a) 9223372036854775807); [lia|].
  exfalso. destruct (Z.eq_dec a 1) as [->|]; [rewrite Z.quot_1_r in *; lia|].
  assert (Z.abs (Z.quot (-9223372036854775808) a) <= 4611686018427387904).
  { rewrite <- Z.quot_abs by lia. change (Z.abs (-9223372036854775808)) with 9223372036854775808.
    apply Z.quot_le_upper_bound; lia. }
  lia.
Qed.

Theorem C19_arith : forall F D c s l,
  In c [43; 45; 42; 47; 37; 96] ->
  Normal s c -> Holds s l ->
  let a := hd 0 l in let b := hd 0 (tl l) in
  in64 a -> in64 b ->
  (~ undefined c b a ->
   exists s', execute F (S D) c s = Ok (ENone, s') /\
     Only_stack s s' (arith c b a :: tl (tl l))) /\
  (undefined c b a ->
   execute F (S D) c s = Bad BadOverflow \/ execute F (S D) c s = Bad BadDiv).
Proof.
  intros F D c s l Hc HN HH a b A B.
  assert (Q : forall x y : Z, b = x -> in64 b) by auto.
  repeat (destruct Hc as [<-|Hc]); [ | | | | | |contradiction];
    rewrite (execute_normal F D _ s _ _ HN eq_refl); cbn [run_meth]; unfold undefined, arith; cbn [Z.eqb Pos.eqb].
  - split.
    + intros U. apply binop_plain; auto. fold a b. apply chk64_ok.
      destruct (in64b (b + a)) eqn:E; [now apply in64b_true|]. apply in64b_false in E. exfalso. apply U. auto.
    + intros [[_ U]|[[U|U] _]]; try discriminate. left. apply (binop_bad _ s l); auto. fold a b.
      unfold add64, chk64. apply in64b_false in U. now rewrite U.
  - split.
    + intros U. apply binop_plain; auto. fold a b. apply chk64_ok.
      destruct (in64b (b - a)) eqn:E; [now apply in64b_true|]. apply in64b_false in E. exfalso. apply U. auto.
    + intros [[_ U]|[[U|U] _]]; try discriminate. left. apply (binop_bad _ s l); auto. fold a b.
      unfold sub64, chk64. apply in64b_false in U. now rewrite U.
  - split.
    + intros U. apply binop_plain; auto. fold a b. apply chk64_ok.
      destruct (in64b (b * a)) eqn:E; [now apply in64b_true|]. apply in64b_false in E. exfalso. apply U. auto.
    + intros [[_ U]|[[U|U] _]]; try discriminate. left. apply (binop_bad _ s l); auto. fold a b.
      unfold mul64, chk64. apply in64b_false in U. now rewrite U.
  - split.
    + intros U. apply binop_plain; auto. fold a b. destruct (Z.eqb_spec a 0); auto.
      unfold div64. assert (E : in64b (Z.quot b a) = true).
      { apply in64b_true. apply quot_in64; auto. intros [? ?]. apply U. right. auto. }
      now rewrite E.
    + intros [[[U|[U|U]] _]|[_ [U1 U2]]]; try discriminate. right. apply (binop_bad _ s l); auto. fold a b.
      rewrite U1, U2. reflexivity.
  - split.
    + intros U. apply binop_plain; auto. fold a b. destruct (Z.eqb_spec a 0); auto.
      unfold rem64. assert (E : in64b (Z.quot b a) = true).
      { apply in64b_true. apply quot_in64; auto. intros [? ?]. apply U. right. auto. }
      now rewrite E.
    + intros [[[U|[U|U]] _]|[_ [U1 U2]]]; try discriminate. right. apply (binop_bad _ s l); auto. fold a b.
      rewrite U1, U2. reflexivity.
  - split.
    + intros U. now apply binop_plain.
    + intros [[[U|[U|U]] _]|[[U|U] _]]; discriminate.
Qed.
Theorem C19_not : forall F D s l,
  Normal s 33 -> Holds s l ->
  exists s', execute F (S D) 33 s = Ok (ENone, s') /\
    Only_stack s s' ((if hd 0 l =? 0 then 1 else 0) :: tl l).
Proof.
  intros F D s l HN H. rewrite (execute_normal F D _ s _ _ HN eq_refl). cbn [run_meth].
  unfold unop. xpop. rewrite (run_bind (lift _) _ s0 (bz (hd 0 l =? 0)) s0) by reflexivity.
  xpush. exists s1. split; [reflexivity|]. unfold bz in *. os_finish.
Qed.
(** Division and remainder satisfy the division identity, with the remainder
    taking the dividend's sign. *)
Theorem C19_division : forall b a, a <> 0 ->
  arith 47 b a * a + arith 37 b a = b /\ Z.abs (arith 37 b a) < Z.abs a /\
  (arith 37 b a = 0 \/ Z.sgn (arith 37 b a) = Z.sgn b).
Proof.
  intros b a H. unfold arith. cbn [Z.eqb Pos.eqb]. destruct (Z.eqb_spec a 0); [contradiction|].
  split; [pose proof (Z.quot_rem b a H); lia|]. split; [now apply Z.rem_bound_abs|].
  destruct (Z.eq_dec (Z.rem b a) 0); auto. right. now apply Z.rem_sign_nz.
Qed.

Definition ex98 (l : list Z) : st := with_list l (start98 2 [64] []).
Example C19_ex_hyp : Normal (ex98 [3; -7; 5]) 37 /\ Holds (ex98 [3; -7; 5]) [3; -7; 5].
Proof. split; [vm_compute; repeat split|apply holds_with_list; vm_compute; [reflexivity|discriminate]]. Qed.
Example C19_ex :
  run_stack (execute 1 1 37) (ex98 [3; -7; 5]) = Ok (ENone, [-1; 5]) /\
  run_stack (execute 1 1 47) (ex98 [3; -7; 5]) = Ok (ENone, [-2; 5]) /\
  run_stack (execute 1 1 43) (ex98 [3]) = Ok (ENone, [3]) /\
  run_stack (execute 1 1 43) (ex98 [INT64_MAX; 1]) = Bad BadOverflow /\
  run_stack (execute 1 1 47) (ex98 [-1; INT64_MIN]) = Bad BadDiv /\
  run_stack (execute 1 1 47) (ex98 [0; 9]) = Ok (ENone, [0]).
Proof. vm_compute. repeat split. Qed.
Print Assumptions C19_arith.
Print Assumptions C19_not.
Print Assumptions C19_division.

(** ** C20 Stack instructions permute only the top of the stack *)

Theorem C20_stack_ops : forall F D s l,
  Holds s l ->
  (Normal s 36 (* $ *) ->
   exists s', execute F (S D) 36 s = Ok (ENone, s') /\ Only_stack s s' (tl l)) /\
  (Normal s 58 (* : *) ->
   exists s', execute F (S D) 58 s = Ok (ENone, s') /\
     Only_stack s s' (hd 0 l :: hd 0 l :: tl l)) /\
  (Normal s 92 (* \ *) ->
   exists s', execute F (S D) 92 s = Ok (ENone, s') /\
     Only_stack s s' (hd 0 (tl l) :: hd 0 l :: tl (tl l))) /\
  (Normal s 110 (* n *) ->
   exists s', execute F (S D) 110 s = Ok (ENone, s') /\ Only_stack s s' []).
Proof.
  intros F D s l H. split; [|split; [|split]]; intros HN;
    rewrite (execute_normal F D _ s _ _ HN eq_refl); cbn [run_meth].
  - xpop. exists s0. split; [reflexivity|os_finish].
  - xpop. xpush. xpush. exists s2. split; [reflexivity|os_finish].
  - xpop. xpop. xpush. xpush. exists s3. split; [reflexivity|os_finish].
  - destruct (clearS_plain s l H) as (s' & E & C). rewrite (run_bind _ _ _ _ _ E).
    exists s'. split; [reflexivity|exact C].
Qed.
(** Pushing digits: 0-9 and a-f. *)
Theorem C20_digits : forall F D s l n, 0 <= n <= 15 ->
  let c := if n <? 10 then 48 + n else 87 + n in
  Normal s c -> Holds s l ->
  exists s', execute F (S D) c s = Ok (ENone, s') /\ Only_stack s s' (n :: l).
Proof.
  intros F D s l n Hn c HN H.
  assert (E : std_sem c = Some (base (MPush n))).
  { assert (X : n = 0 \/ n = 1 \/ n = 2 \/ n = 3 \/ n = 4 \/ n = 5 \/ n = 6 \/ n = 7 \/ n = 8 \/ n = 9 \/
      n = 10 \/ n = 11 \/ n = 12 \/ n = 13 \/ n = 14 \/ n = 15) by lia.
    unfold c. repeat (destruct X as [->|X]; [reflexivity|]). now rewrite X. }
  rewrite (execute_normal F D _ s _ _ HN E). cbn [run_meth].
  xpush. exists s0. split; [reflexivity|os_finish].
Qed.
Example C20_ex :
  run_stack (execute 1 1 92) (ex98 [3; 7; 5]) = Ok (ENone, [7; 3; 5]) /\
  run_stack (execute 1 1 92) (ex98 [3]) = Ok (ENone, [0; 3]) /\
  run_stack (execute 1 1 58) (ex98 []) = Ok (ENone, [0; 0]) /\
  run_stack (execute 1 1 102) (ex98 [1]) = Ok (ENone, [15; 1]) /\
  run_stack (execute 1 1 110) (ex98 [3; 7; 5]) = Ok (ENone, []).
Proof. vm_compute. repeat split. Qed.
Example C20_ex_hyp : Normal (ex98 [3; 7]) 36 /\ Normal (ex98 [3; 7]) 58 /\ Normal (ex98 [3; 7]) 92 /\
  Normal (ex98 [3; 7]) 110 /\ Normal (ex98 [3; 7]) 102 /\ Holds (ex98 [3; 7]) [3; 7].
Proof.
  repeat (split; [vm_compute; repeat split|]). apply holds_with_list; vm_compute; [reflexivity|discriminate].
Qed.
Print Assumptions C20_stack_ops.
Print Assumptions C20_digits.

(** ** C21 p then g reads back the value at the same storage-relative address *)

(** The Funge-space of the IP's universe. *)
Definition space (s : st) : field := u_field (w_uni (s_w s) (r_uni (s_r s))).
(** The IP never left the universe it was created in. *)
Definition Home (s : st) : Prop := r_fld (s_r s) = r_uni (s_r s).
(** [s'] is [s] with another Funge-space [f'] and another stack. *)
Definition Only_space_and_stack (s s' : st) (f' : field) (l' : list Z) : Prop :=
  s_w s' = upd_uni (r_uni (s_r s)) (set_u_field f') (s_w s) /\
  exists s1, Only_stack s s1 l' /\ s_r s' = s_r s1.

(** The address popped from [l], with the storage offset added. *)
Definition address (s : st) (l : list Z) (i : nat) : Z :=
  vec_of (dims_of s) l i + vget (r_storage (s_r s)) i.

Lemma nth_skipn_hd n (l : list Z) : hd 0 (skipn n l) = nth n l 0.
Proof. revert l. induction n; intros [|x l]; cbn; auto. Qed.
Lemma tl_skipn {A} n (l : list A) : tl (skipn n l) = skipn (S n) l.
Proof.
  revert l. induction n as [|n IH]; intros l; [now destruct l|].
  destruct l as [|x l]; auto. change (skipn (S n) (x :: l)) with (skipn n l). rewrite IH. reflexivity.
Qed.
Lemma vadd_address s s1 l l' v : Only_stack s s1 l' ->
  (forall i, vget v i = vec_of (dims_of s) l i) -> (forall i, in64 (address s l i)) ->
  exists p, vadd v (r_storage (s_r s1)) = Ok p /\ forall i, vget p i = address s l i.
Proof.
  intros C G I.
  assert (X : r_storage (s_r s1) = r_storage (s_r s)) by (rewrite (Only_stack_r _ _ _ C); reflexivity).
  rewrite X. destruct (vadd_defined v (r_storage (s_r s))) as (p & E).
  { intros i. rewrite G. apply I. }
  exists p. split; auto. intros i. rewrite (vadd_get _ _ _ E), G. reflexivity.
Qed.

Theorem C21_put : forall F D s l,
  Home s -> Normal s 112 -> Holds s l -> (forall i, in64 (address s l i)) ->
  exists s' f', execute F (S D) 112 s = Ok (ENone, s') /\
    Only_space_and_stack s s' f' (skipn (S (dims_of s)) l) /\
    f_char f' = f_char (space s) /\
    (forall q, (forall i, vget q i = address s l i) ->
       f_get f' q = cellval (f_char (space s)) (nth (dims_of s) l 0)) /\
    (forall q, ~ (forall i, vget q i = address s l i) -> f_get f' q = f_get (space s) q).
Proof.
  intros F D s l HO HN H I. rewrite (execute_normal F D _ s _ _ HN eq_refl). cbn [run_meth].
  destruct (popVec_plain s l H) as (s1 & v & E1 & C1 & G1 & _).
  rewrite (run_bind _ _ _ _ _ E1). pose proof (Only_stack_holds _ _ _ _ H C1) as H1.
  destruct (vadd_address _ _ l _ v C1 G1 I) as (p & Ep & Gp).
  rewrite (run_bind getStorage _ s1 (r_storage (s_r s1)) s1) by reflexivity.
  rewrite (run_bind (lift _) _ s1 p s1) by (now apply run_lift).
  xpop. rewrite nth_skipn_hd, tl_skipn in *.
  rewrite (run_bind getR _ s0 (s_r s0) s0) by reflexivity.
  pose proof (Only_stack_trans _ _ _ _ _ C1 C) as C2.
  pose proof (Only_stack_w _ _ _ C2) as W2. pose proof (Only_stack_r _ _ _ C2) as R2.
  assert (Fl : r_fld (s_r s0) = r_uni (s_r s)) by (rewrite R2; exact HO).
  set (f' := f_put p (nth (dims_of s) l 0) (space s)).
  exists {| s_w := upd_uni (r_uni (s_r s)) (set_u_field f') (s_w s); s_r := s_r s0 |}, f'.
  split.
  { rewrite Fl. unfold fput, modW, mbind. rewrite W2. reflexivity. }
  split.
  { split; [reflexivity|]. exists s0. split; auto. }
  split; [apply f_put_char|]. split.
  - intros q Hq. apply f_get_put_same. intros i. now rewrite Gp, Hq.
  - intros q Hq. apply f_get_put_other. intros C3. apply Hq. intros i. now rewrite <- C3, Gp.
Qed.
Theorem C21_get : forall F D s l,
  Home s -> Normal s 103 -> Holds s l -> (forall i, in64 (address s l i)) ->
  exists s', execute F (S D) 103 s = Ok (ENone, s') /\
    forall q, (forall i, vget q i = address s l i) ->
      Only_stack s s' (f_get (space s) q :: skipn (dims_of s) l).
Proof.
  intros F D s l HO HN H I. rewrite (execute_normal F D _ s _ _ HN eq_refl). cbn [run_meth].
  destruct (popVec_plain s l H) as (s1 & v & E1 & C1 & G1 & _).
  rewrite (run_bind _ _ _ _ _ E1). pose proof (Only_stack_holds _ _ _ _ H C1) as H1.
  destruct (vadd_address _ _ l _ v C1 G1 I) as (p & Ep & Gp).
  rewrite (run_bind getStorage _ s1 (r_storage (s_r s1)) s1) by reflexivity.
  rewrite (run_bind (lift _) _ s1 p s1) by (now apply run_lift).
  rewrite (run_bind getR _ s1 (s_r s1) s1) by reflexivity.
  rewrite (run_bind (fget (r_fld (s_r s1)) p) _ s1 (f_get (u_field (w_uni (s_w s1) (r_fld (s_r s1)))) p) s1)
    by reflexivity.
  xpush. exists s0. split; [reflexivity|]. intros q Hq.
  pose proof (Only_stack_trans _ _ _ _ _ C1 C) as C2.
  assert (X : f_get (u_field (w_uni (s_w s1) (r_fld (s_r s1)))) p = f_get (space s) q).
  { rewrite (Only_stack_w _ _ _ C1), (Only_stack_r _ _ _ C1). cbn [r_fld set_r_ss]. rewrite HO.
    apply f_get_ext. intros i. now rewrite Gp, Hq. }
  rewrite <- X. exact C2.
Qed.
(** The round trip: after [p] of value [x] at an address, [g] at the same
    address pushes [x], as a signed byte with char cells.  [s2] is any later
    state with the same world, storage offset and universe. *)
Theorem C21_roundtrip : forall F D s l s1 s2 l2,
  Home s -> Normal s 112 -> Holds s l -> (forall i, in64 (address s l i)) ->
  execute F (S D) 112 s = Ok (ENone, s1) ->
  s_w s2 = s_w s1 -> r_uni (s_r s2) = r_uni (s_r s) -> r_storage (s_r s2) = r_storage (s_r s) ->
  Home s2 -> Normal s2 103 -> Holds s2 l2 ->
  (forall i, vec_of (dims_of s) l2 i = vec_of (dims_of s) l i) ->
  exists s3, execute F (S D) 103 s2 = Ok (ENone, s3) /\
    Only_stack s2 s3 (cellval (f_char (space s)) (nth (dims_of s) l 0) :: skipn (dims_of s) l2).
Proof.
  intros F D s l s1 s2 l2 HO HN H I E1 W2 U2 S2 HO2 HN2 H2 V.
  destruct (C21_put F D s l HO HN H I) as (s1' & f' & E & (W & _) & Ch & G & _).
  rewrite E1 in E. inversion E; subst s1'.
  assert (X : w_uni (s_w s2) (r_uni (s_r s2)) = set_u_field f' (w_uni (s_w s) (r_uni (s_r s)))).
  { rewrite W2, U2, W. unfold upd_uni. cbn [w_uni set_w_uni]. now rewrite Nat.eqb_refl. }
  assert (DD : dims_of s2 = dims_of s) by (unfold dims_of; rewrite X; reflexivity).
  assert (A : forall i, address s2 l2 i = address s l i).
  { intros i. unfold address. rewrite DD, V, S2. reflexivity. }
  destruct (C21_get F D s2 l2 HO2 HN2 H2) as (s3 & E3 & O3).
  { intros i. rewrite A. apply I. }
  exists s3. split; auto.
  destruct (popVec_plain s l H) as (sx & v & Ex & Cx & Gx & _).
  destruct (vadd_address _ _ l _ v Cx Gx I) as (p & Ep & Gp).
  specialize (O3 p). rewrite DD in O3.
  assert (Y : f_get (space s2) p = cellval (f_char (space s)) (nth (dims_of s) l 0)).
  { unfold space at 1. rewrite X. cbn [u_field set_u_field]. apply G. exact Gp. }
  rewrite Y in O3. apply O3. intros i. rewrite A. apply Gp.
Qed.
Example C21_ex_hyp : Home (ex98 [4; 3; 700]) /\ Normal (ex98 [4; 3; 700]) 112 /\
  Normal (ex98 [4; 3; 700]) 103 /\ Holds (ex98 [4; 3; 700]) [4; 3; 700] /\
  (forall i, in64 (address (ex98 [4; 3; 700]) [4; 3; 700] i)).
Proof.
  split; [reflexivity|]. split; [vm_compute; repeat split|]. split; [vm_compute; repeat split|].
  split; [apply holds_with_list; vm_compute; [reflexivity|discriminate]|].
  intros i. destruct i as [|[|i]]; vm_compute; split; discriminate.
Qed.
Example C21_ex :
  match execute 1 1 112 (ex98 [4; 3; 700]) with
  | Ok (_, s') => run_stack (execute 1 1 103) (with_list [4; 3; 8] s') = Ok (ENone, [700; 8])
  | Bad _ => False
  end.
Proof. vm_compute. reflexivity. Qed.
Print Assumptions C21_put.
Print Assumptions C21_get.
Print Assumptions C21_roundtrip.
