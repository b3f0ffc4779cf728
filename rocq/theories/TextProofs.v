(** * Decimal printing and Vector text I/O (see TextModel.v). *)

From Coq Require Import ZArith List Bool Lia.
From Verif Require Import Base BaseProofs VectorModel VectorProofs TextModel.
Import ListNotations.
Open Scope Z_scope.

(** ** Decimal numbers *)

(** Value of a string of decimal digits. *)
Definition digit (c : Z) : Prop := 48 <= c <= 57.
Fixpoint digits_value (acc : Z) (l : bytes) : Z :=
  match l with
  | [] => acc
  | c :: t => digits_value (acc * 10 + (c - 48)) t
  end.

Lemma dec_loop_spec f : forall n acc,
  0 <= n < 10 ^ Z.of_nat f -> (0 < f)%nat ->
  exists ds, dec_loop f n acc = ds ++ acc /\ Forall digit ds /\ ds <> [] /\
    (forall k, digits_value k ds = k * 10 ^ Z.of_nat (length ds) + n) /\
    (hd 0 ds = 48 -> n = 0 /\ ds = [48]).
Proof.
  induction f as [|f IH]; intros n acc Hn Hf; [lia|].
  cbn [dec_loop].
  pose proof (Z.mod_pos_bound n 10 ltac:(lia)) as Hm.
  pose proof (Z.div_mod n 10 ltac:(lia)) as Hd.
  assert (D : digit (48 + n mod 10)) by (unfold digit; lia).
  destruct (Z.eqb_spec (n / 10) 0) as [E|E].
  - exists [48 + n mod 10]. split; [reflexivity|]. split; [auto|]. split; [discriminate|].
    split.
    + intros k. cbn [digits_value length]. change (10 ^ Z.of_nat 1) with 10. lia.
    + cbn [hd]. intros H. assert (n mod 10 = 0) by lia. split; [lia|]. f_equal. lia.
  - assert (Hq : 0 <= n / 10).
    { apply Z.div_pos; lia. }
    destruct (IH (n / 10) ((48 + n mod 10) :: acc)) as (ds & H1 & H2 & H3 & H4 & H5).
    + split; auto.
      rewrite Nat2Z.inj_succ, Z.pow_succ_r in Hn by lia.
      apply Z.div_lt_upper_bound; lia.
    + destruct f; [|lia]. cbn in Hn. exfalso. apply E. apply Z.div_small. lia.
    + exists (ds ++ [48 + n mod 10]). rewrite H1, <- app_assoc.
      split; [reflexivity|]. split; [apply Forall_app; auto|].
      split; [destruct ds; discriminate|]. split.
      * intros k.
        assert (G : forall l a c, digits_value a (l ++ [c]) = digits_value a l * 10 + (c - 48)).
        { clear. induction l as [|x l IH]; intros; cbn; auto. }
        rewrite G, H4, app_length. cbn [length].
        replace (Z.of_nat (length ds + 1)) with (Z.succ (Z.of_nat (length ds))) by lia.
        rewrite Z.pow_succ_r by lia. lia.
      * destruct ds as [|d ds]; [congruence|]. cbn [hd app]. cbn [hd] in H5.
        intros H. destruct (H5 H). congruence.
Qed.

Lemma dec_nat_spec n : 0 <= n ->
  Forall digit (dec_nat n) /\ dec_nat n <> [] /\ digits_value 0 (dec_nat n) = n /\
  (hd 0 (dec_nat n) = 48 -> n = 0 /\ dec_nat n = [48]).
Proof.
  intros Hn. unfold dec_nat.
  destruct (dec_loop_spec (S (Z.to_nat (Z.log2 n))) n []) as (ds & H1 & H2 & H3 & H4 & H5).
  - split; auto. destruct (Z.eq_dec n 0).
    + subst. cbn. lia.
    + pose proof (Z.log2_spec n ltac:(lia)) as [_ L].
      pose proof (Z.log2_nonneg n).
      rewrite Nat2Z.inj_succ, Z2Nat.id by lia.
      eapply Z.lt_le_trans; [exact L|]. apply Z.pow_le_mono_l. lia.
  - lia.
  - rewrite H1, app_nil_r. split; [auto|]. split; [auto|]. split; [|auto]. rewrite H4. lia.
Qed.

(** ** Reading a vector back *)

(** State of the reading loop when the text [l] is still to be read. *)
Definition rst (l : bytes) (d : nat) (v : Z) (neg : bool) (w : vec) : vread_st :=
  let '(c, is) := extract {| is_rest := l; is_fail := false |} 0 in
  {| vr_is := is; vr_c := c; vr_d := d; vr_v := v; vr_neg := neg; vr_vec := w |}.

Definition tok (c : Z) : Prop := 33 <= c <= 127.

Lemma extract_cons c l k : tok c ->
  extract {| is_rest := c :: l; is_fail := false |} k
  = (c, {| is_rest := l; is_fail := false |}).
Proof.
  intros H. unfold tok in H. unfold extract; cbn [is_fail is_rest skipws].
  unfold isspace. destruct (Z.eqb_spec c 32); [lia|]. destruct (Z.leb_spec 9 c), (Z.leb_spec c 13);
    cbn [orb andb]; try lia; rewrite to_i8_id by lia; reflexivity.
Qed.

Lemma extract_indep l k k' : skipws l <> [] ->
  extract {| is_rest := l; is_fail := false |} k
  = extract {| is_rest := l; is_fail := false |} k'.
Proof. intros H. unfold extract; cbn. destruct (skipws l); congruence. Qed.

Lemma rst_cons c l d v neg w : tok c ->
  rst (c :: l) d v neg w =
  {| vr_is := {| is_rest := l; is_fail := false |}; vr_c := c; vr_d := d; vr_v := v;
     vr_neg := neg; vr_vec := w |}.
Proof. intros H. unfold rst. now rewrite extract_cons. Qed.

Lemma step_digit c l d v neg w :
  digit c -> skipws l <> [] -> in64 (v * 10) -> in64 (v * 10 + (c - 48)) ->
  vread_step (rst (c :: l) d v neg w)
  = Ok (inl (rst l d (v * 10 + (c - 48)) neg w)).
Proof.
  intros D N I1 I2. unfold digit in D. rewrite rst_cons by (unfold tok; lia).
  unfold vread_step. cbn [vr_c vr_v vr_is vr_d vr_neg vr_vec].
  destruct (Z.eqb_spec c 41); [lia|]. destruct (Z.ltb_spec c 0); [lia|].
  unfold isdigit. destruct (Z.leb_spec 48 c); [|lia]. destruct (Z.leb_spec c 57); [|lia].
  cbn [andb]. unfold mul64, add64. rewrite chk64_ok by auto. cbn [bind].
  rewrite chk64_ok by auto. cbn [bind]. unfold rst.
  rewrite (extract_indep l c 0) by auto. destruct (extract _ 0). reflexivity.
Qed.

Lemma steps_digits ds : forall l d v neg w,
  Forall digit ds -> skipws l <> [] -> 0 <= v -> digits_value v ds <= INT64_MAX ->
  loopN vread_step (length ds) (rst (ds ++ l) d v neg w)
  = Ok (inl (rst l d (digits_value v ds) neg w)).
Proof.
  induction ds as [|c ds IH]; intros l d v neg w F N Hv Hmax; [reflexivity|].
  inversion F as [|? ? D F']; subst. cbn [digits_value] in *.
  assert (Mono : forall ds a, Forall digit ds -> 0 <= a -> a <= digits_value a ds).
  { clear. induction ds as [|c ds IH]; intros a F Ha; cbn; [lia|].
    inversion F as [|? ? D F']; subst. unfold digit in D.
    specialize (IH (a * 10 + (c - 48)) F'). lia. }
  pose proof (Mono ds (v * 10 + (c - 48)) F') as M. unfold digit in D.
  cbn [app length loopN]. rewrite step_digit.
  - apply IH; auto. lia.
  - exact D.
  - destruct ds as [|x ds']; auto. cbn [app]. inversion F' as [|? ? D' _]; subst.
    unfold digit in D'. cbn [skipws]. unfold isspace.
    destruct (Z.eqb_spec x 32); [lia|]. destruct (Z.leb_spec x 13); [lia|].
    rewrite andb_false_r. discriminate.
  - unfold in64, INT64_MIN in *. lia.
  - unfold in64, INT64_MIN in *. lia.
Qed.

Lemma step_minus l d neg w :
  skipws l <> [] ->
  vread_step (rst (45 :: l) d 0 neg w) = Ok (inl (rst l d 0 true w)).
Proof.
  intros N. rewrite rst_cons by (unfold tok; lia). unfold vread_step.
  cbn [vr_c vr_v vr_is vr_d vr_neg vr_vec]. cbn -[extract rst].
  unfold rst. rewrite (extract_indep l 45 0) by auto. destruct (extract _ 0). reflexivity.
Qed.

Definition signed (neg : bool) (v : Z) : Z := if neg then - v else v.

Lemma step_comma l d v neg w :
  skipws l <> [] -> in64 (- v) -> in64 v ->
  vread_step (rst (44 :: l) d v neg w)
  = Ok (inl (rst l (S d) 0 false (vset w d (signed neg v)))).
Proof.
  intros N I1 I2. rewrite rst_cons by (unfold tok; lia). unfold vread_step.
  cbn [vr_c vr_v vr_is vr_d vr_neg vr_vec]. cbn -[extract rst vset neg64].
  assert (E : (if neg then neg64 v else Ok v) = Ok (signed neg v)).
  { destruct neg; auto. unfold neg64. now rewrite chk64_ok. }
  rewrite E. cbn [bind].
  unfold rst. rewrite (extract_indep l 44 0) by auto. destruct (extract _ 0). reflexivity.
Qed.

Lemma steps_dec x l d w :
  INT64_MIN < x <= INT64_MAX -> skipws l <> [] ->
  exists n v neg, loopN vread_step n (rst (dec x ++ l) d 0 false w) = Ok (inl (rst l d v neg w))
    /\ signed neg v = x /\ in64 v /\ in64 (- v) /\ n = length (dec x).
Proof.
  intros Hx N. unfold dec. destruct (Z.ltb_spec x 0).
  - destruct (dec_nat_spec (- x)) as (F & Ne & V & _); [lia|].
    exists (S (length (dec_nat (- x)))), (- x), true.
    cbn [app length loopN]. rewrite step_minus.
    + rewrite steps_digits; auto; try lia.
      * rewrite V. unfold in64, signed, INT64_MIN, INT64_MAX in *.
        repeat split; auto; lia.
      * rewrite V. unfold INT64_MAX, INT64_MIN in *. lia.
    + destruct (dec_nat (- x)) as [|c t]; [congruence|]. inversion F as [|? ? D _]; subst.
      unfold digit in D. cbn [app skipws]. unfold isspace.
      destruct (Z.eqb_spec c 32); [lia|]. destruct (Z.leb_spec c 13); [lia|].
      rewrite andb_false_r. discriminate.
  - destruct (dec_nat_spec x) as (F & Ne & V & _); [lia|].
    exists (length (dec_nat x)), x, false.
    rewrite steps_digits; auto; try lia.
    rewrite V. unfold in64, signed, INT64_MIN, INT64_MAX in *. repeat split; auto; lia.
Qed.

Lemma dec_head x : exists c t, dec x = c :: t /\ tok c.
Proof.
  unfold dec. destruct (Z.ltb_spec x 0).
  - exists 45, (dec_nat (- x)). split; auto. unfold tok; lia.
  - destruct (dec_nat_spec x) as (F & Ne & _ & _); [lia|].
    destruct (dec_nat x) as [|c t]; [congruence|]. inversion F as [|? ? D _]; subst.
    exists c, t. split; auto. unfold tok, digit in *. lia.
Qed.

Lemma skipws_tok c l : tok c -> skipws (c :: l) <> [].
Proof.
  intros H. unfold tok in H. cbn. unfold isspace.
  destruct (Z.eqb_spec c 32); [lia|]. destruct (Z.leb_spec c 13); [lia|].
  rewrite andb_false_r. discriminate.
Qed.

Lemma steps_vprint v : forall d w tail,
  v <> [] -> Forall (fun x => INT64_MIN < x <= INT64_MAX) v ->
  exists n x neg u,
    loopN vread_step n (rst (vprint_loop v ++ 41 :: tail) d 0 false w)
      = Ok (inl (rst (41 :: tail) (d + pred (length v)) x neg u))
    /\ in64 x /\ in64 (- x)
    /\ (forall i, vget (vset u (d + pred (length v)) (signed neg x)) i =
                  if Nat.leb d i then (if Nat.ltb i (d + length v) then nth (i - d) v 0 else vget w i)
                  else vget w i)
    /\ (n <= length (vprint_loop v))%nat.
Proof.
  induction v as [|x v IH]; intros d w tail Ne F; [congruence|].
  inversion F as [|? ? Hx F']; subst. clear F Ne.
  destruct v as [|y v].
  - cbn [vprint_loop].
    destruct (steps_dec x (41 :: tail) d w Hx) as (n & v' & neg & E & S1 & I1 & I2 & Hn).
    { apply skipws_tok. unfold tok; lia. }
    exists n, v', neg, w. cbn [length pred]. rewrite Nat.add_0_r.
    split; [auto|]. split; [auto|]. split; [auto|]. split; [|lia].
    + intros i. rewrite vget_vset, S1.
      destruct (Nat.eqb_spec i d), (Nat.leb_spec d i), (Nat.ltb_spec i (d + 1)); try lia; auto.
      subst. rewrite Nat.sub_diag. reflexivity.
  - change (vprint_loop (x :: y :: v)) with (dec x ++ [44; 32] ++ vprint_loop (y :: v)).
    rewrite <- !app_assoc. cbn [app].
    destruct (steps_dec x (44 :: 32 :: vprint_loop (y :: v) ++ 41 :: tail) d w Hx)
      as (n & v' & neg & E & S1 & I1 & I2 & Hn).
    { apply skipws_tok. unfold tok; lia. }
    assert (Hs : forall d v neg w, rst (32 :: vprint_loop (y :: v) ++ 41 :: tail) d v' neg w
               = rst (vprint_loop (y :: v) ++ 41 :: tail) d v' neg w) by reflexivity.
    destruct (IH (S d) (vset w d x) tail) as (m & x2 & neg2 & u & E2 & I3 & I4 & G & Hm); auto.
    { discriminate. }
    exists (n + S m)%nat, x2, neg2, u.
    rewrite loopN_add, E. cbn [loopN]. rewrite step_comma; auto.
    + rewrite S1.
      change (rst (32 :: vprint_loop (y :: v) ++ 41 :: tail) (S d) 0 false (vset w d x))
        with (rst (vprint_loop (y :: v) ++ 41 :: tail) (S d) 0 false (vset w d x)).
      rewrite E2. cbn [length pred] in *.
      replace (S d + length v)%nat with (d + S (length v))%nat in * by lia.
      split; [auto|]. split; [auto|]. split; [auto|]. split.
      * intros i. rewrite G, vget_vset.
        destruct (Nat.leb_spec (S d) i), (Nat.leb_spec d i), (Nat.eqb_spec i d),
          (Nat.ltb_spec i (S d + S (length v))), (Nat.ltb_spec i (d + S (S (length v))));
          try lia; auto.
        -- replace (i - d)%nat with (S (i - S d)) by lia. reflexivity.
        -- subst. rewrite Nat.sub_diag. reflexivity.
      * rewrite app_length. cbn [length] in *. lia.
    + cbn [skipws]. change (isspace 32) with true. cbv iota.
      destruct (dec_head y) as (c & t & Ec & Tc).
      assert (Hh : exists t', vprint_loop (y :: v) = c :: t').
      { destruct v; cbn [vprint_loop]; rewrite Ec; cbn; eauto. }
      destruct Hh as (t' & ->). cbn [app]. apply skipws_tok. auto.
Qed.

Lemma vread_vprint v tail fuel :
  Forall (fun x => INT64_MIN < x <= INT64_MAX) v ->
  (Z.of_nat (length (vprint v)) < Z.pos fuel) ->
  exists r, vread fuel {| is_rest := vprint v ++ tail; is_fail := false |}
            = Ok (r, {| is_rest := tail; is_fail := false |}) /\ vwf r /\
            (forall i, vget r i = vget v i).
Proof.
  intros F Hf. unfold vread, vprint. cbn [app].
  rewrite extract_cons by (unfold tok; lia). cbn [is_fail]. rewrite Z.eqb_refl.
  rewrite <- app_assoc. cbn [app].
  assert (Hend : forall d x neg u m, loopNr vread_step (S m) (rst (41 :: tail) d x neg u)
     = Ok {| vr_is := {| is_rest := tail; is_fail := false |}; vr_c := 41; vr_d := d;
             vr_v := x; vr_neg := neg; vr_vec := u |}).
  { intros. rewrite loopNr_unfold. rewrite rst_cons by (unfold tok; lia). reflexivity. }
  assert (Hini : exists n d x neg u,
     let '(c2, is2) := extract {| is_rest := vprint_loop v ++ 41 :: tail; is_fail := false |} 40 in
     loopN vread_step n {| vr_is := is2; vr_c := c2; vr_d := 0; vr_v := 0;
               vr_neg := false; vr_vec := [] |} = Ok (inl (rst (41 :: tail) d x neg u))
     /\ (n <= length (vprint_loop v))%nat /\ in64 x /\ in64 (- x) /\
     (forall i, vget (vset u d (signed neg x)) i = vget v i)).
  { destruct v as [|x v].
    - exists O, O, 0, false, []. cbn [vprint_loop app].
      rewrite extract_cons by (unfold tok; lia). cbn [loopN].
      rewrite rst_cons by (unfold tok; lia).
      split; [auto|]. split; [auto with arith|].
      split; [unfold in64, INT64_MIN, INT64_MAX; lia|].
      split; [unfold in64, INT64_MIN, INT64_MAX; lia|].
      intros i. destruct i as [|[|i]]; reflexivity.
    - destruct (steps_vprint (x :: v) 0 [] tail) as (n & x2 & neg & u & E & I1 & I2 & G & Hn).
      { discriminate. } { auto. }
      exists n, (0 + pred (length (x :: v)))%nat, x2, neg, u.
      assert (Hs : skipws (vprint_loop (x :: v) ++ 41 :: tail) <> []).
      { destruct (dec_head x) as (c & t & Ec & Tc).
        assert (Hh : exists t', vprint_loop (x :: v) = c :: t').
        { destruct v; cbn [vprint_loop]; rewrite Ec; cbn; eauto. }
        destruct Hh as (t' & ->). cbn [app]. apply skipws_tok. auto. }
      rewrite (extract_indep _ 40 0) by auto.
      unfold rst in E. destruct (extract _ 0) as [c2 is2].
      split; [auto|]. split; [auto|]. split; [auto|]. split; [auto|].
      intros i. rewrite G. cbn [Nat.leb].
      rewrite Nat.sub_0_r, Nat.add_0_l. rewrite (vget_nth (x :: v)).
      destruct (Nat.ltb_spec i (length (x :: v))); auto.
      rewrite nth_overflow; auto; destruct i; reflexivity. }
  destruct Hini as (n & d & x & neg & u & E).
  destruct (extract {| is_rest := vprint_loop v ++ 41 :: tail; is_fail := false |} 40) as [c2 is2].
  destruct E as (E & Hn & I1 & I2 & G).
  rewrite loop_loopNr.
  unfold vprint in Hf. rewrite !app_length in Hf. cbn [length] in Hf.
  replace (Pos.to_nat fuel) with (n + S (Pos.to_nat fuel - n - 1))%nat by lia.
  unfold loopNr. rewrite loopN_add, E.
  specialize (Hend d x neg u (Pos.to_nat fuel - n - 1)%nat). unfold loopNr in Hend.
  destruct (loopN vread_step (S (Pos.to_nat fuel - n - 1)) (rst (41 :: tail) d x neg u))
    as [[?|s]|?]; try discriminate. inversion Hend; subst. cbn [bind vr_neg vr_v vr_vec vr_d vr_is].
  assert (E2 : (if neg then neg64 x else Ok x) = Ok (signed neg x)).
  { destruct neg; auto. unfold neg64. now rewrite chk64_ok. }
  rewrite E2. cbn [bind]. eexists. split; [reflexivity|]. split; [apply normalize_wf|].
  intros i. rewrite vget_normalize. apply G.
Qed.

(** ** Termination *)

(** Reading "(0" never ends, whatever the number of iterations allowed. *)
Lemma vread_hangs fuel : vread fuel {| is_rest := [40; 48]; is_fail := false |} = Bad BadFuel.
Proof.
  unfold vread. cbn -[loop]. rewrite (loop_diverges vread_step
    (fun s => vr_c s = 48 /\ vr_v s = 0 /\ is_rest (vr_is s) = [])).
  - reflexivity.
  - cbn. auto.
  - intros [is c d v neg w] (H1 & H2 & H3). cbn in H1, H2, H3. subst.
    unfold vread_step. cbn -[extract].
    destruct is as [r fl]. cbn in H3. subst r. unfold extract. cbn.
    destruct fl; eexists; (split; [reflexivity|]); cbn; auto.
Qed.

(** When a ')' is still ahead, reading ends. *)
Definition ahead (s : vread_st) : Prop :=
  is_fail (vr_is s) = false /\ (vr_c s = 41 \/ In 41 (is_rest (vr_is s))).
Definition left_ (s : vread_st) : nat := length (is_rest (vr_is s)).

Lemma skipws_in l : In 41 l -> exists x t, skipws l = x :: t /\ (to_i8 x = 41 \/ In 41 t)
   /\ (length t < length l)%nat.
Proof.
  induction l as [|c l IH]; intros H; [destruct H|].
  cbn [skipws]. destruct (isspace c) eqn:S.
  - destruct H as [->|H]; [discriminate|].
    destruct (IH H) as (x & t & E & G & L). exists x, t. repeat split; auto. cbn; lia.
  - exists c, l. destruct H as [->|H]; repeat split; auto.
Qed.

Lemma ahead_go s :
  ahead s -> vr_c s <> 41 ->
  forall v d neg w,
  let '(c', is') := extract (vr_is s) (vr_c s) in
  let s' := {| vr_is := is'; vr_c := c'; vr_d := d; vr_v := v; vr_neg := neg; vr_vec := w |} in
  ahead s' /\ (left_ s' < left_ s)%nat.
Proof.
  intros [Hf Hin] Hc v d neg w. destruct Hin as [?|Hin]; [congruence|].
  destruct (skipws_in _ Hin) as (x & t & E & G & L).
  unfold extract. rewrite Hf, E. unfold ahead, left_. cbn. auto.
Qed.

Lemma vread_step_ahead s : ahead s ->
  match vread_step s with
  | Ok (inl s') => ahead s' /\ (left_ s' < left_ s)%nat
  | Ok (inr _) => True
  | Bad b => b <> BadFuel
  end.
Proof.
  intros H. unfold vread_step. destruct (Z.eqb_spec (vr_c s) 41); auto.
  destruct (vr_c s <? 0); [discriminate|].
  pose proof (ahead_go s H n) as G.
  destruct (isdigit (vr_c s)).
  - unfold mul64, add64, chk64. destruct (in64b (vr_v s * 10)); cbn [bind]; [|discriminate].
    destruct (in64b _); cbn [bind]; [|discriminate].
    cbn [vr_is vr_c vr_d vr_v vr_neg vr_vec].
    specialize (G (vr_v s * 10 + (vr_c s - 48)) (vr_d s) (vr_neg s) (vr_vec s)).
    destruct (extract _ _). exact G.
  - destruct (vr_c s =? 44).
    + assert (E : (exists v', (if vr_neg s then neg64 (vr_v s) else Ok (vr_v s)) = Ok v') \/
                  (if vr_neg s then neg64 (vr_v s) else Ok (vr_v s)) = Bad BadOverflow).
      { destruct (vr_neg s); [|eauto]. unfold neg64, chk64. destruct (in64b _); eauto. }
      destruct E as [(v' & E)|E]; rewrite E; cbn [bind]; [|discriminate].
      cbn [vr_is vr_c vr_d vr_v vr_neg vr_vec].
      specialize (G 0 (S (vr_d s)) false (vset (vr_vec s) (vr_d s) v')).
      destruct (extract _ _). exact G.
    + destruct ((vr_v s =? 0) && (vr_c s =? 45)).
      * cbn [vr_is vr_c vr_d vr_v vr_neg vr_vec].
        specialize (G (vr_v s) (vr_d s) true (vr_vec s)). destruct (extract _ _). exact G.
      * destruct (negb (isspace (vr_c s))); auto.
        specialize (G (vr_v s) (vr_d s) (vr_neg s) (vr_vec s)). destruct (extract _ _). exact G.
Qed.

Lemma vread_loop_ends n : forall s, ahead s -> (left_ s < n)%nat ->
  loopNr vread_step n s <> Bad BadFuel.
Proof.
  induction n as [|n IH]; intros s H L; [lia|].
  rewrite loopNr_unfold. pose proof (vread_step_ahead s H) as G.
  destruct (vread_step s) as [[s'|r]|b]; try discriminate.
  - destruct G. apply IH; auto. lia.
  - congruence.
Qed.

Lemma vread_ends l fuel :
  In 41 l -> (Z.of_nat (length l) < Z.pos fuel) ->
  vread fuel {| is_rest := l; is_fail := false |} <> Bad BadFuel.
Proof.
  intros Hin Hf. unfold vread.
  destruct (skipws_in _ Hin) as (x & t & E & G & L).
  unfold extract at 1. cbn [is_fail is_rest]. rewrite E. cbn [is_fail].
  destruct (Z.eqb_spec (to_i8 x) 40) as [Ex|]; [|discriminate].
  assert (Hin' : In 41 t) by (destruct G; [lia|auto]).
  destruct (skipws_in _ Hin') as (y & u & Ey & Gy & Ly).
  unfold extract. cbn [is_fail is_rest]. rewrite Ey. rewrite loop_loopNr.
  match goal with |- bind (loopNr _ _ ?s) _ <> _ =>
    pose proof (vread_loop_ends (Pos.to_nat fuel) s) as W end.
  specialize (W ltac:(unfold ahead; cbn; auto)).
  specialize (W ltac:(unfold left_; cbn; lia)).
  destruct (loopNr vread_step _ _) as [s|b]; cbn [bind]; [|congruence].
  destruct (vr_neg s); [|discriminate].
  unfold neg64, chk64. destruct (in64b _); cbn [bind]; discriminate.
Qed.
