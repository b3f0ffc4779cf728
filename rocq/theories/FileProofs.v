(** * Proofs about .beq files (FileModel.v). *)

From Coq Require Import ZArith Lia String List Bool.
From Verif Require Import Base BaseProofs VectorModel TextModel FieldModel World FingModel OptModel FileModel
  VectorProofs FieldProofs TextProofs LibProofs PropsOpt.
Import ListNotations.
Open Scope Z_scope.
Local Notation length := List.length.

(** ** Numbers *)

Lemma stoi_digits_value ds : forall a, Forall digit ds -> stoi_digits ds a = digits_value a ds.
Proof.
  induction ds as [|c t IH]; intros a F; [reflexivity|]. inversion F; subst. cbn [stoi_digits digits_value].
  assert (D : isdigit c = true) by (unfold isdigit, digit in *; lia). rewrite D. now apply IH.
Qed.
Lemma digit_facts c : digit c -> isspace c = false /\ (c =? 45) = false /\ (c =? 43) = false /\ isdigit c = true.
Proof. unfold digit, isspace, isdigit. lia. Qed.

Lemma stoi_dec n : -2147483648 <= n <= 2147483647 -> stoi (dec n) = Ok n.
Proof.
  intros H. unfold dec. destruct (Z.ltb_spec n 0) as [L|L].
  - destruct (dec_nat_spec (- n)) as (F & Ne & V & _); [lia|].
    destruct (dec_nat (- n)) as [|c t] eqn:E; [congruence|].
    assert (Dc : digit c) by (now inversion F). destruct (digit_facts c Dc) as (_ & _ & _ & D4).
    unfold stoi. change (skipws (45 :: c :: t)) with (45 :: c :: t). cbv iota beta zeta. change (45 =? 45) with true. cbv iota beta zeta.
    rewrite D4, stoi_digits_value, V by assumption. rewrite Z.opp_involutive.
    destruct (Z.leb_spec (-2147483648) n); [|lia]. destruct (Z.leb_spec n 2147483647); [|lia]. reflexivity.
  - destruct (dec_nat_spec n) as (F & Ne & V & _); [lia|].
    destruct (dec_nat n) as [|c t] eqn:E; [congruence|].
    assert (Dc : digit c) by (now inversion F). destruct (digit_facts c Dc) as (D1 & D2 & D3 & D4).
    unfold stoi. cbn [skipws]. rewrite D1, D2, D3. rewrite D4, stoi_digits_value, V by assumption. cbv beta zeta iota.
    destruct (Z.leb_spec (-2147483648) n); [|lia]. destruct (Z.leb_spec n 2147483647); [|lia]. reflexivity.
Qed.
Lemma stoul_dec n : 0 <= n < 2 ^ 64 -> stoul (dec n) = Ok n.
Proof.
  intros H. unfold dec. destruct (Z.ltb_spec n 0) as [L|L]; [lia|].
  destruct (dec_nat_spec n) as (F & Ne & V & _); [lia|].
  destruct (dec_nat n) as [|c t] eqn:E; [congruence|].
  assert (Dc : digit c) by (now inversion F). destruct (digit_facts c Dc) as (D1 & D2 & D3 & D4).
  unfold stoul. cbn [skipws]. rewrite D1, D2, D3. rewrite D4, stoi_digits_value, V by assumption. cbv beta zeta iota.
  destruct (Z.ltb_spec n (2 ^ 64)); [reflexivity|lia].
Qed.
(** The characters of a number. *)
Lemma dec_chars n c : In c (dec n) -> c = 45 \/ digit c.
Proof.
  unfold dec. destruct (Z.ltb_spec n 0).
  - intros [<-|I]; auto. right. destruct (dec_nat_spec (- n)) as (F & _); [lia|]. rewrite Forall_forall in F. auto.
  - intros I. right. destruct (dec_nat_spec n) as (F & _); [lia|]. rewrite Forall_forall in F. auto.
Qed.
Lemma dec_ne n : dec n <> [].
Proof. destruct (dec_head n) as (c & t & E & _). rewrite E. discriminate. Qed.

(** ** Splitting *)

(** Parts joined by a separator. *)
Fixpoint sep_by (sep : Z) (ls : list bytes) : bytes :=
  match ls with
  | [] => []
  | [l] => l
  | l :: t => l ++ sep :: sep_by sep t
  end.
Lemma split_sep sep ls : ls <> [] -> Forall (fun l => ~ In sep l) ls -> split_at sep (sep_by sep ls) [] = ls.
Proof.
  intros Ne F. induction F as [|l ls Hl F IH]; [congruence|]. destruct ls as [|m t].
  - cbn [sep_by]. now rewrite split_at_end.
  - change (sep_by sep (l :: m :: t)) with (l ++ sep :: sep_by sep (m :: t)).
    rewrite split_at_app by assumption. cbn [app]. f_equal. apply IH. discriminate.
Qed.
Lemma sep_by_in sep ls c : In c (sep_by sep ls) -> c = sep \/ exists l, In l ls /\ In c l.
Proof.
  induction ls as [|l t IH]; intros I; [destruct I|]. destruct t as [|m t].
  - right. exists l. cbn in *. auto.
  - change (sep_by sep (l :: m :: t)) with (l ++ sep :: sep_by sep (m :: t)) in I.
    apply in_app_or in I. destruct I as [I|[<-|I]]; auto.
    + right. exists l. cbn. auto.
    + destruct (IH I) as [X|(x & A & B)]; auto. right. exists x. cbn in *. auto.
Qed.

(** ** A control line *)

Lemma beq_origin_run l : forall d o, Forall (fun n => -2147483648 <= n <= 2147483647) l ->
  exists o', beq_origin (map dec l) d o = Ok ((d + length l)%nat, o') /\
    forall i, vget o' i = if Nat.ltb i d then vget o i
                          else if Nat.ltb i (d + length l) then nth (i - d) l 0 else vget o i.
Proof.
  induction l as [|n l IH]; intros d o F.
  - exists o. cbn [map beq_origin length]. rewrite Nat.add_0_r. split; [reflexivity|]. intros i. destruct (Nat.ltb i d); reflexivity.
  - inversion F; subst. cbn [map beq_origin]. rewrite stoi_dec by assumption. cbn [bind].
    destruct (IH (S d) (vset o d n)) as (o' & E & G); [assumption|]. exists o'.
    rewrite E. cbn [length]. split; [do 2 f_equal; lia|].
    intros i. rewrite G, vget_vset.
    destruct (Nat.ltb_spec i (S d)), (Nat.ltb_spec i d); try lia.
    + destruct (Nat.eqb_spec i d); [lia|reflexivity].
    + assert (i = d) by lia. subst. rewrite Nat.eqb_refl, Nat.sub_diag.
      destruct (Nat.ltb_spec d (d + S (length l))); [reflexivity|lia].
    + destruct (Nat.eqb_spec i d); [lia|].
      replace (S d + length l)%nat with (d + S (length l))%nat by lia.
      destruct (Nat.ltb_spec i (d + S (length l))); [|reflexivity].
      replace (i - d)%nat with (S (i - S d)) by lia. reflexivity.
Qed.
(** A coordinate that may be left out. *)
Definition opt_dec (x : option Z) : bytes := match x with Some n => dec n | None => [] end.
Definition opt_val (x : option Z) : Z := match x with Some n => n | None => 0 end.
Lemma beq_coord_run l : forall d o,
  Forall (fun x => -2147483648 <= opt_val x <= 2147483647) l ->
  (forall i, (d <= i)%nat -> vget o i = 0) ->
  exists o', beq_coord (map opt_dec l) d o = Ok ((d + length l)%nat, o') /\
    forall i, vget o' i = if Nat.ltb i d then vget o i else opt_val (nth (i - d) l None).
Proof.
  induction l as [|x l IH]; intros d o F Z0.
  - exists o. cbn [map beq_coord length]. rewrite Nat.add_0_r. split; [reflexivity|]. intros i.
    destruct (Nat.ltb_spec i d); [reflexivity|]. rewrite Z0 by lia. destruct (i - d)%nat; reflexivity.
  - inversion F; subst. cbn [map beq_coord].
    assert (R : exists o1, match opt_dec x with
                           | [] => beq_coord (map opt_dec l) (S d) o
                           | _ => n <-- stoi (opt_dec x) ;; beq_coord (map opt_dec l) (S d) (vset o d n)
                           end = beq_coord (map opt_dec l) (S d) o1 /\
              forall i, vget o1 i = if Nat.eqb i d then opt_val x else vget o i).
    { destruct x as [n|]; cbn [opt_dec opt_val] in *.
      - exists (vset o d n). rewrite stoi_dec by assumption. split.
        + destruct (dec n) eqn:En; [now apply dec_ne in En|reflexivity].
        + intros i. apply vget_vset.
      - exists o. split; [reflexivity|]. intros i. destruct (Nat.eqb_spec i d); [|reflexivity]. subst. apply Z0. lia. }
    destruct R as (o1 & R & G1). destruct (IH (S d) o1) as (o' & E & G); [assumption| |].
    { intros i Hi. rewrite G1. destruct (Nat.eqb_spec i d); [lia|]. apply Z0. lia. }
    exists o'. split.
    + transitivity (beq_coord (map opt_dec l) (S d) o1); [exact R|]. rewrite E. cbn [length]. do 2 f_equal. lia.
    + intros i. rewrite G, G1. destruct (Nat.ltb_spec i (S d)), (Nat.ltb_spec i d); try lia.
      * destruct (Nat.eqb_spec i d); [lia|reflexivity].
      * assert (i = d) by lia. subst. now rewrite Nat.eqb_refl, Nat.sub_diag.
      * replace (i - d)%nat with (S (i - S d)) by lia. reflexivity.
Qed.

(** ** The text of a block *)

Lemma beq_line_run l : forall s x y p f, at_xy s x y p ->
  in64 (vget s 0 + x) -> in64 (vget s 0 + x + Z.of_nat (length l)) ->
  exists p' f', beq_line l p f = Ok (p', f') /\ at_xy s (x + Z.of_nat (length l)) y p' /\
    f_char f' = f_char f /\ f_dims f' = f_dims f /\
    (forall q i c, at_xy s (x + Z.of_nat i) y q -> nth_error l i = Some c ->
       f_get f' q = cellval (f_char f) (to_i8 c)) /\
    (forall q, (forall i c, nth_error l i = Some c -> ~ at_xy s (x + Z.of_nat i) y q) -> f_get f' q = f_get f q).
Proof.
  induction l as [|c l IH]; intros s x y p f A B1 B2.
  - exists p, f. cbn [beq_line length]. rewrite Z.add_0_r. repeat (split; [auto; fail|]). split.
    + intros q [|i] c _ X; discriminate.
    + reflexivity.
  - cbn [length] in B2. cbn [beq_line]. assert (A0 : vget p 0 = vget s 0 + x) by apply A.
    unfold add64. rewrite A0.
    assert (I1 : in64 (vget s 0 + x + 1)) by (unfold in64, INT64_MIN, INT64_MAX in *; lia).
    rewrite (chk64_ok _ I1). cbn [bind].
    destruct (IH s (x + 1) y (vset p 0 (vget s 0 + x + 1)) (f_put p (to_i8 c) f)) as (p' & f' & E & A' & C & D & In_ & Out).
    { replace (vget s 0 + x + 1) with (vget s 0 + (x + 1)) by lia. eapply vset_at_xy. exact A. }
    { unfold in64 in *; lia. }
    { unfold in64 in *; lia. }
    exists p', f'. rewrite E. rewrite f_put_char in C. rewrite f_put_dims in D. rewrite f_put_char in In_.
    split; [reflexivity|]. split; [cbn [length]; replace (x + Z.of_nat (S (length l))) with (x + 1 + Z.of_nat (length l)) by lia; exact A'|].
    split; [exact C|]. split; [exact D|]. split.
    + intros q [|i] d Aq X.
      * cbn in X. injection X as <-. rewrite Out.
        -- apply f_get_put_same. eapply at_xy_same; [exact A|]. rewrite Z.add_0_r in Aq. exact Aq.
        -- intros i d _ Aq'. destruct (at_xy_inj _ _ _ _ _ _ Aq Aq'). lia.
      * apply (In_ q i d); [|exact X]. replace (x + 1 + Z.of_nat i) with (x + Z.of_nat (S i)) by lia. exact Aq.
    + intros q Hq. rewrite Out.
      * apply f_get_put_other. intros S. apply (Hq 0%nat c eq_refl). rewrite Z.add_0_r.
        destruct A as (a & b & e). repeat split; [rewrite <- S; exact a|rewrite <- S; exact b|].
        intros i Hi. rewrite <- S. now apply e.
      * intros i d X Aq. apply (Hq (S i) d X). replace (x + Z.of_nat (S i)) with (x + 1 + Z.of_nat i) by lia. exact Aq.
Qed.

(** The character a block of lines has at column [i] of line [j]. *)
Definition line_char (ls : list bytes) (j i : nat) : option Z :=
  match nth_error ls j with Some l => nth_error l i | None => None end.

Lemma beq_block_run ls : forall rest line o p y f, at_xy o 0 y p ->
  in64 (vget o 0) -> in64 (vget o 1 + y) -> in64 (vget o 1 + y + Z.of_nat (length ls)) ->
  Forall (fun l => in64 (vget o 0 + Z.of_nat (length l))) ls ->
  exists f', beq_block (length ls) (ls ++ rest) line o p f = Ok (rest, f') /\
    f_char f' = f_char f /\ f_dims f' = f_dims f /\
    (forall q j i c, at_xy o (Z.of_nat i) (y + Z.of_nat j) q -> line_char ls j i = Some c ->
       f_get f' q = cellval (f_char f) (to_i8 c)) /\
    (forall q, (forall j i c, line_char ls j i = Some c -> ~ at_xy o (Z.of_nat i) (y + Z.of_nat j) q) ->
       f_get f' q = f_get f q).
Proof.
  induction ls as [|l ls IH]; intros rest line o p y f A B0 B1 B2 F.
  - exists f. cbn [length beq_block app]. repeat (split; [reflexivity|]). split; [|reflexivity].
    intros q j i c _ X. unfold line_char in X. destruct j; discriminate.
  - inversion F; subst. cbn [length beq_block app tl].
    destruct (beq_line_run l o 0 y p f A) as (p1 & f1 & E1 & A1 & C1 & D1 & In1 & Out1);
      [rewrite Z.add_0_r; assumption|rewrite Z.add_0_r; assumption|].
    rewrite E1. cbn [bind fst snd].
    assert (G1 : vget (vset p1 0 (vget o 0)) 1 = vget o 1 + y) by (rewrite vget_vset; apply A1).
    unfold add64. rewrite G1. cbn [length] in B2.
    rewrite chk64_ok by (unfold in64 in *; lia). cbn [bind].
    destruct (IH rest l o (vset (vset p1 0 (vget o 0)) 1 (vget o 1 + y + 1)) (y + 1) f1) as (f' & E & C & D & In_ & Out).
    { replace (vget o 1 + y + 1) with (vget o 1 + (y + 1)) by lia. eapply vset1_at_xy.
      rewrite <- (Z.add_0_r (vget o 0)). eapply vset_at_xy. exact A1. }
    { assumption. } { unfold in64 in *; lia. } { unfold in64 in *; lia. } { assumption. }
    exists f'. rewrite E. rewrite C1 in *. rewrite D1 in D. split; [reflexivity|]. split; [exact C|]. split; [exact D|]. split.
    + intros q [|j] i c Aq X.
      * cbn in X. rewrite Z.add_0_r in Aq. rewrite Out.
        -- apply (In1 q i c); [exact Aq|exact X].
        -- intros j i' c' _ Aq'. destruct (at_xy_inj _ _ _ _ _ _ Aq Aq'). lia.
      * apply (In_ q j i c); [|exact X]. replace (y + 1 + Z.of_nat j) with (y + Z.of_nat (S j)) by lia. exact Aq.
    + intros q Hq. rewrite Out.
      * apply Out1. intros i c X Aq. apply (Hq 0%nat i c X). rewrite Z.add_0_r. exact Aq.
      * intros j i c X Aq. apply (Hq (S j) i c X). replace (y + Z.of_nat (S j)) with (y + 1 + Z.of_nat j) by lia. exact Aq.
Qed.
