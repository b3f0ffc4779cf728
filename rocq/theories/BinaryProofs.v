(** * Facts about binary file input and output (Field::parse and Field::dump with their
    last argument set), for PropsFileIO.v. *)

From Coq Require Import ZArith List Bool Lia.
From Verif Require Import Base BaseProofs VectorModel VectorProofs FieldModel FieldProofs DumpProofs.
Import ListNotations.
Open Scope Z_scope.

(** ** Input *)

Lemma parse_loop_binary l : forall dims s v mx last f x,
  0 <= x -> at_xy s x 0 v -> at_xy s x 0 mx ->
  INT64_MIN <= vget s 0 -> vget s 0 + x + Z.of_nat (length l) <= INT64_MAX ->
  exists mx' f', parse_loop true dims s l v mx last f = Ok (mx', f') /\
    at_xy s (x + Z.of_nat (length l)) 0 mx' /\ f_char f' = f_char f /\
    (forall k c p, nth_error l k = Some c -> c <> 32 -> at_xy s (x + Z.of_nat k) 0 p ->
       f_get f' p = cellval (f_char f) c) /\
    (forall p, (forall k c, nth_error l k = Some c -> at_xy s (x + Z.of_nat k) 0 p -> c = 32) ->
       f_get f' p = f_get f p).
Proof.
  induction l as [|c l IH]; intros dims s v mx last f x Hx A M B0 B1.
  - exists mx, f. split; [reflexivity|]. cbn [length]. rewrite Z.add_0_r. split; [exact M|].
    split; [reflexivity|]. split; [|reflexivity]. intros k c p N. destruct k; discriminate.
  - cbn [length] in B1. cbn [parse_loop]. rewrite !andb_false_r. unfold f_increment, add64.
    destruct A as (A0 & A1 & A2). destruct M as (M0 & M1 & M2).
    rewrite chk64_ok by (rewrite A0; unfold in64, INT64_MIN, INT64_MAX in *; lia). cbn [bind fst snd].
    rewrite vget_vset. cbn [Nat.eqb]. destruct (Z.ltb_spec (vget mx 0) (vget v 0 + 1)); [|lia].
    set (v1 := vset v 0 (vget v 0 + 1)). set (mx1 := vset mx 0 (vget v 0 + 1)).
    set (f1 := if c =? 32 then f else f_put v c f).
    assert (AV : at_xy s (x + 1) 0 v1).
    { unfold at_xy, v1. rewrite !vget_vset. cbn. split; [lia|]. split; [exact A1|].
      intros i Hi. rewrite vget_vset. destruct (Nat.eqb_spec i 0); [lia|auto]. }
    assert (AM : at_xy s (x + 1) 0 mx1).
    { unfold at_xy, mx1. rewrite !vget_vset. cbn. split; [lia|]. split; [exact M1|].
      intros i Hi. rewrite vget_vset. destruct (Nat.eqb_spec i 0); [lia|auto]. }
    destruct (IH dims s v1 mx1 c f1 (x + 1)) as (mx' & f' & E & AE & CE & P1 & P2); auto; try lia.
    assert (C1 : f_char f1 = f_char f) by (unfold f1; destruct (c =? 32); [reflexivity|apply f_put_char]).
    exists mx', f'. split; [exact E|]. split.
    { cbn [length]. replace (x + Z.of_nat (S (length l))) with (x + 1 + Z.of_nat (length l)) by lia. exact AE. }
    split; [now rewrite CE|].
    assert (HERE : forall p, at_xy s x 0 p -> f_get f' p = f_get f1 p).
    { intros p Ap. apply P2. intros k d N Q. destruct Ap as (Ap & _). destruct Q as (Q & _). lia. }
    assert (AA : at_xy s x 0 v) by (split; [exact A0|]; split; [exact A1|exact A2]).
    split.
    + intros k d p N ND Ap. destruct k as [|k]; cbn [nth_error] in N.
      * inversion N; subst d. rewrite Z.add_0_r in Ap. rewrite (HERE p Ap).
        unfold f1. destruct (Z.eqb_spec c 32); [contradiction|].
        apply f_get_put_same. eapply at_xy_same; eauto.
      * rewrite <- C1. apply (P1 k d p N ND).
        replace (x + 1 + Z.of_nat k) with (x + Z.of_nat (S k)) by lia. exact Ap.
    + intros p Q. rewrite P2.
      * unfold f1. destruct (Z.eqb_spec c 32) as [|NC]; [reflexivity|].
        apply f_get_put_other. intros SM. apply NC. apply (Q 0%nat c eq_refl).
        rewrite Z.add_0_r. destruct AA as (a & b & d). unfold at_xy. rewrite <- !SM. split; [exact a|]. split; [exact b|].
        intros i Hi. rewrite <- SM. auto.
      * intros k d N Ap. apply (Q (S k) d N).
        replace (x + Z.of_nat (S k)) with (x + 1 + Z.of_nat k) by lia. exact Ap.
Qed.

Lemma f_parse_binary s l f :
  (forall i, in64 (vget s i)) -> Z.of_nat (length l) <= INT64_MAX -> vget s 0 + Z.of_nat (length l) <= INT64_MAX ->
  exists d f', f_parse s l true f = Ok (d, f') /\
    (forall k c p, nth_error l k = Some c -> c <> 32 -> at_xy s (Z.of_nat k) 0 p -> f_get f' p = cellval (f_char f) c) /\
    (forall p, (forall k c, nth_error l k = Some c -> at_xy s (Z.of_nat k) 0 p -> c = 32) ->
       f_get f' p = f_get f p) /\
    vget d 0 = Z.of_nat (length l) /\ (forall i, (1 <= i)%nat -> vget d i = 0).
Proof.
  intros I LN B. unfold f_parse. pose proof (I 0%nat) as I0. unfold in64 in I0.
  assert (A0 : at_xy s 0 0 s) by (unfold at_xy; repeat split; auto; lia).
  destruct (parse_loop_binary l (f_dims f) s s s 0 f 0) as (mx & f' & E & (M0 & M1 & M2) & C & P1 & P2); auto; try lia.
  rewrite E. cbn [bind fst snd].
  destruct (vsub_defined mx s) as (d & Ed).
  { intros i. destruct i as [|[|i]].
    - rewrite M0. unfold in64, INT64_MIN, INT64_MAX in *. lia.
    - rewrite M1. unfold in64, INT64_MIN, INT64_MAX in *. lia.
    - rewrite M2 by lia. unfold in64, INT64_MIN, INT64_MAX in *. lia. }
  rewrite Ed. cbn [bind]. exists d, (f_fixdims f'). split; [reflexivity|].
  pose proof (vsub_get _ _ _ Ed) as G. split; [|split; [|split]].
  - intros k c p N NC Ap. rewrite f_get_fixdims. apply (P1 k c p N NC). exact Ap.
  - intros p Q. rewrite f_get_fixdims. apply P2. exact Q.
  - rewrite G, M0. lia.
  - intros i Hi. rewrite G. destruct i as [|[|i]]; [lia|rewrite M1; lia|rewrite M2 by lia; lia].
Qed.

(** ** Output *)

(** Every cell of the region, each row ended by a newline. *)
Fixpoint rows_all (f : field) (s : vec) (w : nat) (y : Z) (h : nat) : bytes :=
  match h with
  | O => []
  | S h' => map to_u8 (row f s w y) ++ [10] ++ rows_all f s w (y + 1) h'
  end.

Section Dump.
  Variables (f : field) (s fin : vec) (w h : nat).
  Hypothesis Hw : (0 < w)%nat.
  Hypothesis Hh : (0 < h)%nat.
  Hypothesis Hfin : at_xy s (Z.of_nat w) (Z.of_nat h) fin.
  Hypothesis B0 : vget s 0 + Z.of_nat w <= INT64_MAX.
  Hypothesis B1 : vget s 1 + Z.of_nat h <= INT64_MAX.
  Hypothesis B2 : INT64_MIN <= vget s 0.
  Hypothesis B3 : INT64_MIN <= vget s 1.

  Lemma dump_row_all n : forall x y v out0,
    (S n = w - Z.to_nat x)%nat -> 0 <= x < Z.of_nat w -> 0 <= y < Z.of_nat h -> at_xy s x y v ->
    exists v', at_xy s 0 (y + 1) v' /\
      forall k, loopNr (dump_step f s fin true) (S n + k) (v, [], out0)
      = let out' := out0 ++ map to_u8 (row_from f s y x (S n)) ++ [10] in
        if y + 1 =? Z.of_nat h then Ok out'
        else loopNr (dump_step f s fin true) k (v', [], out').
  Proof.
    induction n as [|n IH]; intros x y v out0 Hn Hx Hy A;
      pose proof A as (A1 & A2 & A3); pose proof Hfin as (F1 & F2 & F3);
      assert (Hcell : f_get f v = f_get f (xy s x y))
        by (apply f_get_ext; eapply at_xy_same; [exact A|apply xy_at]);
      set (c := f_get f (xy s x y)) in *.
    - assert (x = Z.of_nat w - 1) by lia.
      exists (vset (vset (vset v 0 (vget v 0 + 1)) 1 (vget v 1 + 1)) 0 (vget s 0)).
      split.
      { unfold at_xy. rewrite !vget_vset. cbn. split; [lia|]. split; [lia|].
        intros i Hi. rewrite !vget_vset. destruct (Nat.eqb_spec i 0), (Nat.eqb_spec i 1); try lia. auto. }
      intros k. cbn [Nat.add]. rewrite loopNr_unfold. unfold dump_step at 1.
      rewrite (in_region_lt s fin w h Hw Hh Hfin v x y A) by lia. rewrite Hcell, orb_true_r. fold c.
      unfold add64. rewrite chk64_ok by (unfold in64, INT64_MIN, INT64_MAX in *; lia). cbn [bind].
      rewrite !vget_vset. cbn [Nat.eqb].
      destruct (Z.geb_spec (vget v 0 + 1) (vget fin 0)); [|lia].
      rewrite chk64_ok by (unfold in64, INT64_MIN, INT64_MAX in *; lia). cbn [bind].
      rewrite !vget_vset. cbn [Nat.eqb row_from app map]. fold c. rewrite to_u8_i8, <- app_assoc. cbn [app].
      destruct (Z.geb_spec (vget v 1 + 1) (vget fin 1)); destruct (Z.eqb_spec (y + 1) (Z.of_nat h)); try lia; reflexivity.
    - destruct (IH (x + 1) y (vset v 0 (vget v 0 + 1)) (out0 ++ [to_u8 c])) as (v' & Av' & G).
      + lia.
      + lia.
      + lia.
      + replace (vget v 0 + 1) with (vget s 0 + (x + 1)) by lia. eapply vset_at_xy; eauto.
      + exists v'. split; auto. intros k. specialize (G k). cbn [Nat.add]. rewrite loopNr_unfold.
        unfold dump_step at 1. rewrite (in_region_lt s fin w h Hw Hh Hfin v x y A) by lia. rewrite Hcell, orb_true_r. fold c.
        unfold add64. rewrite chk64_ok by (unfold in64, INT64_MIN, INT64_MAX in *; lia). cbn [bind].
        rewrite !vget_vset. cbn [Nat.eqb].
        destruct (Z.geb_spec (vget v 0 + 1) (vget fin 0)); [lia|]. cbn [bind].
        rewrite !vget_vset. cbn [Nat.eqb].
        destruct (Z.geb_spec (vget v 1) (vget fin 1)); [lia|].
        change (map to_u8 ([] ++ [to_i8 c])) with [to_u8 (to_i8 c)]. rewrite to_u8_i8.
        etransitivity; [exact G|]. cbv zeta.
        change (row_from f s y x (S (S n))) with (c :: row_from f s y (x + 1) (S n)).
        rewrite map_cons, <- app_assoc. reflexivity.
  Qed.

  Lemma dump_rows_all m : forall y v out,
    (S m = h - Z.to_nat y)%nat -> 0 <= y -> at_xy s 0 y v ->
    forall k, loopNr (dump_step f s fin true) (S m * w + k) (v, [], out)
      = Ok (out ++ rows_all f s w y (S m)).
  Proof.
    induction m as [|m IH]; intros y v out Hm Hy A k.
    - destruct (dump_row_all (w - 1) 0 y v out) as (v' & A' & G); auto; try lia.
      specialize (G k).
      replace (1 * w + k)%nat with (S (w - 1) + k)%nat by lia.
      etransitivity; [exact G|]. cbv zeta.
      destruct (Z.eqb_spec (y + 1) (Z.of_nat h)); [|lia].
      replace (S (w - 1)) with w by lia. cbn [rows_all app]. unfold row. reflexivity.
    - destruct (dump_row_all (w - 1) 0 y v out) as (v' & A' & G); auto; try lia.
      specialize (G (S m * w + k)%nat).
      replace (S (S m) * w + k)%nat with (S (w - 1) + (S m * w + k))%nat by (cbn; lia).
      etransitivity; [exact G|]. cbv zeta. destruct (Z.eqb_spec (y + 1) (Z.of_nat h)); [lia|].
      etransitivity; [apply (IH (y + 1)); auto; lia|].
      replace (S (w - 1)) with w by lia. cbn [rows_all]. unfold row.
      cbn [app]. now rewrite <- !app_assoc.
  Qed.
End Dump.

Lemma f_dump_all f s delta w h fuel :
  (0 < w)%nat -> (0 < h)%nat ->
  vget delta 0 = Z.of_nat w -> vget delta 1 = Z.of_nat h ->
  (forall i, (2 <= i)%nat -> vget delta i = 0) ->
  (forall i, in64 (vget s i)) ->
  vget s 0 + Z.of_nat w <= INT64_MAX -> vget s 1 + Z.of_nat h <= INT64_MAX ->
  Z.of_nat w * Z.of_nat h <= Z.pos fuel ->
  f_dump fuel s delta true f = Ok (rows_all f s w 0 h).
Proof.
  intros Hw Hh D0 D1 D2 I B0 B1 Hf. unfold f_dump.
  destruct (vadd_defined s delta) as (fin & E).
  { intros i. pose proof (I i) as Ii. pose proof (I 0%nat) as I0. pose proof (I 1%nat) as I1.
    destruct i as [|[|i]]; [rewrite D0|rewrite D1|rewrite D2 by lia];
      unfold in64, INT64_MIN, INT64_MAX in *; lia. }
  rewrite E. cbn [bind]. pose proof (vadd_get _ _ _ E) as G.
  rewrite loop_loopNr.
  pose proof (I 0%nat) as I0. pose proof (I 1%nat) as I1. unfold in64 in I0, I1.
  replace (Pos.to_nat fuel) with (S (h - 1) * w + (Pos.to_nat fuel - h * w))%nat.
  2:{ replace (S (h - 1)) with h by lia.
      assert (h * w <= Pos.to_nat fuel)%nat; [|lia].
      apply Nat2Z.inj_le. rewrite Nat2Z.inj_mul, positive_nat_Z. lia. }
  rewrite (dump_rows_all f s fin w h) with (y := 0); auto; try lia.
  - now replace (S (h - 1)) with h by lia.
  - unfold at_xy. rewrite !G, D0, D1. repeat split; auto. intros i Hi. rewrite G, D2 by auto. lia.
  - unfold at_xy. repeat split; auto; lia.
Qed.
