(** * Writing a region to a file and reading it back (Field::dump). *)

From Coq Require Import ZArith List Bool Lia.
From Verif Require Import Base BaseProofs VectorModel VectorProofs FieldModel FieldProofs.
Import ListNotations.
Open Scope Z_scope.

(** ** Specification *)

(** Drop trailing blanks. *)
Fixpoint rtrim (l : list Z) : list Z :=
  match l with
  | [] => []
  | c :: t => match rtrim t with
              | [] => if c =? 32 then [] else [c]
              | t' => c :: t'
              end
  end.

(** The position [x] columns and [y] rows from [s]. *)
Definition xy (s : vec) (x y : Z) : vec := vset (vset s 0 (vget s 0 + x)) 1 (vget s 1 + y).

Fixpoint row_from (f : field) (s : vec) (y x : Z) (n : nat) : list Z :=
  match n with
  | O => []
  | S n' => f_get f (xy s x y) :: row_from f s y (x + 1) n'
  end.
(** The [w] cells of row [y]. *)
Definition row (f : field) (s : vec) (w : nat) (y : Z) : list Z := row_from f s y 0 w.

(** The file: each row without trailing blanks, one byte per cell, ended by a
    newline. *)
Fixpoint rows_text (f : field) (s : vec) (w : nat) (y : Z) (h : nat) : bytes :=
  match h with
  | O => []
  | S h' => map to_u8 (rtrim (row f s w y)) ++ [10] ++ rows_text f s w (y + 1) h'
  end.

(** ** Facts *)

Lemma xy_at s x y : at_xy s x y (xy s x y).
Proof.
  unfold at_xy, xy. rewrite !vget_vset. cbn. split; auto. split; auto.
  intros i Hi. rewrite !vget_vset. destruct (Nat.eqb_spec i 0), (Nat.eqb_spec i 1); auto; lia.
Qed.

Lemma rtrim_snoc_blank l : rtrim (l ++ [32]) = rtrim l.
Proof. induction l as [|c l IH]; cbn; auto. now rewrite IH. Qed.
Lemma rtrim_snoc l c : c <> 32 -> rtrim (l ++ [c]) = l ++ [c].
Proof.
  intros H. induction l as [|d l IH]; cbn.
  - destruct (Z.eqb_spec c 32); [contradiction|auto].
  - rewrite IH. destruct (l ++ [c]) eqn:E; auto. destruct l; discriminate.
Qed.
Lemma rtrim_split l : exists k, l = rtrim l ++ repeat 32 k.
Proof.
  induction l as [|c l IH]; cbn; [exists O; auto|].
  destruct IH as (k & E). destruct (rtrim l) as [|d t] eqn:R.
  - destruct (Z.eqb_spec c 32).
    + exists (S k). cbn. subst. f_equal; exact E.
    + exists k. cbn. f_equal; exact E.
  - exists k. cbn. f_equal; exact E.
Qed.

Lemma to_u8_i8 z : to_u8 (to_i8 z) = to_u8 z.
Proof.
  unfold to_u8, to_i8. pose proof (wrap_mod 8 z ltac:(lia)) as H.
  change (2 ^ 8) with 256 in *.
  replace (wrap 8 z) with (wrap 8 z - z + z) by lia.
  rewrite Z.add_mod by lia. rewrite H, Z.add_0_l. apply Z.mod_mod. lia.
Qed.

Section Dump.
  Variables (f : field) (s fin : vec) (w h : nat).
  Hypothesis Hw : (0 < w)%nat.
  Hypothesis Hh : (0 < h)%nat.
  Hypothesis Hfin : at_xy s (Z.of_nat w) (Z.of_nat h) fin.
  Hypothesis B0 : vget s 0 + Z.of_nat w <= INT64_MAX.
  Hypothesis B1 : vget s 1 + Z.of_nat h <= INT64_MAX.
  Hypothesis B2 : INT64_MIN <= vget s 0.
  Hypothesis B3 : INT64_MIN <= vget s 1.

  Lemma in_region_lt v x y : at_xy s x y v -> y < Z.of_nat h -> vltb v fin = true.
  Proof.
    intros (A1 & A2 & A3) Hy. apply vltb_spec. exists 1%nat.
    destruct Hfin as (F1 & F2 & F3). split; [lia|].
    intros j Hj. rewrite A3, F3 by lia. reflexivity.
  Qed.

  (** Reading the rest of row [y] from column [x], having seen [done]. *)
  Lemma dump_row n : forall x y v buf out0 done,
    (S n = w - Z.to_nat x)%nat -> 0 <= x < Z.of_nat w -> 0 <= y < Z.of_nat h -> at_xy s x y v ->
    map to_u8 (done) = map to_u8 (rtrim done) ++ map to_u8 buf ->
    exists v', at_xy s 0 (y + 1) v' /\
      forall k, loopNr (dump_step f s fin false) (S n + k) (v, buf, out0 ++ map to_u8 (rtrim done))
      = let out' := out0 ++ map to_u8 (rtrim (done ++ row_from f s y x (S n))) ++ [10] in
        if y + 1 =? Z.of_nat h then Ok out'
        else loopNr (dump_step f s fin false) k (v', [], out').
  Proof.
    induction n as [|n IH]; intros x y v buf out0 done Hn Hx Hy A Hb;
      pose proof A as (A1 & A2 & A3); pose proof Hfin as (F1 & F2 & F3);
      assert (Hcell : f_get f v = f_get f (xy s x y))
        by (apply f_get_ext; eapply at_xy_same; [exact A|apply xy_at]);
      set (c := f_get f (xy s x y)) in *;
      assert (Hout : (if negb (c =? 32) || false
                      then (out0 ++ map to_u8 (rtrim done)) ++ map to_u8 (buf ++ [to_i8 c])
                      else out0 ++ map to_u8 (rtrim done))
                     = out0 ++ map to_u8 (rtrim (done ++ [c]))).
    1,3: rewrite orb_false_r; destruct (Z.eqb_spec c 32) as [E|E]; cbn [negb];
         [ rewrite E, rtrim_snoc_blank; reflexivity
         | rewrite rtrim_snoc by auto; rewrite !map_app; cbn [map]; rewrite to_u8_i8;
           rewrite Hb, <- !app_assoc; reflexivity ].
    - (* last column *)
      assert (x = Z.of_nat w - 1) by lia.
      exists (vset (vset (vset v 0 (vget v 0 + 1)) 1 (vget v 1 + 1)) 0 (vget s 0)).
      split.
      { unfold at_xy. rewrite !vget_vset. cbn. split; [lia|]. split; [lia|].
        intros i Hi. rewrite !vget_vset. destruct (Nat.eqb_spec i 0), (Nat.eqb_spec i 1); try lia. auto. }
      intros k. cbn [Nat.add]. rewrite loopNr_unfold. unfold dump_step at 1.
      rewrite (in_region_lt v x y A) by lia. rewrite Hcell. fold c.
      unfold add64. rewrite chk64_ok by (unfold in64, INT64_MIN, INT64_MAX in *; lia). cbn [bind].
      rewrite !vget_vset. cbn [Nat.eqb].
      destruct (Z.geb_spec (vget v 0 + 1) (vget fin 0)); [|lia].
      rewrite chk64_ok by (unfold in64, INT64_MIN, INT64_MAX in *; lia). cbn [bind].
      rewrite !vget_vset. cbn [Nat.eqb]. rewrite Hout.
      cbn [row_from]. fold c. rewrite <- app_assoc.
      destruct (Z.geb_spec (vget v 1 + 1) (vget fin 1)); destruct (Z.eqb_spec (y + 1) (Z.of_nat h)); try lia; reflexivity.
    - (* move along the row *)
      destruct (IH (x + 1) y (vset v 0 (vget v 0 + 1))
                  (if negb (c =? 32) || false then [] else buf ++ [to_i8 c])
                  out0 (done ++ [c])) as (v' & Av' & G).
      + lia.
      + lia.
      + lia.
      + replace (vget v 0 + 1) with (vget s 0 + (x + 1)) by lia. eapply vset_at_xy; eauto.
      + rewrite orb_false_r. destruct (Z.eqb_spec c 32) as [E|E]; cbn [negb].
        * rewrite E, rtrim_snoc_blank, !map_app. cbn [map]. rewrite to_u8_i8.
          rewrite Hb, <- app_assoc. reflexivity.
        * rewrite rtrim_snoc by auto. cbn [map]. now rewrite app_nil_r.
      + exists v'. split; auto. intros k. specialize (G k). cbn [Nat.add]. rewrite loopNr_unfold.
        unfold dump_step at 1. rewrite (in_region_lt v x y A) by lia. rewrite Hcell. fold c.
        unfold add64. rewrite chk64_ok by (unfold in64, INT64_MIN, INT64_MAX in *; lia). cbn [bind].
        rewrite !vget_vset. cbn [Nat.eqb].
        destruct (Z.geb_spec (vget v 0 + 1) (vget fin 0)); [lia|]. cbn [bind].
        rewrite !vget_vset. cbn [Nat.eqb].
        destruct (Z.geb_spec (vget v 1) (vget fin 1)); [lia|].
        rewrite Hout. cbn [Nat.add] in G. rewrite G. cbv zeta.
        rewrite <- app_assoc. reflexivity.
  Qed.

  Lemma dump_rows m : forall y v out,
    (S m = h - Z.to_nat y)%nat -> 0 <= y -> at_xy s 0 y v ->
    forall k, loopNr (dump_step f s fin false) (S m * w + k) (v, [], out)
      = Ok (out ++ rows_text f s w y (S m)).
  Proof.
    induction m as [|m IH]; intros y v out Hm Hy A k.
    - destruct (dump_row (w - 1) 0 y v [] out []) as (v' & A' & G); auto; try lia.
      specialize (G k). cbn [rtrim map] in G. rewrite app_nil_r in G.
      replace (1 * w + k)%nat with (S (w - 1) + k)%nat by lia.
      etransitivity; [exact G|]. cbv zeta.
      destruct (Z.eqb_spec (y + 1) (Z.of_nat h)); [|lia].
      replace (S (w - 1)) with w by lia. unfold row. cbn [rows_text app]. unfold row.
      reflexivity.
    - destruct (dump_row (w - 1) 0 y v [] out []) as (v' & A' & G); auto; try lia.
      specialize (G (S m * w + k)%nat). cbn [rtrim map] in G. rewrite app_nil_r in G.
      replace (S (S m) * w + k)%nat with (S (w - 1) + (S m * w + k))%nat by (cbn; lia).
      etransitivity; [exact G|]. cbv zeta. destruct (Z.eqb_spec (y + 1) (Z.of_nat h)); [lia|].
      etransitivity; [apply (IH (y + 1)); auto; lia|].
      replace (S (w - 1)) with w by lia. cbn [rows_text]. unfold row.
      cbn [app]. now rewrite <- !app_assoc.
  Qed.
End Dump.

Lemma f_dump_rows f s delta w h fuel :
  (0 < w)%nat -> (0 < h)%nat ->
  vget delta 0 = Z.of_nat w -> vget delta 1 = Z.of_nat h ->
  (forall i, (2 <= i)%nat -> vget delta i = 0) ->
  (forall i, in64 (vget s i)) ->
  vget s 0 + Z.of_nat w <= INT64_MAX -> vget s 1 + Z.of_nat h <= INT64_MAX ->
  Z.of_nat w * Z.of_nat h <= Z.pos fuel ->
  f_dump fuel s delta false f = Ok (rows_text f s w 0 h).
Proof.
  intros Hw Hh D0 D1 D2 I B0 B1 Hf. unfold f_dump.
  destruct (vadd_defined s delta) as (fin & E).
  { intros i. pose proof (I i) as Ii. pose proof (I 0%nat) as I0. pose proof (I 1%nat) as I1.
    destruct i as [|[|i]]; [rewrite D0|rewrite D1|rewrite D2 by lia];
      unfold in64, INT64_MIN, INT64_MAX in *; lia. }
  rewrite E. cbn [bind]. pose proof (vadd_get _ _ _ E) as G.
  rewrite loop_loopNr.
  pose proof (I 0%nat) as I0. pose proof (I 1%nat) as I1. unfold in64 in I0, I1.
  replace (Pos.to_nat fuel) with (S (h - 1) * w + (Pos.to_nat fuel - h * w))%nat.
  2:{ replace (S (h - 1)) with h by lia.
      assert (h * w <= Pos.to_nat fuel)%nat; [|lia].
      apply Nat2Z.inj_le. rewrite Nat2Z.inj_mul, positive_nat_Z. lia. }
  rewrite (dump_rows f s fin w h) with (y := 0); auto; try lia.
  - now replace (S (h - 1)) with h by lia.
  - unfold at_xy. rewrite !G, D0, D1. repeat split; auto. intros i Hi. rewrite G, D2 by auto. lia.
  - unfold at_xy. repeat split; auto; lia.
Qed.

(** ** Round trip *)

Lemma row_from_len f s y n : forall x, length (row_from f s y x n) = n.
Proof. induction n; intros; cbn; auto. Qed.
Lemma row_from_nth f s y n : forall x k, (k < n)%nat ->
  nth_error (row_from f s y x n) k = Some (f_get f (xy s (x + Z.of_nat k) y)).
Proof.
  induction n as [|n IH]; intros x k H; [lia|]. destruct k as [|k]; cbn [row_from nth_error].
  - now rewrite Z.add_0_r.
  - rewrite IH by lia. now replace (x + Z.of_nat (S k)) with (x + 1 + Z.of_nat k) by lia.
Qed.

(** A cell that survives being written as one byte of text. *)
Definition texty (char : bool) (c : Z) : Prop :=
  (char = false -> 0 <= c <= 255) /\
  to_u8 c <> 10 /\ to_u8 c <> 11 /\ to_u8 c <> 12 /\ to_u8 c <> 13.

Lemma lines_of_line l t : Forall (fun c => c <> 10 /\ c <> 13) l ->
  lines_of (l ++ 10 :: t) = l :: lines_of t.
Proof.
  induction l as [|c l IH]; intros F; cbn [app lines_of]; auto.
  inversion F as [|? ? [N1 N2] F']; subst.
  destruct (Z.eqb_spec c 10); [contradiction|]. destruct (Z.eqb_spec c 13); [contradiction|].
  rewrite (IH F'). reflexivity.
Qed.

Lemma rtrim_incl l c : In c (rtrim l) -> In c l.
Proof.
  destruct (rtrim_split l) as (k & E). intros H. rewrite E. apply in_or_app. auto.
Qed.

Lemma rows_lines f s w h : forall y,
  (forall y' c, In c (row f s w y') -> y <= y' < y + Z.of_nat h -> to_u8 c <> 10 /\ to_u8 c <> 13) ->
  forall j, (j < h)%nat ->
  nth j (lines_of (rows_text f s w y h)) [] = map to_u8 (rtrim (row f s w (y + Z.of_nat j))).
Proof.
  induction h as [|h IH]; intros y H j Hj; [lia|].
  cbn [rows_text]. cbn [app]. rewrite lines_of_line.
  - destruct j as [|j]; cbn [nth].
    + now rewrite Z.add_0_r.
    + rewrite IH; [|intros y' c Hc Hy; apply (H y' c Hc); lia|lia].
      now replace (y + Z.of_nat (S j)) with (y + 1 + Z.of_nat j) by lia.
  - apply Forall_forall. intros b Hb. apply in_map_iff in Hb. destruct Hb as (c & <- & Hc).
    apply (H y); [apply rtrim_incl; auto|lia].
Qed.

Lemma rows_textual f s w h : forall y,
  (forall y' c, In c (row f s w y') -> y <= y' < y + Z.of_nat h -> to_u8 c <> 11 /\ to_u8 c <> 12) ->
  textual (rows_text f s w y h).
Proof.
  induction h as [|h IH]; intros y H; cbn [rows_text]; [constructor|].
  apply Forall_app. split.
  - apply Forall_forall. intros b Hb. apply in_map_iff in Hb. destruct Hb as (c & <- & Hc).
    apply (H y); [apply rtrim_incl; auto|lia].
  - constructor; [lia|]. apply IH. intros y' c Hc Hy. apply (H y' c Hc). lia.
Qed.

Lemma rows_len f s w h : forall y,
  Z.of_nat (length (rows_text f s w y h)) <= Z.of_nat h * (Z.of_nat w + 1).
Proof.
  induction h as [|h IH]; intros y; cbn [rows_text length]; [lia|].
  rewrite app_length, map_length. cbn [app length]. specialize (IH (y + 1)).
  assert (length (rtrim (row f s w y)) <= w)%nat.
  { destruct (rtrim_split (row f s w y)) as (k & E).
    apply (f_equal (@length Z)) in E. rewrite app_length in E. unfold row in *.
    rewrite row_from_len in E. lia. }
  lia.
Qed.

Lemma to_u8_range z : 0 <= to_u8 z < 256.
Proof. unfold to_u8. change (2 ^ 8) with 256. apply Z.mod_pos_bound. lia. Qed.
Lemma to_i8_u8 z : to_i8 (to_u8 z) = to_i8 z.
Proof.
  unfold to_i8, to_u8, wrap. change (2 ^ 8) with 256. change (2 ^ (8 - 1)) with 128.
  f_equal. rewrite Z.add_mod_idemp_l by lia. reflexivity.
Qed.

Lemma texty_back char c : texty char c -> cellval char c = c -> cellval char (to_u8 c) = c.
Proof.
  intros (H & _) E. unfold cellval in *. destruct char.
  - rewrite to_i8_u8. exact E.
  - unfold to_u8. apply Z.mod_small. change (2 ^ 8) with 256. specialize (H eq_refl). lia.
Qed.

Lemma dump_parse f s delta w h fuel g t :
  (0 < w)%nat -> (0 < h)%nat ->
  vget delta 0 = Z.of_nat w -> vget delta 1 = Z.of_nat h ->
  (forall i, (2 <= i)%nat -> vget delta i = 0) ->
  (forall i, in64 (vget s i)) ->
  vget s 0 + Z.of_nat w <= INT64_MAX -> vget s 1 + Z.of_nat h <= INT64_MAX ->
  Z.of_nat w * Z.of_nat h <= Z.pos fuel ->
  (forall i, in64 (vget t i)) ->
  Z.of_nat h * (Z.of_nat w + 1) <= INT64_MAX ->
  vget t 0 + Z.of_nat h * (Z.of_nat w + 1) <= INT64_MAX ->
  vget t 1 + Z.of_nat h * (Z.of_nat w + 1) <= INT64_MAX ->
  f_char g = f_char f ->
  (forall x y, 0 <= x < Z.of_nat w -> 0 <= y < Z.of_nat h ->
     texty (f_char f) (f_get f (xy s x y)) /\ f_get g (xy t x y) = 32) ->
  exists text d g',
    f_dump fuel s delta false f = Ok text /\
    f_parse t text false g = Ok (d, g') /\
    (forall x y, 0 <= x < Z.of_nat w -> 0 <= y < Z.of_nat h ->
       f_get g' (xy t x y) = f_get f (xy s x y)) /\
    (forall p, (forall x y, 0 <= x < Z.of_nat w -> 0 <= y < Z.of_nat h -> ~ same p (xy t x y)) ->
       f_get g' p = f_get g p).
Proof.
  intros Hw Hh D0 D1 D2 I B0 B1 Hf It Bl Bt0 Bt1 Hch Hcells.
  rewrite (f_dump_rows f s delta w h fuel) by auto.
  set (text := rows_text f s w 0 h).
  assert (Hrow : forall y c, In c (row f s w y) -> 0 <= y < 0 + Z.of_nat h ->
            texty (f_char f) c).
  { intros y c Hc Hy. apply In_nth_error in Hc. destruct Hc as (k & Hk).
    assert (Hkw : (k < w)%nat).
    { assert (k < length (row f s w y))%nat by (apply nth_error_Some; congruence).
      unfold row in *. rewrite row_from_len in *. auto. }
    unfold row in Hk. rewrite row_from_nth in Hk by auto. inversion Hk; subst.
    apply Hcells; lia. }
  assert (Tx : textual text).
  { apply rows_textual. intros y c Hc Hy. destruct (Hrow y c Hc Hy) as (_ & ? & ? & ? & ?). auto. }
  pose proof (rows_len f s w h 0) as Hlen. fold text in Hlen.
  destruct (f_parse_text t text g) as (d & g' & E & P1 & P2 & _); auto; try lia.
  assert (Hline : forall j, (j < h)%nat -> nth j (lines_of text) [] = map to_u8 (rtrim (row f s w (Z.of_nat j)))).
  { intros j Hj. unfold text. rewrite rows_lines; auto.
    intros y c Hc Hy. destruct (Hrow y c Hc Hy) as (_ & ? & ? & ? & ?). auto. }
  assert (Hchar : forall x y c, char_at text x y = Some c -> (y < h)%nat ->
     (x < w)%nat /\ c = to_u8 (f_get f (xy s (Z.of_nat x) (Z.of_nat y)))).
  { intros x y c Hc Hy. unfold char_at in Hc. rewrite Hline in Hc by auto.
    rewrite nth_error_map in Hc.
    destruct (nth_error (rtrim (row f s w (Z.of_nat y))) x) as [e|] eqn:Ne; [|discriminate].
    cbn in Hc. inversion Hc; subst.
    assert (Ne' : nth_error (row f s w (Z.of_nat y)) x = Some e).
    { destruct (rtrim_split (row f s w (Z.of_nat y))) as (k & Ek). rewrite Ek.
      rewrite nth_error_app1; auto. apply nth_error_Some. congruence. }
    assert (Hxw : (x < w)%nat).
    { assert (x < length (row f s w (Z.of_nat y)))%nat by (apply nth_error_Some; congruence).
      unfold row in *. rewrite row_from_len in *. auto. }
    split; auto. unfold row in Ne'. rewrite row_from_nth in Ne' by auto.
    inversion Ne'. reflexivity. }
  assert (Hyl : forall x y c, char_at text x y = Some c -> (y < h)%nat).
  { intros x y c Hc. destruct (Nat.lt_ge_cases y h) as [|Hge]; auto. exfalso.
    unfold char_at in Hc.
    assert (G : forall h' y0, nth (h' + (y - h))%nat (lines_of (rows_text f s w y0 h')) [] = [] \/
       exists y' c', In c' (row f s w y') /\ y0 <= y' < y0 + Z.of_nat h' /\ (to_u8 c' = 10 \/ to_u8 c' = 13)).
    { clear -Hge. induction h' as [|h' IH]; intros y0.
      - left. cbn [rows_text lines_of Nat.add]. destruct (y - h)%nat as [|[|m]]; reflexivity.
      - cbn [rows_text app].
        destruct (Exists_dec (fun b => b = 10 \/ b = 13) (map to_u8 (rtrim (row f s w y0)))) as [Ex|Nx].
        { intros b. destruct (Z.eq_dec b 10); [left; auto|]. destruct (Z.eq_dec b 13); [left; auto|right; lia]. }
        + right. apply Exists_exists in Ex. destruct Ex as (b & Hb & Hb').
          apply in_map_iff in Hb. destruct Hb as (c & <- & Hc). exists y0, c.
          split; [apply rtrim_incl; auto|]. split; [lia|auto].
        + rewrite lines_of_line.
          * destruct (IH (y0 + 1)) as [L|(y' & c' & H1 & H2 & H3)].
            -- left. exact L.
            -- right. exists y', c'. split; auto. split; [lia|auto].
          * apply Forall_forall. intros b Hb. split; intros ->; apply Nx; apply Exists_exists; eauto. }
    destruct (G h 0) as [L|(y' & c' & H1 & H2 & H3)].
    - replace (h + (y - h))%nat with y in L by lia. fold text in L. rewrite L in Hc.
      destruct x; discriminate.
    - destruct (Hrow y' c' H1) as (_ & ? & ? & ? & ?); [lia|]. destruct H3; contradiction. }
  exists text, d, g'. split; [reflexivity|]. split; [exact E|]. split.
  - intros x y Hx Hy.
    set (c := f_get f (xy s x y)).
    destruct (nth_error (rtrim (row f s w y)) (Z.to_nat x)) as [e|] eqn:Ne.
    + (* inside the trimmed row *)
      assert (Hc : char_at text (Z.to_nat x) (Z.to_nat y) = Some (to_u8 e)).
      { unfold char_at. rewrite Hline by lia. rewrite Z2Nat.id by lia.
        rewrite nth_error_map, Ne. reflexivity. }
      destruct (Hchar _ _ _ Hc) as [_ Eq]; [lia|]. rewrite !Z2Nat.id in Eq by lia. fold c in Eq.
      destruct (Hcells x y Hx Hy) as [Tc Bc]. fold c in Tc.
      destruct (Z.eq_dec (to_u8 e) 32) as [Sp|NSp].
      * rewrite P2.
        -- rewrite Bc. rewrite Eq in Sp.
           assert (Q : cellval (f_char f) (to_u8 c) = c)
             by (apply texty_back; auto; unfold c; apply cellval_get).
           rewrite Sp in Q. unfold cellval in Q. destruct (f_char f); auto.
        -- intros x' y' c' Ap Hc'.
           destruct (at_xy_inj _ _ _ _ _ _ Ap (xy_at t x y)) as [Q1 Q2].
           assert (x' = Z.to_nat x) by lia. assert (y' = Z.to_nat y) by lia. subst x' y'.
           rewrite Hc in Hc'. inversion Hc'. congruence.
      * rewrite (P1 (Z.to_nat x) (Z.to_nat y) _ (to_u8 e)); auto.
        -- rewrite Hch, Eq. apply texty_back; auto. unfold c; apply cellval_get.
        -- rewrite !Z2Nat.id by lia. apply xy_at.
    + (* trailing blank *)
      assert (c = 32).
      { destruct (rtrim_split (row f s w y)) as (k & Ek).
        assert (Nr : nth_error (row f s w y) (Z.to_nat x) = Some c).
        { unfold row. rewrite row_from_nth by lia. rewrite Z2Nat.id by lia. reflexivity. }
        rewrite Ek in Nr. apply nth_error_None in Ne. rewrite nth_error_app2 in Nr by lia.
        apply nth_error_In in Nr. now apply repeat_spec in Nr. }
      rewrite P2.
      * destruct (Hcells x y Hx Hy) as [_ Bc]. congruence.
      * intros x' y' c' Ap Hc'.
        destruct (at_xy_inj _ _ _ _ _ _ Ap (xy_at t x y)) as [Q1 Q2].
        assert (x' = Z.to_nat x) by lia. assert (y' = Z.to_nat y) by lia. subst x' y'.
        exfalso. unfold char_at in Hc'. rewrite Hline in Hc' by lia.
        rewrite nth_error_map, Z2Nat.id, Ne in Hc' by lia. discriminate.
  - intros p Hp. apply P2. intros x y c Ap Hc. exfalso.
    pose proof (Hyl _ _ _ Hc) as Hy. destruct (Hchar _ _ _ Hc Hy) as [Hx _].
    apply (Hp (Z.of_nat x) (Z.of_nat y)); [lia|lia|].
    eapply at_xy_same; [exact Ap|apply xy_at].
Qed.

(** ** One-dimensional regions *)

(** A region one row high in zero rows: only its first cell is written. *)
Lemma dump_1d f s delta fuel :
  (forall i, (1 <= i)%nat -> vget delta i = 0) -> 1 < vget delta 0 ->
  (forall i, in64 (vget s i)) -> vget s 0 + vget delta 0 <= INT64_MAX ->
  f_dump fuel s delta false f
  = Ok (if f_get f s =? 32 then [] else [to_u8 (f_get f s)]).
Proof.
  intros D1 D0 I B0. unfold f_dump. pose proof (I 0%nat) as I0.
  destruct (vadd_defined s delta) as (fin & E).
  { intros i. specialize (I i). destruct i; [|rewrite D1 by lia];
      unfold in64, INT64_MIN, INT64_MAX in *; lia. }
  rewrite E. cbn [bind]. pose proof (vadd_get _ _ _ E) as G.
  rewrite loop_loopNr. destruct (Pos.to_nat fuel) as [|n] eqn:Hf; [lia|].
  rewrite loopNr_unfold. unfold dump_step.
  assert (L : vltb s fin = true).
  { apply vltb_spec. exists O. rewrite G. split; [lia|]. intros j Hj. rewrite G, D1 by lia. lia. }
  rewrite L. unfold add64. rewrite chk64_ok by (unfold in64, INT64_MIN, INT64_MAX in *; lia).
  cbn [bind]. rewrite !vget_vset. cbn [Nat.eqb]. rewrite !G.
  destruct (Z.geb_spec (vget s 0 + 1) (vget s 0 + vget delta 0)); [lia|]. cbn [bind].
  rewrite vget_vset. cbn [Nat.eqb]. rewrite (D1 1%nat) by lia.
  destruct (Z.geb_spec (vget s 1) (vget s 1 + 0)); [|lia].
  rewrite orb_false_r. destruct (f_get f s =? 32); cbn; auto. now rewrite to_u8_i8.
Qed.
