(** * Copying blocks of Funge-space: what the loops of TOYS and MVRS do. *)

From Coq Require Import String ZArith List Bool Lia.
From Verif Require Import Base BaseProofs VectorModel VectorProofs RangeModel RangeProofs
  FieldModel FieldProofs World IpModel LoadModel FingModel ExecProofs SchedProofs.
Import ListNotations.
Open Scope Z_scope.

(** What is in cell [q] of universe [n]. *)
Definition cell (s : st) (n : nat) (q : vec) : Z := f_get (u_field (w_uni (s_w s) n)) q.
Definition chars (s : st) (n : nat) : bool := f_char (u_field (w_uni (s_w s) n)).
(** Only the contents of Funge-spaces differ. *)
Definition Only_fields (s s' : st) : Prop :=
  s_r s' = s_r s /\ s_w s' = set_w_uni (w_uni (s_w s')) (s_w s) /\
  forall n, exists f, w_uni (s_w s') n = set_u_field f (w_uni (s_w s) n) /\ f_char f = chars s n.
(** Cell [q] is [base] displaced by [o]. *)
Definition off (base : nat -> Z) (o : nat -> Z) (q : vec) : Prop := forall i, vget q i = base i + o i.

Lemma only_fields_refl s : Only_fields s s.
Proof.
  split; [reflexivity|]. split; [now destruct s as [[] ?]|].
  intros n. exists (u_field (w_uni (s_w s) n)). split; [now destruct (w_uni (s_w s) n)|reflexivity].
Qed.
Lemma only_fields_trans s s1 s2 : Only_fields s s1 -> Only_fields s1 s2 -> Only_fields s s2.
Proof.
  intros (A & B & C) (A1 & B1 & C1). split; [congruence|]. split; [rewrite B1, B; reflexivity|].
  intros n. destruct (C n) as (f & F & G). destruct (C1 n) as (f1 & F1 & G1). exists f1.
  split; [rewrite F1, F; reflexivity|]. rewrite G1. unfold chars. rewrite F. exact G.
Qed.
Lemma only_fields_chars s s' n : Only_fields s s' -> chars s' n = chars s n.
Proof. intros (_ & _ & C). destruct (C n) as (f & F & G). unfold chars at 1. rewrite F. exact G. Qed.
Lemma fput_only n p v s : exists s', fput n p v s = Ok (tt, s') /\ Only_fields s s' /\
  (forall q, same p q -> cell s' n q = cellval (chars s n) v) /\
  (forall m q, (m = n -> ~ same p q) -> cell s' m q = cell s m q).
Proof.
  eexists. split; [reflexivity|]. cbn [s_w s_r]. split; [|split].
  - split; [reflexivity|]. cbn [s_w]. split; [reflexivity|]. intros m. destruct (Nat.eq_dec m n) as [->|N].
    + rewrite upd_uni_same. eexists. split; [reflexivity|]. apply f_put_char.
    + rewrite upd_uni_other by auto. exists (u_field (w_uni (s_w s) m)).
      split; [now destruct (w_uni (s_w s) m)|reflexivity].
  - intros q S. unfold cell. cbn [s_w]. rewrite upd_uni_same. cbn [u_field set_u_field]. now apply f_get_put_same.
  - intros m q S. unfold cell. cbn [s_w]. destruct (Nat.eq_dec m n) as [->|N].
    + rewrite upd_uni_same. cbn [u_field set_u_field]. apply f_get_put_other. auto.
    + now rewrite upd_uni_other.
Qed.

(** One turn of the loops. *)
Definition copy1 (us ud : nat) (src dest : vec) (move : bool) (p : vec) : M unit :=
  s <- lift (vadd src p) ;; i <- fget us s ;;
  d <- lift (vadd dest p) ;; fput ud d i ;;;
  if move then fput us s 32 else ret tt.
Definition bodyR {A} (m : vec -> M A) (p : vec) (s : st) : res st :=
  match m p s with Ok (_, s') => Ok s' | Bad e => Bad e end.

Lemma copy1_run us ud src dest move p s a d :
  vadd src p = Ok a -> vadd dest p = Ok d -> (move = true -> us = ud -> ~ same a d) ->
  exists s', bodyR (copy1 us ud src dest move) p s = Ok s' /\ Only_fields s s' /\
    (forall q, same d q -> (move = true -> us = ud) -> cell s' ud q = cellval (chars s ud) (cell s us a)) /\
    (move = true -> forall q, same a q -> cell s' us q = 32) /\
    (forall n q, (n = ud -> ~ same d q) -> (move = true -> n = us -> ~ same a q) -> cell s' n q = cell s n q).
Proof.
  intros Ea Ed N. unfold bodyR, copy1.
  rewrite (run_bind (lift _) _ s a s) by (now apply run_lift).
  rewrite (run_bind (fget us a) _ s (cell s us a) s) by reflexivity.
  rewrite (run_bind (lift _) _ s d s) by (now apply run_lift).
  destruct (fput_only ud d (cell s us a) s) as (s1 & E1 & O1 & A1 & B1). rewrite (run_bind _ _ _ _ _ E1).
  destruct move.
  - destruct (fput_only us a 32 s1) as (s2 & E2 & O2 & A2 & B2). rewrite E2. exists s2.
    split; [reflexivity|]. split; [eapply only_fields_trans; eauto|]. split; [|split].
    + intros q S M. rewrite B2; [now apply A1|]. intros _ Sa. apply (N eq_refl (M eq_refl)).
      intros i. now rewrite Sa, S.
    + intros _ q S. rewrite A2 by auto. unfold cellval. destruct (chars s1 us); reflexivity.
    + intros n q X Y. rewrite B2 by auto. now apply B1.
  - exists s1. split; [reflexivity|]. split; [exact O1|]. split; [|split].
    + intros q S _. now apply A1.
    + discriminate.
    + intros n q X _. now apply B1.
Qed.

(** The displacements [vs] one after another. *)
Lemma copy_list us ud src dest move : (move = true -> us = ud) -> forall vs s,
  (forall p, In p vs -> (forall i, in64 (vget src i + vget p i)) /\ (forall i, in64 (vget dest i + vget p i))) ->
  (ForallOrdPairs (fun p p' => ~ same p p') vs) ->
  (us = ud -> forall p p', In p vs -> In p' vs -> ~ (forall i, vget src i + vget p i = vget dest i + vget p' i)) ->
  exists s', foldR (bodyR (copy1 us ud src dest move)) vs s = Ok s' /\ Only_fields s s' /\
    (forall p q a, In p vs -> off (vget dest) (vget p) q -> off (vget src) (vget p) a ->
       cell s' ud q = cellval (chars s ud) (cell s us a)) /\
    (move = true -> forall p q, In p vs -> off (vget src) (vget p) q -> cell s' us q = 32) /\
    (forall n q, (n = ud -> forall p, In p vs -> ~ off (vget dest) (vget p) q) ->
       (move = true -> n = us -> forall p, In p vs -> ~ off (vget src) (vget p) q) -> cell s' n q = cell s n q).
Proof.
  intros M vs. induction vs as [|p t IH]; intros s I ND DJ.
  - exists s. split; [reflexivity|]. split; [apply only_fields_refl|]. split; [intros ? ? ? []|].
    split; [intros ? ? ? []|]. auto.
  - destruct (I p (or_introl eq_refl)) as (I1 & I2).
    destruct (vadd_defined src p I1) as (a & Ea). destruct (vadd_defined dest p I2) as (d & Ed).
    pose proof (vadd_get _ _ _ Ea) as Ga. pose proof (vadd_get _ _ _ Ed) as Gd.
    inversion ND as [|? ? N1 N2]; subst. rewrite Forall_forall in N1.
    destruct (copy1_run us ud src dest move p s a d Ea Ed) as (s1 & E1 & O1 & A1 & B1 & C1).
    { intros _ U S. apply (DJ U p p); cbn; auto. intros i. rewrite <- Ga, <- Gd. apply S. }
    destruct (IH s1) as (s2 & E2 & O2 & A2 & B2 & C2); auto.
    { intros p' Hp. apply I. now right. }
    { intros U x y Hx Hy. apply DJ; cbn; auto. }
    exists s2. split; [cbn [foldR]; rewrite E1; cbn [bind]; exact E2|].
    split; [eapply only_fields_trans; eauto|].
    assert (OD : forall p' q, off (vget dest) (vget p') q -> off (vget dest) (vget p) q -> same p p').
    { intros p' q X Y i. specialize (X i). specialize (Y i). lia. }
    assert (OS : forall p' q, off (vget src) (vget p') q -> off (vget src) (vget p) q -> same p p').
    { intros p' q X Y i. specialize (X i). specialize (Y i). lia. }
    assert (SD : forall q, same d q <-> off (vget dest) (vget p) q).
    { intros q. split; intros X i; specialize (X i); rewrite Gd in *; lia. }
    assert (SS : forall q, same a q <-> off (vget src) (vget p) q).
    { intros q. split; intros X i; specialize (X i); rewrite Ga in *; lia. }
    split; [|split].
    + intros p' q a' [<-|Hp] Qd Qa.
      * rewrite C2.
        -- rewrite A1 by (auto; now apply SD). f_equal. unfold cell. apply f_get_ext. now apply SS.
        -- intros _ p' Hp X. apply (N1 p' Hp). eapply OD; eauto.
        -- intros Mv U p' Hp X. apply (DJ (M Mv) p' p); cbn; auto. intros i. now rewrite <- X, <- Qd.
      * rewrite (A2 p' q a') by auto. rewrite (only_fields_chars _ _ _ O1). f_equal. apply C1.
        -- intros U X. apply SD in X. apply (DJ U p' p); cbn; auto. intros i. now rewrite <- X, <- Qa.
        -- intros _ _ X. apply SS in X. apply (N1 p' Hp). eapply OS; eauto.
    + intros Mv p' q [<-|Hp] Q; [|now apply (B2 Mv p')].
      rewrite C2; [apply B1; [exact Mv|now apply SS]| |].
      * intros U p' Hp X. apply (DJ (M Mv) p p'); cbn; auto. intros i. now rewrite <- X, <- Q.
      * intros _ _ p' Hp X. apply (N1 p' Hp). eapply OS; eauto.
    + intros n q X Y. rewrite C2.
      * apply C1; [intros U Z; apply SD in Z; apply (X U p); cbn; auto|
                   intros Mv U Z; apply SS in Z; apply (Y Mv U p); cbn; auto].
      * intros U p' Hp. apply X; cbn; auto.
      * intros Mv U p' Hp. apply Y; cbn; auto.
Qed.

(** ** The displacements of a block *)

(** [o] lies between the origin and [b], both included, in the first [n] dimensions. *)
Definition between (n : nat) (b : nat -> Z) (o : nat -> Z) : Prop :=
  (forall i, (i < n)%nat -> Z.min 0 (b i) <= o i <= Z.max 0 (b i)) /\ (forall i, (n <= i)%nat -> o i = 0).
Definition volume (n : nat) (b : nat -> Z) : Z :=
  fold_right Z.mul 1 (map (fun i => Z.abs (b i) + 1) (seq 0 n)).

Lemma zsteps_len n : forall a d, length (zsteps n a d) = n.
Proof. induction n; intros; cbn; auto. Qed.
Lemma flat_map_len {A B} (f : A -> list B) k l : (forall x, length (f x) = k) -> length (flat_map f l) = (length l * k)%nat.
Proof. intros H. induction l; cbn; auto. rewrite app_length, H, IHl. reflexivity. Qed.
Lemma fold_mul_snoc l x : fold_right Z.mul 1 (l ++ [x]) = fold_right Z.mul 1 l * x.
Proof. induction l as [|y l IH]; cbn [app fold_right]; [lia|]. rewrite IH. lia. Qed.
Lemma box_volume n a b : Z.of_nat (length (box n a b)) = volume n (fun i => b i - a i).
Proof.
  unfold volume. induction n as [|n IH]; [reflexivity|].
  cbn [box]. rewrite (flat_map_len _ (length (box n a b))) by (intros; apply map_length).
  rewrite seq_S, map_app. cbn [map Nat.add]. rewrite fold_mul_snoc, <- IH.
  unfold zfromto. rewrite zsteps_len, Nat2Z.inj_mul, Nat2Z.inj_succ, Z2Nat.id by lia. unfold Z.succ. ring.
Qed.

Lemma forall2_left {A B} (R : A -> B -> Prop) l m x : Forall2 R l m -> In x l -> exists y, In y m /\ R x y.
Proof.
  intros H. induction H as [|a b l m H1 H IH]; intros Hx; [destruct Hx|].
  destruct Hx as [<-|Hx]; [exists b; cbn; auto|]. destruct (IH Hx) as (y & A1 & A2). exists y. cbn. auto.
Qed.
Lemma forall2_right {A B} (R : A -> B -> Prop) l m y : Forall2 R l m -> In y m -> exists x, In x l /\ R x y.
Proof.
  intros H. induction H as [|a b l m H1 H IH]; intros Hx; [destruct Hx|].
  destruct Hx as [<-|Hx]; [exists a; cbn; auto|]. destruct (IH Hx) as (x & A1 & A2). exists x. cbn. auto.
Qed.
Lemma same_pairs vs ls : Forall2 denotes vs ls -> NoDup ls -> (exists n, forall l, In l ls -> length l = n) ->
  ForallOrdPairs (fun p p' => ~ same p p') vs.
Proof.
  intros H. induction H as [|v l vs ls D H IH]; intros ND (n & L); constructor.
  - inversion ND; subst. rewrite Forall_forall. intros v' Hv S.
    destruct (forall2_left _ _ _ _ H Hv) as (l' & X1 & X2).
    assert (l = l'); [|subst; contradiction].
    apply (nth_ext _ _ 0 0); [rewrite !(L _ (or_introl eq_refl)), L; cbn; auto|].
    intros i _. rewrite <- D, <- X2. apply S.
  - inversion ND; subst. apply IH; auto. exists n. intros l0 Hl. apply L. cbn. auto.
Qed.

(** Both orders of the loop: from the origin to [b], and from [b] to the origin. *)
Lemma foldR_ext {S} (f g : vec -> S -> res S) : (forall p s, f p s = g p s) -> forall vs s, foldR f vs s = foldR g vs s.
Proof. intros E vs. induction vs as [|p t IH]; intros s; cbn [foldR]; [reflexivity|]. rewrite E. destruct (g p s); cbn [bind]; auto. Qed.
Lemma range_copy_body F us ud src dest move n b up s body :
  (forall p s, body p s = copy1 us ud src dest move p s) ->
  (move = true -> us = ud) -> vsmall b -> (1 <= n)%nat -> (vsize b <= n)%nat ->
  volume n (vget b) < Z.pos F ->
  (forall o, between n (vget b) o -> (forall i, in64 (vget src i + o i)) /\ (forall i, in64 (vget dest i + o i))) ->
  (us = ud -> forall o o', between n (vget b) o -> between n (vget b) o' ->
     ~ (forall i, vget src i + o i = vget dest i + o' i)) ->
  exists s', rangeM F (if up : bool then mkvec [0] else b) (if up then b else mkvec [0]) body s = Ok (tt, s') /\
    Only_fields s s' /\
    (forall o q a, between n (vget b) o -> off (vget dest) o q -> off (vget src) o a ->
       cell s' ud q = cellval (chars s ud) (cell s us a)) /\
    (move = true -> forall o q, between n (vget b) o -> off (vget src) o q -> cell s' us q = 32) /\
    (forall m q, (m = ud -> forall o, between n (vget b) o -> ~ off (vget dest) o q) ->
       (move = true -> m = us -> forall o, between n (vget b) o -> ~ off (vget src) o q) -> cell s' m q = cell s m q).
Proof.
  intros EB M Sb N1 Vb Fu I DJ.
  assert (G0 : forall i, vget (mkvec [0]) i = 0) by (intros [|[|i]]; reflexivity).
  assert (S0 : vsmall (mkvec [0])) by (intros i; rewrite G0; unfold INT64_MIN, INT64_MAX; lia).
  set (x := if up then mkvec [0] else b). set (y := if up then b else mkvec [0]).
  destruct (range_fold_box x y n) as (vs & D & R).
  { unfold x; destruct up; auto. } { unfold y; destruct up; auto. }
  { unfold x, y. destruct up; cbn [mkvec]; change (vsize (mkvec [0])) with 1%nat; lia. }
  assert (Lv : Z.of_nat (length vs) < Z.pos F).
  { rewrite (Forall2_len _ _ _ D), box_volume. replace (volume n (fun i => vget y i - vget x i)) with (volume n (vget b)); [exact Fu|].
    unfold volume. f_equal. apply map_ext. intros i. unfold x, y. destruct up; rewrite G0; lia. }
  assert (In1 : forall p, In p vs -> between n (vget b) (vget p)).
  { intros p Hp. destruct (forall2_left _ _ _ _ D Hp) as (l & X1 & X2). apply box_in in X1. destruct X1 as (L & B).
    split; intros i Hi; rewrite X2.
    - specialize (B i Hi). unfold x, y in B. destruct up; rewrite G0 in B; lia.
    - apply nth_overflow. lia. }
  assert (In2 : forall o, between n (vget b) o -> exists p, In p vs /\ forall i, vget p i = o i).
  { intros o (B1 & B2). set (l := map o (seq 0 n)).
    assert (Ln : length l = n) by (unfold l; now rewrite map_length, seq_length).
    assert (Nl : forall i, nth i l 0 = o i).
    { intros i. unfold l. destruct (Nat.lt_ge_cases i n) as [Hi|Hi].
      - rewrite (nth_indep _ 0 (o 0%nat)) by (rewrite map_length, seq_length; lia). rewrite map_nth, seq_nth by lia. reflexivity.
      - rewrite nth_overflow by (rewrite map_length, seq_length; lia). now rewrite B2. }
    assert (X : In l (box n (vget x) (vget y))).
    { apply box_in. split; [exact Ln|]. intros i Hi. rewrite Nl. specialize (B1 i Hi). unfold x, y. destruct up; rewrite G0; lia. }
    destruct (forall2_right _ _ _ _ D X) as (p & Hp & Dp). exists p. split; [exact Hp|]. intros i. now rewrite Dp. }
  destruct (copy_list us ud src dest move M vs s) as (s' & E & O & A & B & C).
  { intros p Hp. apply I. auto. }
  { eapply same_pairs; [exact D|apply box_nodup|]. exists n. intros l Hl. apply box_in in Hl. tauto. }
  { intros U p p' Hp Hp'. apply DJ; auto. }
  exists s'. split; [|split; [exact O|split; [|split]]].
  - unfold rangeM. specialize (R _ (bodyR body) s F Lv).
    change (match range_fold (bodyR body) F x y s with Ok s0 => Ok (tt, s0) | Bad e => Bad e end = Ok (tt, s')).
    rewrite R, (foldR_ext _ (bodyR (copy1 us ud src dest move))), E; [reflexivity|].
    intros p s0. unfold bodyR. now rewrite EB.
  - intros o q a Ho Q Qa. destruct (In2 o Ho) as (p & Hp & Gp). apply (A p); auto; intros i; rewrite Gp; auto.
  - intros Mv o q Ho Q. destruct (In2 o Ho) as (p & Hp & Gp). apply (B Mv p); auto; intros i; rewrite Gp; auto.
  - intros m q X Y. apply C.
    + intros U p Hp Z. exact (X U _ (In1 p Hp) Z).
    + intros Mv U p Hp Z. exact (Y Mv U _ (In1 p Hp) Z).
Qed.
Lemma range_copy F us ud src dest move n b up s :
  (move = true -> us = ud) -> vsmall b -> (1 <= n)%nat -> (vsize b <= n)%nat ->
  volume n (vget b) < Z.pos F ->
  (forall o, between n (vget b) o -> (forall i, in64 (vget src i + o i)) /\ (forall i, in64 (vget dest i + o i))) ->
  (us = ud -> forall o o', between n (vget b) o -> between n (vget b) o' ->
     ~ (forall i, vget src i + o i = vget dest i + o' i)) ->
  exists s', rangeM F (if up : bool then mkvec [0] else b) (if up then b else mkvec [0]) (copy1 us ud src dest move) s = Ok (tt, s') /\
    Only_fields s s' /\
    (forall o q a, between n (vget b) o -> off (vget dest) o q -> off (vget src) o a ->
       cell s' ud q = cellval (chars s ud) (cell s us a)) /\
    (move = true -> forall o q, between n (vget b) o -> off (vget src) o q -> cell s' us q = 32) /\
    (forall m q, (m = ud -> forall o, between n (vget b) o -> ~ off (vget dest) o q) ->
       (move = true -> m = us -> forall o, between n (vget b) o -> ~ off (vget src) o q) -> cell s' m q = cell s m q).
Proof. apply range_copy_body. reflexivity. Qed.
