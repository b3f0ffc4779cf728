(** * Funge-space facts (see FieldModel.v). *)

From Coq Require Import ZArith List Bool Lia.
From Verif Require Import Base BaseProofs VectorModel VectorProofs FieldModel.
Import ListNotations.
Open Scope Z_scope.

(** Two vectors denote the same point. *)
Definition same (p q : vec) : Prop := forall i, vget p i = vget q i.

Lemma veqb_same p q : veqb p q = true <-> same p q.
Proof. apply veqb_spec. Qed.

Lemma same_dec p q : {same p q} + {~ same p q}.
Proof.
  destruct (veqb p q) eqn:E.
  - left. now apply veqb_same.
  - right. intros H. apply veqb_same in H. congruence.
Qed.

Lemma veqb_ext p q r : same p q -> veqb r p = veqb r q.
Proof.
  intros H. destruct (veqb r q) eqn:E.
  - apply veqb_same. intros i. rewrite H. now apply veqb_same.
  - destruct (veqb r p) eqn:E2; auto. rewrite veqb_same in E2.
    assert (veqb r q = true); [|congruence]. apply veqb_same. intros i. now rewrite E2.
Qed.

Lemma cells_find_ext p q l : same p q -> cells_find p l = cells_find q l.
Proof.
  intros H. induction l as [|[k v] l IH]; cbn; auto.
  rewrite (veqb_ext p q k H), IH. reflexivity.
Qed.

Lemma f_get_ext f p q : same p q -> f_get f p = f_get f q.
Proof. intros H. unfold f_get. now rewrite (cells_find_ext p q). Qed.

Lemma cells_find_erase p q l :
  cells_find q (cells_erase p l) = if veqb p q then None else cells_find q l.
Proof.
  induction l as [|[k v] l IH]; cbn [cells_erase filter cells_find fst].
  - destruct (veqb p q); auto.
  - destruct (veqb k p) eqn:E; cbn [negb cells_find].
    + fold (cells_erase p l). rewrite IH. destruct (veqb p q) eqn:E2; auto.
      destruct (veqb k q) eqn:E3; auto. exfalso.
      rewrite veqb_same in E, E3. assert (veqb p q = true); [|congruence].
      apply veqb_same. intros i. now rewrite <- E, <- E3.
    + fold (cells_erase p l). rewrite IH. destruct (veqb k q) eqn:E3; auto.
      destruct (veqb p q) eqn:E2; auto. exfalso.
      rewrite veqb_same in E2, E3. assert (veqb k p = true); [|congruence].
      apply veqb_same. intros i. now rewrite E2, E3.
Qed.

(** ** Reads return the last write *)

(** What a cell holds after storing [v] in it. *)
Definition cellval (char : bool) (v : Z) : Z := if char then to_i8 v else v.

Lemma to_i8_idem v : to_i8 (to_i8 v) = to_i8 v.
Proof. apply to_i8_id. apply to_i8_range. Qed.

Lemma f_put_char p v f : f_char (f_put p v f) = f_char f.
Proof. unfold f_put. destruct (v =? 32); reflexivity. Qed.
Lemma f_put_dims p v f : f_dims (f_put p v f) = f_dims f.
Proof. unfold f_put. destruct (v =? 32); reflexivity. Qed.

Lemma f_get_put p v f q :
  f_get (f_put p v f) q = if veqb p q then cellval (f_char f) v else f_get f q.
Proof.
  unfold f_get. rewrite f_put_char. unfold f_put, cellval.
  destruct (Z.eqb_spec v 32); cbn [f_cells f_char].
  - rewrite cells_find_erase. destruct (veqb p q); auto. subst. reflexivity.
  - unfold cells_set. cbn [cells_find]. destruct (veqb p q) eqn:E.
    + destruct (f_char f); auto. apply to_i8_idem.
    + rewrite cells_find_erase, E. reflexivity.
Qed.

Lemma f_get_put_same p v f q : same p q -> f_get (f_put p v f) q = cellval (f_char f) v.
Proof. intros H. rewrite f_get_put. apply veqb_same in H. now rewrite H. Qed.
Lemma f_get_put_other p v f q : ~ same p q -> f_get (f_put p v f) q = f_get f q.
Proof.
  intros H. rewrite f_get_put. destruct (veqb p q) eqn:E; auto.
  apply veqb_same in E. contradiction.
Qed.

(** A history of writes, oldest first. *)
Definition puts (h : list (vec * Z)) (f : field) : field :=
  fold_left (fun f w => f_put (fst w) (snd w) f) h f.

(** The last value written to [p] in a history, [d] if none. *)
Fixpoint last_write (d : Z) (h : list (vec * Z)) (p : vec) : Z :=
  match h with
  | [] => d
  | (q, v) :: t => last_write (if same_dec q p then v else d) t p
  end.

Lemma puts_char h : forall f, f_char (puts h f) = f_char f.
Proof.
  induction h as [|[q v] h IH]; intros f; cbn; auto.
  unfold puts in *. rewrite IH. apply f_put_char.
Qed.

Lemma puts_get h : forall f p d,
  f_get f p = cellval (f_char f) d ->
  f_get (puts h f) p = cellval (f_char f) (last_write d h p).
Proof.
  induction h as [|[q v] h IH]; intros f p d H; cbn [puts fold_left last_write]; auto.
  cbn [fst snd]. fold (puts h (f_put q v f)).
  rewrite (IH (f_put q v f) p (if same_dec q p then v else d)).
  - now rewrite f_put_char.
  - rewrite f_put_char. destruct (same_dec q p).
    + now apply f_get_put_same.
    + now rewrite f_get_put_other.
Qed.

Lemma cellval_get f p : cellval (f_char f) (f_get f p) = f_get f p.
Proof. unfold f_get, cellval. destruct (f_char f); auto. apply to_i8_idem. Qed.

(** ** Bounds *)

Lemma mapi_length g l : forall i, length (mapi g i l) = length l.
Proof. induction l; intros; cbn; auto. Qed.
Lemma mapi_nth g l : forall i k, (k < length l)%nat -> nth k (mapi g i l) 0 = g (i + k)%nat (nth k l 0).
Proof.
  induction l as [|x l IH]; intros i k H; cbn in *; [lia|].
  destruct k; [now rewrite Nat.add_0_r|]. rewrite IH by lia. f_equal. lia.
Qed.
Lemma grow_length l n : length (grow l n) = Nat.max (length l) n.
Proof. unfold grow. rewrite app_length, repeat_length. lia. Qed.
Lemma grow_nth l n k : nth k (grow l n) 0 = nth k l 0.
Proof.
  unfold grow. destruct (Nat.lt_ge_cases k (length l)).
  - now rewrite app_nth1.
  - rewrite app_nth2 by lia. rewrite (nth_overflow l) by lia.
    destruct (Nat.lt_ge_cases (k - length l) (n - length l)).
    + apply nth_repeat.
    + rewrite nth_overflow; auto. rewrite repeat_length. lia.
Qed.

Lemma f_max_nth f d : f_max f d = nth d (f_maxs f) 0.
Proof.
  unfold f_max. destruct (Nat.ltb_spec d (length (f_maxs f))); auto.
  now rewrite nth_overflow.
Qed.
Lemma f_min_nth f d : f_min f d = nth d (f_mins f) 0.
Proof.
  unfold f_min. destruct (Nat.ltb_spec d (length (f_mins f))); auto.
  now rewrite nth_overflow.
Qed.

Lemma scan_max_ge i (cells : list (vec * Z)) : forall m k v,
  In (k, v) cells ->
  vget k i <= fold_left (fun m kv => if m <? vget (fst kv) i then vget (fst kv) i else m) cells m.
Proof.
  assert (Mono : forall (cells : list (vec * Z)) m, m <= fold_left (fun m kv => if m <? vget (fst kv) i then vget (fst kv) i else m) cells m).
  { induction cells0 as [|[k v] cs IH]; intros m; cbn [fold_left fst]; [lia|].
    specialize (IH (if m <? vget k i then vget k i else m)).
    destruct (Z.ltb_spec m (vget k i)); lia. }
  induction cells as [|[k' v'] cs IH]; intros m k v H; [destruct H|].
  cbn [fold_left fst]. destruct H as [H|H].
  - inversion H; subst. specialize (Mono cs (if m <? vget k i then vget k i else m)).
    destruct (Z.ltb_spec m (vget k i)); lia.
  - eapply IH; eauto.
Qed.
Lemma scan_min_le i (cells : list (vec * Z)) : forall m k v,
  In (k, v) cells ->
  fold_left (fun m kv => if vget (fst kv) i <? m then vget (fst kv) i else m) cells m <= vget k i.
Proof.
  assert (Mono : forall (cells : list (vec * Z)) m, fold_left (fun m kv => if vget (fst kv) i <? m then vget (fst kv) i else m) cells m <= m).
  { induction cells0 as [|[k v] cs IH]; intros m; cbn [fold_left fst]; [lia|].
    specialize (IH (if vget k i <? m then vget k i else m)).
    destruct (Z.ltb_spec (vget k i) m); lia. }
  induction cells as [|[k' v'] cs IH]; intros m k v H; [destruct H|].
  cbn [fold_left fst]. destruct H as [H|H].
  - inversion H; subst. specialize (Mono cs (if vget k i <? m then vget k i else m)).
    destruct (Z.ltb_spec (vget k i) m); lia.
  - eapply IH; eauto.
Qed.

(** Invariant of every history: a stored cell is within the bounds in each
    dimension its (normalised) address mentions. *)
Definition covered (f : field) : Prop :=
  length (f_mins f) = length (f_maxs f) /\
  forall k v, In (k, v) (f_cells f) ->
    (vsize k <= length (f_maxs f))%nat /\
    forall i, (i < vsize k)%nat -> f_min f i <= vget k i <= f_max f i.

Lemma in_erase p k v l : In (k, v) (cells_erase p l) -> In (k, v) l /\ veqb k p = false.
Proof.
  unfold cells_erase. rewrite filter_In. cbn [fst]. intros [H1 H2]. split; [auto|].
  destruct (veqb k p); [discriminate|auto].
Qed.

Lemma covered_put p v f : covered f -> covered (f_put p v f).
Proof.
  intros [L C]. unfold covered, f_put.
  destruct (Z.eqb_spec v 32); cbn [f_mins f_maxs f_cells].
  - rewrite !mapi_length, !grow_length, L. split; auto.
    intros k w Hin. pose proof Hin as Hin0. apply in_erase in Hin. destruct Hin as [Hin _].
    destruct (C k w Hin) as [Hs Hb]. split; [lia|].
    intros i Hi. rewrite f_min_nth, f_max_nth. cbn [f_mins f_maxs].
    rewrite !mapi_nth by (rewrite grow_length; lia). cbn [Nat.add]. rewrite !grow_nth.
    specialize (Hb i Hi). rewrite f_min_nth, f_max_nth in Hb.
    split.
    + destruct (Nat.ltb i (vsize p) && (nth i (f_mins f) 0 =? vget p i)); [|lia].
      unfold scan_min. eapply scan_min_le; eauto.
    + destruct (Nat.ltb i (vsize p) && (nth i (f_maxs f) 0 =? vget p i)); [|lia].
      unfold scan_max. eapply scan_max_ge; eauto.
  - rewrite !mapi_length, !grow_length, L. split; auto.
    intros k w Hin. unfold cells_set in Hin.
    assert (Hcase : k = p \/ In (k, w) (f_cells f)).
    { destruct Hin as [H|H]; [left; inversion H; auto|right]. apply in_erase in H. tauto. }
    destruct Hcase as [->|Hc].
    + split; [lia|]. intros i Hi. rewrite f_min_nth, f_max_nth. cbn [f_mins f_maxs].
      rewrite !mapi_nth by (rewrite grow_length; lia). cbn [Nat.add]. rewrite !grow_nth.
      destruct (Nat.ltb_spec i (vsize p)); [|lia]. cbn [andb].
      destruct (Z.ltb_spec (vget p i) (nth i (f_mins f) 0)),
               (Z.ltb_spec (nth i (f_maxs f) 0) (vget p i)); lia.
    + destruct (C k w Hc) as [Hs Hb]. split; [lia|].
      intros i Hi. rewrite f_min_nth, f_max_nth. cbn [f_mins f_maxs].
      rewrite !mapi_nth by (rewrite grow_length; lia). cbn [Nat.add]. rewrite !grow_nth.
      specialize (Hb i Hi). rewrite f_min_nth, f_max_nth in Hb.
      destruct (Nat.ltb i (vsize p)); cbn [andb]; [|lia].
      destruct (Z.ltb_spec (vget p i) (nth i (f_mins f) 0)),
               (Z.ltb_spec (nth i (f_maxs f) 0) (vget p i)); lia.
Qed.

Lemma covered_empty dims char : covered (field_empty dims char).
Proof. split; cbn; auto. intros k v []. Qed.

Lemma covered_puts h : forall f, covered f -> covered (puts h f).
Proof.
  induction h as [|[p v] h IH]; intros f H; cbn; auto.
  apply IH. now apply covered_put.
Qed.

Lemma find_in p l v : cells_find p l = Some v -> exists k, In (k, v) l /\ same k p.
Proof.
  induction l as [|[k w] l IH]; cbn; [discriminate|].
  destruct (veqb k p) eqn:E; intros H.
  - inversion H; subst. exists k. split; auto. now apply veqb_same.
  - destruct (IH H) as (k' & H1 & H2). eauto.
Qed.

Lemma nonspace_in f p : f_get f p <> 32 -> exists k v, In (k, v) (f_cells f) /\ same k p.
Proof.
  unfold f_get. destruct (cells_find p (f_cells f)) as [v|] eqn:E.
  - intros _. destruct (find_in _ _ _ E) as (k & H1 & H2). eauto.
  - destruct (f_char f); intros H; exfalso; apply H; reflexivity.
Qed.

(** The last dimension a point reaches. *)
Lemma covered_bounds f p i :
  covered f -> f_get f p <> 32 -> vget p i <> 0 ->
  f_min f i <= vget p i <= f_max f i.
Proof.
  intros [_ C] N NZ. destruct (nonspace_in f p N) as (k & v & Hin & S).
  destruct (C k v Hin) as [_ B]. rewrite <- (S i) in *. apply B.
  destruct (Nat.lt_ge_cases i (vsize k)); auto. exfalso. apply NZ.
  apply vget_out. auto.
Qed.

(** Dimension 0 is mentioned by every non-empty address. *)
Definition keys_nonempty (f : field) : Prop := forall k v, In (k, v) (f_cells f) -> k <> [].

Lemma keys_put p v f : p <> [] -> keys_nonempty f -> keys_nonempty (f_put p v f).
Proof.
  intros Hp K k w H. unfold f_put in H. destruct (v =? 32); cbn [f_cells] in H.
  - apply in_erase in H. eapply K. apply H.
  - destruct H as [H|H].
    + inversion H; subst; auto.
    + apply in_erase in H. eapply K. apply H.
Qed.

Lemma covered_dim0 f p :
  covered f -> keys_nonempty f -> f_get f p <> 32 -> f_min f 0 <= vget p 0 <= f_max f 0.
Proof.
  intros [_ C] K N. destruct (nonspace_in f p N) as (k & v & Hin & S).
  destruct (C k v Hin) as [_ B]. rewrite <- (S 0%nat) in *. apply B.
  specialize (K k v Hin). destruct k; [congruence|]. cbn. lia.
Qed.

(** When nothing is erased, the bounds also contain the origin. *)
Definition origin_in (f : field) : Prop := forall i, f_min f i <= 0 <= f_max f i.

Lemma origin_put p v f : v <> 32 -> length (f_mins f) = length (f_maxs f) ->
  origin_in f -> origin_in (f_put p v f).
Proof.
  intros Hv L O i. specialize (O i). rewrite f_min_nth, f_max_nth in *.
  unfold f_put. destruct (Z.eqb_spec v 32); [contradiction|]. cbn [f_mins f_maxs].
  destruct (Nat.lt_ge_cases i (Nat.max (length (f_maxs f)) (vsize p))).
  - rewrite !mapi_nth by (rewrite grow_length; lia). cbn [Nat.add]. rewrite !grow_nth.
    destruct (Nat.ltb i (vsize p)); cbn [andb]; [|lia].
    destruct (Z.ltb_spec (vget p i) (nth i (f_mins f) 0)),
             (Z.ltb_spec (nth i (f_maxs f) 0) (vget p i)); lia.
  - rewrite !nth_overflow by (rewrite mapi_length, grow_length; lia). lia.
Qed.

Lemma origin_puts h : forall f, Forall (fun w => snd w <> 32) h ->
  covered f -> origin_in f -> origin_in (puts h f).
Proof.
  induction h as [|[p v] h IH]; intros f F C O; cbn; auto.
  inversion F; subst. apply IH; auto.
  - now apply covered_put.
  - apply origin_put; auto. apply C.
Qed.

Lemma covered_origin f p i :
  covered f -> origin_in f -> f_get f p <> 32 -> f_min f i <= vget p i <= f_max f i.
Proof.
  intros C O N. destruct (Z.eq_dec (vget p i) 0) as [E|E].
  - rewrite E. apply O.
  - now apply covered_bounds.
Qed.

(** ** Loading text *)

(** The lines of a text: LF, CR and CRLF all end a line. *)
Fixpoint lines_of (l : bytes) : list bytes :=
  match l with
  | [] => [[]]
  | c :: t =>
      if c =? 10 then [] :: lines_of t
      else if c =? 13 then
        match t with
        | d :: t' => if d =? 10 then [] :: lines_of t' else [] :: lines_of t
        | [] => [] :: lines_of t
        end
      else match lines_of t with
           | x :: r => (c :: x) :: r
           | [] => [[c]]
           end
  end.

(** The character of the text at column [x] of line [y]. *)
Definition char_at (l : bytes) (x y : nat) : option Z := nth_error (nth y (lines_of l) []) x.

Definition widest (ls : list bytes) : Z :=
  fold_right (fun l m => Z.max (Z.of_nat (length l)) m) 0 ls.

Lemma lines_ne l : lines_of l <> [].
Proof.
  destruct l as [|c t]; cbn; [discriminate|].
  destruct (c =? 10); [discriminate|]. destruct (c =? 13).
  - destruct t as [|d t']; [discriminate|]. destruct (d =? 10); discriminate.
  - destruct (lines_of t); discriminate.
Qed.

(** Position at column [x], row [y] relative to [s]. *)
Definition at_xy (s : vec) (x y : Z) (p : vec) : Prop :=
  vget p 0 = vget s 0 + x /\ vget p 1 = vget s 1 + y /\
  forall i, (2 <= i)%nat -> vget p i = vget s i.

Lemma at_xy_same s x y p q : at_xy s x y p -> at_xy s x y q -> same p q.
Proof.
  intros (A1 & A2 & A3) (B1 & B2 & B3) i.
  destruct i as [|[|i]]; [lia|lia|]. rewrite A3, B3 by lia. reflexivity.
Qed.
Lemma at_xy_inj s x y x' y' p : at_xy s x y p -> at_xy s x' y' p -> x = x' /\ y = y'.
Proof. intros (A1 & A2 & _) (B1 & B2 & _). lia. Qed.

Definition textual (l : bytes) : Prop := Forall (fun c => c <> 11 /\ c <> 12) l.

(** What remains to be proved about a suffix of the text read from column [x]
    of row [y]. *)
Definition placed (s : vec) (l : bytes) (x y : Z) (f f' : field) : Prop :=
  (forall p px py c, at_xy s px py p ->
     (exists j, py = y + Z.of_nat j /\
        nth_error (nth j (lines_of l) []) (Z.to_nat (if Nat.eqb j 0 then px - x else px)) = Some c
        /\ (if Nat.eqb j 0 then x else 0) <= px) ->
     c <> 32 -> f_get f' p = cellval (f_char f) c) /\
  (forall p,
     (forall px py j c, at_xy s px py p -> py = y + Z.of_nat j ->
        (if Nat.eqb j 0 then x else 0) <= px ->
        nth_error (nth j (lines_of l) []) (Z.to_nat (if Nat.eqb j 0 then px - x else px)) = Some c ->
        c = 32) ->
     f_get f' p = f_get f p) /\
  f_char f' = f_char f.

Lemma vset_at_xy s x y x' v : at_xy s x y v -> at_xy s x' y (vset v 0 (vget s 0 + x')).
Proof.
  intros (A1 & A2 & A3). unfold at_xy. rewrite !vget_vset. cbn.
  split; auto. split; auto. intros i Hi. rewrite vget_vset.
  destruct (Nat.eqb_spec i 0); [lia|]. auto.
Qed.
Lemma vset1_at_xy s x y y' v : at_xy s x y v -> at_xy s x y' (vset v 1 (vget s 1 + y')).
Proof.
  intros (A1 & A2 & A3). unfold at_xy. rewrite !vget_vset. cbn.
  split; auto. split; auto. intros i Hi. rewrite vget_vset.
  destruct (Nat.eqb_spec i 1); [lia|]. auto.
Qed.

(** Extent: [mx] is at column [X] and row [Y]. *)
Lemma parse_loop_text n : forall dims s l v mx last f x y X Y,
  (length l <= n)%nat -> textual l -> last <> 11 -> last <> 12 ->
  0 <= x -> 0 <= y -> x <= X -> y = Y ->
  at_xy s x y v -> at_xy s X Y mx ->
  vget s 0 + x + Z.of_nat (length l) <= INT64_MAX ->
  vget s 0 + Z.of_nat (length l) <= INT64_MAX ->
  vget s 1 + y + Z.of_nat (length l) <= INT64_MAX ->
  INT64_MIN <= vget s 0 -> INT64_MIN <= vget s 1 ->
  exists mx' f', parse_loop false dims s l v mx last f = Ok (mx', f') /\
    placed s l x y f f' /\
    at_xy s (Z.max X (Z.max (x + Z.of_nat (length (hd [] (lines_of l))))
                            (widest (tl (lines_of l)))))
            (Y + Z.of_nat (length (lines_of l)) - 1) mx'.
Proof.
  induction n as [|n IH];
    intros dims s l v mx last f x y X Y Hlen T L1 L2 Hx Hy HX HY Av Am B0 B0' B1 S0 S1.
  - destruct l; [|cbn in Hlen; lia]. exists mx, f. split; [reflexivity|]. split.
    + split; [|split; auto].
      intros p px py c _ (j & _ & H & _) _. exfalso.
      cbn in H. destruct j; cbn in H.
      * destruct (Z.to_nat (px - x)); discriminate.
      * destruct j; destruct (Z.to_nat px); discriminate.
    + cbn. replace (Z.max X (Z.max (x + 0) 0)) with X by lia.
      replace (Y + 1 - 1) with Y by lia. auto.
  - destruct l as [|i t].
    { exists mx, f. split; [reflexivity|]. split.
      - split; [|split; auto].
        intros p px py c _ (j & _ & H & _) _. exfalso.
        cbn in H. destruct j; cbn in H.
        + destruct (Z.to_nat (px - x)); discriminate.
        + destruct j; destruct (Z.to_nat px); discriminate.
      - cbn. replace (Z.max X (Z.max (x + 0) 0)) with X by lia.
        replace (Y + 1 - 1) with Y by lia. auto. }
    inversion T as [|? ? Ti T']; subst.
    (* the newline case, for the remaining text t' *)
    assert (NL : forall t', (length t' <= n)%nat -> (length t' < length (i :: t))%nat -> textual t' ->
      exists mx' f',
        (if negb (last =? 12) && negb (last =? 11) then
            vm <-- f_increment 1 v mx ;;
            let (v1, mx1) := f_reset 0 (fst vm) s (snd vm) in
            parse_loop false dims s t' v1 mx1 last f
          else parse_loop false dims s t' v mx last f) = Ok (mx', f') /\
        placed s t' 0 (Y + 1) f f' /\
        at_xy s (Z.max X (widest (lines_of t'))) (Y + Z.of_nat (length (lines_of t'))) mx').
    { intros t' Ht' Hlt Tt'.
      destruct (Z.eqb_spec last 12); [contradiction|].
      destruct (Z.eqb_spec last 11); [contradiction|]. cbn [negb andb].
      destruct Av as (Av0 & Av1 & Av2). destruct Am as (Am0 & Am1 & Am2).
      unfold f_increment, add64. rewrite chk64_ok.
      2:{ unfold in64. cbn [length] in *. unfold INT64_MAX, INT64_MIN in *. lia. }
      cbn [bind fst snd]. unfold f_reset.
      rewrite !vget_vset. cbn [Nat.eqb].
      destruct (Z.ltb_spec (vget mx 1) (vget v 1 + 1)); [|lia].
      destruct (Z.ltb_spec (vget (vset mx 1 (vget v 1 + 1)) 0) (vget v 0)) as [Q|Q].
      { rewrite vget_vset in Q. cbn in Q. lia. }
      edestruct (IH dims s t' (vset (vset v 1 (vget v 1 + 1)) 0 (vget s 0))
                  (vset mx 1 (vget v 1 + 1)) last f 0 (Y + 1) X (Y + 1))
        as (mx' & f' & E & P & A); try eassumption; try lia.
      - unfold at_xy. rewrite !vget_vset. cbn. split; [lia|]. split; [lia|].
        intros k Hk. rewrite !vget_vset. destruct (Nat.eqb_spec k 0), (Nat.eqb_spec k 1); try lia. auto.
      - unfold at_xy. rewrite !vget_vset. cbn. split; [lia|]. split; [lia|].
        intros k Hk. rewrite !vget_vset. destruct (Nat.eqb_spec k 1); try lia. auto.
      - exists mx', f'. split; [exact E|]. split; [exact P|].
        assert (W : Z.max (0 + Z.of_nat (length (hd [] (lines_of t')))) (widest (tl (lines_of t')))
                    = widest (lines_of t')).
        { pose proof (lines_ne t'). destruct (lines_of t'); [congruence|].
          cbn [hd tl widest fold_right]. lia. }
        rewrite W in A. replace (Y + Z.of_nat (length (lines_of t')))
          with (Y + 1 + Z.of_nat (length (lines_of t')) - 1) by lia. exact A. }
    assert (NL2 : forall t' mx' f', lines_of (i :: t) = [] :: lines_of t' ->
        placed s t' 0 (Y + 1) f f' ->
        at_xy s (Z.max X (widest (lines_of t'))) (Y + Z.of_nat (length (lines_of t'))) mx' ->
        placed s (i :: t) x Y f f' /\
        at_xy s (Z.max X (Z.max (x + Z.of_nat (length (hd [] (lines_of (i :: t)))))
                            (widest (tl (lines_of (i :: t))))))
            (Y + Z.of_nat (length (lines_of (i :: t))) - 1) mx').
    { intros t' mx' f' El (P1 & P2 & P3) A. split.
      - split; [|split; auto].
        + intros p px py c Ap (j & Hj & Hn & Hle) Hc. rewrite El in Hn.
          destruct j as [|j].
          * cbn in Hn. destruct (Z.to_nat (px - x)); discriminate.
          * cbn [nth Nat.eqb] in Hn, Hle. eapply P1; eauto. exists j. split; [lia|].
            destruct j; cbn [Nat.eqb]; [rewrite Z.sub_0_r|]; auto.
        + intros p Hp. apply P2. intros px py j c Ap Hj Hle Hn.
          apply (Hp px py (S j) c); auto; try lia.
          * cbn [Nat.eqb]. destruct (Nat.eqb j 0); lia.
          * rewrite El. cbn [nth Nat.eqb].
            destruct j; cbn [Nat.eqb] in Hn; [rewrite Z.sub_0_r in Hn|]; auto.
      - rewrite El. cbn [hd tl length]. 
        replace (Z.max X (Z.max (x + Z.of_nat 0) (widest (lines_of t'))))
          with (Z.max X (widest (lines_of t'))) by lia.
        replace (Y + Z.of_nat (S (length (lines_of t'))) - 1)
          with (Y + Z.of_nat (length (lines_of t'))) by lia. auto. }
    cbn [parse_loop negb]. rewrite !andb_true_r.
    destruct (Z.eqb_spec i 10) as [E10|N10].
    + (* LF *)
      subst i. cbn [orb]. change (10 =? 13) with false. cbv iota.
      destruct (NL t) as (mx' & f' & E & P & A); auto; try (cbn [length] in *; lia).
      exists mx', f'. split; [exact E|]. apply (NL2 t); auto.
    + destruct (Z.eqb_spec i 13) as [E13|N13].
      * (* CR or CRLF *)
        subst i. cbn [orb]. destruct t as [|j t'].
        -- destruct (NL []) as (mx' & f' & E & P & A); auto; try (cbn [length] in *; lia).
           exists mx', f'. split; [exact E|]. apply (NL2 []); auto.
        -- destruct (Z.eqb_spec j 10) as [Ej|Nj].
           ++ inversion T'; subst.
              destruct (NL t') as (mx' & f' & E & P & A); auto; try (cbn [length] in *; lia).
              exists mx', f'. split; [exact E|]. apply (NL2 t'); auto.
           ++ destruct (NL (j :: t')) as (mx' & f' & E & P & A); auto; try (cbn [length] in *; lia).
              exists mx', f'. split; [exact E|]. apply (NL2 (j :: t')); auto.
              cbn [lines_of]. destruct (Z.eqb_spec j 10); [contradiction|]. reflexivity.
      * (* an ordinary character *)
        cbn [orb]. destruct Ti as [T11 T12].
        destruct (Z.eqb_spec i 12); [contradiction|].
        destruct (Z.eqb_spec i 11); [contradiction|].
        pose proof Av as (Av0 & Av1 & Av2). pose proof Am as (Am0 & Am1 & Am2).
        unfold f_increment, add64. rewrite chk64_ok.
        2:{ unfold in64. cbn [length] in *. unfold INT64_MAX, INT64_MIN in *. lia. }
        cbn [bind fst snd]. rewrite vget_vset. cbn [Nat.eqb].
        set (mx1 := if vget mx 0 <? vget v 0 + 1 then vset mx 0 (vget v 0 + 1) else mx).
        set (f1 := if i =? 32 then f else f_put v i f).
        destruct (IH dims s t (vset v 0 (vget v 0 + 1)) mx1 i f1 (x + 1) Y (Z.max X (x + 1)) Y)
          as (mx' & f' & E & P & A); auto; try lia.
        -- cbn in Hlen. lia.
        -- replace (vget v 0 + 1) with (vget s 0 + (x + 1)) by lia. eapply vset_at_xy; eauto.
        -- unfold mx1. destruct (Z.ltb_spec (vget mx 0) (vget v 0 + 1)).
           ++ replace (vget v 0 + 1) with (vget s 0 + (x + 1)) by lia.
              replace (Z.max X (x + 1)) with (x + 1) by lia. eapply vset_at_xy; eauto.
           ++ replace (Z.max X (x + 1)) with X by lia. auto.
        -- cbn [length] in *. lia.
        -- cbn [length] in *. lia.
        -- cbn [length] in *. lia.
        -- exists mx', f'. split; [exact E|].
           assert (El : lines_of (i :: t) = (i :: hd [] (lines_of t)) :: tl (lines_of t)).
           { cbn [lines_of]. destruct (Z.eqb_spec i 10); [contradiction|].
             destruct (Z.eqb_spec i 13); [contradiction|].
             pose proof (lines_ne t). destruct (lines_of t); [congruence|]. reflexivity. }
           assert (Hch : f_char f1 = f_char f).
           { unfold f1. destruct (i =? 32); auto. apply f_put_char. }
           destruct P as (P1 & P2 & P3). rewrite Hch in P1, P3.
           assert (Nth0 : nth 0 (lines_of t) [] = hd [] (lines_of t)) by (destruct (lines_of t); auto).
           split; [split; [|split; auto]|].
           ++ intros p px py c Ap (j & Hj & Hn & Hle) Hc. rewrite El in Hn.
              destruct j as [|j].
              ** cbn [nth Nat.eqb] in Hn, Hle.
                 destruct (Z.eq_dec px x) as [->|Nx].
                 { rewrite Z.sub_diag in Hn. cbn in Hn. inversion Hn; subst c.
                   rewrite P2.
                   - unfold f1. destruct (Z.eqb_spec i 32); [contradiction|].
                     apply f_get_put_same. eapply at_xy_same; eauto.
                     replace Y with py by lia. auto.
                   - intros px' py' j' c' Ap' Hj' Hle' Hn'. exfalso.
                     destruct (at_xy_inj _ _ _ _ _ _ Ap Ap') as [-> ->].
                     assert (j' = O) by lia. subst j'. cbn [Nat.eqb] in Hle'. lia. }
                 { eapply P1; eauto. exists O. split; auto. cbn [Nat.eqb]. split; [|lia].
                   rewrite Nth0. replace (Z.to_nat (px - x)) with (S (Z.to_nat (px - (x + 1)))) in Hn by lia.
                   exact Hn. }
              ** cbn [nth Nat.eqb] in Hn, Hle. eapply P1; eauto. exists (S j).
                 split; auto. cbn [Nat.eqb]. split; [|lia].
                 destruct (lines_of t); auto. cbn [tl] in Hn.
                 destruct j; destruct (Z.to_nat px); cbn in Hn |- *; auto.
           ++ intros p Hp. rewrite P2.
              ** unfold f1. destruct (Z.eqb_spec i 32); auto.
                 apply f_get_put_other. intros Hs.
                 assert (Ap : at_xy s x Y p).
                 { destruct Av as (A1 & A2 & A3). unfold at_xy. rewrite <- !Hs.
                   repeat split; auto. intros k Hk. rewrite <- Hs. auto. }
                 assert (i = 32); [|contradiction].
                 apply (Hp x Y O i Ap); cbn [Nat.eqb]; try lia.
                 rewrite El, Z.sub_diag. reflexivity.
              ** intros px py j c Ap Hj Hle Hn.
                 apply (Hp px py j c Ap Hj).
                 { destruct (Nat.eqb j 0); lia. }
                 rewrite El. destruct j as [|j].
                 { cbn [nth Nat.eqb] in *. rewrite Nth0 in Hn.
                   replace (Z.to_nat (px - x)) with (S (Z.to_nat (px - (x + 1)))) by lia. exact Hn. }
                 { cbn [nth Nat.eqb] in *. destruct (lines_of t); auto.
                   destruct (Z.to_nat px); discriminate. }
           ++ rewrite El. cbn [hd tl length]. pose proof (lines_ne t).
              destruct (lines_of t) as [|l0 ls]; [congruence|]. cbn [hd tl length] in *.
              replace (Z.max X (Z.max (x + Z.of_nat (S (length l0))) (widest ls)))
                with (Z.max (Z.max X (x + 1)) (Z.max (x + 1 + Z.of_nat (length l0)) (widest ls))) by lia.
              exact A.
Qed.

Lemma f_get_fixdims f p : f_get (f_fixdims f) p = f_get f p.
Proof. unfold f_fixdims. destruct (f_dims f); reflexivity. Qed.
Lemma f_char_fixdims f : f_char (f_fixdims f) = f_char f.
Proof. unfold f_fixdims. destruct (f_dims f); reflexivity. Qed.

Lemma f_parse_text s l f :
  textual l -> (forall i, in64 (vget s i)) -> Z.of_nat (length l) <= INT64_MAX ->
  vget s 0 + Z.of_nat (length l) <= INT64_MAX ->
  vget s 1 + Z.of_nat (length l) <= INT64_MAX ->
  exists d f', f_parse s l false f = Ok (d, f') /\
    (forall x y p c, at_xy s (Z.of_nat x) (Z.of_nat y) p -> char_at l x y = Some c -> c <> 32 ->
       f_get f' p = cellval (f_char f) c) /\
    (forall p, (forall x y c, at_xy s (Z.of_nat x) (Z.of_nat y) p -> char_at l x y = Some c -> c = 32) ->
       f_get f' p = f_get f p) /\
    vget d 0 = widest (lines_of l) /\ vget d 1 = Z.of_nat (length (lines_of l)) - 1 /\
    (forall i, (2 <= i)%nat -> vget d i = 0).
Proof.
  intros T I Bl B0 B1. unfold f_parse.
  pose proof (I 0%nat) as I0. pose proof (I 1%nat) as I1. unfold in64 in I0, I1.
  assert (A0 : at_xy s 0 0 s) by (unfold at_xy; repeat split; auto; lia).
  destruct (parse_loop_text (length l) (f_dims f) s l s s 0 f 0 0 0 0)
    as (mx & f' & E & (P1 & P2 & P3) & A); auto; try lia.
  rewrite E. cbn [bind fst snd].
  assert (W : Z.max 0 (Z.max (0 + Z.of_nat (length (hd [] (lines_of l)))) (widest (tl (lines_of l))))
              = widest (lines_of l)).
  { pose proof (lines_ne l). destruct (lines_of l) as [|l0 ls]; [congruence|].
    cbn [hd tl widest fold_right]. lia. }
  rewrite W in A. destruct A as (A1 & A2 & A3).
  assert (Lb : forall l, (Z.of_nat (length (lines_of l)) <= Z.of_nat (length l) + 1)
                         /\ widest (lines_of l) <= Z.of_nat (length l) /\ 0 <= widest (lines_of l)).
  { clear. intros l. remember (length l) as n eqn:Hn. assert (Hn' : (length l <= n)%nat) by lia.
    clear Hn. revert l Hn'.
    assert (G : forall n l, (length l <= n)%nat ->
       Z.of_nat (length (lines_of l)) <= Z.of_nat (length l) + 1
       /\ widest (lines_of l) <= Z.of_nat (length l) /\ 0 <= widest (lines_of l)).
    { clear. induction n as [|n IH]; intros l Hl.
      - destruct l; cbn in *; lia.
      - destruct l as [|c t]; [cbn; lia|].
        cbn [length] in Hl. pose proof (IH t ltac:(lia)) as It.
        cbn [lines_of]. destruct (c =? 10).
        + cbn [length widest fold_right] in *. unfold widest in *. lia.
        + destruct (c =? 13).
          * destruct t as [|d t']; [cbn; lia|]. destruct (d =? 10).
            { cbn [length] in Hl. pose proof (IH t' ltac:(lia)) as It'.
              cbn [length widest fold_right] in *. unfold widest in *. lia. }
            { cbn [length widest fold_right] in *. unfold widest in *. lia. }
          * destruct (lines_of t) as [|x r]; [cbn in *; lia|].
            cbn [length widest fold_right] in *. unfold widest in *. lia. }
    intros l Hl. destruct (G n l Hl) as (G1 & G2 & G3). lia. }
  destruct (Lb l) as (Lb1 & Lb2 & Lb3).
  assert (Lpos : (0 < length (lines_of l))%nat) by (pose proof (lines_ne l); destruct (lines_of l); [congruence|cbn; lia]).
  destruct (vsub_defined mx s) as (d & Ed).
  { intros i. destruct i as [|[|i]].
    - rewrite A1. unfold in64, INT64_MIN, INT64_MAX in *. lia.
    - rewrite A2. unfold in64, INT64_MIN, INT64_MAX in *. lia.
    - rewrite A3 by lia. unfold in64, INT64_MIN, INT64_MAX in *. lia. }
  rewrite Ed. cbn [bind]. exists d, (f_fixdims f'). split; [reflexivity|].
  pose proof (vsub_get _ _ _ Ed) as G. split; [|split; [|split; [|split]]].
  - intros x y p c Ap Hc Hn. rewrite f_get_fixdims. eapply P1; eauto.
    exists y. split; [lia|]. unfold char_at in Hc.
    destruct (Nat.eqb y 0); (split; [|lia]); [rewrite Z.sub_0_r|]; rewrite Nat2Z.id; exact Hc.
  - intros p Hp. rewrite f_get_fixdims. apply P2.
    intros px py j c Ap Hj Hle Hn.
    apply (Hp (Z.to_nat px) j c).
    + rewrite Z2Nat.id by (destruct (Nat.eqb j 0); lia). subst py. exact Ap.
    + unfold char_at. destruct (Nat.eqb j 0); [rewrite Z.sub_0_r in Hn|]; exact Hn.
  - rewrite G, A1. lia.
  - rewrite G, A2. lia.
  - intros i Hi. rewrite G, A3 by lia. lia.
Qed.
