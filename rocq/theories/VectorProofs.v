(** * Proofs about the Vector model. *)

From Coq Require Import ZArith List Bool Lia.
From Verif Require Import Base BaseProofs VectorModel.
Import ListNotations.
Open Scope Z_scope.

(** A vector in the form every constructor and update leaves it in. *)
Definition vwf (v : vec) : Prop := (length v <= 1)%nat \/ last v 0 <> 0.

Lemma vget_nth v i : vget v i = nth i v 0.
Proof.
  unfold vget. destruct (Nat.ltb i (length v)) eqn:E; auto.
  apply Nat.ltb_ge in E. now rewrite nth_overflow.
Qed.

Lemma removelast_length {A} (l : list A) : length (removelast l) = pred (length l).
Proof.
  induction l as [|a l IH]; auto. simpl. destruct l; auto.
  cbn [length] in *. now rewrite IH.
Qed.

Lemma nth_removelast (l : list Z) i :
  last l 0 = 0 -> nth i (removelast l) 0 = nth i l 0.
Proof.
  revert i. induction l as [|a l IH]; intros i H; auto.
  destruct l as [|b l].
  - simpl in *. subst. destruct i as [|[|]]; auto.
  - change (removelast (a :: b :: l)) with (a :: removelast (b :: l)).
    destruct i; auto. simpl nth. apply IH. exact H.
Qed.

Lemma normalize_loop_nth n v i : nth i (normalize_loop n v) 0 = nth i v 0.
Proof.
  revert v. induction n as [|n IH]; intros v; simpl; auto.
  destruct ((1 <? Z.of_nat (length v)) && (last v 0 =? 0)) eqn:E; auto.
  rewrite IH. apply andb_true_iff in E. destruct E as [_ E].
  apply nth_removelast. now apply Z.eqb_eq.
Qed.

Lemma vget_normalize v i : vget (normalize v) i = vget v i.
Proof. rewrite !vget_nth. apply normalize_loop_nth. Qed.

Lemma normalize_loop_wf n v : (length v <= n)%nat -> vwf (normalize_loop n v).
Proof.
  revert v. induction n as [|n IH]; intros v H; simpl.
  - left. lia.
  - destruct ((1 <? Z.of_nat (length v)) && (last v 0 =? 0)) eqn:E.
    + apply IH. rewrite removelast_length. lia.
    + apply andb_false_iff in E. destruct E as [E|E].
      * left. lia.
      * right. lia.
Qed.

Lemma normalize_wf v : vwf (normalize v).
Proof. apply normalize_loop_wf. auto. Qed.

Lemma normalize_id v : vwf v -> normalize v = v.
Proof.
  unfold normalize. intros H. destruct (length v) eqn:L; simpl; auto.
  destruct ((1 <? Z.of_nat (length v)) && (last v 0 =? 0)) eqn:E; auto.
  destruct H; lia.
Qed.

Lemma nth_upd v d x i :
  (d < length v)%nat -> nth i (upd v d x) 0 = if Nat.eqb i d then x else nth i v 0.
Proof.
  revert d i. induction v as [|y v IH]; intros d i H; simpl in *; [lia|].
  destruct d; destruct i; simpl; auto. apply IH. lia.
Qed.

Lemma upd_length v d x : length (upd v d x) = length v.
Proof. revert d. induction v; intros []; simpl; auto. Qed.

Lemma pad_length v d : length (pad v d) = Nat.max (length v) (S d).
Proof. unfold pad. rewrite app_length, repeat_length. lia. Qed.

Lemma nth_pad v d i : nth i (pad v d) 0 = nth i v 0.
Proof.
  unfold pad. destruct (Nat.lt_ge_cases i (length v)).
  - now rewrite app_nth1.
  - rewrite app_nth2 by lia. rewrite (nth_overflow v) by lia.
    destruct (Nat.lt_ge_cases (i - length v) (length (repeat 0 (S d - length v)))).
    + apply nth_repeat.
    + now rewrite nth_overflow.
Qed.

Lemma vget_vset v d x i : vget (vset v d x) i = if Nat.eqb i d then x else vget v i.
Proof.
  unfold vset. rewrite vget_normalize, !vget_nth, nth_upd.
  - now rewrite nth_pad.
  - rewrite pad_length. lia.
Qed.

Lemma vset_wf v d x : vwf (vset v d x).
Proof. apply normalize_wf. Qed.

Lemma mkvec_wf l : vwf (mkvec l).
Proof. apply normalize_wf. Qed.

Lemma vget_mkvec l i : vget (mkvec l) i = nth i l 0.
Proof. unfold mkvec. now rewrite vget_normalize, vget_nth. Qed.

Lemma vget_out v i : (length v <= i)%nat -> vget v i = 0.
Proof. intros. rewrite vget_nth. now apply nth_overflow. Qed.

(** Two normal-form vectors with the same coordinates are the same, up to the
    one non-uniqueness: the empty vector and [[0]]. *)
Lemma vwf_ext a b :
  vwf a -> vwf b -> a <> [] -> b <> [] ->
  (forall i, vget a i = vget b i) -> a = b.
Proof.
  intros Ha Hb Na Nb H.
  assert (Hlast : forall v, v <> [] -> last v 0 = nth (pred (length v)) v 0).
  { clear. induction v as [|x v IH]; [congruence|]. intros _.
    destruct v as [|y v]; auto.
    change (last (x :: y :: v) 0) with (last (y :: v) 0). rewrite IH; [|congruence].
    reflexivity. }
  assert (Hlen : length a = length b).
  { destruct (Nat.lt_trichotomy (length a) (length b)) as [L|[L|L]]; auto; exfalso.
    - destruct Hb as [Hb|Hb].
      + destruct a; [congruence|]. simpl in *. lia.
      + apply Hb. rewrite Hlast by auto.
        rewrite <- vget_nth, <- H, vget_nth. apply nth_overflow. lia.
    - destruct Ha as [Ha|Ha].
      + destruct b; [congruence|]. simpl in *. lia.
      + apply Ha. rewrite Hlast by auto.
        rewrite <- vget_nth, H, vget_nth. apply nth_overflow. lia. }
  apply nth_ext with (d := 0) (d' := 0); auto.
  intros. rewrite <- !vget_nth. apply H.
Qed.

Lemma upd_not_nil v d x : v <> [] -> upd v d x <> [].
Proof. destruct v; [congruence|]. destruct d; discriminate. Qed.

Lemma normalize_not_nil v : v <> [] -> normalize v <> [].
Proof.
  unfold normalize. intros H.
  assert (G : forall n v, v <> [] -> normalize_loop n v <> []).
  { clear. induction n as [|n IH]; intros v H; simpl; auto.
    destruct ((1 <? Z.of_nat (length v)) && (last v 0 =? 0)) eqn:E; auto.
    apply IH. apply andb_true_iff in E. destruct E as [E _].
    intros Hn. apply (f_equal (@length Z)) in Hn. rewrite removelast_length in Hn.
    simpl in Hn. lia. }
  now apply G.
Qed.

Lemma vset_not_nil v d x : vset v d x <> [].
Proof.
  unfold vset. apply normalize_not_nil. apply upd_not_nil.
  intros H. apply (f_equal (@length Z)) in H. rewrite pad_length in H. simpl in H. lia.
Qed.

(** ** Arithmetic *)

Section PointWise.
  Variable op : Z -> Z -> res Z.
  Variable b : vec.
  Let step := fun i v => x <-- op (vget v i) (vget b i) ;; Ok (vset v i x).

  Lemma pw_ok n : forall i v,
    (forall j, (i <= j < i + n)%nat -> exists x, op (vget v j) (vget b j) = Ok x) ->
    exists r, forN n i step v = Ok r.
  Proof.
    induction n as [|n IH]; intros i v H; simpl; eauto.
    unfold step at 1. destruct (H i) as (x & E); [lia|]. rewrite E. simpl.
    apply IH. intros j Hj. rewrite vget_vset.
    destruct (Nat.eqb_spec j i); [lia|]. apply H. lia.
  Qed.

  Lemma pw_get n : forall i v r,
    forN n i step v = Ok r ->
    forall j,
      (if (Nat.leb i j && Nat.ltb j (i + n))%bool
       then op (vget v j) (vget b j) = Ok (vget r j)
       else vget r j = vget v j).
  Proof.
    induction n as [|n IH]; intros i v r H j; simpl in H.
    - inversion H; subst.
      destruct (Nat.leb_spec i j), (Nat.ltb_spec j (i + 0)); simpl; auto; lia.
    - apply bind_ok in H. destruct H as (v1 & E & H).
      apply bind_ok in E. destruct E as (x & E & E1). inversion E1; subst.
      specialize (IH _ _ _ H j). rewrite !vget_vset in IH.
      destruct (Nat.leb_spec i j), (Nat.ltb_spec j (i + S n)); cbn [andb] in *;
      destruct (Nat.leb_spec (S i) j), (Nat.ltb_spec j (S i + n)); cbn [andb] in *; try lia;
        destruct (Nat.eqb_spec j i); try subst j; try lia; auto; congruence.
  Qed.

  Lemma pw_wf n : forall i v r,
    forN n i step v = Ok r -> vwf v -> vwf r.
  Proof.
    induction n as [|n IH]; intros i v r H W; simpl in H.
    - inversion H; subst; auto.
    - apply bind_ok in H. destruct H as (v1 & E & H).
      apply bind_ok in E. destruct E as (x & E & E1). inversion E1; subst.
      eapply IH; eauto. apply vset_wf.
  Qed.

  Lemma pw_nonnil n : forall i v r,
    forN n i step v = Ok r -> (n <> O \/ v <> []) -> r <> [].
  Proof.
    induction n as [|n IH]; intros i v r H W; simpl in H.
    - inversion H; subst; auto. destruct W; congruence.
    - apply bind_ok in H. destruct H as (v1 & E & H).
      apply bind_ok in E. destruct E as (x & E & E1). inversion E1; subst.
      eapply IH; eauto. right. apply vset_not_nil.
  Qed.
End PointWise.

Lemma vadd_get a b r : vadd a b = Ok r -> forall i, vget r i = vget a i + vget b i.
Proof.
  unfold vadd. intros H i. pose proof (pw_get _ _ _ _ _ _ H i) as G. simpl in G.
  destruct (Nat.ltb_spec i (Nat.max (vsize a) (vsize b))).
  - apply chk64_inv in G. tauto.
  - rewrite G, (vget_out b) by (unfold vsize in *; lia). lia.
Qed.

Lemma vsub_get a b r : vsub a b = Ok r -> forall i, vget r i = vget a i - vget b i.
Proof.
  unfold vsub. intros H i. pose proof (pw_get _ _ _ _ _ _ H i) as G. simpl in G.
  destruct (Nat.ltb_spec i (Nat.max (vsize a) (vsize b))).
  - apply chk64_inv in G. tauto.
  - rewrite G, (vget_out b) by (unfold vsize in *; lia). lia.
Qed.

Lemma vadd_defined a b :
  (forall i, in64 (vget a i + vget b i)) -> exists r, vadd a b = Ok r.
Proof.
  intros H. unfold vadd. apply pw_ok. intros j _. eexists. apply chk64_ok, H.
Qed.

Lemma vsub_defined a b :
  (forall i, in64 (vget a i - vget b i)) -> exists r, vsub a b = Ok r.
Proof.
  intros H. unfold vsub. apply pw_ok. intros j _. eexists. apply chk64_ok, H.
Qed.

Lemma vadd_bad a b e : vadd a b = Bad e -> e = BadOverflow.
Proof.
  unfold vadd. generalize (Nat.max (vsize a) (vsize b)) as n. generalize O as i.
  intros i n. revert i a. induction n as [|n IH]; intros i a; simpl; [discriminate|].
  unfold add64, chk64 at 1. destruct (in64b (vget a i + vget b i)); simpl; [apply IH|].
  congruence.
Qed.

Lemma vadd_wf a b r : vadd a b = Ok r -> vwf a -> vwf r.
Proof. unfold vadd. apply pw_wf. Qed.
Lemma vsub_wf a b r : vsub a b = Ok r -> vwf a -> vwf r.
Proof. unfold vsub. apply pw_wf. Qed.

Lemma vadd_nonnil a b r : vadd a b = Ok r -> a <> [] \/ b <> [] -> r <> [].
Proof.
  unfold vadd. intros H N. eapply pw_nonnil; eauto.
  destruct N as [N|N]; [right; auto|left]. destruct b; [congruence|].
  unfold vsize. simpl. lia.
Qed.

Lemma last_nth (v : vec) : last v 0 = nth (pred (length v)) v 0.
Proof.
  induction v as [|x v IH]; auto. destruct v as [|y v]; auto.
Qed.

Lemma vrev_loop_get n : forall i v,
  vwf v ->
  (forall j, (i <= j)%nat -> in64 (- vget v j)) ->
  (i + n = vsize v)%nat ->
  exists r, vrev_loop n i v = Ok r /\ vwf r /\ vsize r = vsize v /\
    (forall j, vget r j = if Nat.leb i j then - vget v j else vget v j).
Proof.
  induction n as [|n IH]; intros i v W Hin Hlen; cbn [vrev_loop].
  - exists v. repeat split; auto. intros j.
    destruct (Nat.leb_spec i j); auto. rewrite vget_out; [lia|]. unfold vsize in *. lia.
  - destruct (Nat.ltb_spec i (vsize v)); [|lia].
    unfold neg64. rewrite chk64_ok by (apply Hin; lia). cbn [bind].
    assert (L : vsize (vset v i (- vget v i)) = vsize v).
    { unfold vset, vsize in *. rewrite normalize_id.
      - rewrite upd_length, pad_length. lia.
      - destruct W as [W|W].
        + left. rewrite upd_length, pad_length. lia.
        + right. revert W.
          rewrite !last_nth, upd_length, nth_upd by (rewrite pad_length; lia).
          rewrite nth_pad, pad_length.
          replace (Nat.max (length v) (S i)) with (length v) by lia.
          destruct (Nat.eqb_spec (pred (length v)) i); auto.
          rewrite vget_nth. subst i. lia. }
    destruct (IH (S i) (vset v i (- vget v i))) as (r & E & Wr & Nr & G).
    + apply vset_wf.
    + intros j Hj. rewrite vget_vset. destruct (Nat.eqb_spec j i); [lia|]. apply Hin. lia.
    + lia.
    + exists r. repeat split; auto; [lia|]. intros j. rewrite G, vget_vset.
      destruct (Nat.leb_spec (S i) j), (Nat.leb_spec i j), (Nat.eqb_spec j i);
        subst; auto; lia.
Qed.

Lemma vrev_ok v :
  vwf v -> (forall j, in64 (- vget v j)) ->
  exists r, vrev v = Ok r /\ vwf r /\ vsize r = vsize v /\ (forall j, vget r j = - vget v j).
Proof.
  intros W H. destruct (vrev_loop_get (vsize v) 0 v) as (r & E & Wr & L & G); auto.
  exists r. auto.
Qed.

Lemma vrev_loop_inv n : forall i v r,
  vrev_loop n i v = Ok r -> (i + n = vsize v)%nat -> vwf v ->
  (forall j, (i <= j)%nat -> in64 (- vget v j)).
Proof.
  induction n as [|n IH]; intros i v r H L W j Hj; cbn [vrev_loop] in H.
  - rewrite vget_out; [|unfold vsize in *; lia]. unfold in64, INT64_MIN, INT64_MAX. lia.
  - destruct (Nat.ltb_spec i (vsize v)); [|lia].
    apply bind_ok in H. destruct H as (x & E & H).
    apply chk64_inv in E. destruct E as (-> & E).
    destruct (Nat.eq_dec j i); [subst; auto|].
    assert (L' : vsize (vset v i (- vget v i)) = vsize v).
    { unfold vset, vsize in *. rewrite normalize_id.
      - rewrite upd_length, pad_length. lia.
      - destruct W as [W|W].
        + left. rewrite upd_length, pad_length. lia.
        + right. revert W.
          rewrite !last_nth, upd_length, nth_upd by (rewrite pad_length; lia).
          rewrite nth_pad, pad_length.
          replace (Nat.max (length v) (S i)) with (length v) by lia.
          destruct (Nat.eqb_spec (pred (length v)) i); auto.
          rewrite vget_nth. subst i. lia. }
    specialize (IH _ _ _ H). rewrite L' in IH.
    specialize (IH ltac:(lia) (vset_wf _ _ _) j ltac:(lia)).
    rewrite vget_vset in IH. destruct (Nat.eqb_spec j i); [lia|]. exact IH.
Qed.

Lemma vrev_get v r : vwf v -> vrev v = Ok r ->
  vwf r /\ vsize r = vsize v /\ (forall j, vget r j = - vget v j).
Proof.
  intros W H. destruct (vrev_ok v W) as (r' & E & ?).
  - intros j. eapply vrev_loop_inv; eauto. lia.
  - rewrite H in E. inversion E; subst. tauto.
Qed.

Lemma vleft_get v r : vleft v = Ok r ->
  vwf r /\ r <> [] /\
  (forall j, vget r j = match j with 0%nat => vget v 1 | 1%nat => - vget v 0 | _ => vget v j end).
Proof.
  unfold vleft. intros H. apply bind_ok in H. destruct H as (n & E & H).
  inversion H; subst. apply chk64_inv in E. destruct E as (-> & _).
  repeat split.
  - apply vset_wf.
  - apply vset_not_nil.
  - intros j. rewrite !vget_vset. destruct j as [|[|j]]; auto.
Qed.

Lemma vright_get v r : vright v = Ok r ->
  vwf r /\ r <> [] /\
  (forall j, vget r j = match j with 0%nat => - vget v 1 | 1%nat => vget v 0 | _ => vget v j end).
Proof.
  unfold vright. intros H. apply bind_ok in H. destruct H as (n & E & H).
  inversion H; subst. apply chk64_inv in E. destruct E as (-> & _).
  repeat split.
  - apply vset_wf.
  - apply vset_not_nil.
  - intros j. rewrite !vget_vset. destruct j as [|[|j]]; auto.
Qed.

Lemma vleft_ok v : in64 (- vget v 0) -> exists r, vleft v = Ok r.
Proof. intros H. unfold vleft, neg64. rewrite chk64_ok by auto. simpl. eauto. Qed.
Lemma vright_ok v : in64 (- vget v 1) -> exists r, vright v = Ok r.
Proof. intros H. unfold vright, neg64. rewrite chk64_ok by auto. simpl. eauto. Qed.

(** ** Equality and order *)

Lemma veq_loop_spec n : forall i a b,
  veq_loop n i a b = true <-> (forall j, (i <= j < i + n)%nat -> vget a j = vget b j).
Proof.
  induction n as [|n IH]; intros i a b; cbn [veq_loop].
  - split; auto. intros; lia.
  - destruct (Z.eqb_spec (vget a i) (vget b i)).
    + rewrite IH. split; intros H j Hj.
      * destruct (Nat.eq_dec j i); [subst; auto|]. apply H. lia.
      * apply H. lia.
    + split; [discriminate|]. intros H. exfalso. apply n0, H. lia.
Qed.

Lemma veqb_spec a b : veqb a b = true <-> (forall i, vget a i = vget b i).
Proof.
  unfold veqb. rewrite veq_loop_spec. split; intros H i; [|intros; auto].
  destruct (Nat.lt_ge_cases i (Nat.max (vsize a) (vsize b))).
  - apply H. lia.
  - rewrite !vget_out; auto; unfold vsize in *; lia.
Qed.

Lemma veqb_refl a : veqb a a = true.
Proof. apply veqb_spec. auto. Qed.

Lemma veqb_sym a b : veqb a b = veqb b a.
Proof.
  destruct (veqb a b) eqn:E; symmetry.
  - apply veqb_spec. intros. symmetry. now apply veqb_spec.
  - destruct (veqb b a) eqn:E'; auto. rewrite <- E. symmetry.
    apply veqb_spec. intros. symmetry. now apply veqb_spec.
Qed.

(** The comparison loop finds the highest dimension that differs. *)
Lemma vcmp_loop_spec dflt n : forall a b,
  (vcmp_loop dflt n a b = dflt /\ forall i, (i < n)%nat -> vget a i = vget b i) \/
  (exists i, (i < n)%nat /\ vget a i <> vget b i /\
     (forall j, (i < j < n)%nat -> vget a j = vget b j) /\
     vcmp_loop dflt n a b = (vget a i <? vget b i)).
Proof.
  induction n as [|n IH]; intros a b; cbn [vcmp_loop].
  - left. split; auto. intros; lia.
  - destruct (Z.ltb_spec (vget b n) (vget a n)).
    + right. exists n. repeat split; try (intros; lia).
    + destruct (Z.ltb_spec (vget a n) (vget b n)).
      * right. exists n. repeat split; try (intros; lia).
      * destruct (IH a b) as [[E H1]|(i & Hi & Hne & Heq & E)].
        -- left. split; auto. intros i Hi. destruct (Nat.eq_dec i n); [subst; lia|].
           apply H1. lia.
        -- right. exists i. repeat split; auto; try lia.
           intros j Hj. destruct (Nat.eq_dec j n); [subst; lia|]. apply Heq. lia.
Qed.

(** [a] comes before [b]: they differ, and at the highest dimension where they
    differ [a] is smaller. *)
Definition vbefore (a b : vec) : Prop :=
  exists i, vget a i < vget b i /\ forall j, (i < j)%nat -> vget a j = vget b j.

Lemma vltb_spec a b : vltb a b = true <-> vbefore a b.
Proof.
  unfold vltb, vbefore.
  destruct (vcmp_loop_spec false (Nat.max (vsize a) (vsize b)) a b)
    as [[E H]|(i & Hi & Hne & Heq & E)]; rewrite E.
  - split; [discriminate|]. intros (i & Hlt & _).
    destruct (Nat.lt_ge_cases i (Nat.max (vsize a) (vsize b))).
    + rewrite H in Hlt by auto. lia.
    + rewrite !vget_out in Hlt; unfold vsize in *; lia.
  - rewrite Z.ltb_lt. split.
    + intros Hlt. exists i. split; auto. intros j Hj.
      destruct (Nat.lt_ge_cases j (Nat.max (vsize a) (vsize b))).
      * apply Heq. lia.
      * rewrite !vget_out; auto; unfold vsize in *; lia.
    + intros (k & Hlt & Hk). destruct (Nat.lt_trichotomy i k) as [L|[L|L]].
      * destruct (Nat.lt_ge_cases k (Nat.max (vsize a) (vsize b))).
        -- rewrite Heq in Hlt by lia. lia.
        -- rewrite !vget_out in Hlt; unfold vsize in *; lia.
      * subst; auto.
      * exfalso. apply Hne, Hk. lia.
Qed.

Lemma vleb_spec a b : vleb a b = true <-> vbefore a b \/ (forall i, vget a i = vget b i).
Proof.
  unfold vleb.
  destruct (vcmp_loop_spec true (Nat.max (vsize a) (vsize b)) a b)
    as [[E H]|(i & Hi & Hne & Heq & E)]; rewrite E.
  - split; auto. intros _. right. intros i.
    destruct (Nat.lt_ge_cases i (Nat.max (vsize a) (vsize b))); auto.
    rewrite !vget_out; auto; unfold vsize in *; lia.
  - rewrite Z.ltb_lt. split.
    + intros Hlt. left. exists i. split; auto. intros j Hj.
      destruct (Nat.lt_ge_cases j (Nat.max (vsize a) (vsize b))).
      * apply Heq. lia.
      * rewrite !vget_out; auto; unfold vsize in *; lia.
    + intros [(k & Hlt & Hk)|H].
      * destruct (Nat.lt_trichotomy i k) as [L|[L|L]].
        -- destruct (Nat.lt_ge_cases k (Nat.max (vsize a) (vsize b))).
           ++ rewrite Heq in Hlt by lia. lia.
           ++ rewrite !vget_out in Hlt; unfold vsize in *; lia.
        -- subst; auto.
        -- exfalso. apply Hne, Hk. lia.
      * exfalso. auto.
Qed.

Lemma vbefore_irrefl a : ~ vbefore a a.
Proof. intros (i & H & _). lia. Qed.

Lemma vbefore_trans a b c : vbefore a b -> vbefore b c -> vbefore a c.
Proof.
  intros (i & Hi & Ei) (k & Hk & Ek).
  destruct (Nat.lt_trichotomy i k) as [L|[L|L]].
  - exists k. split; [rewrite Ei by auto; auto|]. intros j Hj.
    rewrite Ei by lia. auto.
  - subst. exists k. split; [lia|]. intros j Hj. rewrite Ei by auto. auto.
  - exists i. split; [rewrite <- Ek by auto; auto|]. intros j Hj.
    rewrite Ei by auto. apply Ek. lia.
Qed.

Lemma vbefore_total a b :
  (vbefore a b \/ vbefore b a) \/ (forall i, vget a i = vget b i).
Proof.
  destruct (vcmp_loop_spec true (Nat.max (vsize a) (vsize b)) a b)
    as [[E H]|(i & Hi & Hne & Heq & E)].
  - right. intros i. destruct (Nat.lt_ge_cases i (Nat.max (vsize a) (vsize b))); auto.
    rewrite !vget_out; auto; unfold vsize in *; lia.
  - left.
    assert (forall j, (i < j)%nat -> vget a j = vget b j).
    { intros j Hj. destruct (Nat.lt_ge_cases j (Nat.max (vsize a) (vsize b))).
      - apply Heq. lia.
      - rewrite !vget_out; auto; unfold vsize in *; lia. }
    destruct (Z.lt_trichotomy (vget a i) (vget b i)) as [L|[L|L]]; [|congruence|].
    + left. exists i. auto.
    + right. exists i. split; auto. intros. symmetry. auto.
Qed.

(** ** Hash *)

Lemma vhash_normal a b :
  vwf a -> vwf b -> (forall i, vget a i = vget b i) -> vhash a = vhash b.
Proof.
  intros Wa Wb H.
  destruct a as [|x a].
  - destruct b as [|y b]; auto.
    assert (E : y :: b = [0]).
    { apply vwf_ext; auto; try discriminate.
      - left. simpl. auto.
      - intros i. rewrite <- H. destruct i as [|[|i]]; reflexivity. }
    rewrite E. reflexivity.
  - destruct b as [|y b].
    + assert (E : x :: a = [0]).
      { apply vwf_ext; auto; try discriminate.
        - left. simpl. auto.
        - intros i. rewrite H. destruct i as [|[|i]]; reflexivity. }
      rewrite E. reflexivity.
    + rewrite (vwf_ext (x :: a) (y :: b)); auto; discriminate.
Qed.

Lemma vsub_bad a b e : vsub a b = Bad e -> e = BadOverflow.
Proof.
  unfold vsub. generalize (Nat.max (vsize a) (vsize b)) as n. generalize O as i.
  intros i n. revert i a. induction n as [|n IH]; intros i a; simpl; [discriminate|].
  unfold sub64, chk64 at 1. destruct (in64b (vget a i - vget b i)); simpl; [apply IH|].
  congruence.
Qed.

Lemma vrev_bad v e : vrev v = Bad e -> e = BadOverflow.
Proof.
  unfold vrev. generalize (vsize v) as n. generalize O as i.
  intros i n. revert i v. induction n as [|n IH]; intros i v; simpl; [discriminate|].
  destruct (Nat.ltb i (vsize v)); [|discriminate].
  unfold neg64, chk64 at 1. destruct (in64b (- vget v i)); simpl; [apply IH|].
  congruence.
Qed.
