(** * VectorRange visits a box in order (see RangeModel.v). *)

From Coq Require Import FinFun ZArith List Bool Lia.
From Verif Require Import Base BaseProofs VectorModel VectorProofs RangeModel.
Import ListNotations.
Open Scope Z_scope.

(** ** Specification: the points of a box, dimension 0 varying fastest *)

(** The integers from [a] to [b], both included, in either direction. *)
Definition zdir (a b : Z) : Z := if a <=? b then 1 else -1.
Fixpoint zsteps (n : nat) (a d : Z) : list Z :=
  match n with
  | O => []
  | S n' => a :: zsteps n' (a + d) d
  end.
Definition zfromto (a b : Z) : list Z :=
  zsteps (S (Z.to_nat (Z.abs (b - a)))) a (zdir a b).

(** The points of the [n]-dimensional box with corners [a] and [b], as lists
    of coordinates. *)
Fixpoint box (n : nat) (a b : nat -> Z) : list (list Z) :=
  match n with
  | O => [[]]
  | S n' =>
      flat_map (fun h => map (fun l => l ++ [h]) (box n' a b)) (zfromto (a n') (b n'))
  end.

(** A vector denotes a point given by its coordinate list. *)
Definition denotes (v : vec) (l : list Z) : Prop := forall i, vget v i = nth i l 0.

(** Fold a fallible body over a list of positions. *)
Fixpoint foldR {S : Type} (body : vec -> S -> res S) (l : list vec) (s : S) : res S :=
  match l with
  | [] => Ok s
  | v :: t => s' <-- body v s ;; foldR body t s'
  end.

(** ** The successor relation on box points *)

Section Box.
  Variables a b : nat -> Z.

  Definition at_ (l : list Z) (i : nat) : Z := nth i l 0.

  (** [y] is the next point after [x] among the first [n] dimensions. *)
  Definition succ_pt (n : nat) (x y : list Z) : Prop :=
    exists k, (k < n)%nat /\
      (forall j, (j < k)%nat -> at_ x j = b j /\ at_ y j = a j) /\
      at_ x k <> b k /\ at_ y k = at_ x k + zdir (a k) (b k) /\
      (forall j, (k < j)%nat -> at_ y j = at_ x j).

  Fixpoint chain {A} (R : A -> A -> Prop) (x : A) (l : list A) : Prop :=
    match l with
    | [] => True
    | y :: t => R x y /\ chain R y t
    end.

  Lemma chain_app {A} (R : A -> A -> Prop) x l y m :
    chain R x l -> R (last l x) y -> chain R y m -> chain R x (l ++ y :: m).
  Proof.
    revert x. induction l as [|z l IH]; intros x H H1 H2; simpl in *.
    - auto.
    - destruct H as [H H3]. split; auto. apply IH; auto.
      destruct l; auto. simpl in H1.
      replace (last (a0 :: l) z) with (last (a0 :: l) x); auto.
      clear. revert a0. induction l as [|w l IH]; intros; auto.
      change (last (a0 :: w :: l) x) with (last (w :: l) x).
      change (last (a0 :: w :: l) z) with (last (w :: l) z). apply IH.
  Qed.

  Lemma last_cons {A} (x : A) l d : last (x :: l) d = last l x.
  Proof.
    revert x d. induction l as [|y l IH]; intros; auto.
    change (last (x :: y :: l) d) with (last (y :: l) d). now rewrite !IH.
  Qed.

  Lemma last_app_cons {A} (l : list A) y m d : last (l ++ y :: m) d = last m y.
  Proof.
    induction l as [|x l IH]; simpl app.
    - apply last_cons.
    - rewrite last_cons. rewrite <- IH.
      destruct (l ++ y :: m) eqn:E; [destruct l; discriminate|].
      now rewrite !last_cons.
  Qed.

  Lemma box_len n l : In l (box n a b) -> length l = n.
  Proof.
    revert l. induction n as [|n IH]; intros l H; cbn [box] in H.
    - destruct H as [<-|[]]; auto.
    - apply in_flat_map in H. destruct H as (h & _ & H).
      apply in_map_iff in H. destruct H as (l' & <- & H).
      rewrite app_length. simpl. rewrite (IH _ H). lia.
  Qed.

  (** The coordinates of the first [n] dimensions of a function. *)
  Fixpoint firsts (n : nat) (f : nat -> Z) : list Z :=
    match n with
    | O => []
    | S n' => firsts n' f ++ [f n']
    end.

  Lemma firsts_len n f : length (firsts n f) = n.
  Proof. induction n; simpl; auto. rewrite app_length, IHn. simpl. lia. Qed.

  Lemma firsts_nth n f i : (i < n)%nat -> nth i (firsts n f) 0 = f i.
  Proof.
    induction n as [|n IH]; intros H; [lia|]. simpl.
    destruct (Nat.eq_dec i n).
    - subst. rewrite app_nth2 by (rewrite firsts_len; lia).
      rewrite firsts_len, Nat.sub_diag. reflexivity.
    - rewrite app_nth1 by (rewrite firsts_len; lia). apply IH. lia.
  Qed.

  Lemma zdir_cases x y : zdir x y = 1 \/ zdir x y = -1.
  Proof. unfold zdir. destruct (x <=? y); auto. Qed.

  Lemma chain_weaken {A} (R R' : A -> A -> Prop) (P : A -> Prop) x l :
    P x -> Forall P l -> (forall u v, P u -> P v -> R u v -> R' u v) ->
    chain R x l -> chain R' x l.
  Proof.
    revert x. induction l as [|y l IH]; intros x Px F H C; simpl in *; auto.
    inversion F; subst. destruct C as [C1 C2]. split; auto.
  Qed.

  Lemma chain_map {A B} (R : A -> A -> Prop) (R' : B -> B -> Prop) (f : A -> B)
        (P : A -> Prop) x l :
    P x -> Forall P l -> (forall u v, P u -> P v -> R u v -> R' (f u) (f v)) ->
    chain R x l -> chain R' (f x) (map f l).
  Proof.
    revert x. induction l as [|y l IH]; intros x Px F H C; simpl in *; auto.
    inversion F; subst. destruct C as [C1 C2]. split; auto.
  Qed.

  Lemma last_map {A B} (f : A -> B) l x : last (map f l) (f x) = f (last l x).
  Proof.
    revert x. induction l as [|y l IH]; intros x; auto.
    simpl map. rewrite !last_cons. apply IH.
  Qed.

  Lemma at_snoc l n h i : length l = n ->
    at_ (l ++ [h]) i = if Nat.ltb i n then at_ l i else if Nat.eqb i n then h else 0.
  Proof.
    intros L. unfold at_. destruct (Nat.ltb_spec i n).
    - rewrite app_nth1; auto. lia.
    - rewrite app_nth2 by lia. destruct (Nat.eqb_spec i n).
      + subst. rewrite Nat.sub_diag. reflexivity.
      + destruct (i - length l)%nat as [|[|k]] eqn:E; auto; lia.
  Qed.

  Lemma at_out l i : (length l <= i)%nat -> at_ l i = 0.
  Proof. intros. unfold at_. apply nth_overflow. auto. Qed.

  (** The box starts at [a], ends at [b], and each point is followed by its
      successor. *)
  Lemma box_chain n :
    exists tl, box n a b = firsts n a :: tl /\
      chain (succ_pt n) (firsts n a) tl /\ last tl (firsts n a) = firsts n b.
  Proof.
    induction n as [|n IH].
    - exists []. simpl. auto.
    - destruct IH as (tl & E & C & L).
      assert (Flen : Forall (fun l => length l = n) (firsts n a :: tl)).
      { apply Forall_forall. intros l Hl. apply box_len. now rewrite E. }
      inversion Flen as [|? ? Hl0 Hl]; subst.
      set (blk := fun h => map (fun l => l ++ [h]) (box n a b)).
      assert (Hblk : forall h, blk h = (firsts n a ++ [h]) :: map (fun l => l ++ [h]) tl).
      { intros h. unfold blk. rewrite E. reflexivity. }
      assert (Cblk : forall h, chain (succ_pt (S n)) (firsts n a ++ [h])
                                     (map (fun l => l ++ [h]) tl)).
      { intros h.
        apply (chain_map (succ_pt n) (succ_pt (S n)) (fun l => l ++ [h])
                 (fun l => length l = n)); auto.
        intros u v Hu Hv (k & Hk & H1 & H2 & H3 & H4).
        exists k. split; [lia|].
        assert (A1 : forall w, length w = n -> forall j, (j < n)%nat ->
                   at_ (w ++ [h]) j = at_ w j).
        { intros w Hw j Hj. rewrite (at_snoc w n h j Hw).
          destruct (Nat.ltb_spec j n); auto; lia. }
        repeat split.
        - rewrite A1 by (auto; lia). apply H1; auto.
        - rewrite A1 by (auto; lia). apply H1; auto.
        - rewrite A1 by auto. auto.
        - rewrite !A1 by auto. auto.
        - intros j Hj. rewrite (at_snoc v n h j Hv), (at_snoc u n h j Hu).
          destruct (Nat.ltb_spec j n); auto. }
      assert (Lblk : forall h, last (map (fun l => l ++ [h]) tl) (firsts n a ++ [h]) = firsts n b ++ [h]).
      { intros h. rewrite (last_map (fun l => l ++ [h])). now rewrite L. }
      (* walk along the highest dimension *)
      assert (G : forall m h,
        (forall j, (j < m)%nat -> h + Z.of_nat j * zdir (a n) (b n) <> b n) ->
        exists t2, flat_map blk (zsteps (S m) h (zdir (a n) (b n))) = (firsts n a ++ [h]) :: t2 /\
          chain (succ_pt (S n)) (firsts n a ++ [h]) t2 /\
          last t2 (firsts n a ++ [h]) = firsts n b ++ [h + Z.of_nat m * zdir (a n) (b n)]).
      { induction m as [|m IHm]; intros h Hne.
        - exists (map (fun l => l ++ [h]) tl). split; [|split; auto].
          + cbn [zsteps flat_map]. rewrite app_nil_r. apply Hblk.
          + rewrite Lblk. f_equal. f_equal. lia.
        - destruct (IHm (h + zdir (a n) (b n))) as (t3 & E3 & C3 & L3).
          { intros j Hj. specialize (Hne (S j) ltac:(lia)). lia. }
          exists (map (fun l => l ++ [h]) tl ++ (firsts n a ++ [h + zdir (a n) (b n)]) :: t3).
          split; [|split].
          + change (flat_map blk (zsteps (S (S m)) h (zdir (a n) (b n))))
              with (blk h ++ flat_map blk (zsteps (S m) (h + zdir (a n) (b n)) (zdir (a n) (b n)))).
            rewrite E3, Hblk. reflexivity.
          + apply chain_app; auto. rewrite Lblk.
            exists n. split; [lia|].
            assert (Lb : length (firsts n b) = n) by apply firsts_len.
            assert (La : length (firsts n a) = n) by apply firsts_len.
            repeat split.
            * rewrite (at_snoc _ n _ _ Lb). destruct (Nat.ltb_spec j n); [|lia].
              apply firsts_nth; auto.
            * rewrite (at_snoc _ n _ _ La). destruct (Nat.ltb_spec j n); [|lia].
              apply firsts_nth; auto.
            * rewrite (at_snoc _ n _ _ Lb). rewrite Nat.ltb_irrefl, Nat.eqb_refl.
              specialize (Hne 0%nat ltac:(lia)). lia.
            * rewrite (at_snoc _ n _ _ La), (at_snoc _ n _ _ Lb).
              now rewrite Nat.ltb_irrefl, Nat.eqb_refl.
            * intros j Hj. rewrite !at_out; auto; rewrite app_length; simpl; lia.
          + rewrite last_app_cons, L3. f_equal. f_equal. lia. }
      specialize (G (Z.to_nat (Z.abs (b n - a n))) (a n)).
      destruct G as (t2 & E2 & C2 & L2).
      { intros j Hj. unfold zdir. destruct (Z.leb_spec (a n) (b n)); lia. }
      exists t2. split; [|split].
      + exact E2.
      + exact C2.
      + cbn [firsts] in *. rewrite L2. f_equal. f_equal.
        unfold zdir. destruct (Z.leb_spec (a n) (b n)); lia.
  Qed.
End Box.

(** ** The code's increment is the successor *)

(** Coordinates from which the range arithmetic cannot overflow. *)
Definition vsmall (v : vec) : Prop :=
  forall i, INT64_MIN < vget v i < INT64_MAX.

Section Incr.
  Variables va vb : vec.
  Hypothesis Sa : vsmall va.
  Hypothesis Sb : vsmall vb.
  Let a := vget va.
  Let b := vget vb.
  Let e0 := b 0%nat + zdir (a 0%nat) (b 0%nat).
  Let e := vset vb 0 e0.

  Lemma geb_dir i : (vget vb i >=? vget va i) = (a i <=? b i).
  Proof. unfold a, b. rewrite Z.geb_leb. reflexivity. Qed.

  Definition inbox (cur : vec) : Prop :=
    forall i, Z.min (a i) (b i) <= vget cur i <= Z.max (a i) (b i).

  Lemma e_get i : vget e i = if Nat.eqb i 0 then e0 else b i.
  Proof. unfold e. apply vget_vset. Qed.

  Lemma e_dir i : (vget e i >=? vget va i) = (a i <=? b i).
  Proof.
    rewrite e_get, Z.geb_leb. fold (a i). destruct (Nat.eqb_spec i 0); subst.
    - unfold e0, zdir. destruct (Z.leb_spec (a 0%nat) (b 0%nat)); lia.
    - reflexivity.
  Qed.

  (** One iteration of the loop at dimension [i] on an in-box position. *)
  Lemma incr_iter n i cur :
    inbox cur ->
    range_incr_loop (S n) i va vb e cur =
      let x := vget cur i + zdir (a i) (b i) in
      let cur1 := vset cur i x in
      if veqb cur1 e then Ok cur1
      else if vget cur i =? b i
      then range_incr_loop n (S i) va vb e (vset cur1 i (a i))
      else Ok cur1.
  Proof.
    intros Hin. cbn [range_incr_loop]. rewrite e_dir, geb_dir.
    specialize (Hin i). pose proof (Sa i) as Sai. pose proof (Sb i) as Sbi.
    fold (a i) (b i) in Sai, Sbi. fold (a i) (b i).
    unfold zdir. destruct (Z.leb_spec (a i) (b i)).
    - unfold add64. rewrite chk64_ok by (unfold in64, INT64_MIN, INT64_MAX in *; lia).
      cbn [bind]. cbv zeta.
      destruct (veqb (vset cur i (vget cur i + 1)) e); auto.
      destruct (Z.eqb_spec (vget cur i) (b i)).
      + destruct (Z.gtb_spec (vget cur i + 1) (b i)); auto; lia.
      + destruct (Z.gtb_spec (vget cur i + 1) (b i)); auto; lia.
    - unfold sub64. rewrite chk64_ok by (unfold in64, INT64_MIN, INT64_MAX in *; lia).
      cbn [bind]. cbv zeta. replace (vget cur i + -1) with (vget cur i - 1) by lia.
      destruct (veqb (vset cur i (vget cur i - 1)) e); auto.
      destruct (Z.eqb_spec (vget cur i) (b i)).
      + destruct (Z.ltb_spec (vget cur i - 1) (b i)); auto; lia.
      + destruct (Z.ltb_spec (vget cur i - 1) (b i)); auto; lia.
  Qed.

  (** From dimension [i > 0] on, once dimension 0 has been reset to [a]. *)
  Lemma incr_carry n : forall i cur k,
    (0 < i)%nat -> inbox cur -> vget cur 0 = a 0%nat ->
    (i <= k < i + n)%nat ->
    (forall j, (i <= j < k)%nat -> vget cur j = b j) -> vget cur k <> b k ->
    exists r, range_incr_loop n i va vb e cur = Ok r /\
      (forall j, vget r j =
         if (Nat.leb i j && Nat.ltb j k)%bool then a j
         else if Nat.eqb j k then vget cur j + zdir (a j) (b j)
         else vget cur j).
  Proof.
    induction n as [|n IH]; intros i cur k Hi Hin H0 Hk Hj Hne; [lia|].
    rewrite incr_iter by auto. cbv zeta.
    assert (Hnot : forall x, veqb (vset cur i x) e = false).
    { intros x. destruct (veqb (vset cur i x) e) eqn:E; auto.
      rewrite veqb_spec in E. specialize (E 0%nat).
      rewrite vget_vset, e_get in E. destruct (Nat.eqb_spec 0 i); [lia|].
      simpl in E. rewrite H0 in E. unfold e0, zdir in E.
      destruct (Z.leb_spec (a 0%nat) (b 0%nat)); lia. }
    rewrite Hnot. destruct (Z.eqb_spec (vget cur i) (b i)) as [E|E].
    - assert (Hik : i <> k) by congruence.
      destruct (IH (S i) (vset (vset cur i (vget cur i + zdir (a i) (b i))) i (a i)) k)
        as (r & Er & G).
      + lia.
      + intros j. rewrite !vget_vset. destruct (Nat.eqb_spec j i); [subst; lia|apply Hin].
      + rewrite !vget_vset. destruct (Nat.eqb_spec 0 i); [lia|auto].
      + lia.
      + intros j Hj'. rewrite !vget_vset. destruct (Nat.eqb_spec j i); [lia|]. apply Hj. lia.
      + rewrite !vget_vset. destruct (Nat.eqb_spec k i); [lia|]. auto.
      + exists r. split; auto. intros j. rewrite G, !vget_vset.
        destruct (Nat.leb_spec (S i) j), (Nat.ltb_spec j k), (Nat.leb_spec i j),
          (Nat.eqb_spec j k), (Nat.eqb_spec j i); cbn [andb]; subst; auto; lia.
    - assert (Hik : i = k).
      { destruct (Nat.eq_dec i k); auto. exfalso. apply E, Hj. lia. }
      subst k. eexists. split; [reflexivity|]. intros j. rewrite vget_vset.
      destruct (Nat.leb_spec i j), (Nat.ltb_spec j i), (Nat.eqb_spec j i);
        cbn [andb]; subst; auto; lia.
  Qed.

  Let len := Nat.max (vsize va) (vsize e).

  Lemma len_pos : (0 < len)%nat.
  Proof.
    unfold len. assert (e <> []) by apply vset_not_nil.
    unfold vsize. destruct e; [congruence|]. simpl. lia.
  Qed.

  Lemma e_size : (vsize vb <= Nat.max 1 (vsize e))%nat \/ forall i, (vsize e <= i)%nat -> b i = 0 \/ i = O.
  Proof.
    right. intros i Hi. destruct i; auto. left.
    assert (G : vget e (S i) = 0) by (apply vget_out; auto).
    rewrite e_get in G. exact G.
  Qed.

  Lemma beyond_len i : (len <= i)%nat -> a i = 0 /\ b i = 0.
  Proof.
    intros H. split.
    - apply vget_out. unfold len, vsize in *. lia.
    - destruct e_size as [H1|H1].
      + apply vget_out. pose proof len_pos. unfold len, vsize in *. lia.
      + destruct (H1 i) as [?|?]; auto.
        * unfold len in H. lia.
        * subst. pose proof len_pos. lia.
  Qed.

  (** From the last point the increment reaches the end marker. *)
  Lemma incr_last cur :
    (forall i, vget cur i = b i) ->
    exists r, range_incr_loop len 0 va vb e cur = Ok r /\ veqb r e = true.
  Proof.
    intros H. pose proof len_pos. destruct len as [|n] eqn:L; [lia|].
    rewrite incr_iter.
    - cbv zeta.
      assert (E : veqb (vset cur 0 (vget cur 0 + zdir (a 0%nat) (b 0%nat))) e = true).
      { apply veqb_spec. intros i. rewrite vget_vset, e_get, H.
        destruct (Nat.eqb_spec i 0); subst; auto. }
      rewrite E. eauto.
    - intros i. rewrite H. lia.
  Qed.

  (** Otherwise it produces the successor, which is not the end marker. *)
  Lemma incr_succ cur k :
    inbox cur -> (forall j, (j < k)%nat -> vget cur j = b j) -> vget cur k <> b k ->
    exists r, range_incr_loop len 0 va vb e cur = Ok r /\ veqb r e = false /\ inbox r /\
      (forall j, vget r j =
         if Nat.ltb j k then a j
         else if Nat.eqb j k then vget cur j + zdir (a j) (b j)
         else vget cur j).
  Proof.
    intros Hin Hlt Hne.
    assert (Hk : (k < len)%nat).
    { destruct (Nat.lt_ge_cases k len); auto. exfalso. apply Hne.
      destruct (beyond_len k) as [Ha Hb]; auto. specialize (Hin k).
      rewrite Ha, Hb in Hin. lia. }
    assert (Hfin : forall r,
      (forall j, vget r j =
         if Nat.ltb j k then a j
         else if Nat.eqb j k then vget cur j + zdir (a j) (b j)
         else vget cur j) -> inbox r /\ veqb r e = false).
    { intros r G.
      assert (Hr : inbox r).
      { intros j. rewrite G. specialize (Hin j).
        destruct (Nat.ltb_spec j k); [lia|].
        destruct (Nat.eqb_spec j k); [|lia]. subst.
        unfold zdir. destruct (Z.leb_spec (a k) (b k)); lia. }
      split; auto. destruct (veqb r e) eqn:E; auto.
      rewrite veqb_spec in E. specialize (E 0%nat). specialize (Hr 0%nat).
      rewrite E, e_get in Hr. simpl in Hr. unfold e0, zdir in Hr.
      destruct (Z.leb_spec (a 0%nat) (b 0%nat)); lia. }
    destruct len as [|n] eqn:L; [lia|].
    rewrite incr_iter by auto. cbv zeta.
    destruct k as [|k].
    - (* dimension 0 moves *)
      assert (E : veqb (vset cur 0 (vget cur 0 + zdir (a 0%nat) (b 0%nat))) e = false).
      { destruct (veqb (vset cur 0 (vget cur 0 + zdir (a 0%nat) (b 0%nat))) e) eqn:E; auto.
        rewrite veqb_spec in E. specialize (E 0%nat). rewrite vget_vset, e_get in E.
        simpl in E. unfold e0 in E. specialize (Hin 0%nat). lia. }
      rewrite E. destruct (Z.eqb_spec (vget cur 0) (b 0%nat)); [congruence|].
      eexists. split; [reflexivity|].
      assert (G : forall j, vget (vset cur 0 (vget cur 0 + zdir (a 0%nat) (b 0%nat))) j =
        if Nat.ltb j 0 then a j
         else if Nat.eqb j 0 then vget cur j + zdir (a j) (b j)
         else vget cur j).
      { intros j. rewrite vget_vset. simpl.
        destruct (Nat.eqb_spec j 0); subst; auto. }
      destruct (Hfin _ G). auto.
    - (* dimension 0 wraps around *)
      assert (E0 : vget cur 0 = b 0%nat) by (apply Hlt; lia).
      assert (E : veqb (vset cur 0 (vget cur 0 + zdir (a 0%nat) (b 0%nat))) e = false).
      { destruct (veqb (vset cur 0 (vget cur 0 + zdir (a 0%nat) (b 0%nat))) e) eqn:E; auto.
        rewrite veqb_spec in E. specialize (E (S k)). rewrite vget_vset, e_get in E.
        simpl in E. congruence. }
      rewrite E, E0, Z.eqb_refl.
      destruct (incr_carry n 1 (vset (vset cur 0 (b 0%nat + zdir (a 0%nat) (b 0%nat))) 0 (a 0%nat)) (S k))
        as (r & Er & G).
      + lia.
      + intros j. rewrite !vget_vset. destruct (Nat.eqb_spec j 0); [subst; lia|apply Hin].
      + rewrite !vget_vset. reflexivity.
      + lia.
      + intros j Hj. rewrite !vget_vset. destruct (Nat.eqb_spec j 0); [lia|]. apply Hlt. lia.
      + rewrite !vget_vset. exact Hne.
      + exists r. split; auto.
        assert (G' : forall j, vget r j =
          if Nat.ltb j (S k) then a j
           else if Nat.eqb j (S k) then vget cur j + zdir (a j) (b j)
           else vget cur j).
        { intros j. rewrite G, !vget_vset.
          destruct (Nat.leb_spec 1 j), (Nat.ltb_spec j (S k)), (Nat.eqb_spec j (S k)),
            (Nat.eqb_spec j 0); cbn [andb]; subst; auto; lia. }
        destruct (Hfin _ G'). auto.
  Qed.

  (** ** The whole iteration *)

  Definition mk cur := {| vr_begin := va; vr_last := vb; vr_end := e; vr_cur := cur |}.

  Lemma range_run n (Hn : (len <= n)%nat) tl : forall x cur,
    denotes cur x -> inbox cur -> veqb cur e = false ->
    chain (succ_pt a b n) x tl -> length x = n ->
    last tl x = firsts n b ->
    Forall (fun l => length l = n) tl ->
    exists vs, Forall2 denotes vs (x :: tl) /\
      forall (S : Type) (body : vec -> S -> res S) s m,
        (length tl + 1 < m)%nat ->
        loopNr (range_step body) m (mk cur, s) = foldR body vs s.
  Proof.
    induction tl as [|y tl IH]; intros x cur Hd Hin Hne C Hlen Hlast Hall.
    - (* last point *)
      destruct (incr_last cur) as (r & Er & Ee).
      { intros i. rewrite Hd. simpl in Hlast. subst x.
        destruct (Nat.lt_ge_cases i n).
        - apply firsts_nth; auto.
        - rewrite nth_overflow by (rewrite firsts_len; lia).
          symmetry. apply beyond_len. lia. }
      exists [cur]. split; [constructor; auto|].
      intros S body s m Hm. destruct m as [|[|m]]; [simpl in Hm; lia|simpl in Hm; lia|].
      rewrite loopNr_unfold. unfold range_step at 1. cbn [vr_cur vr_end mk]. rewrite Hne.
      cbn [foldR]. destruct (body cur s) as [s'|?]; cbn [bind]; auto.
      unfold range_incr. cbn [vr_begin vr_last vr_end vr_cur mk].
      fold len. rewrite Er. cbn [bind].
      rewrite loopNr_unfold. unfold range_step at 1. cbn [vr_cur vr_end]. rewrite Ee. reflexivity.
    - destruct C as [Hs C]. destruct Hs as (k & Hk & H1 & H2 & H3 & H4).
      inversion Hall as [|? ? Hy Hall']; subst.
      destruct (incr_succ cur k) as (r & Er & Ene & Hr & G).
      { auto. }
      { intros j Hj. rewrite Hd. apply H1; auto. }
      { rewrite Hd. auto. }
      destruct (IH y r) as (vs & F & Hrun); auto.
      { intros j. rewrite G. destruct (Nat.ltb_spec j k).
        - symmetry. apply H1; auto.
        - destruct (Nat.eqb_spec j k).
          + subst. rewrite Hd. symmetry. exact H3.
          + rewrite Hd. symmetry. apply H4. lia. }
      { rewrite last_cons in Hlast. exact Hlast. }
      exists (cur :: vs). split; [constructor; auto|].
      intros S body s m Hm. destruct m as [|m]; [simpl in Hm; lia|].
      rewrite loopNr_unfold. unfold range_step at 1. cbn [vr_cur vr_end mk]. rewrite Hne.
      cbn [foldR]. destruct (body cur s) as [s'|?]; cbn [bind]; auto.
      unfold range_incr. cbn [vr_begin vr_last vr_end vr_cur mk].
      fold len. rewrite Er. cbn [bind]. apply Hrun. simpl in Hm. lia.
  Qed.
End Incr.

Lemma Forall2_len {A B} (R : A -> B -> Prop) l m : Forall2 R l m -> length l = length m.
Proof. induction 1; simpl; auto. Qed.

Lemma range_fold_box va vb n :
  vsmall va -> vsmall vb -> (Nat.max 1 (Nat.max (vsize va) (vsize vb)) <= n)%nat ->
  exists vs,
    Forall2 denotes vs (box n (vget va) (vget vb)) /\
    forall (S : Type) (body : vec -> S -> res S) (s : S) fuel,
      (Z.of_nat (length vs) < Z.pos fuel) ->
      range_fold body fuel va vb s = foldR body vs s.
Proof.
  intros Sa Sb Hn.
  destruct (box_chain (vget va) (vget vb) n) as (tl & E & C & L).
  set (e := vset vb 0 (vget vb 0 + zdir (vget va 0) (vget vb 0))).
  assert (Hlen : (Nat.max (vsize va) (vsize e) <= n)%nat).
  { assert (vsize e <= Nat.max 1 (vsize vb))%nat; [|lia].
    unfold e, vset, vsize.
    assert (G : forall m v, (length (normalize_loop m v) <= length v)%nat).
    { clear. induction m as [|m IH]; intros v; simpl; auto.
      destruct ((1 <? Z.of_nat (length v)) && (last v 0 =? 0)); auto.
      etransitivity; [apply IH|]. rewrite removelast_length. lia. }
    unfold normalize. etransitivity; [apply G|].
    rewrite upd_length, pad_length. lia. }
  assert (Hvne : veqb va e = false).
  { destruct (veqb va e) eqn:Ee; auto. rewrite veqb_spec in Ee. specialize (Ee 0%nat).
    unfold e in Ee. rewrite vget_vset in Ee. simpl in Ee. unfold zdir in Ee.
    destruct (Z.leb_spec (vget va 0) (vget vb 0)); lia. }
  destruct (range_run va vb Sa Sb n Hlen tl (firsts n (vget va)) va) as (vs & F & Hrun).
  - intros i. destruct (Nat.lt_ge_cases i n).
    + symmetry. apply firsts_nth; auto.
    + rewrite nth_overflow by (rewrite firsts_len; lia). apply vget_out. unfold vsize in *. lia.
  - intros i. lia.
  - exact Hvne.
  - exact C.
  - apply firsts_len.
  - exact L.
  - apply Forall_forall. intros l Hl. apply (box_len (vget va) (vget vb)).
    rewrite E. right. exact Hl.
  - exists vs. rewrite E. split; auto.
    intros S body s fuel Hf. unfold range_fold, range_make.
    assert (He : (if vget vb 0 >=? vget va 0 then add64 (vget vb 0) 1 else sub64 (vget vb 0) 1)
                 = Ok (vget vb 0 + zdir (vget va 0) (vget vb 0))).
    { rewrite Z.geb_leb. pose proof (Sb 0%nat). unfold zdir.
      destruct (Z.leb_spec (vget va 0) (vget vb 0)); unfold add64, sub64;
        rewrite chk64_ok; auto; unfold in64, INT64_MIN, INT64_MAX in *; lia. }
    rewrite He. cbn [bind]. fold e. rewrite loop_loopNr. apply Hrun.
    apply Forall2_len in F. simpl in F. lia.
Qed.

(** ** The specification list has each point of the box exactly once *)

Lemma zsteps_in n : forall a d x, In x (zsteps n a d) <-> exists k, 0 <= k < Z.of_nat n /\ x = a + k * d.
Proof.
  induction n as [|n IH]; intros a d x; cbn [zsteps In].
  - split; [intros []|]. intros (k & H & _). lia.
  - rewrite IH. split.
    + intros [<-|(k & H & ->)]; [exists 0; lia|]. exists (k + 1). lia.
    + intros (k & H & ->). destruct (Z.eq_dec k 0); [left; subst; lia|].
      right. exists (k - 1). lia.
Qed.

Lemma zfromto_in a b x : In x (zfromto a b) <-> Z.min a b <= x <= Z.max a b.
Proof.
  unfold zfromto. rewrite zsteps_in. rewrite Nat2Z.inj_succ, Z2Nat.id by lia. unfold zdir.
  destruct (Z.leb_spec a b); split.
  - intros (k & H1 & ->). lia.
  - intros. exists (x - a). lia.
  - intros (k & H1 & ->). lia.
  - intros. exists (a - x). lia.
Qed.

Lemma zsteps_nodup n : forall a d, d <> 0 -> NoDup (zsteps n a d).
Proof.
  induction n as [|n IH]; intros a d H; cbn [zsteps]; constructor; auto.
  rewrite zsteps_in. intros (k & Hk & E). assert ((k + 1) * d = 0) by lia. nia.
Qed.

Lemma box_in n a b l : In l (box n a b) <->
  length l = n /\ forall i, (i < n)%nat -> Z.min (a i) (b i) <= nth i l 0 <= Z.max (a i) (b i).
Proof.
  revert l. induction n as [|n IH]; intros l; cbn [box].
  - cbn [In]. split.
    + intros [<-|[]]. split; auto. intros; lia.
    + intros [H _]. destruct l; [auto|discriminate].
  - rewrite in_flat_map. split.
    + intros (h & Hh & Hl). apply in_map_iff in Hl. destruct Hl as (l' & <- & Hl').
      apply IH in Hl'. destruct Hl' as [L H]. apply zfromto_in in Hh.
      rewrite app_length. cbn [length]. split; [lia|]. intros i Hi.
      destruct (Nat.eq_dec i n).
      * subst i. rewrite app_nth2 by lia. rewrite L, Nat.sub_diag. exact Hh.
      * rewrite app_nth1 by lia. apply H. lia.
    + intros [L H].
      destruct (exists_last (l := l)) as (l' & h & ->); [intros ->; discriminate|].
      rewrite app_length in L. cbn [length] in L. assert (L' : length l' = n) by lia.
      exists h. split.
      * apply zfromto_in. specialize (H n ltac:(lia)).
        rewrite app_nth2 in H by lia. rewrite L', Nat.sub_diag in H. exact H.
      * apply in_map_iff. exists l'. split; auto. apply IH. split; auto.
        intros i Hi. specialize (H i ltac:(lia)). rewrite app_nth1 in H by lia. exact H.
Qed.

Lemma nodup_app {A} (l m : list A) :
  NoDup l -> NoDup m -> (forall x, In x l -> ~ In x m) -> NoDup (l ++ m).
Proof.
  induction l as [|x l IH]; intros Hl Hm H; cbn; auto.
  inversion Hl; subst. constructor.
  - rewrite in_app_iff. intros [?|?]; [contradiction|]. apply (H x); cbn; auto.
  - apply IH; auto. intros y Hy. apply H. right. auto.
Qed.

Lemma box_nodup n a b : NoDup (box n a b).
Proof.
  induction n as [|n IH]; cbn [box]; [repeat constructor; auto|].
  assert (ND : NoDup (zfromto (a n) (b n))).
  { apply zsteps_nodup. unfold zdir. destruct (a n <=? b n); lia. }
  induction (zfromto (a n) (b n)) as [|h hs IHh]; cbn [flat_map]; [constructor|].
  inversion ND; subst. apply nodup_app.
  - apply FinFun.Injective_map_NoDup; auto. intros x y E. apply app_inj_tail in E. tauto.
  - auto.
  - intros l Hl Hl2. apply in_map_iff in Hl. destruct Hl as (l1 & <- & _).
    apply in_flat_map in Hl2. destruct Hl2 as (h2 & Hh2 & Hl2).
    apply in_map_iff in Hl2. destruct Hl2 as (l2 & E & _).
    apply app_inj_tail in E. destruct E as [_ ->]. contradiction.
Qed.
