(** * Properties C101-C103: TOYS with overlapping blocks, rows and columns, and block
    transfers *)

From Coq Require Import String ZArith List Bool Lia.
From Verif Require Import Base BaseProofs VectorModel VectorProofs RangeModel RangeProofs TextModel TextProofs
  StackModel StackProofs FieldModel FieldProofs World IpModel LoadModel FingModel CoreModel
  UniModel IpProofs ExecProofs FlowProofs States PropsStack PropsTurn PropsBlocks Effects SchedProofs PropsIO
  CopyProofs PropsFing PropsCopy PropsStrn PropsMath PropsSpace.
Import ListNotations.
Open Scope Z_scope.
Local Notation length := List.length.

(** ** The order of a box *)

(** [l'] comes after [l] on the way from [a] to [b]: it is further in the highest
    dimension in which they differ. *)
Definition precedes (n : nat) (a b : nat -> Z) (l l' : list Z) : Prop :=
  exists k, (k < n)%nat /\ 0 < (nth k l' 0 - nth k l 0) * zdir (a k) (b k) /\
    forall i, (k < i)%nat -> nth i l' 0 = nth i l 0.

Lemma fop_app {A} (R : A -> A -> Prop) l m : ForallOrdPairs R l -> ForallOrdPairs R m ->
  (forall x y, In x l -> In y m -> R x y) -> ForallOrdPairs R (l ++ m).
Proof.
  intros Hl Hm H. induction Hl as [|x l F Hl IH]; [exact Hm|]. cbn [app]. constructor.
  - apply Forall_app. split; [exact F|]. apply Forall_forall. intros y Hy. apply H; cbn; auto.
  - apply IH. intros a b Ha Hb. apply H; cbn; auto.
Qed.
Lemma fop_flat_map {A B} (Q : A -> A -> Prop) (R : B -> B -> Prop) (f : A -> list B) hs :
  ForallOrdPairs Q hs -> (forall h, ForallOrdPairs R (f h)) ->
  (forall h h', Q h h' -> forall x y, In x (f h) -> In y (f h') -> R x y) -> ForallOrdPairs R (flat_map f hs).
Proof.
  intros H Hf HR. induction H as [|h hs F H IH]; cbn [flat_map]; [constructor|]. apply fop_app; auto.
  intros x y Hx Hy. apply in_flat_map in Hy. destruct Hy as (h' & Hh & Hy). rewrite Forall_forall in F. eauto.
Qed.
Lemma fop_map {A B} (R : A -> A -> Prop) (Q : B -> B -> Prop) (f : A -> B) l :
  ForallOrdPairs R l -> (forall x y, In x l -> In y l -> R x y -> Q (f x) (f y)) -> ForallOrdPairs Q (map f l).
Proof.
  intros H HR. induction H as [|x l F H IH]; cbn [map]; constructor.
  - apply Forall_map. rewrite Forall_forall in *. intros y Hy. apply HR; cbn; auto.
  - apply IH. intros; apply HR; cbn; auto.
Qed.
Lemma zsteps_ord m : forall a d, d <> 0 -> ForallOrdPairs (fun h h' => 0 < (h' - h) * d) (zsteps m a d).
Proof.
  induction m as [|m IH]; intros a d N; cbn [zsteps]; constructor; auto.
  apply Forall_forall. intros x Hx. apply zsteps_in in Hx. destruct Hx as (k & Hk & ->). nia.
Qed.
Lemma box_ord n a b : ForallOrdPairs (precedes n a b) (box n a b).
Proof.
  induction n as [|n IH]; cbn [box]; [repeat constructor|].
  assert (Ln : forall x, In x (box n a b) -> length x = n) by (intros x Hx; apply box_in in Hx; tauto).
  eapply fop_flat_map.
  - apply (zsteps_ord _ (a n) (zdir (a n) (b n))). unfold zdir. destruct (a n <=? b n); lia.
  - intros h. eapply fop_map; [exact IH|]. intros x y Hx Hy (k & Hk & P & Q). exists k. split; [lia|].
    rewrite !app_nth1 by (rewrite ?Ln by assumption; lia). split; [exact P|]. intros i Hi.
    destruct (Nat.lt_ge_cases i n) as [L|L].
    + rewrite !app_nth1 by (rewrite ?Ln by assumption; lia). now apply Q.
    + rewrite !app_nth2 by (rewrite ?Ln by assumption; lia). now rewrite !Ln by assumption.
  - intros h h' P x y Hx Hy. apply in_map_iff in Hx, Hy. destruct Hx as (x0 & <- & Hx), Hy as (y0 & <- & Hy).
    exists n. split; [lia|]. rewrite !app_nth2 by (rewrite ?Ln by assumption; lia). rewrite !Ln by assumption.
    rewrite Nat.sub_diag. cbn [nth]. split; [exact P|]. intros i Hi.
    rewrite !nth_overflow; [reflexivity| |]; rewrite app_length, Ln by assumption; cbn; lia.
Qed.
Lemma fop_denotes (R : list Z -> list Z -> Prop) (Q : vec -> vec -> Prop) vs ls :
  Forall2 denotes vs ls -> ForallOrdPairs R ls ->
  (forall v v' l l', denotes v l -> denotes v' l' -> In l ls -> In l' ls -> R l l' -> Q v v') -> ForallOrdPairs Q vs.
Proof.
  intros H. induction H as [|v l vs ls D H IH]; intros O HR; [constructor|].
  inversion O as [|? ? F O']; subst. constructor.
  - apply Forall_forall. intros v' Hv. destruct (forall2_left _ _ _ _ H Hv) as (l' & X1 & X2).
    rewrite Forall_forall in F. apply (HR v v' l l'); cbn; auto.
  - apply IH; auto. intros; eapply HR; cbn; eauto.
Qed.

(** ** Copying in order *)

Lemma copy_list_ord fld src dest move : forall vs s,
  (forall p, In p vs -> (forall i, in64 (vget src i + vget p i)) /\ (forall i, in64 (vget dest i + vget p i))) ->
  ForallOrdPairs (fun p p' => ~ same p p') vs ->
  ForallOrdPairs (fun p p' => ~ (forall i, vget src i + vget p' i = vget dest i + vget p i)) vs ->
  (move = true -> ~ (forall i, vget src i = vget dest i)) ->
  exists s', foldR (bodyR (copy1 fld fld src dest move)) vs s = Ok s' /\ Only_fields s s' /\
    (forall p q a, In p vs -> off (vget dest) (vget p) q -> off (vget src) (vget p) a ->
       cell s' fld q = cellval (chars s fld) (cell s fld a)) /\
    (move = true -> forall p q, In p vs -> off (vget src) (vget p) q ->
       (forall p', In p' vs -> ~ off (vget dest) (vget p') q) -> cell s' fld q = 32) /\
    (forall n q, (n = fld -> forall p, In p vs -> ~ off (vget dest) (vget p) q) ->
       (move = true -> n = fld -> forall p, In p vs -> ~ off (vget src) (vget p) q) -> cell s' n q = cell s n q).
Proof.
  induction vs as [|p t IH]; intros s I ND OR MV.
  - exists s. split; [reflexivity|]. split; [apply only_fields_refl|]. split; [intros ? ? ? []|].
    split; [intros ? ? ? []|]. auto.
  - destruct (I p (or_introl eq_refl)) as (I1 & I2).
    destruct (vadd_defined src p I1) as (a & Ea). destruct (vadd_defined dest p I2) as (d & Ed).
    pose proof (vadd_get _ _ _ Ea) as Ga. pose proof (vadd_get _ _ _ Ed) as Gd.
    inversion ND as [|? ? N1 N2]; subst. rewrite Forall_forall in N1.
    inversion OR as [|? ? O1 O2]; subst. rewrite Forall_forall in O1.
    destruct (copy1_run fld fld src dest move p s a d Ea Ed) as (s1 & E1 & OF1 & A1 & B1 & C1).
    { intros M _ S. apply (MV M). intros i. specialize (S i). rewrite Ga, Gd in S. lia. }
    destruct (IH s1) as (s2 & E2 & OF2 & A2 & B2 & C2); auto.
    { intros p' Hp. apply I. now right. }
    exists s2. split; [cbn [foldR]; rewrite E1; cbn [bind]; exact E2|].
    split; [eapply only_fields_trans; eauto|].
    assert (OD : forall p' q, off (vget dest) (vget p') q -> off (vget dest) (vget p) q -> same p p').
    { intros p' q X Y i. specialize (X i). specialize (Y i). lia. }
    assert (OS : forall p' q, off (vget src) (vget p') q -> off (vget src) (vget p) q -> same p p').
    { intros p' q X Y i. specialize (X i). specialize (Y i). lia. }
    assert (SD : forall q, same d q <-> off (vget dest) (vget p) q).
    { intros q. split; intros X i; specialize (X i); rewrite Gd in *; lia. }
    assert (SS : forall q, same a q <-> off (vget src) (vget p) q).
    { intros q. split; intros X i; specialize (X i); rewrite Ga in *; lia. }
    split; [|split].
    + intros p' q a' [<-|Hp] Qd Qa.
      * rewrite C2.
        -- rewrite A1 by (auto; now apply SD). f_equal. unfold cell. apply f_get_ext. now apply SS.
        -- intros _ p' Hp X. apply (N1 p' Hp). eapply OD; eauto.
        -- intros _ _ p' Hp X. apply (O1 p' Hp). intros i. now rewrite <- X, <- Qd.
      * rewrite (A2 p' q a') by auto. rewrite (only_fields_chars _ _ _ OF1). f_equal. apply C1.
        -- intros _ X. apply SD in X. apply (O1 p' Hp). intros i. now rewrite <- X, <- Qa.
        -- intros _ _ X. apply SS in X. apply (N1 p' Hp). eapply OS; eauto.
    + intros Mv p' q [<-|Hp] Q ND'.
      * rewrite C2; [apply B1; [exact Mv|now apply SS]| |].
        -- intros _ p' Hp. apply ND'. now right.
        -- intros _ _ p' Hp X. apply (N1 p' Hp). eapply OS; eauto.
      * apply (B2 Mv p'); auto. intros x Hx. apply ND'. now right.
    + intros n q X Y. rewrite C2.
      * apply C1; [intros U Z; apply SD in Z; apply (X U p); cbn; auto|
                   intros Mv U Z; apply SS in Z; apply (Y Mv U p); cbn; auto].
      * intros U p' Hp. apply X; cbn; auto.
      * intros Mv U p' Hp. apply Y; cbn; auto.
Qed.

(** The displacements of a block in the order in which the loops visit them. *)
Lemma block_walk F n b (up : bool) : vsmall b -> (1 <= n)%nat -> (vsize b <= n)%nat -> volume n (vget b) < Z.pos F ->
  let x := if up then mkvec [0] else b in let y := if up then b else mkvec [0] in
  exists vs, Forall2 denotes vs (box n (vget x) (vget y)) /\
    (forall body s, rangeM F x y body s = match foldR (bodyR body) vs s with Ok s' => Ok (tt, s') | Bad e => Bad e end) /\
    (forall p, In p vs -> between n (vget b) (vget p)) /\
    (forall o, between n (vget b) o -> exists p, In p vs /\ forall i, vget p i = o i) /\
    ForallOrdPairs (fun p p' => exists k, (k < n)%nat /\ vget b k <> 0 /\
      0 < (vget p' k - vget p k) * (if up then vget b k else - vget b k) /\ forall i, (k < i)%nat -> vget p' i = vget p i) vs /\
    Z.of_nat (length vs) = volume n (vget b).
Proof.
  intros Sb N1 Vb Fu x y.
  assert (G0 : forall i, vget (mkvec [0]) i = 0) by (intros [|[|i]]; reflexivity).
  assert (S0 : vsmall (mkvec [0])) by (intros i; rewrite G0; unfold INT64_MIN, INT64_MAX; lia).
  destruct (range_fold_box x y n) as (vs & D & R).
  { unfold x; destruct up; auto. } { unfold y; destruct up; auto. }
  { unfold x, y. destruct up; cbn [mkvec]; change (vsize (mkvec [0])) with 1%nat; lia. }
  assert (Lv : Z.of_nat (length vs) = volume n (vget b)).
  { rewrite (Forall2_len _ _ _ D), box_volume.
    unfold volume. f_equal. apply map_ext. intros i. unfold x, y. destruct up; rewrite G0; lia. }
  exists vs. split; [exact D|]. split; [|split; [|split; [|split; [|exact Lv]]]].
  - intros body s. unfold rangeM. specialize (R _ (bodyR body) s F ltac:(lia)).
    change (match range_fold (bodyR body) F x y s with Ok s0 => Ok (tt, s0) | Bad e => Bad e end =
      match foldR (bodyR body) vs s with Ok s' => Ok (tt, s') | Bad e => Bad e end). now rewrite R.
  - intros p Hp. destruct (forall2_left _ _ _ _ D Hp) as (l & X1 & X2). apply box_in in X1. destruct X1 as (L & B).
    split; intros i Hi; rewrite X2.
    + specialize (B i Hi). unfold x, y in B. destruct up; rewrite G0 in B; lia.
    + apply nth_overflow. lia.
  - intros o (B1 & B2). set (l := map o (seq 0 n)).
    assert (Ln : length l = n) by (unfold l; now rewrite map_length, seq_length).
    assert (Nl : forall i, nth i l 0 = o i).
    { intros i. unfold l. destruct (Nat.lt_ge_cases i n) as [Hi|Hi].
      - rewrite (nth_indep _ 0 (o 0%nat)) by (rewrite map_length, seq_length; lia). rewrite map_nth, seq_nth by lia. reflexivity.
      - rewrite nth_overflow by (rewrite map_length, seq_length; lia). now rewrite B2. }
    assert (X : In l (box n (vget x) (vget y))).
    { apply box_in. split; [exact Ln|]. intros i Hi. rewrite Nl. specialize (B1 i Hi). unfold x, y. destruct up; rewrite G0; lia. }
    destruct (forall2_right _ _ _ _ D X) as (p & Hp & Dp). exists p. split; [exact Hp|]. intros i. now rewrite Dp.
  - eapply (fop_denotes _ _ vs _ D (box_ord n (vget x) (vget y))).
    intros v v' l l' Dv Dv' Il Il' (k & Hk & P & Q). exists k. split; [exact Hk|].
    rewrite !Dv, !Dv'. apply box_in in Il, Il'. destruct Il as (_ & Il), Il' as (_ & Il').
    specialize (Il k Hk). specialize (Il' k Hk). unfold zdir in P. unfold x, y in Il, Il', P.
    split; [|split; [|intros i Hi; rewrite Dv, Dv'; now apply Q]].
    + destruct up; rewrite G0 in *; destruct (_ <=? _) eqn:E in P; nia.
    + destruct up; rewrite G0 in *; destruct (_ <=? _) eqn:E in P; nia.
Qed.

(** The instruction's order fits the displacement: in the highest dimension in which
    source and destination differ the block moves against the order in which it is
    copied, or a copy does not move at all. *)
Definition fits (n : nat) (low move : bool) (size src dest : nat -> Z) : Prop :=
  (move = false /\ forall i, dest i = src i) \/
  exists k, (k < n)%nat /\ (forall i, (k < i)%nat -> dest i = src i) /\
    if low then (dest k - src k) * size k < 0 else 0 < (dest k - src k) * size k.

Lemma toys_copy_block F fld src dest size low move n sz s :
  (1 <= n)%nat -> vwf size ->
  (forall i, (i < n)%nat -> vget size i = sz i /\ sz i <> 0 /\ in64 (sz i)) -> (forall i, (n <= i)%nat -> vget size i = 0) ->
  cells_of n sz < Z.pos F ->
  (forall o, in_block n sz o -> (forall i, in64 (vget src i + o i)) /\ (forall i, in64 (vget dest i + o i))) ->
  fits n low move sz (vget src) (vget dest) ->
  exists s', toys_copy F fld src size dest low move s = Ok (tt, s') /\ Only_fields s s' /\
    (forall o q a, in_block n sz o -> off (vget dest) o q -> off (vget src) o a ->
       cell s' fld q = cellval (chars s fld) (cell s fld a)) /\
    (forall o q, in_block n sz o -> off (vget src) o q ->
       (forall o', in_block n sz o' -> ~ off (vget dest) o' q) -> cell s' fld q = if move then 32 else cell s fld q) /\
    (forall q, (forall o, in_block n sz o -> ~ off (vget dest) o q) -> (forall o, in_block n sz o -> ~ off (vget src) o q) ->
       cell s' fld q = cell s fld q) /\
    (forall m q, m <> fld -> cell s' m q = cell s m q).
Proof.
  intros N1 W Sz Z0 Fu I Ft.
  destruct (size_to_range_some n size sz) as (b & Eb & Lb & Gb); auto.
  { intros i Hi. destruct (Sz i Hi) as (A & B & _). auto. }
  assert (Bz : forall i, (n <= i)%nat -> vget b i = 0) by (intros i Hi; apply vget_out; unfold vsize in Lb; lia).
  assert (BW : forall o, between n (vget b) o <-> in_block n sz o).
  { intros o. unfold between, in_block. split; intros (A & B); (split; [|exact B]); intros i Hi; specialize (A i Hi);
      destruct (Sz i Hi) as (_ & Nz & _); rewrite Gb in * by auto; lia. }
  assert (Sb : vsmall b).
  { intros i. destruct (Nat.lt_ge_cases i n) as [Hi|Hi].
    - rewrite Gb by auto. destruct (Sz i Hi) as (_ & Nz & X). unfold in64, INT64_MIN, INT64_MAX in *. lia.
    - rewrite Bz by auto. unfold INT64_MIN, INT64_MAX. lia. }
  assert (Vb : volume n (vget b) = cells_of n sz).
  { unfold volume, cells_of. f_equal. apply map_ext_in. intros i Hi. apply in_seq in Hi. rewrite Gb by lia.
    destruct (Sz i ltac:(lia)) as (_ & ? & _). lia. }
  destruct (block_walk F n b low Sb N1 Lb ltac:(lia)) as (vs & D & R & In1 & In2 & Od & _).
  assert (Mv : move = true -> ~ (forall i, vget src i = vget dest i)).
  { intros M X. destruct Ft as [(M' & _)|(k & _ & _ & P)]; [congruence|]. rewrite X in P. destruct low; lia. }
  destruct (copy_list_ord fld src dest move vs s) as (s' & E & O & A & B & C); auto.
  { intros p Hp. apply I. apply BW. auto. }
  { apply (same_pairs vs _ D); [apply box_nodup|]. exists n. intros l Hl. apply box_in in Hl. tauto. }
  { revert Od. clear -Ft In1 Sz Gb N1.
    induction vs as [|p vs IH]; intros Od; [constructor|]. inversion Od as [|? ? F1 F2]; subst.
    constructor; [|apply IH; auto; intros q Hq; apply In1; now right].
    rewrite Forall_forall in *. intros p' Hp X. destruct (F1 p' Hp) as (k & Hk & Nb & P & Q).
    destruct Ft as [(_ & S)|(k' & Hk' & S & T)].
    - specialize (X k). rewrite S in X. replace (vget p' k) with (vget p k) in P by lia. nia.
    - assert (k = k').
      { destruct (Nat.lt_trichotomy k k') as [L|[L|L]]; auto.
        - specialize (X k'). rewrite (Q k' L) in X. replace (vget dest k') with (vget src k') in T by lia. destruct low; nia.
        - specialize (X k). rewrite (S k L) in X. replace (vget p' k) with (vget p k) in P by lia. nia. }
      subst k'. specialize (X k). replace (vget p' k - vget p k) with (vget dest k - vget src k) in P by lia.
      destruct (Sz k Hk) as (_ & Nz & _). rewrite Gb in * by auto. destruct low; nia. }
  exists s'. split; [|split; [exact O|split; [|split; [|split]]]].
  - unfold toys_copy. rewrite Eb. specialize (R (copy1 fld fld src dest move) s). rewrite E in R.
    destruct low; exact R.
  - intros o q a Ho Q Qa. destruct (In2 o (proj2 (BW o) Ho)) as (p & Hp & Gp). apply (A p); auto; intros i; rewrite Gp; auto.
  - intros o q Ho Q ND. destruct (In2 o (proj2 (BW o) Ho)) as (p & Hp & Gp).
    assert (ND' : forall p', In p' vs -> ~ off (vget dest) (vget p') q).
    { intros p' Hp' X. apply (ND (vget p')); [apply BW; auto|exact X]. }
    destruct move.
    + apply (B eq_refl p); auto; intros i; rewrite Gp; auto.
    + apply C; [intros _; exact ND'|discriminate].
  - intros q X Y. apply C; [intros _ p Hp Z; apply (X (vget p)); [apply BW; auto|exact Z]|
      intros _ _ p Hp Z; apply (Y (vget p)); [apply BW; auto|exact Z]].
  - intros m q Nm. apply C; intros; congruence.
Qed.

(** ** C101 Overlapping blocks *)

(** C and M copy from the low end, K and V from the high end; M and V move. *)
Definition low_end (c : Z) : bool := (c =? 67) || (c =? 77).
Definition moving (c : Z) : bool := (c =? 77) || (c =? 86).

Theorem C101_partial : forall F D s fld l c,
  In c [67; 75; 77; 86] -> Letter s FP_TOYS fld c -> Holds s l -> dims_of s <> O ->
  (forall i, (i < dims_of s)%nat -> size_of s l i <> 0 /\ in64 (size_of s l i)) ->
  cells_of (dims_of s) (size_of s l) < Z.pos F ->
  (forall o, in_block (dims_of s) (size_of s l) o ->
     (forall i, in64 (src_of s l i + o i)) /\ (forall i, in64 (dest_of s l i + o i))) ->
  fits (dims_of s) (low_end c) (moving c) (size_of s l) (src_of s l) (dest_of s l) ->
  exists s1 s', execute F (S D) c s = Ok (ENone, s') /\
    Only_stack s s1 (skipn (3 * dims_of s) l) /\ Only_fields s1 s' /\
    (forall o q a, in_block (dims_of s) (size_of s l) o -> off (dest_of s l) o q -> off (src_of s l) o a ->
       cell s' fld q = cellval (chars s fld) (cell s fld a)) /\
    (forall o q, in_block (dims_of s) (size_of s l) o -> off (src_of s l) o q ->
       (forall o', in_block (dims_of s) (size_of s l) o' -> ~ off (dest_of s l) o' q) ->
       cell s' fld q = if moving c then 32 else cell s fld q) /\
    (forall q, (forall o, in_block (dims_of s) (size_of s l) o -> ~ off (dest_of s l) o q) ->
       (forall o, in_block (dims_of s) (size_of s l) o -> ~ off (src_of s l) o q) ->
       cell s' fld q = cell s fld q) /\
    (forall n q, n <> fld -> cell s' n q = cell s n q).
Proof.
  intros F D s fld l c Hc L H D0 Sz Fu I Ft. rewrite (execute_letter F D _ _ _ _ L).
  change (fp_exec F FP_TOYS fld c s) with (toys_exec F fld c s).
  destruct (toys_operands s l D0 H) as (s1 & dest & size & src & Pop & O1 & Gd & Gs & Gc & Ws & Ns).
  set (n := dims_of s) in *.
  assert (Sel : toys_exec F fld c s = toys_copy_instr F fld (low_end c) (moving c) s).
  { destruct Hc as [<-|[<-|[<-|[<-|[]]]]]; reflexivity. }
  assert (W1 : s_w s1 = s_w s) by exact (Only_stack_w _ _ _ O1).
  assert (CE : forall m q, cell s1 m q = cell s m q) by (intros; unfold cell; now rewrite W1).
  assert (CH : forall m, chars s1 m = chars s m) by (intros; unfold chars; now rewrite W1).
  destruct (toys_copy_block F fld src dest size (low_end c) (moving c) n (size_of s l) s1) as (s' & E & O & A & B & C & G);
    auto; [lia| | | |].
  { intros i Hi. rewrite Gs. unfold size_of, vec_of. fold n. destruct (Nat.ltb_spec i n); [lia|reflexivity]. }
  { intros o Ho. destruct (I o Ho) as (I1 & I2). split; intros i; [rewrite Gc|rewrite Gd]; auto. }
  { destruct Ft as [(M & X)|(k & K & X & Y)]; [left; split; [exact M|intros; rewrite Gc, Gd; auto]|].
    right. exists k. split; [exact K|]. rewrite Gc, Gd. split; [intros; rewrite Gc, Gd; auto|exact Y]. }
  exists s1, s'. split; [|split; [exact O1|split; [exact O|]]].
  { rewrite Sel. unfold toys_copy_instr. rewrite Pop. rewrite (run_bind _ _ _ _ _ E). reflexivity. }
  assert (OD : forall o q, off (vget dest) o q <-> off (dest_of s l) o q).
  { intros o q. unfold off. split; intros X i; [rewrite <- Gd|rewrite Gd]; apply X. }
  assert (OS : forall o q, off (vget src) o q <-> off (src_of s l) o q).
  { intros o q. unfold off. split; intros X i; [rewrite <- Gc|rewrite Gc]; apply X. }
  split; [|split; [|split]].
  - intros o q a Ho Q Qa. rewrite (A o q a Ho) by (first [now apply OD|now apply OS]). now rewrite CH, CE.
  - intros o q Ho Q ND. rewrite (B o q Ho (proj2 (OS _ _) Q)); [now rewrite CE|].
    intros o' Ho' X. apply (ND o' Ho'). now apply OD.
  - intros q X Y. rewrite C; [apply CE| |]; intros o Ho Z; [apply (X o Ho); now apply OD|apply (Y o Ho); now apply OS].
  - intros m q Nm. rewrite (G m q Nm). apply CE.
Qed.

(** A copy onto itself changes nothing, but a move onto itself erases the block. *)
Theorem C101_itself_refuted : let l := [5; 0; 1; 3; 5; 0] in let s := toys_row l in
  Letter s FP_TOYS 0 77 /\ Holds s l /\ (forall i, src_of s l i = dest_of s l i) /\
  match execute 100 1 77 s with
  | Ok (ENone, s') => map (fun x => cell s 0 (mkvec [x; 5])) [0; 1; 2] = [65; 66; 67] /\
      map (fun x => cell s' 0 (mkvec [x; 5])) [0; 1; 2] = [32; 32; 32]
  | _ => False
  end.
Proof.
  cbv zeta. split; [apply letterb_ok; vm_compute; reflexivity|].
  split. { exists (match ss_top (mySS (toys_row [5; 0; 1; 3; 5; 0])) with Ok k => k | Bad _ => stk_new end).
    split; [vm_compute; reflexivity|]. split; [split; vm_compute; reflexivity|]. vm_compute; reflexivity. }
  split; [|vm_compute; auto].
  intros [|[|i]]; vm_compute; reflexivity.
Qed.
(** Moving a block of three cells by one to the right. *)
Example C101_ex : let l := [5; 1; 1; 3; 5; 0] in let s := toys_row l in
  Letter s FP_TOYS 0 86 /\ Holds s l /\ dims_of s = 2%nat /\
  (forall i, (i < 2)%nat -> size_of s l i <> 0 /\ in64 (size_of s l i)) /\ cells_of 2 (size_of s l) = 3 /\
  fits 2 (low_end 86) (moving 86) (size_of s l) (src_of s l) (dest_of s l) /\
  match execute 100 1 86 s with
  | Ok (ENone, s') => map (fun x => cell s' 0 (mkvec [x; 5])) [0; 1; 2; 3; 4] = [32; 65; 66; 67; 32]
  | _ => False
  end.
Proof.
  cbv zeta. split; [apply letterb_ok; vm_compute; reflexivity|].
  split. { exists (match ss_top (mySS (toys_row [5; 1; 1; 3; 5; 0])) with Ok k => k | Bad _ => stk_new end).
    split; [vm_compute; reflexivity|]. split; [split; vm_compute; reflexivity|]. vm_compute; reflexivity. }
  split; [vm_compute; reflexivity|].
  split. { intros [|[|i]] Hi; [| |lia]; vm_compute; split; try split; discriminate. }
  split; [vm_compute; reflexivity|]. split; [|vm_compute; reflexivity].
  right. exists 0%nat. split; [lia|]. split; [|vm_compute; reflexivity].
  intros [|[|i]] Hi; [lia| |]; vm_compute; reflexivity.
Qed.
Print Assumptions C101_partial.
Print Assumptions C101_itself_refuted.

(** ** C102 Rows and columns *)

(** The column (k = 1) or row (k = 0) of the point [p]. *)
Definition Line (k : nat) (p q : vec) : Prop :=
  vget q (1 - k) = vget p (1 - k) /\ forall i, (2 <= i)%nat -> vget q i = 0.
(** [q] lies [n] further than [q0] in dimension [k]. *)
Definition Further (k : nat) (n : Z) (q0 q : vec) : Prop :=
  forall i, vget q i = vget q0 i + if Nat.eqb i k then n else 0.
(** The extent of Funge-space in dimension [k]. *)
Definition low_of (s : st) (fld k : nat) : Z := f_min (field_of s fld) k.
Definition high_of (s : st) (fld k : nat) : Z := f_max (field_of s fld) k.

Lemma shift_line F fld k src dest size lo hi n p s : (k < 2)%nat -> n <> 0 -> lo <= hi -> vwf size ->
  (forall i, vget size i = if Nat.eqb i k then hi - lo + 1 else if Nat.ltb i 2 then 1 else 0) ->
  (forall i, vget src i = if Nat.eqb i k then lo else if Nat.ltb i 2 then vget p i else 0) ->
  Further k n src dest ->
  in64 lo -> in64 hi -> in64 (hi - lo + 1) -> in64 (lo + n) -> in64 (hi + n) -> in64 (vget p (1 - k)) -> hi - lo + 1 < Z.pos F ->
  (forall q, Line k p q -> cell s fld q <> 32 -> lo <= vget q k <= hi) ->
  exists s', toys_copy F fld src size dest (n <? 0) true s = Ok (tt, s') /\ Only_fields s s' /\
    (forall q0 q, Line k p q -> Further k n q0 q -> cell s' fld q = cellval (chars s fld) (cell s fld q0)) /\
    (forall m q, (m = fld -> ~ Line k p q) -> cell s' m q = cell s m q).
Proof.
  intros K Nn Lh W Gz Gs Gd I1 I2 I3 I4 I5 I6 Fu Ext.
  set (sz := fun i => if Nat.eqb i k then hi - lo + 1 else if Nat.ltb i 2 then 1 else 0) in *.
  assert (BL : forall o, in_block 2 sz o <-> 0 <= o k <= hi - lo /\ forall i, i <> k -> o i = 0).
  { intros o. unfold in_block, sz. split.
    - intros (A & B). split.
      + specialize (A k K). rewrite Nat.eqb_refl in A. lia.
      + intros i Ni. destruct (Nat.lt_ge_cases i 2) as [L|L]; [|now apply B]. specialize (A i L).
        rewrite (proj2 (Nat.eqb_neq i k) Ni), (proj2 (Nat.ltb_lt i 2) L) in A. lia.
    - intros (A & B). split.
      + intros i L. destruct (Nat.eqb_spec i k) as [->|Ni]; [lia|]. rewrite (proj2 (Nat.ltb_lt i 2) L), (B i Ni). lia.
      + intros i L. apply B. lia. }
  assert (Gsk : vget src k = lo) by (rewrite Gs, Nat.eqb_refl; reflexivity).
  assert (Gdk : vget dest k = lo + n) by (rewrite Gd, Nat.eqb_refl, Gsk; reflexivity).
  assert (Gdi : forall i, i <> k -> vget dest i = vget src i).
  { intros i Ni. rewrite Gd, (proj2 (Nat.eqb_neq i k) Ni). lia. }
  assert (LI : forall q, Line k p q <-> forall i, i <> k -> vget q i = vget src i).
  { intros q. unfold Line. split.
    - intros (A & B) i Ni. rewrite Gs, (proj2 (Nat.eqb_neq i k) Ni). destruct (Nat.ltb_spec i 2) as [L|L]; [|now apply B].
      replace i with (1 - k)%nat by lia. exact A.
    - intros A. split.
      + rewrite A by lia. rewrite Gs, (proj2 (Nat.eqb_neq (1 - k) k)) by lia.
        now rewrite (proj2 (Nat.ltb_lt (1 - k) 2)) by lia.
      + intros i L. rewrite A by lia. rewrite Gs, (proj2 (Nat.eqb_neq i k)) by lia.
        now rewrite (proj2 (Nat.ltb_ge i 2)) by lia. }
  assert (Isrc : forall i, i <> k -> in64 (vget src i)).
  { intros i Ni. rewrite Gs, (proj2 (Nat.eqb_neq i k) Ni). destruct (Nat.ltb_spec i 2); [|unfold in64, INT64_MIN, INT64_MAX; lia].
    replace i with (1 - k)%nat by lia. exact I6. }
  destruct (toys_copy_block F fld src dest size (n <? 0) true 2 sz s) as (s' & E & O & A & B & C & G); auto.
  { intros i L. split; [apply Gz|]. unfold sz. destruct (Nat.eqb i k); [split; [lia|exact I3]|].
    rewrite (proj2 (Nat.ltb_lt i 2) L). split; [lia|]. unfold in64, INT64_MIN, INT64_MAX. lia. }
  { intros i L. rewrite Gz. rewrite (proj2 (Nat.eqb_neq i k)) by lia. now rewrite (proj2 (Nat.ltb_ge i 2)) by lia. }
  { replace (cells_of 2 sz) with (hi - lo + 1); [exact Fu|]. unfold cells_of, sz. cbn [seq map fold_right].
    destruct k as [|[|k]]; [| |lia]; cbn [Nat.eqb Nat.ltb Nat.leb]; lia. }
  { intros o Ho. apply BL in Ho. destruct Ho as (A & B). split; intros i; destruct (Nat.eq_dec i k) as [->|Ni].
    - rewrite Gsk. unfold in64 in *. lia.
    - rewrite (B i Ni), Z.add_0_r. auto.
    - rewrite Gdk. unfold in64 in *. lia.
    - rewrite (B i Ni), Z.add_0_r, Gdi by auto. auto. }
  { right. exists k. split; [exact K|]. split; [intros i Hi; apply Gdi; lia|].
    rewrite Gdk, Gsk. unfold sz. rewrite Nat.eqb_refl. destruct (Z.ltb_spec n 0); nia. }
  assert (OffS : forall q, (exists o, in_block 2 sz o /\ off (vget src) o q) <-> Line k p q /\ lo <= vget q k <= hi).
  { intros q. split.
    - intros (o & Ho & Q). apply BL in Ho. destruct Ho as (X & Y). split.
      + apply LI. intros i Ni. rewrite Q, (Y i Ni). lia.
      + rewrite Q, Gsk. lia.
    - intros (Q & R). exists (fun i => if Nat.eqb i k then vget q k - lo else 0). split.
      + apply BL. rewrite Nat.eqb_refl. split; [lia|]. intros i Ni. now rewrite (proj2 (Nat.eqb_neq i k) Ni).
      + intros i. destruct (Nat.eqb_spec i k) as [->|Ni]; [rewrite Gsk; lia|]. rewrite (proj1 (LI q) Q i Ni). lia. }
  assert (OffD : forall q, (exists o, in_block 2 sz o /\ off (vget dest) o q) <-> Line k p q /\ lo + n <= vget q k <= hi + n).
  { intros q. split.
    - intros (o & Ho & Q). apply BL in Ho. destruct Ho as (X & Y). split.
      + apply LI. intros i Ni. rewrite Q, (Y i Ni), Gdi by auto. lia.
      + rewrite Q, Gdk. lia.
    - intros (Q & R). exists (fun i => if Nat.eqb i k then vget q k - (lo + n) else 0). split.
      + apply BL. rewrite Nat.eqb_refl. split; [lia|]. intros i Ni. now rewrite (proj2 (Nat.eqb_neq i k) Ni).
      + intros i. destruct (Nat.eqb_spec i k) as [->|Ni]; [rewrite Gdk; lia|]. rewrite (proj1 (LI q) Q i Ni), Gdi by auto. lia. }
  assert (C32 : cellval (chars s fld) 32 = 32) by (unfold cellval; destruct (chars s fld); reflexivity).
  exists s'. split; [exact E|]. split; [exact O|]. split.
  - intros q0 q Lq Fq.
    assert (Lq0 : Line k p q0).
    { apply LI. intros i Ni. rewrite <- (proj1 (LI q) Lq i Ni), Fq, (proj2 (Nat.eqb_neq i k) Ni). lia. }
    assert (Kq : vget q k = vget q0 k + n) by (rewrite Fq, Nat.eqb_refl; reflexivity).
    assert (Blank : forall r, Line k p r -> ~ lo <= vget r k <= hi -> cell s fld r = 32).
    { intros r Lr N. destruct (Z.eq_dec (cell s fld r) 32); [auto|]. exfalso. apply N. now apply Ext. }
    destruct (Z_le_dec (lo + n) (vget q k)) as [X|X], (Z_le_dec (vget q k) (hi + n)) as [Y|Y];
      [destruct (proj2 (OffD q) (conj Lq (conj X Y))) as (o & Ho & Q)|..].
    { apply (A o q q0 Ho Q). intros i. specialize (Q i). specialize (Fq i). specialize (Gd i). rewrite Gd in Q.
      destruct (Nat.eqb i k); lia. }
    all: rewrite (Blank q0 Lq0) by lia; rewrite C32.
    all: assert (ND : forall o, in_block 2 sz o -> ~ off (vget dest) o q)
           by (intros o Ho Q; destruct (proj1 (OffD q) (ex_intro _ o (conj Ho Q))); lia).
    all: destruct (Z_le_dec lo (vget q k)) as [X'|X'], (Z_le_dec (vget q k) hi) as [Y'|Y'];
      [destruct (proj2 (OffS q) (conj Lq (conj X' Y'))) as (o & Ho & Q); apply (B o q Ho Q ND)|..].
    all: rewrite C; [apply Blank; [exact Lq|lia]|exact ND|
           intros o Ho Q; destruct (proj1 (OffS q) (ex_intro _ o (conj Ho Q))); lia].
  - intros m q N. destruct (Nat.eq_dec m fld) as [->|Nm]; [|now apply G]. specialize (N eq_refl). apply C.
    + intros o Ho Q. destruct (proj1 (OffD q) (ex_intro _ o (conj Ho Q))). contradiction.
    + intros o Ho Q. destruct (proj1 (OffS q) (ex_intro _ o (conj Ho Q))). contradiction.
Qed.

(** J shifts the IP's column, O its row, by the popped distance: what is shifted out of
    the old extent enlarges it, the vacated cells are blank, nothing else changes. *)
Theorem C102_shift_partial : forall F D s fld c k n l,
  In (c, k) [(74, 1%nat); (79, 0%nat)] -> Letter s FP_TOYS fld c -> Holds s (n :: l) -> n <> 0 ->
  low_of s fld k <= high_of s fld k ->
  in64 (low_of s fld k) -> in64 (high_of s fld k) -> in64 (high_of s fld k - low_of s fld k + 1) ->
  in64 (low_of s fld k + n) -> in64 (high_of s fld k + n) -> in64 (vget (r_pos (s_r s)) (1 - k)) ->
  high_of s fld k - low_of s fld k + 1 < Z.pos F ->
  (forall q, Line k (r_pos (s_r s)) q -> cell s fld q <> 32 -> low_of s fld k <= vget q k <= high_of s fld k) ->
  exists s1 s', execute F (S D) c s = Ok (ENone, s') /\ Only_stack s s1 l /\ Only_fields s1 s' /\
    (forall q0 q, Line k (r_pos (s_r s)) q -> Further k n q0 q -> cell s' fld q = cellval (chars s fld) (cell s fld q0)) /\
    (forall m q, (m = fld -> ~ Line k (r_pos (s_r s)) q) -> cell s' m q = cell s m q).
Proof.
  intros F D s fld c k n l Hc L H Nn Lh I1 I2 I3 I4 I5 I6 Fu Ext. rewrite (execute_letter F D _ _ _ _ L).
  change (fp_exec F FP_TOYS fld c s) with (toys_exec F fld c s).
  set (lo := low_of s fld k) in *. set (hi := high_of s fld k) in *. set (p := r_pos (s_r s)) in *.
  assert (X0 : in64 (hi - lo)) by (unfold in64, INT64_MIN, INT64_MAX in *; lia).
  destruct Hc as [[= <- <-]|[[= <- <-]|[]]]; unfold toys_exec; cbn [Z.eqb Pos.eqb]; xpop; cbn [hd tl] in *;
    rewrite (proj2 (Z.eqb_neq n 0) Nn); (rewrite (run_bind getW _ s0 (s_w s0) s0) by reflexivity);
    (rewrite (run_bind getPos _ s0 (r_pos (s_r s0)) s0) by reflexivity);
    rewrite (Only_stack_w _ _ _ C), (Only_stack_r _ _ _ C); cbn [set_r_ss r_pos]; fold p;
    change (u_field (w_uni (s_w s) fld)) with (field_of s fld).
  all: match goal with |- context [f_min _ ?k] => change (f_min (field_of s fld) k) with lo; change (f_max (field_of s fld) k) with hi end.
  all: assert (W1 : s_w s0 = s_w s) by exact (Only_stack_w _ _ _ C).
  all: assert (CE : forall m q, cell s0 m q = cell s m q) by (intros; unfold cell; now rewrite W1).
  all: assert (CH : forall m, chars s0 m = chars s m) by (intros; unfold chars; now rewrite W1).
  all: rewrite (run_bind _ _ _ _ _ (run_lift _ _ s0 (chk64_ok _ X0)));
    rewrite (run_bind _ _ _ _ _ (run_lift _ _ s0 (chk64_ok _ I3)));
    rewrite (run_bind _ _ _ _ _ (run_lift _ _ s0 (chk64_ok _ I4))).
  - destruct (shift_line F fld 1 (mkvec [vget p 0; lo]) (mkvec [vget p 0; lo + n]) (mkvec [1; hi - lo + 1]) lo hi n p s0)
      as (s' & E' & O & A & B); auto; try lia.
    { apply mkvec_wf. }
    { intros [|[|i]]; rewrite vget_mkvec; cbn; try reflexivity. now destruct i. }
    { intros [|[|i]]; rewrite vget_mkvec; cbn; try reflexivity. now destruct i. }
    { intros [|[|i]]; rewrite !vget_mkvec; cbn; try lia; destruct i; reflexivity. }
    { intros q Q. rewrite CE. now apply Ext. }
    exists s0, s'. rewrite (run_bind _ _ _ _ _ E'). split; [reflexivity|]. split; [exact C|]. split; [exact O|]. split.
    + intros q0 q Q R. now rewrite (A q0 q Q R), CH, CE.
    + intros m q N. now rewrite (B m q N), CE.
  - destruct (shift_line F fld 0 (mkvec [lo; vget p 1]) (mkvec [lo + n; vget p 1]) (mkvec [hi - lo + 1; 1]) lo hi n p s0)
      as (s' & E' & O & A & B); auto; try lia.
    { apply mkvec_wf. }
    { intros [|[|i]]; rewrite vget_mkvec; cbn; try reflexivity. now destruct i. }
    { intros [|[|i]]; rewrite vget_mkvec; cbn; try reflexivity. now destruct i. }
    { intros [|[|i]]; rewrite !vget_mkvec; cbn; try lia; destruct i; reflexivity. }
    { intros q Q. rewrite CE. now apply Ext. }
    exists s0, s'. rewrite (run_bind _ _ _ _ _ E'). split; [reflexivity|]. split; [exact C|]. split; [exact O|]. split.
    + intros q0 q Q R. now rewrite (A q0 q Q R), CH, CE.
    + intros m q N. now rewrite (B m q N), CE.
Qed.
Theorem C102_zero : forall F D s c l, In c [74; 79] -> Ready s FP_TOYS c (0 :: l) ->
  exists s', execute F (S D) c s = Ok (ENone, s') /\ Only_stack s s' l.
Proof.
  intros F D s c l I ((fld & L) & H). rewrite (execute_letter F D _ _ _ _ L).
  change (fp_exec F FP_TOYS fld c) with (toys_exec F fld c).
  destruct I as [<-|[<-|[]]]; unfold toys_exec; cbn [Z.eqb Pos.eqb]; xpop; exists s0; (split; [reflexivity|exact C]).
Qed.

(** Since the recorded extent can miss cells (C10), a cell can stay where it was. *)
Definition placed (f : field) (p : vec) (s : st) : st :=
  {| s_w := upd_uni 0 (set_u_field f) (s_w s); s_r := set_r_pos p (s_r s) |}.
Lemma placed_holds f p s l : Holds s l -> Holds (placed f p s) l.
Proof. intros H. exact H. Qed.
Definition put_list (h : list (list Z * Z)) : field :=
  fold_left (fun f w => f_put (fst w) (snd w) f) h (field_empty 2 false).
Theorem C102_refuted : let s := placed (put_list [([0; -1], 65); ([0; 5], 65); ([0; 5], 32); ([3], 65)]) [3] (loaded [FP_TOYS] [2]) in
  Letter s FP_TOYS 0 74 /\ Holds s [2] /\
  match execute 100 1 74 s with
  | Ok (ENone, s') => cell s 0 [3] = 65 /\ cell s' 0 [3; 2] = 32 /\ cell s' 0 [3] = 65
  | _ => False
  end.
Proof.
  cbv zeta. split; [apply letterb_ok; vm_compute; reflexivity|].
  split; [apply placed_holds; apply holds_with_list; vm_compute; [reflexivity|discriminate]|]. vm_compute. auto.
Qed.
(** A column of three cells with a gap, moved up by two. *)
Example C102_ex : let s := placed (put_list [([3; 1], 65); ([3; 2], 66); ([3; 4], 67); ([4; 2], 68)]) [3; 2] (loaded [FP_TOYS] [-2; 7]) in
  Letter s FP_TOYS 0 74 /\ Holds s [-2; 7] /\ low_of s 0 1 = 0 /\ high_of s 0 1 = 4 /\
  (forall q, Line 1 (r_pos (s_r s)) q -> cell s 0 q <> 32 -> 0 <= vget q 1 <= 4) /\
  match execute 100 1 74 s with
  | Ok (ENone, s') => map (fun y => cell s' 0 (mkvec [3; y])) [-2; -1; 0; 1; 2; 3; 4] = [32; 65; 66; 32; 67; 32; 32] /\
      cell s' 0 [4; 2] = 68
  | _ => False
  end.
Proof.
  cbv zeta. split; [apply letterb_ok; vm_compute; reflexivity|].
  split; [apply placed_holds; apply holds_with_list; vm_compute; [reflexivity|discriminate]|].
  split; [vm_compute; reflexivity|]. split; [vm_compute; reflexivity|]. split; [|vm_compute; auto].
  intros q (Q0 & Q2) N. change (vget q 0 = 3) in Q0.
  assert (S : same q (mkvec [3; vget q 1])).
  { intros [|[|i]]; rewrite vget_mkvec; cbn [nth]; [exact Q0|reflexivity|]. rewrite Q2 by lia. now destruct i. }
  destruct (Z_le_dec 0 (vget q 1)) as [L|L]; [destruct (Z_le_dec (vget q 1) 4) as [L'|L']; [lia|]|]; exfalso; apply N;
    unfold cell; rewrite (f_get_ext _ _ _ S); unfold placed, put_list; cbn [s_w fold_left fst snd];
    rewrite upd_uni_same; cbn [u_field set_u_field];
    (rewrite !f_get_put_other; [reflexivity|..]); intros X; specialize (X 1%nat); rewrite vget_mkvec in X; revert X L; try (revert L'); generalize (vget q 1); cbn; lia.
Qed.
Print Assumptions C102_shift_partial.
Print Assumptions C102_zero.
Print Assumptions C102_refuted.

(** ** C103 Blocks and the stack *)

(** The points of a block of the given size relative to its corner, the first dimension
    fastest ([box] is the specification of C04). *)
Definition points (n : nat) (size : nat -> Z) : list (list Z) :=
  box n (fun _ => 0) (fun i => size i - Z.sgn (size i)).
(** [q] is the cell at the point [o] of the block with corner [base]. *)
Definition spot (base : nat -> Z) (o : list Z) (q : vec) : Prop := forall i, vget q i = base i + nth i o 0.

Lemma box_ext n a b a' b' : (forall i, (i < n)%nat -> a i = a' i) -> (forall i, (i < n)%nat -> b i = b' i) -> box n a b = box n a' b'.
Proof.
  intros A B. induction n as [|n IH]; [reflexivity|]. cbn [box]. rewrite (A n), (B n) by lia.
  rewrite IH; [reflexivity| |]; intros; [apply A|apply B]; lia.
Qed.
Lemma zsteps_snoc m : forall a d, zsteps (S m) a d = zsteps m a d ++ [a + Z.of_nat m * d].
Proof.
  induction m as [|m IH]; intros a d; [cbn; f_equal; lia|].
  change (zsteps (S (S m)) a d) with (a :: zsteps (S m) (a + d) d). rewrite IH. cbn [zsteps app]. do 3 f_equal. lia.
Qed.
Lemma zsteps_rev m : forall a d, rev (zsteps m a d) = zsteps m (a + (Z.of_nat m - 1) * d) (- d).
Proof.
  induction m as [|m IH]; intros a d; [reflexivity|]. rewrite zsteps_snoc, rev_app_distr. cbn [rev app zsteps].
  rewrite IH. f_equal; [lia|]. f_equal. lia.
Qed.
Lemma zfromto_rev a b : rev (zfromto a b) = zfromto b a.
Proof.
  destruct (Z.eq_dec a b) as [->|N]; [unfold zfromto; rewrite Z.sub_diag; reflexivity|].
  unfold zfromto. rewrite zsteps_rev. replace (Z.abs (a - b)) with (Z.abs (b - a)) by lia.
  rewrite Nat2Z.inj_succ, Z2Nat.id by lia. unfold zdir.
  destruct (Z.leb_spec a b), (Z.leb_spec b a); try lia; f_equal; lia.
Qed.
Lemma rev_flat_map {A B} (f : A -> list B) l : rev (flat_map f l) = flat_map (fun x => rev (f x)) (rev l).
Proof.
  induction l as [|x l IH]; [reflexivity|]. cbn [flat_map rev]. rewrite rev_app_distr, IH, flat_map_app.
  cbn [flat_map]. now rewrite app_nil_r.
Qed.
Lemma box_rev n a b : rev (box n a b) = box n b a.
Proof.
  induction n as [|n IH]; [reflexivity|]. cbn [box]. rewrite rev_flat_map, zfromto_rev.
  apply flat_map_ext. intros h. now rewrite <- map_rev, IH.
Qed.

Lemma block_range n v sz : (1 <= n)%nat -> vwf v ->
  (forall i, (i < n)%nat -> vget v i = sz i /\ sz i <> 0 /\ in64 (sz i)) -> (forall i, (n <= i)%nat -> vget v i = 0) ->
  exists b, size_to_range v = Some b /\ vsmall b /\ (vsize b <= n)%nat /\ volume n (vget b) = cells_of n sz /\
    box n (vget (mkvec [0])) (vget b) = points n sz /\ (forall o, between n (vget b) o <-> in_block n sz o).
Proof.
  intros N1 W Sz Z0. destruct (size_to_range_some n v sz) as (b & Eb & Lb & Gb); auto.
  { intros i Hi. destruct (Sz i Hi) as (A & B & _). auto. }
  exists b. split; [exact Eb|]. split; [|split; [exact Lb|split; [|split]]].
  - intros i. destruct (Nat.lt_ge_cases i n) as [Hi|Hi].
    + rewrite Gb by auto. destruct (Sz i Hi) as (_ & Nz & X). unfold in64, INT64_MIN, INT64_MAX in *. lia.
    + rewrite vget_out by (unfold vsize in Lb; lia). unfold INT64_MIN, INT64_MAX. lia.
  - unfold volume, cells_of. f_equal. apply map_ext_in. intros i Hi. apply in_seq in Hi. rewrite Gb by lia.
    destruct (Sz i ltac:(lia)) as (_ & ? & _). lia.
  - apply box_ext; intros i Hi; [now destruct i as [|[|i]]|now apply Gb].
  - intros o. unfold between, in_block. split; intros (A & B); (split; [|exact B]); intros i Hi; specialize (A i Hi);
      destruct (Sz i Hi) as (_ & Nz & _); rewrite Gb in * by auto; lia.
Qed.
Lemma points_length n sz : (forall i, (i < n)%nat -> sz i <> 0) -> Z.of_nat (length (points n sz)) = cells_of n sz.
Proof.
  intros N. unfold points. rewrite box_volume. unfold volume, cells_of. f_equal. apply map_ext_in. intros i Hi.
  apply in_seq in Hi. specialize (N i ltac:(lia)). lia.
Qed.
Lemma points_block n sz o : (forall i, (i < n)%nat -> sz i <> 0) -> In o (points n sz) -> in_block n sz (fun i => nth i o 0).
Proof.
  intros N Ho. apply box_in in Ho. destruct Ho as (L & B). split.
  - intros i Hi. specialize (B i Hi). specialize (N i Hi). cbn beta in B. lia.
  - intros i Hi. apply nth_overflow. lia.
Qed.

(** The loops of F, S and G over a list of displacements. *)
Lemma take_run fld dest : forall vs s l,
  Holds s l -> (forall p, In p vs -> forall i, in64 (vget dest i + vget p i)) ->
  ForallOrdPairs (fun p p' => ~ same p p') vs ->
  exists s' f', foldR (bodyR (fun p => d <- lift (vadd dest p) ;; x <- popS ;; fput fld d x)) vs s = Ok s' /\
    Space_and_stack s s' fld f' (skipn (length vs) l) /\ f_char f' = f_char (field_of s fld) /\
    (forall j p q, nth_error vs j = Some p -> off (vget dest) (vget p) q -> f_get f' q = cellval (f_char (field_of s fld)) (nth j l 0)) /\
    (forall q, (forall p, In p vs -> ~ off (vget dest) (vget p) q) -> f_get f' q = f_get (field_of s fld) q).
Proof.
  induction vs as [|p vs IH]; intros s l H I ND.
  - exists s, (field_of s fld). split; [reflexivity|]. split; [apply sas_stack; now apply Only_stack_refl|].
    split; [reflexivity|]. split; [intros [|j]; discriminate|auto].
  - destruct (vadd_defined dest p (I p (or_introl eq_refl))) as (d & Ed). pose proof (vadd_get _ _ _ Ed) as Gd.
    inversion ND as [|? ? N1 N2]; subst. rewrite Forall_forall in N1.
    destruct (popS_plain s l H) as (s1 & E1 & O1). pose proof (Only_stack_holds _ _ _ _ H O1) as H1.
    destruct (sas_put s1 fld d (hd 0 l) (tl l) H1) as (s2 & E2 & S2).
    assert (Ff : field_of s1 fld = field_of s fld) by (unfold field_of; now rewrite (Only_stack_w _ _ _ O1)).
    rewrite Ff in S2. pose proof (sas_holds _ _ _ _ _ _ H1 S2) as H2.
    destruct (IH s2 (tl l) H2) as (s3 & f3 & E3 & S3 & C3 & A3 & B3); auto.
    { intros p' Hp. apply I. now right. }
    rewrite (sas_field _ _ _ _ _ S2) in A3, B3, C3.
    exists s3, f3. split.
    { cbn [foldR]. unfold bodyR at 1. rewrite (run_bind _ _ _ _ _ (run_lift _ _ s Ed)), (run_bind _ _ _ _ _ E1), E2. exact E3. }
    split.
    { replace (skipn (length (p :: vs)) l) with (skipn (length vs) (tl l)) by (destruct l; [now rewrite !skipn_nil|reflexivity]).
      exact (sas_trans _ _ _ _ _ _ _ _ (sas_trans _ _ _ _ _ _ _ _ (sas_stack s s1 fld _ O1) S2) S3). }
    rewrite f_put_char in *. split; [exact C3|].
    assert (SD : forall q, same d q <-> off (vget dest) (vget p) q).
    { intros q. split; intros X i; specialize (X i); rewrite Gd in *; lia. }
    split.
    + intros [|j] p' q Hp Q.
      * injection Hp as <-. rewrite B3.
        -- rewrite f_get_put_same by (now apply SD). f_equal. destruct l; reflexivity.
        -- intros p' Hp' X. apply (N1 p' Hp'). intros i. specialize (X i). specialize (Q i). lia.
      * rewrite (A3 j p' q Hp Q). f_equal. destruct l; [now destruct j|reflexivity].
    + intros q N. rewrite B3 by (intros p' Hp; apply N; now right). apply f_get_put_other. intros X. apply SD in X.
      apply (N p); cbn; auto.
Qed.
Lemma fill_run fld dest v l : forall vs s,
  Holds s l -> (forall p, In p vs -> forall i, in64 (vget dest i + vget p i)) ->
  ForallOrdPairs (fun p p' => ~ same p p') vs ->
  exists s' f', foldR (bodyR (fun p => d <- lift (vadd dest p) ;; fput fld d v)) vs s = Ok s' /\
    Space_and_stack s s' fld f' l /\ f_char f' = f_char (field_of s fld) /\
    (forall p q, In p vs -> off (vget dest) (vget p) q -> f_get f' q = cellval (f_char (field_of s fld)) v) /\
    (forall q, (forall p, In p vs -> ~ off (vget dest) (vget p) q) -> f_get f' q = f_get (field_of s fld) q).
Proof.
  induction vs as [|p vs IH]; intros s H I ND.
  - exists s, (field_of s fld). split; [reflexivity|]. split; [apply sas_stack; now apply Only_stack_refl|].
    split; [reflexivity|]. split; [intros ? ? []|auto].
  - destruct (vadd_defined dest p (I p (or_introl eq_refl))) as (d & Ed). pose proof (vadd_get _ _ _ Ed) as Gd.
    inversion ND as [|? ? N1 N2]; subst. rewrite Forall_forall in N1.
    destruct (sas_put s fld d v l H) as (s2 & E2 & S2). pose proof (sas_holds _ _ _ _ _ _ H S2) as H2.
    destruct (IH s2 H2) as (s3 & f3 & E3 & S3 & C3 & A3 & B3); auto.
    { intros p' Hp. apply I. now right. }
    rewrite (sas_field _ _ _ _ _ S2) in A3, B3, C3. rewrite f_put_char in *.
    assert (SD : forall q, same d q <-> off (vget dest) (vget p) q).
    { intros q. split; intros X i; specialize (X i); rewrite Gd in *; lia. }
    exists s3, f3. split.
    { cbn [foldR]. unfold bodyR at 1. rewrite (run_bind _ _ _ _ _ (run_lift _ _ s Ed)), E2. exact E3. }
    split; [exact (sas_trans _ _ _ _ _ _ _ _ S2 S3)|]. split; [exact C3|]. split.
    + intros p' q [<-|Hp] Q; [|now apply (A3 p' q)]. rewrite B3.
      * apply f_get_put_same. now apply SD.
      * intros p' Hp' X. apply (N1 p' Hp'). intros i. specialize (X i). specialize (Q i). lia.
    + intros q N. rewrite B3 by (intros p' Hp; apply N; now right). apply f_get_put_other. intros X. apply SD in X.
      apply (N p); cbn; auto.
Qed.
Lemma give_run fld src : forall vs s l,
  Holds s l -> (forall p, In p vs -> forall i, in64 (vget src i + vget p i)) ->
  exists s' qs, foldR (bodyR (fun p => a <- lift (vadd src p) ;; x <- fget fld a ;; pushS x)) vs s = Ok s' /\
    Forall2 (fun p q => off (vget src) (vget p) q) vs qs /\ Only_stack s s' (rev (map (cell s fld) qs) ++ l).
Proof.
  induction vs as [|p vs IH]; intros s l H I.
  - exists s, []. split; [reflexivity|]. split; [constructor|now apply Only_stack_refl].
  - destruct (vadd_defined src p (I p (or_introl eq_refl))) as (d & Ed). pose proof (vadd_get _ _ _ Ed) as Gd.
    destruct (pushS_plain s l (cell s fld d) H) as (s1 & E1 & O1). pose proof (Only_stack_holds _ _ _ _ H O1) as H1.
    destruct (IH s1 _ H1) as (s2 & qs & E2 & F2 & O2); [intros p' Hp; apply I; now right|].
    exists s2, (d :: qs). split.
    { cbn [foldR]. unfold bodyR at 1. rewrite (run_bind _ _ _ _ _ (run_lift _ _ s Ed)).
      rewrite (run_bind (fget fld d) _ s (cell s fld d) s) by reflexivity. rewrite E1. exact E2. }
    split; [constructor; auto; intros i; apply Gd|].
    cbn [map rev]. rewrite <- app_assoc. cbn [app].
    replace (map (cell s fld) qs) with (map (cell s1 fld) qs); [exact (Only_stack_trans _ _ _ _ _ O1 O2)|].
    apply map_ext. intros q. unfold cell. now rewrite (Only_stack_w _ _ _ O1).
Qed.
Lemma two_operands s l : dims_of s <> O -> Holds s l -> exists s' v size,
  (forall A (k : vec -> vec -> M A), (a <- popVec ;; b <- popVec ;; k a b) s = k v size s') /\
  Only_stack s s' (skipn (2 * dims_of s) l) /\
  (forall i, vget v i = dest_of s l i) /\ (forall i, vget size i = size_of s l i) /\ vwf size /\ size <> [].
Proof.
  intros D0 H. destruct (popVec_plain s l H) as (s1 & v1 & E1 & C1 & G1 & _).
  pose proof (Only_stack_holds _ _ _ _ H C1) as H1.
  assert (Ds : forall s1 l1, Only_stack s s1 l1 -> dims_of s1 = dims_of s).
  { intros s0 l1 X. unfold dims_of. now rewrite (Only_stack_w _ _ _ X), (Only_stack_r _ _ _ X). }
  destruct (popVec_plain s1 _ H1) as (s2 & v2 & E2 & C2 & G2 & W2). rewrite (Ds _ _ C1) in *.
  pose proof (Only_stack_trans _ _ _ _ _ C1 C2) as O2.
  exists s2, v1, v2. split.
  { intros A k. rewrite (run_bind _ _ _ _ _ E1), (run_bind _ _ _ _ _ E2). reflexivity. }
  split; [rewrite skip_skip in O2; replace (2 * dims_of s)%nat with (dims_of s + dims_of s)%nat by lia; exact O2|].
  split; [exact G1|]. split; [exact G2|]. now apply W2.
Qed.

Section Block.
  Context (F : positive) (s : st) (l : list Z).
  Definition Proper : Prop := dims_of s <> O /\
    (forall i, (i < dims_of s)%nat -> size_of s l i <> 0 /\ in64 (size_of s l i)) /\
    cells_of (dims_of s) (size_of s l) < Z.pos F /\
    (forall o, In o (points (dims_of s) (size_of s l)) -> forall i, in64 (dest_of s l i + nth i o 0)).

  Lemma block_setup v size : Proper -> (forall i, vget v i = dest_of s l i) -> (forall i, vget size i = size_of s l i) ->
    vwf size -> forall up : bool,
    exists b vs, size_to_range size = Some b /\
      (forall body s, rangeM F (if up then mkvec [0] else b) (if up then b else mkvec [0]) body s =
         match foldR (bodyR body) vs s with Ok s' => Ok (tt, s') | Bad e => Bad e end) /\
      Forall2 denotes vs (if up then points (dims_of s) (size_of s l) else rev (points (dims_of s) (size_of s l))) /\
      (forall p, In p vs -> forall i, in64 (vget v i + vget p i)) /\
      ForallOrdPairs (fun p p' => ~ same p p') vs.
  Proof.
    intros (D0 & Sz & Fu & I) Gv Gs W up. set (n := dims_of s) in *.
    destruct (block_range n size (size_of s l)) as (b & Eb & Sb & Lb & Vb & Bx & BW); auto; [lia| |].
    { intros i Hi. rewrite Gs. unfold size_of, vec_of. fold n. destruct (Nat.ltb_spec i n); [lia|reflexivity]. }
    destruct (block_walk F n b up Sb ltac:(lia) Lb ltac:(lia)) as (vs & D & R & _).
    assert (D' : Forall2 denotes vs (if up then points n (size_of s l) else rev (points n (size_of s l)))).
    { rewrite <- Bx. destruct up; [exact D|rewrite box_rev; exact D]. }
    exists b, vs. split; [exact Eb|]. split; [exact R|]. split; [exact D'|]. split.
    - intros p Hp i. destruct (forall2_left _ _ _ _ D' Hp) as (o & Ho & Dp). rewrite Gv, Dp. apply I.
      destruct up; [exact Ho|now apply in_rev].
    - apply (same_pairs vs _ D); [apply box_nodup|]. exists n. intros x Hx. apply box_in in Hx. tauto.
  Qed.
End Block.
Lemma forall2_nth {A B} (R : A -> B -> Prop) l m j y : Forall2 R l m -> nth_error m j = Some y -> exists x, nth_error l j = Some x /\ R x y.
Proof.
  intros H. revert j. induction H as [|a b l m H1 H IH]; intros [|j] E; try discriminate.
  - injection E as <-. exists a. auto.
  - exact (IH j E).
Qed.

(** F pops the cells of a block. *)
Theorem C103_take : forall F D s fld l, Letter s FP_TOYS fld 70 -> Holds s l -> Proper F s l ->
  let rest := skipn (2 * dims_of s) l in
  exists s' f', execute F (S D) 70 s = Ok (ENone, s') /\
    Space_and_stack s s' fld f' (skipn (Z.to_nat (cells_of (dims_of s) (size_of s l))) rest) /\
    (forall j o q, nth_error (points (dims_of s) (size_of s l)) j = Some o -> spot (dest_of s l) o q ->
       f_get f' q = cellval (f_char (field_of s fld)) (nth j rest 0)) /\
    (forall q, (forall o, In o (points (dims_of s) (size_of s l)) -> ~ spot (dest_of s l) o q) ->
       f_get f' q = f_get (field_of s fld) q).
Proof.
  intros F D s fld l L H P rest. rewrite (execute_letter F D _ _ _ _ L).
  change (fp_exec F FP_TOYS fld 70) with (toys_exec F fld 70). unfold toys_exec. cbn [Z.eqb Pos.eqb].
  destruct (two_operands s l (proj1 P) H) as (s1 & v & size & Pop & O1 & Gv & Gs & Ws & _). rewrite Pop.
  destruct (block_setup F s l v size P Gv Gs Ws true) as (b & vs & -> & R & Dn & I & ND).
  pose proof (Only_stack_holds _ _ _ _ H O1) as H1.
  destruct (take_run fld v vs s1 _ H1 I ND) as (s2 & f2 & E2 & S2 & _ & A & B).
  assert (Ff : field_of s1 fld = field_of s fld) by (unfold field_of; now rewrite (Only_stack_w _ _ _ O1)).
  rewrite Ff in *. specialize (R (fun p => d <- lift (vadd v p);; x <- popS;; fput fld d x) s1). rewrite E2 in R.
  rewrite (run_bind _ _ _ _ _ R). exists s2, f2. split; [reflexivity|]. split.
  { pose proof (points_length (dims_of s) (size_of s l) (fun i Hi => proj1 (proj1 (proj2 P) i Hi))) as PL.
    rewrite <- PL, Nat2Z.id, <- (Forall2_len _ _ _ Dn). exact (sas_trans _ _ _ _ _ _ _ _ (sas_stack s s1 fld _ O1) S2). }
  split.
  - intros j o q Ho Q. destruct (forall2_nth _ _ _ _ _ Dn Ho) as (p & Hp & Dp). apply (A j p q Hp).
    intros i. rewrite Q, Gv, Dp. reflexivity.
  - intros q N. apply B. intros p Hp X. destruct (forall2_left _ _ _ _ Dn Hp) as (o & Ho & Dp). apply (N o Ho).
    intros i. rewrite X, Gv, Dp. reflexivity.
Qed.
(** G pushes the cells of a block so that F would pop them in order. *)
Theorem C103_give : forall F D s fld l, Letter s FP_TOYS fld 71 -> Holds s l -> Proper F s l ->
  exists s' qs, execute F (S D) 71 s = Ok (ENone, s') /\
    Forall2 (spot (dest_of s l)) (points (dims_of s) (size_of s l)) qs /\
    Only_stack s s' (map (cell s fld) qs ++ skipn (2 * dims_of s) l).
Proof.
  intros F D s fld l L H P. rewrite (execute_letter F D _ _ _ _ L).
  change (fp_exec F FP_TOYS fld 71) with (toys_exec F fld 71). unfold toys_exec. cbn [Z.eqb Pos.eqb].
  destruct (two_operands s l (proj1 P) H) as (s1 & v & size & Pop & O1 & Gv & Gs & Ws & _). rewrite Pop.
  destruct (block_setup F s l v size P Gv Gs Ws false) as (b & vs & -> & R & Dn & I & _).
  pose proof (Only_stack_holds _ _ _ _ H O1) as H1.
  destruct (give_run fld v vs s1 _ H1 I) as (s2 & qs & E2 & F2 & O2).
  specialize (R (fun p => a <- lift (vadd v p);; x <- fget fld a;; pushS x) s1). rewrite E2 in R.
  rewrite (run_bind _ _ _ _ _ R). exists s2, (rev qs). split; [reflexivity|]. split.
  - assert (X : Forall2 (spot (dest_of s l)) (rev (points (dims_of s) (size_of s l))) qs).
    { clear -Dn F2 Gv. revert qs F2. induction Dn as [|p o vs os Dp Dn IH]; intros qs F2; inversion F2; subst; constructor; auto.
      intros i. match goal with Q : off _ _ _ |- _ => rewrite Q end. now rewrite Gv, Dp. }
    clear -X. rewrite <- (rev_involutive (points _ _)). revert X. generalize (rev (points (dims_of s) (size_of s l))). intros os X.
    induction X as [|o q os qs X1 X IH]; [constructor|]. cbn [rev]. apply Forall2_app; [exact IH|constructor; auto].
  - rewrite map_rev. replace (map (cell s fld) qs) with (map (cell s1 fld) qs); [exact (Only_stack_trans _ _ _ _ _ O1 O2)|].
    apply map_ext. intros q. unfold cell. now rewrite (Only_stack_w _ _ _ O1).
Qed.
(** S fills a block. *)
Theorem C103_fill : forall F D s fld l, Letter s FP_TOYS fld 83 -> Holds s l -> Proper F s l ->
  let rest := skipn (2 * dims_of s) l in
  exists s' f', execute F (S D) 83 s = Ok (ENone, s') /\ Space_and_stack s s' fld f' (tl rest) /\
    (forall o q, In o (points (dims_of s) (size_of s l)) -> spot (dest_of s l) o q ->
       f_get f' q = cellval (f_char (field_of s fld)) (hd 0 rest)) /\
    (forall q, (forall o, In o (points (dims_of s) (size_of s l)) -> ~ spot (dest_of s l) o q) ->
       f_get f' q = f_get (field_of s fld) q).
Proof.
  intros F D s fld l L H P rest. rewrite (execute_letter F D _ _ _ _ L).
  change (fp_exec F FP_TOYS fld 83) with (toys_exec F fld 83). unfold toys_exec. cbn [Z.eqb Pos.eqb].
  destruct (two_operands s l (proj1 P) H) as (s0 & v & size & Pop & O0 & Gv & Gs & Ws & _). rewrite Pop.
  pose proof (Only_stack_holds _ _ _ _ H O0) as H0.
  change (skipn (2 * dims_of s) l) with rest in O0, H0.
  destruct (popS_plain s0 _ H0) as (s1 & E1 & O1'). rewrite (run_bind _ _ _ _ _ E1).
  pose proof (Only_stack_trans _ _ _ _ _ O0 O1') as O1. pose proof (Only_stack_holds _ _ _ _ H O1) as H1.
  destruct (block_setup F s l v size P Gv Gs Ws true) as (b & vs & -> & R & Dn & I & ND).
  destruct (fill_run fld v (hd 0 rest) (tl rest) vs s1 H1 I ND) as (s2 & f2 & E2 & S2 & _ & A & B).
  assert (Ff : field_of s1 fld = field_of s fld) by (unfold field_of; now rewrite (Only_stack_w _ _ _ O1)).
  rewrite Ff in *. specialize (R (fun p => d <- lift (vadd v p);; fput fld d (hd 0 rest)) s1). rewrite E2 in R.
  rewrite (run_bind _ _ _ _ _ R). exists s2, f2. split; [reflexivity|]. split.
  { exact (sas_trans _ _ _ _ _ _ _ _ (sas_stack s s1 fld _ O1) S2). }
  split.
  - intros o q Ho Q. destruct (forall2_right _ _ _ _ Dn Ho) as (p & Hp & Dp). apply (A p q Hp).
    intros i. rewrite Q, Gv, Dp. reflexivity.
  - intros q N. apply B. intros p Hp X. destruct (forall2_left _ _ _ _ Dn Hp) as (o & Ho & Dp). apply (N o Ho).
    intros i. rewrite X, Gv, Dp. reflexivity.
Qed.
(** A block fetched with G and stored with F, at the same place or another one, is a
    copy. *)
Theorem C103_roundtrip : forall F D s fld l s1 s2 l2, Letter s FP_TOYS fld 71 -> Holds s l -> Proper F s l ->
  execute F (S D) 71 s = Ok (ENone, s1) ->
  Letter s2 FP_TOYS fld 70 -> field_of s2 fld = field_of s fld -> dims_of s2 = dims_of s ->
  Holds s2 (l2 ++ s_list (match ss_top (mySS s1) with Ok k => k | Bad _ => stk_new end)) -> length l2 = (2 * dims_of s)%nat ->
  Proper F s2 l2 -> (forall i, size_of s2 l2 i = size_of s l i) ->
  exists s3, execute F (S D) 70 s2 = Ok (ENone, s3) /\
    forall o a q, In o (points (dims_of s) (size_of s l)) -> spot (dest_of s l) o a -> spot (dest_of s2 l2) o q ->
      cell s3 fld q = cellval (chars s fld) (cell s fld a).
Proof.
  intros F D s fld l s1 s2 l2 L H P E1 L2 Ff Dm H2 Len P2 Sz.
  destruct (C103_give F D s fld l L H P) as (t & qs & X & Fq & O). rewrite E1 in X. injection X as <-.
  assert (St : s_list (match ss_top (mySS s1) with Ok k => k | Bad _ => stk_new end) = map (cell s fld) qs ++ skipn (2 * dims_of s) l).
  { destruct (Only_stack_holds _ _ _ _ H O) as (k & -> & _ & Lk). exact Lk. }
  rewrite St in H2. set (vals := map (cell s fld) qs ++ skipn (2 * dims_of s) l) in *.
  assert (Vx : forall i, dest_of s2 (l2 ++ vals) i = dest_of s2 l2 i).
  { intros i. unfold dest_of, vec_of. destruct (Nat.ltb_spec i (dims_of s2)); [|reflexivity]. apply app_nth1. lia. }
  assert (Vs : forall i, size_of s2 (l2 ++ vals) i = size_of s2 l2 i).
  { intros i. unfold size_of, vec_of. destruct (Nat.ltb_spec i (dims_of s2)); [|reflexivity].
    rewrite skipn_app. apply app_nth1. rewrite skipn_length. lia. }
  assert (Pe : forall n f g, (forall i, f i = g i) -> points n f = points n g).
  { intros n f g E. apply box_ext; intros; [reflexivity|now rewrite E]. }
  assert (Ce : forall n f g, (forall i, f i = g i) -> cells_of n f = cells_of n g).
  { intros n f g E. unfold cells_of. f_equal. apply map_ext. intros i. now rewrite E. }
  assert (P3 : Proper F s2 (l2 ++ vals)).
  { destruct P2 as (A & B & C & G). split; [exact A|]. split; [intros i Hi; rewrite Vs; auto|].
    rewrite (Ce _ _ _ Vs), (Pe _ _ _ Vs). split; [exact C|]. intros o Ho i. rewrite Vx. auto. }
  destruct (C103_take F D s2 fld _ L2 H2 P3) as (s3 & f3 & E3 & S3 & A & _). exists s3. split; [exact E3|].
  intros o a q Ho Sa Sq. destruct (In_nth_error _ _ Ho) as (j & Hj).
  unfold cell at 1. change (u_field (w_uni (s_w s3) fld)) with (field_of s3 fld). rewrite (sas_field _ _ _ _ _ S3).
  rewrite (A j o q).
  - rewrite Ff. unfold chars, field_of. f_equal. rewrite skipn_app, skipn_all2 by (rewrite Len, Dm; lia).
    rewrite Len, Dm, Nat.sub_diag. cbn [app skipn].
    assert (Lj : (j < length qs)%nat).
    { rewrite <- (Forall2_len _ _ _ Fq). apply nth_error_Some. congruence. }
    unfold vals. rewrite app_nth1 by (rewrite map_length; exact Lj).
    rewrite (nth_indep _ 0 (cell s fld (mkvec [0]))) by (rewrite map_length; exact Lj). rewrite map_nth.
    unfold cell. apply f_get_ext. intros i.
    assert (Sj : spot (dest_of s l) o (nth j qs (mkvec [0]))).
    { clear -Fq Hj. revert j Hj. induction Fq as [|x y os qs X Fq IH]; intros [|j] Hj; try discriminate.
      - injection Hj as ->. exact X.
      - exact (IH j Hj). }
    rewrite Sj. symmetry. apply Sa.
  - rewrite Dm, (Pe _ _ (size_of s l)); [exact Hj|]. intros i. now rewrite Vs, Sz.
  - intros i. rewrite Vx. apply Sq.
Qed.
(** A size of zero transfers nothing. *)
Theorem C103_zero_partial : forall F D s fld l c, In c [70; 71; 83] -> Letter s FP_TOYS fld c -> Holds s l -> dims_of s <> O ->
  (forall i, size_of s l i = 0) \/ (exists i j, (i < j)%nat /\ size_of s l i = 0 /\ size_of s l j <> 0) ->
  exists s', execute F (S D) c s = Ok (ENone, s') /\
    Only_stack s s' (skipn (2 * dims_of s + if c =? 83 then 1 else 0) l).
Proof.
  intros F D s fld l c Hc L H D0 Z0. rewrite (execute_letter F D _ _ _ _ L).
  change (fp_exec F FP_TOYS fld c s) with (toys_exec F fld c s).
  destruct (two_operands s l D0 H) as (s1 & v & size & Pop & O1 & Gv & Gs & Ws & Ns).
  assert (Sn : size_to_range size = None).
  { apply size_to_range_none; auto.
    destruct Z0 as [Z0|(i & j & A & B & C)]; [left; intros; rewrite Gs; auto|right; exists i, j; rewrite !Gs; auto]. }
  destruct Hc as [<-|[<-|[<-|[]]]]; unfold toys_exec; cbn [Z.eqb Pos.eqb]; rewrite Pop, ?Sn.
  - exists s1. split; [reflexivity|]. now rewrite Nat.add_0_r.
  - exists s1. split; [reflexivity|]. now rewrite Nat.add_0_r.
  - destruct (popS_plain s1 _ (Only_stack_holds _ _ _ _ H O1)) as (s2 & E2 & O2). rewrite (run_bind _ _ _ _ _ E2).
    exists s2. split; [reflexivity|]. rewrite <- skip_skip.
    replace (skipn 1 (skipn (2 * dims_of s) l)) with (tl (skipn (2 * dims_of s) l)) by (now destruct (skipn (2 * dims_of s) l)).
    exact (Only_stack_trans _ _ _ _ _ O1 O2).
Qed.
(** As for copies, a size such as 3 by 0 transfers three cells. *)
Theorem C103_refuted : let l := [9; 0; 0; 3; 7] in let s := loaded [FP_TOYS] l in
  Letter s FP_TOYS 0 83 /\ Holds s l /\ cells_of (dims_of s) (size_of s l) = 0 /\
  match execute 100 1 83 s with
  | Ok (ENone, s') => map (fun x => cell s 0 (mkvec [x; 9])) [0; 1; 2] = [32; 32; 32] /\
      map (fun x => cell s' 0 (mkvec [x; 9])) [0; 1; 2] = [7; 7; 7]
  | _ => False
  end.
Proof.
  cbv zeta. split; [apply letterb_ok; vm_compute; reflexivity|].
  split; [apply holds_with_list; vm_compute; [reflexivity|discriminate]|].
  split; [vm_compute; reflexivity|]. vm_compute. auto.
Qed.
(** A 3 by 2 block at (4, 9). *)
Example C103_ex : let l := [9; 4; 2; 3; 70; 71; 72; 73; 74; 75; 76] in let s := loaded [FP_TOYS] l in
  Letter s FP_TOYS 0 70 /\ Letter s FP_TOYS 0 71 /\ Letter s FP_TOYS 0 83 /\ Holds s l /\ Proper 100 s l /\
  points (dims_of s) (size_of s l) = [[0; 0]; [1; 0]; [2; 0]; [0; 1]; [1; 1]; [2; 1]] /\
  match execute 100 1 70 s with
  | Ok (ENone, s') => map (fun p => cell s' 0 (mkvec p)) [[4; 9]; [5; 9]; [6; 9]; [4; 10]; [5; 10]; [6; 10]; [7; 9]] =
      [70; 71; 72; 73; 74; 75; 32]
  | _ => False
  end.
Proof.
  cbv zeta. do 3 (split; [apply letterb_ok; vm_compute; reflexivity|]).
  split; [apply holds_with_list; vm_compute; [reflexivity|discriminate]|].
  assert (D : dims_of (loaded [FP_TOYS] [9; 4; 2; 3; 70; 71; 72; 73; 74; 75; 76]) = 2%nat) by (vm_compute; reflexivity).
  assert (Pts : points 2 (size_of (loaded [FP_TOYS] [9; 4; 2; 3; 70; 71; 72; 73; 74; 75; 76]) [9; 4; 2; 3; 70; 71; 72; 73; 74; 75; 76]) = [[0; 0]; [1; 0]; [2; 0]; [0; 1]; [1; 1]; [2; 1]]) by (vm_compute; reflexivity).
  split; [|split; [rewrite D; exact Pts|vm_compute; reflexivity]].
  unfold Proper. rewrite D, Pts. split; [lia|]. split; [|split].
  - intros [|[|i]] Hi; [| |lia]; vm_compute; split; try split; discriminate.
  - vm_compute. reflexivity.
  - intros o Ho i. unfold dest_of, vec_of. rewrite D. cbn [In] in Ho.
    repeat (destruct Ho as [<-|Ho]; [destruct i as [|[|i]]; cbn; [| |destruct i]; unfold in64, INT64_MIN, INT64_MAX; lia|]). destruct Ho.
Qed.
Print Assumptions C103_take.
Print Assumptions C103_give.
Print Assumptions C103_fill.
Print Assumptions C103_roundtrip.
Print Assumptions C103_zero_partial.
Print Assumptions C103_refuted.
