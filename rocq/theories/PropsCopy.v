(** * Property C49: TOYS block copies *)

From Coq Require Import String ZArith List Bool Lia.
From Verif Require Import Base BaseProofs VectorModel VectorProofs RangeModel RangeProofs TextModel TextProofs
  StackModel StackProofs FieldModel FieldProofs World IpModel LoadModel FingModel CoreModel
  UniModel IpProofs ExecProofs FlowProofs States PropsStack PropsTurn PropsBlocks Effects SchedProofs PropsIO
  CopyProofs PropsFing.
Import ListNotations.
Open Scope Z_scope.

(** ** Specification *)

(** The displacements of a block of the given size, towards positive or negative
    coordinates as the signs of the size say. *)
Definition in_block (n : nat) (size o : nat -> Z) : Prop :=
  (forall i, (i < n)%nat -> 0 <= o i < size i \/ size i < o i <= 0) /\ (forall i, (n <= i)%nat -> o i = 0).
Definition cells_of (n : nat) (size : nat -> Z) : Z :=
  fold_right Z.mul 1 (map (fun i => Z.abs (size i)) (seq 0 n)).
(** The operands, the destination uppermost. *)
Definition dest_of (s : st) (l : list Z) : nat -> Z := vec_of (dims_of s) l.
Definition size_of (s : st) (l : list Z) : nat -> Z := vec_of (dims_of s) (skipn (dims_of s) l).
Definition src_of (s : st) (l : list Z) : nat -> Z := vec_of (dims_of s) (skipn (dims_of s + dims_of s) l).

(** ** Sizes *)

Lemma upto_len m : forall v, (length (normalize_loop m v) <= length v)%nat.
Proof.
  induction m as [|m IH]; intros v; cbn [normalize_loop]; auto.
  destruct (_ && _); auto. specialize (IH (removelast v)). rewrite removelast_length in IH. lia.
Qed.
Lemma vsize_vset v d x : (d < vsize v)%nat -> (vsize (vset v d x) <= vsize v)%nat.
Proof.
  intros H. unfold vset, vsize, normalize in *. eapply Nat.le_trans; [apply upto_len|].
  rewrite upd_length, pad_length. lia.
Qed.
Lemma vsize_nonzero v i : vget v i <> 0 -> (i < vsize v)%nat.
Proof. intros H. unfold vsize. destruct (Nat.lt_ge_cases i (length v)); auto. rewrite vget_out in H by auto. contradiction. Qed.
Lemma vsize_last v : vwf v -> (1 < vsize v)%nat -> vget v (vsize v - 1) <> 0.
Proof.
  intros [W|W] L; unfold vsize in *; [lia|]. rewrite vget_nth. replace (length v - 1)%nat with (pred (length v)) by lia. rewrite last_nth in W. exact W.
Qed.

Lemma size_to_range_spec fuel : forall d v, vwf v -> (vsize v - d < fuel)%nat ->
  match size_to_range_loop fuel d v with
  | Some b => (forall i, (d <= i < vsize v)%nat -> vget v i <> 0) /\ (vsize b <= vsize v)%nat /\
      (forall i, (d <= i)%nat -> vget b i = vget v i - Z.sgn (vget v i)) /\
      (forall i, (i < d)%nat -> vget b i = vget v i)
  | None => exists i, (d <= i < vsize v)%nat /\ vget v i = 0
  end.
Proof.
  induction fuel as [|f IH]; intros d v W L; [lia|]. cbn [size_to_range_loop].
  destruct (Nat.ltb_spec d (vsize v)) as [Ld|Ld].
  2: { split; [intros; lia|]. split; [lia|]. split; [|auto]. intros i Hi. rewrite !vget_out by (unfold vsize in *; lia). reflexivity. }
  assert (K : forall x, vget v d <> 0 -> x = vget v d - Z.sgn (vget v d) ->
    match size_to_range_loop f (S d) (vset v d x) with
    | Some b => (forall i, (d <= i < vsize v)%nat -> vget v i <> 0) /\ (vsize b <= vsize v)%nat /\
        (forall i, (d <= i)%nat -> vget b i = vget v i - Z.sgn (vget v i)) /\
        (forall i, (i < d)%nat -> vget b i = vget v i)
    | None => exists i, (d <= i < vsize v)%nat /\ vget v i = 0
    end).
  { intros x N Ex. pose proof (vsize_vset v d x Ld) as Lx.
    assert (Sz : forall i, (S d <= i < vsize v)%nat -> (i < vsize (vset v d x))%nat).
    { intros i Hi. assert (Z1 : vget (vset v d x) (vsize v - 1) <> 0).
      { rewrite vget_vset. destruct (Nat.eqb_spec (vsize v - 1) d); [lia|]. apply vsize_last; auto. lia. }
      apply vsize_nonzero in Z1. lia. }
    specialize (IH (S d) (vset v d x) (vset_wf _ _ _)).
    destruct (size_to_range_loop f (S d) (vset v d x)) as [b|].
    - destruct IH as (A & B & C & D); [lia|]. split; [|split; [lia|split]].
      + intros i Hi. destruct (Nat.eq_dec i d) as [->|Ni]; [exact N|].
        specialize (A i). rewrite vget_vset in A. destruct (Nat.eqb_spec i d); [lia|]. apply A. split; [lia|apply Sz; lia].
      + intros i Hi. destruct (Nat.eq_dec i d) as [->|Ni].
        * rewrite D by lia. rewrite vget_vset, Nat.eqb_refl. exact Ex.
        * rewrite C by lia. rewrite vget_vset. destruct (Nat.eqb_spec i d); [lia|reflexivity].
      + intros i Hi. rewrite D by lia. rewrite vget_vset. destruct (Nat.eqb_spec i d); [lia|reflexivity].
    - destruct IH as (i & Hi & Z1); [lia|]. exists i. split; [lia|].
      rewrite vget_vset in Z1. destruct (Nat.eqb_spec i d); [lia|exact Z1]. }
  rewrite !Z.gtb_ltb. destruct (Z.ltb_spec 0 (vget v d)); [apply K; lia|].
  destruct (Z.ltb_spec (vget v d) 0); [apply K; lia|]. exists d. split; [lia|lia].
Qed.
(** A size without zeros. *)
Lemma size_to_range_some n v size : (1 <= n)%nat -> vwf v ->
  (forall i, (i < n)%nat -> vget v i = size i /\ size i <> 0) -> (forall i, (n <= i)%nat -> vget v i = 0) ->
  exists b, size_to_range v = Some b /\ (vsize b <= n)%nat /\
    (forall i, (i < n)%nat -> vget b i = size i - Z.sgn (size i)).
Proof.
  intros N W A B.
  assert (Sz : vsize v = n).
  { apply Nat.le_antisymm.
    - destruct (Nat.le_gt_cases (vsize v) n) as [|X]; auto. exfalso.
      destruct (Nat.le_gt_cases (vsize v) 1); [lia|]. apply (vsize_last v W); [lia|]. apply B. lia.
    - destruct (A (n - 1)%nat ltac:(lia)) as (X & Y). rewrite <- X in Y. apply vsize_nonzero in Y. lia. }
  pose proof (size_to_range_spec (S (vsize v)) 0 v W ltac:(lia)) as H. unfold size_to_range.
  destruct (size_to_range_loop _ 0 v) as [b|].
  - destruct H as (_ & H1 & H2 & _). exists b. split; [reflexivity|]. split; [lia|].
    intros i Hi. rewrite H2 by lia. destruct (A i Hi) as (-> & _). reflexivity.
  - destruct H as (i & Hi & Z0). destruct (A i ltac:(lia)). congruence.
Qed.
(** A size with a zero before a non-zero, or all zero. *)
Lemma size_to_range_none v : vwf v -> v <> [] ->
  (forall i, vget v i = 0) \/ (exists i j, (i < j)%nat /\ vget v i = 0 /\ vget v j <> 0) ->
  size_to_range v = None.
Proof.
  intros W Nv H. pose proof (size_to_range_spec (S (vsize v)) 0 v W ltac:(lia)) as K. unfold size_to_range.
  destruct (size_to_range_loop _ 0 v) as [b|]; [|reflexivity]. exfalso. destruct K as (K & _).
  destruct H as [H|(i & j & Hij & Hi & Hj)].
  - apply (K 0%nat); [|apply H]. unfold vsize. destruct v; [contradiction|cbn; lia].
  - apply vsize_nonzero in Hj. apply (K i); [lia|exact Hi].
Qed.

Lemma toys_operands s l : dims_of s <> O -> Holds s l -> exists s' dest size src,
  (forall A (k : vec -> vec -> vec -> M A), (dest <- popVec ;; size <- popVec ;; src <- popVec ;; k dest size src) s = k dest size src s') /\
  Only_stack s s' (skipn (3 * dims_of s) l) /\
  (forall i, vget dest i = dest_of s l i) /\ (forall i, vget size i = size_of s l i) /\ (forall i, vget src i = src_of s l i) /\
  vwf size /\ size <> [].
Proof.
  intros D0 H. destruct (popVec_plain s l H) as (s1 & v1 & E1 & C1 & G1 & _).
  pose proof (Only_stack_holds _ _ _ _ H C1) as H1.
  assert (Ds : forall s1 l1, Only_stack s s1 l1 -> dims_of s1 = dims_of s).
  { intros s0 l1 X. unfold dims_of. now rewrite (Only_stack_w _ _ _ X), (Only_stack_r _ _ _ X). }
  destruct (popVec_plain s1 _ H1) as (s2 & v2 & E2 & C2 & G2 & W2). rewrite (Ds _ _ C1) in *.
  pose proof (Only_stack_holds _ _ _ _ H1 C2) as H2. pose proof (Only_stack_trans _ _ _ _ _ C1 C2) as O2.
  destruct (popVec_plain s2 _ H2) as (s3 & v3 & E3 & C3 & G3 & _). rewrite (Ds _ _ O2) in *.
  pose proof (Only_stack_trans _ _ _ _ _ O2 C3) as O3.
  assert (SK : forall a b (x : list Z), skipn a (skipn b x) = skipn (b + a) x).
  { intros a b x. revert x. induction b; intros x; cbn; auto. destruct x; [now rewrite !skipn_nil|]. apply IHb. }
  exists s3, v1, v2, v3. split.
  { intros A k. rewrite (run_bind _ _ _ _ _ E1), (run_bind _ _ _ _ _ E2), (run_bind _ _ _ _ _ E3). reflexivity. }
  split; [rewrite !SK in O3; replace (3 * dims_of s)%nat with (dims_of s + (dims_of s + dims_of s))%nat by lia; exact O3|].
  split; [exact G1|]. split; [exact G2|].
  split; [intros i; rewrite G3, SK; reflexivity|]. now apply W2.
Qed.

(** ** C, K, M and V *)

(** With a size that has no zero, and source and destination apart, the block is copied:
    C and K leave the source, M and V blank it, nothing else changes. *)
Theorem C49_partial : forall F D s fld l c,
  In c [67; 75; 77; 86] -> Letter s FP_TOYS fld c -> Holds s l -> dims_of s <> O ->
  (forall i, (i < dims_of s)%nat -> size_of s l i <> 0 /\ in64 (size_of s l i)) ->
  cells_of (dims_of s) (size_of s l) < Z.pos F ->
  (forall o, in_block (dims_of s) (size_of s l) o ->
     (forall i, in64 (src_of s l i + o i)) /\ (forall i, in64 (dest_of s l i + o i))) ->
  (forall o o', in_block (dims_of s) (size_of s l) o -> in_block (dims_of s) (size_of s l) o' ->
     ~ (forall i, src_of s l i + o i = dest_of s l i + o' i)) ->
  exists s1 s', execute F (S D) c s = Ok (ENone, s') /\
    Only_stack s s1 (skipn (3 * dims_of s) l) /\ Only_fields s1 s' /\
    (forall o q a, in_block (dims_of s) (size_of s l) o -> off (dest_of s l) o q -> off (src_of s l) o a ->
       cell s' fld q = cellval (chars s fld) (cell s fld a) /\
       cell s' fld a = (if (c =? 77) || (c =? 86) then 32 else cell s fld a)) /\
    (forall q, (forall o, in_block (dims_of s) (size_of s l) o -> ~ off (dest_of s l) o q) ->
       (forall o, in_block (dims_of s) (size_of s l) o -> ~ off (src_of s l) o q) ->
       cell s' fld q = cell s fld q) /\
    (forall n q, n <> fld -> cell s' n q = cell s n q).
Proof.
  intros F D s fld l c Hc L H D0 Sz Fu I DJ. rewrite (execute_letter F D _ _ _ _ L).
  change (fp_exec F FP_TOYS fld c s) with (toys_exec F fld c s).
  destruct (toys_operands s l D0 H) as (s1 & dest & size & src & Pop & O1 & Gd & Gs & Gc & Ws & Ns).
  set (n := dims_of s) in *.
  destruct (size_to_range_some n size (size_of s l)) as (b & Eb & Lb & Gb); auto; [lia| | |].
  { intros i Hi. split; [apply Gs|now apply Sz]. }
  { intros i Hi. rewrite Gs. unfold size_of, vec_of. fold n. destruct (Nat.ltb_spec i n); [lia|reflexivity]. }
  assert (Bz : forall i, (n <= i)%nat -> vget b i = 0) by (intros i Hi; apply vget_out; unfold vsize in Lb; lia).
  assert (BW : forall o, between n (vget b) o <-> in_block n (size_of s l) o).
  { intros o. unfold between, in_block. split; intros (A & B); (split; [|exact B]); intros i Hi; specialize (A i Hi);
      destruct (Sz i Hi) as (Nz & _); rewrite Gb in * by auto; lia. }
  assert (Sb : vsmall b).
  { intros i. destruct (Nat.lt_ge_cases i n) as [Hi|Hi].
    - rewrite Gb by auto. destruct (Sz i Hi) as (Nz & X). unfold in64, INT64_MIN, INT64_MAX in *. lia.
    - rewrite Bz by auto. unfold INT64_MIN, INT64_MAX. lia. }
  assert (Vb : volume n (vget b) = cells_of n (size_of s l)).
  { unfold volume, cells_of. f_equal. apply map_ext_in. intros i Hi. apply in_seq in Hi. rewrite Gb by lia.
    destruct (Sz i ltac:(lia)). lia. }
  assert (W1 : s_w s1 = s_w s) by exact (Only_stack_w _ _ _ O1).
  assert (CE : forall m q, cell s1 m q = cell s m q) by (intros; unfold cell; now rewrite W1).
  assert (CH : forall m, chars s1 m = chars s m) by (intros; unfold chars; now rewrite W1).
  assert (Run : forall low move, toys_exec F fld c s = toys_copy_instr F fld low move s ->
    move = (c =? 77) || (c =? 86) ->
    exists s', toys_exec F fld c s = Ok (ENone, s') /\ Only_fields s1 s' /\
      (forall o q a, in_block n (size_of s l) o -> off (dest_of s l) o q -> off (src_of s l) o a ->
         cell s' fld q = cellval (chars s fld) (cell s fld a) /\
         cell s' fld a = (if (c =? 77) || (c =? 86) then 32 else cell s fld a)) /\
      (forall q, (forall o, in_block n (size_of s l) o -> ~ off (dest_of s l) o q) ->
         (forall o, in_block n (size_of s l) o -> ~ off (src_of s l) o q) ->
         cell s' fld q = cell s fld q) /\
      (forall m q, m <> fld -> cell s' m q = cell s m q)).
  { intros low move -> Mv. unfold toys_copy_instr. rewrite Pop. unfold toys_copy. rewrite Eb.
    destruct (range_copy F fld fld src dest move n b low s1) as (s' & E & O & A & B & C); auto; try lia.
    { intros o Ho. apply BW in Ho. destruct (I o Ho) as (I1 & I2). split; intros i; [rewrite Gc|rewrite Gd]; auto. }
    { intros _ o o' Ho Ho' X. apply BW in Ho, Ho'. apply (DJ o o' Ho Ho'). intros i. rewrite <- Gc, <- Gd. apply X. }
    assert (E' : (let '(x, y) := if low then (mkvec [0], b) else (b, mkvec [0]) in
      rangeM F x y (fun p => s <- lift (vadd src p);; i <- fget fld s;; d <- lift (vadd dest p);;
        fput fld d i;;; (if move then fput fld s 32 else ret tt))) s1 = Ok (tt, s')).
    { destruct low; exact E. }
    rewrite (run_bind _ _ _ _ _ E'). exists s'. split; [reflexivity|]. split; [exact O|].
    assert (OD : forall o q, off (vget dest) o q <-> off (dest_of s l) o q).
    { intros o q. unfold off. split; intros X i; [rewrite <- Gd|rewrite Gd]; apply X. }
    assert (OS : forall o q, off (vget src) o q <-> off (src_of s l) o q).
    { intros o q. unfold off. split; intros X i; [rewrite <- Gc|rewrite Gc]; apply X. }
    split; [|split].
    - intros o q a Ho Q Qa. apply BW in Ho. split.
      + rewrite (A o q a) by (auto; first [now apply OD|now apply OS]). now rewrite CH, CE.
      + rewrite <- Mv. destruct move.
        * apply (B eq_refl o a); auto. now apply OS.
        * rewrite C; [apply CE| |discriminate]. intros _ o' Ho' X. apply (DJ o o'); [now apply BW|now apply BW|].
          apply OD in X. intros i. now rewrite <- X, <- Qa.
    - intros q X Y. rewrite C; [apply CE| |].
      + intros _ o Ho Z. apply (X o); [now apply BW|now apply OD].
      + intros _ _ o Ho Z. apply (Y o); [now apply BW|now apply OS].
    - intros m q X. rewrite C; [apply CE| |]; intros; congruence. }
  assert (Sel : exists low move, toys_exec F fld c s = toys_copy_instr F fld low move s /\ move = (c =? 77) || (c =? 86)).
  { destruct Hc as [<-|[<-|[<-|[<-|[]]]]]; do 2 eexists; (split; [reflexivity|reflexivity]). }
  destruct Sel as (low & move & Sel & Mv). destruct (Run low move Sel Mv) as (s' & E & O & A & B & C).
  exists s1, s'. split; [exact E|]. split; [exact O1|]. split; [exact O|]. split; [exact A|]. split; [exact B|exact C].
Qed.

(** A size that is zero, or has a zero before a non-zero coordinate, changes no cell. *)
Theorem C49_zero_partial : forall F D s fld l c,
  In c [67; 75; 77; 86] -> Letter s FP_TOYS fld c -> Holds s l -> dims_of s <> O ->
  (forall i, size_of s l i = 0) \/ (exists i j, (i < j)%nat /\ size_of s l i = 0 /\ size_of s l j <> 0) ->
  exists s', execute F (S D) c s = Ok (ENone, s') /\ Only_stack s s' (skipn (3 * dims_of s) l).
Proof.
  intros F D s fld l c Hc L H D0 Z0. rewrite (execute_letter F D _ _ _ _ L).
  change (fp_exec F FP_TOYS fld c s) with (toys_exec F fld c s).
  destruct (toys_operands s l D0 H) as (s1 & dest & size & src & Pop & O1 & Gd & Gs & Gc & Ws & Ns).
  exists s1. split; [|exact O1].
  assert (Sel : exists low move, toys_exec F fld c s = toys_copy_instr F fld low move s).
  { destruct Hc as [<-|[<-|[<-|[<-|[]]]]]; do 2 eexists; reflexivity. }
  destruct Sel as (low & move & ->). unfold toys_copy_instr. rewrite Pop. unfold toys_copy.
  rewrite size_to_range_none; [reflexivity|exact Ws|exact Ns|].
  destruct Z0 as [Z0|(i & j & A & B & C)]; [left; intros; rewrite Gs; auto|right; exists i, j; rewrite !Gs; auto].
Qed.

(** The property as stated is false: with the size 3 by 0 three cells are copied. *)
Definition toys_row (l : list Z) : st :=
  let s := loaded [FP_TOYS] l in
  {| s_w := upd_uni 0 (set_u_field (f_put (mkvec [2; 5]) 67 (f_put (mkvec [1; 5]) 66 (f_put (mkvec [0; 5]) 65 (field_empty 2 false))))) (s_w s);
     s_r := s_r s |}.
Theorem C49_refuted : let s := toys_row [9; 0; 0; 3; 5; 0] in
  Letter s FP_TOYS 0 67 /\ Holds s [9; 0; 0; 3; 5; 0] /\
  cells_of (dims_of s) (size_of s [9; 0; 0; 3; 5; 0]) = 0 /\
  match execute 100 1 67 s with
  | Ok (ENone, s') => map (fun x => cell s 0 (mkvec [x; 9])) [0; 1; 2] = [32; 32; 32] /\
      map (fun x => cell s' 0 (mkvec [x; 9])) [0; 1; 2] = [65; 66; 67]
  | _ => False
  end.
Proof.
  cbv zeta. split; [apply letterb_ok; vm_compute; reflexivity|].
  split. { exists (match ss_top (mySS (toys_row [9; 0; 0; 3; 5; 0])) with Ok k => k | Bad _ => stk_new end).
    split; [vm_compute; reflexivity|]. split; [split; vm_compute; reflexivity|]. vm_compute; reflexivity. }
  split; [vm_compute; reflexivity|]. vm_compute. auto.
Qed.

(** A 3 by 2 block from (0,5) to (1,9). *)
Example C49_ex : let s := toys_row [9; 1; 2; 3; 5; 0] in let l := [9; 1; 2; 3; 5; 0] in
  Letter s FP_TOYS 0 77 /\ Holds s l /\ dims_of s = 2%nat /\
  (forall i, (i < 2)%nat -> size_of s l i <> 0 /\ in64 (size_of s l i)) /\
  cells_of 2 (size_of s l) = 6 /\
  (forall o o', in_block 2 (size_of s l) o -> in_block 2 (size_of s l) o' ->
     ~ (forall i, src_of s l i + o i = dest_of s l i + o' i)) /\
  match execute 100 1 77 s with
  | Ok (ENone, s') => map (fun x => cell s' 0 (mkvec [x; 9])) [0; 1; 2; 3; 4] = [32; 65; 66; 67; 32] /\
      map (fun x => cell s' 0 (mkvec [x; 5])) [0; 1; 2] = [32; 32; 32]
  | _ => False
  end.
Proof.
  cbv zeta. split; [apply letterb_ok; vm_compute; reflexivity|].
  split. { exists (match ss_top (mySS (toys_row [9; 1; 2; 3; 5; 0])) with Ok k => k | Bad _ => stk_new end).
    split; [vm_compute; reflexivity|]. split; [split; vm_compute; reflexivity|]. vm_compute; reflexivity. }
  split; [vm_compute; reflexivity|].
  split. { intros [|[|i]] Hi; [| |lia]; vm_compute; split; try split; discriminate. }
  split; [vm_compute; reflexivity|].
  split. { intros o o' (A & _) (B & _) X. specialize (A 1%nat ltac:(lia)). specialize (B 1%nat ltac:(lia)). specialize (X 1%nat).
    change (size_of _ _ 1%nat) with 2 in A, B. change (src_of _ _ 1%nat) with 5 in X. change (dest_of _ _ 1%nat) with 9 in X. lia. }
  vm_compute. auto.
Qed.
Print Assumptions C49_partial.
Print Assumptions C49_zero_partial.
Print Assumptions C49_refuted.
