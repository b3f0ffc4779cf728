(** * Properties C104 and C105: the other instructions of TOYS *)

From Coq Require Import String ZArith List Bool Lia.
From Verif Require Import Base BaseProofs VectorModel VectorProofs RangeModel RangeProofs TextModel TextProofs
  StackModel StackProofs FieldModel FieldProofs World IpModel LoadModel FingModel CoreModel
  UniModel IpProofs ExecProofs FlowProofs States PropsStack PropsTurn PropsBlocks Effects SchedProofs PropsIO
  CopyProofs PropsFing PropsCopy PropsStrn PropsMath PropsSpace PropsAxes PropsToys.
Import ListNotations.
Open Scope Z_scope.
Local Notation length := List.length.

(** ** C104 Arithmetic *)

(** D, I and N. *)
Definition toys_unary : list (Z * (Z -> Z)) :=
  [(68, fun a => a - 1); (73, fun a => a + 1); (78, fun a => if a =? 0 then 1 else 0)].
Theorem C104_unary : forall F D s c f l, In (c, f) toys_unary -> Ready s FP_TOYS c l ->
  (in64 (f (at_top l 0)) -> exists s', execute F (S D) c s = Ok (ENone, s') /\ Only_stack s s' (f (at_top l 0) :: skipn 1 l)) /\
  (~ in64 (f (at_top l 0)) -> execute F (S D) c s = Bad BadOverflow).
Proof.
  intros F D s c f l I ((fld & L) & H). rewrite (execute_letter F D _ _ _ _ L).
  change (fp_exec F FP_TOYS fld c s) with (toys_exec F fld c s).
  destruct I as [[= <- <-]|[[= <- <-]|[[= <- <-]|[]]]].
  - change (toys_exec F fld 68) with (unop (fun a => sub64 a 1)). split; intros N.
    + apply unop_run; auto. now apply chk64_ok.
    + apply (unop_bad _ s l _ H). unfold sub64, chk64, in64b. unfold in64 in N.
      destruct (_ <=? _) eqn:A; [|reflexivity]. destruct (_ <=? INT64_MAX) eqn:B; [|reflexivity]. exfalso. apply N. lia.
  - change (toys_exec F fld 73) with (unop (fun a => add64 a 1)). split; intros N.
    + apply unop_run; auto. now apply chk64_ok.
    + apply (unop_bad _ s l _ H). unfold add64, chk64, in64b. unfold in64 in N.
      destruct (_ <=? _) eqn:A; [|reflexivity]. destruct (_ <=? INT64_MAX) eqn:B; [|reflexivity]. exfalso. apply N. lia.
  - change (toys_exec F fld 78) with (unop (pure1 (fun a => bz (a =? 0)))). split; intros N.
    + apply unop_run; auto.
    + exfalso. apply N. destruct (_ =? _); unfold in64, INT64_MIN, INT64_MAX; lia.
Qed.
(** A makes copies, B is the butterfly. *)
Lemma rep_push a : forall n s l, Holds s l -> exists s', repM n (pushS a) s = Ok (tt, s') /\ Only_stack s s' (repeat a n ++ l).
Proof.
  induction n as [|n IH]; intros s l H.
  - exists s. split; [reflexivity|now apply Only_stack_refl].
  - cbn [repM]. destruct (pushS_plain s l a H) as (s1 & E1 & O1). rewrite (run_bind _ _ _ _ _ E1).
    destruct (IH s1 _ (Only_stack_holds _ _ _ _ H O1)) as (s2 & E2 & O2). exists s2. split; [exact E2|].
    replace (repeat a (S n) ++ l) with (repeat a n ++ a :: l); [exact (Only_stack_trans _ _ _ _ _ O1 O2)|].
    change (a :: l) with ([a] ++ l). rewrite app_assoc. f_equal. symmetry. apply repeat_cons.
Qed.
Theorem C104_copies : forall F D s l, Ready s FP_TOYS 65 l ->
  exists s', execute F (S D) 65 s = Ok (ENone, s') /\
    Only_stack s s' (repeat (at_top l 1) (Z.to_nat (at_top l 0)) ++ skipn 2 l).
Proof.
  intros F D s l ((fld & L) & H). rewrite (execute_letter F D _ _ _ _ L).
  change (fp_exec F FP_TOYS fld 65) with (n <- popS ;; a <- popS ;; repM (Z.to_nat n) (pushS a) ;;; ok).
  xpop. xpop. rewrite hd_tl_nth, hd_nth. rewrite tl_tl_skip in *.
  destruct (rep_push (nth 1 l 0) (Z.to_nat (nth 0 l 0)) s1 _ H1) as (s2 & E2 & O2). rewrite (run_bind _ _ _ _ _ E2).
  exists s2. split; [reflexivity|]. os_finish.
Qed.
Theorem C104_butterfly : forall F D s l, Ready s FP_TOYS 66 l ->
  in64 (at_top l 1 + at_top l 0) -> in64 (at_top l 1 - at_top l 0) ->
  exists s', execute F (S D) 66 s = Ok (ENone, s') /\
    Only_stack s s' (at_top l 1 - at_top l 0 :: at_top l 1 + at_top l 0 :: skipn 2 l).
Proof.
  intros F D s l ((fld & L) & H) I1 I2. rewrite (execute_letter F D _ _ _ _ L).
  change (fp_exec F FP_TOYS fld 66) with (b <- popS ;; a <- popS ;; x <- lift (add64 a b) ;; pushS x ;;;
    y <- lift (sub64 a b) ;; pushS y ;;; ok).
  xpop. xpop. rewrite hd_tl_nth, hd_nth. rewrite tl_tl_skip in *.
  rewrite (run_bind _ _ _ _ _ (run_lift _ _ s1 (chk64_ok _ I1))). xpush.
  rewrite (run_bind _ _ _ _ _ (run_lift _ _ s2 (chk64_ok _ I2))). xpush.
  exists s3. split; [reflexivity|os_finish].
Qed.
(** E replaces the whole stack by its sum, P by its product, as long as no intermediate
    result overflows. *)
Definition toys_fold_ops : list (Z * (Z -> Z -> Z) * Z) := [(69, Z.add, 0); (80, Z.mul, 1)].
Lemma fold_pops op f : (forall a x, in64 (op a x) -> f a x = Ok (op a x)) -> forall l s acc,
  Holds s l -> (forall k, (k <= length l)%nat -> in64 (fold_left op (firstn k l) acc)) ->
  exists s', toys_fold (length l) f acc s = Ok (fold_left op l acc, s') /\ Only_stack s s' [].
Proof.
  intros Hf. induction l as [|x l IH]; intros s acc H I.
  - exists s. split; [reflexivity|now apply Only_stack_refl].
  - cbn [length toys_fold]. xpop. cbn [hd tl] in *.
    pose proof (I 1%nat ltac:(cbn; lia)) as I1. cbn in I1.
    rewrite (run_bind _ _ _ _ _ (run_lift _ _ s0 (Hf _ _ I1))).
    destruct (IH s0 (op acc x) H0) as (s' & E' & O).
    { intros k Hk. specialize (I (S k) ltac:(cbn; lia)). exact I. }
    exists s'. split; [exact E'|]. os_finish.
Qed.
Lemma sizeS_plain s l : Holds s l -> exists s', sizeS s = Ok (Z.of_nat (length l), s') /\ Only_stack s s' l.
Proof.
  intros (k & E & P & L). unfold sizeS, onStack, TOP. unfold ss_top in E. fold (mySS s). rewrite E. cbn [fst snd].
  unfold stk_size. rewrite L. eexists. split; [reflexivity|]. exists k, k. auto.
Qed.
Theorem C104_fold : forall F D s c op unit l, In (c, op, unit) toys_fold_ops -> Ready s FP_TOYS c l ->
  (forall k, (k <= length l)%nat -> in64 (fold_left op (firstn k l) unit)) ->
  exists s', execute F (S D) c s = Ok (ENone, s') /\ Only_stack s s' [fold_right op unit l].
Proof.
  intros F D s c op un l I ((fld & L) & H) K. rewrite (execute_letter F D _ _ _ _ L).
  change (fp_exec F FP_TOYS fld c s) with (toys_exec F fld c s).
  destruct (sizeS_plain s l H) as (s0 & Sz & O0). pose proof (Only_stack_holds _ _ _ _ H O0) as H0.
  assert (G : forall f, (forall a x, in64 (op a x) -> f a x = Ok (op a x)) ->
    fold_left op l un = fold_right op un l ->
    toys_exec F fld c s = (n <- sizeS ;; x <- toys_fold (Z.to_nat n) f un ;; pushS x ;;; ok) s ->
    exists s', toys_exec F fld c s = Ok (ENone, s') /\ Only_stack s s' [fold_right op un l]).
  { intros f Hf Hs ->. rewrite (run_bind _ _ _ _ _ Sz), Nat2Z.id.
    destruct (fold_pops op f Hf l s0 un H0 K) as (s1 & E1 & O1). rewrite (run_bind _ _ _ _ _ E1), Hs.
    pose proof (Only_stack_holds _ _ _ _ H0 O1) as H1. destruct (pushS_plain s1 _ (fold_right op un l) H1) as (s2 & E2 & O2).
    rewrite (run_bind _ _ _ _ _ E2). exists s2. split; [reflexivity|].
    exact (Only_stack_trans _ _ _ _ _ (Only_stack_trans _ _ _ _ _ O0 O1) O2). }
  destruct I as [[= <- <- <-]|[[= <- <- <-]|[]]].
  - apply (G add64); [intros; now apply chk64_ok| |reflexivity]. apply fold_symmetric; intros; lia.
  - apply (G mul64); [intros; now apply chk64_ok| |reflexivity]. apply fold_symmetric; intros; lia.
Qed.
Example C104_ex : Ready (loaded [FP_TOYS] [3; 7; 1]) FP_TOYS 65 [3; 7; 1] /\ repeat 7 (Z.to_nat 3) ++ [1] = [7; 7; 7; 1] /\
  Ready (loaded [FP_TOYS] [3; 7; 1]) FP_TOYS 66 [3; 7; 1] /\ Ready (loaded [FP_TOYS] [3; 7; 1]) FP_TOYS 69 [3; 7; 1] /\
  Ready (loaded [FP_TOYS] [3; 7; 1]) FP_TOYS 78 [3; 7; 1] /\ fold_right Z.mul 1 [3; 7; 1] = 21 /\
  (forall k, (k <= 3)%nat -> in64 (fold_left Z.mul (firstn k [3; 7; 1]) 1)).
Proof.
  split; [demo|]. split; [reflexivity|]. split; [demo|]. split; [demo|]. split; [demo|]. split; [reflexivity|].
  intros [|[|[|[|k]]]] L; [..|lia]; cbn; unfold in64, INT64_MIN, INT64_MAX; lia.
Qed.
Print Assumptions C104_unary.
Print Assumptions C104_copies.
Print Assumptions C104_butterfly.
Print Assumptions C104_fold.

(** ** C105 Looking around and moving *)

(** The direction to the IP's left and right, and behind it. *)
Definition beside (c : Z) (d : nat -> Z) (i : nat) : Z :=
  if c =? 76 then match i with 0%nat => d 1%nat | 1%nat => - d 0%nat | _ => d i end
  else if c =? 82 then match i with 0%nat => - d 1%nat | 1%nat => d 0%nat | _ => d i end
  else - d i.
Notation delta_of s := (vget (r_delta (s_r s))).
Notation pos_of s := (vget (r_pos (s_r s))).

Theorem C105_look : forall F D s fld c l q, In c [76; 82] -> Letter s FP_TOYS fld c -> Holds s l ->
  (forall i, in64 (beside c (delta_of s) i)) -> (forall i, in64 (pos_of s i + beside c (delta_of s) i)) ->
  (forall i, vget q i = pos_of s i + beside c (delta_of s) i) ->
  exists s', execute F (S D) c s = Ok (ENone, s') /\ Only_stack s s' (cell s fld q :: l).
Proof.
  intros F D s fld c l q Hc L H I1 I2 Q. rewrite (execute_letter F D _ _ _ _ L).
  change (fp_exec F FP_TOYS fld c s) with (toys_exec F fld c s).
  assert (G : forall turn d, turn (r_delta (s_r s)) = Ok d -> (forall i, vget d i = beside c (delta_of s) i) ->
    toys_exec F fld c s = toys_side fld turn s -> exists s', toys_exec F fld c s = Ok (ENone, s') /\ Only_stack s s' (cell s fld q :: l)).
  { intros turn d Ed Gd ->. unfold toys_side. rewrite (run_bind getDelta _ s (r_delta (s_r s)) s) by reflexivity.
    rewrite (run_bind _ _ _ _ _ (run_lift _ _ s Ed)). rewrite (run_bind getPos _ s (r_pos (s_r s)) s) by reflexivity.
    destruct (vadd_defined (r_pos (s_r s)) d) as (v & Ev); [intros i; rewrite Gd; auto|].
    rewrite (run_bind _ _ _ _ _ (run_lift _ _ s Ev)).
    rewrite (run_bind (fget fld v) _ s (cell s fld v) s) by reflexivity.
    replace (cell s fld v) with (cell s fld q).
    2: { unfold cell. apply f_get_ext. intros i. rewrite (vadd_get _ _ _ Ev), Gd. apply Q. }
    xpush. exists s0. split; [reflexivity|exact C]. }
  destruct Hc as [<-|[<-|[]]].
  - destruct (vleft_ok (r_delta (s_r s)) (I1 1%nat)) as (d & Ed). apply (G vleft d Ed); [|reflexivity].
    intros i. rewrite (proj2 (proj2 (vleft_get _ _ Ed))). reflexivity.
  - destruct (vright_ok (r_delta (s_r s)) (I1 0%nat)) as (d & Ed). apply (G vright d Ed); [|reflexivity].
    intros i. rewrite (proj2 (proj2 (vright_get _ _ Ed))). reflexivity.
Qed.
(** Q stores behind the IP. *)
Theorem C105_store : forall F D s fld l, Letter s FP_TOYS fld 81 -> Holds s l -> vwf (r_delta (s_r s)) ->
  (forall i, in64 (- delta_of s i)) -> (forall i, in64 (pos_of s i - delta_of s i)) ->
  exists s' f', execute F (S D) 81 s = Ok (ENone, s') /\ Space_and_stack s s' fld f' (skipn 1 l) /\
    (forall q, (forall i, vget q i = pos_of s i - delta_of s i) -> f_get f' q = cellval (f_char (field_of s fld)) (at_top l 0)) /\
    (forall q, ~ (forall i, vget q i = pos_of s i - delta_of s i) -> f_get f' q = f_get (field_of s fld) q).
Proof.
  intros F D s fld l L H W I1 I2. rewrite (execute_letter F D _ _ _ _ L).
  change (fp_exec F FP_TOYS fld 81) with (d0 <- getDelta ;; d <- lift (vrev d0) ;; p <- getPos ;; v <- lift (vadd p d) ;;
    a <- popS ;; fput fld v a ;;; ok).
  destruct (vrev_ok _ W I1) as (d & Ed & _ & _ & Gd).
  rewrite (run_bind getDelta _ s (r_delta (s_r s)) s) by reflexivity.
  rewrite (run_bind _ _ _ _ _ (run_lift _ _ s Ed)). rewrite (run_bind getPos _ s (r_pos (s_r s)) s) by reflexivity.
  destruct (vadd_defined (r_pos (s_r s)) d) as (v & Ev); [intros i; rewrite Gd; apply I2|].
  rewrite (run_bind _ _ _ _ _ (run_lift _ _ s Ev)). xpop. rewrite hd_nth, tl_skip in *.
  destruct (sas_put s0 fld v (nth 0 l 0) (skipn 1 l) H0) as (s' & E' & S'). rewrite (run_bind _ _ _ _ _ E').
  assert (Ff : field_of s0 fld = field_of s fld) by (unfold field_of; now rewrite (Only_stack_w _ _ _ C)).
  rewrite Ff in S'. exists s', (f_put v (nth 0 l 0) (field_of s fld)). split; [reflexivity|].
  split; [exact (sas_trans _ _ _ _ _ _ _ _ (sas_stack s s0 fld _ C) S')|].
  assert (Gv : forall i, vget v i = pos_of s i - delta_of s i) by (intros i; rewrite (vadd_get _ _ _ Ev), Gd; lia).
  split.
  - intros q Q. apply f_get_put_same. intros i. now rewrite Gv, Q.
  - intros q N. apply f_get_put_other. intros X. apply N. intros i. now rewrite <- X, Gv.
Qed.
(** T: the direction of the popped dimension, or failure if the universe has no such
    dimension. *)
Theorem C105_axis_partial : forall F D s l n, n = at_top l 0 -> Ready s FP_TOYS 84 l -> NoHover s -> 0 <= n < 2 ^ 32 ->
  (n < Z.of_nat (dims_of s) -> exists s' d, execute F (S D) 84 s = Ok (ENone, s') /\ Delta_and_stack s s' d (skipn 2 l) /\
     forall i, vget d i = unit_vec (Z.to_nat n) (if at_top l 1 =? 0 then 1 else -1) i) /\
  (Z.of_nat (dims_of s) <= n -> exists s', execute F (S D) 84 s = Ok (EUnspec, s') /\ Only_stack s s' (skipn 2 l)).
Proof.
  intros F D s l n En ((fld & L) & H) NH Hn. rewrite (execute_letter F D _ _ _ _ L).
  change (fp_exec F FP_TOYS fld 84) with (n <- popS ;; x <- popS ;;
    v <- lift (vsetZ [] (to_u64 n) (if x =? 0 then 1 else -1)) ;;
    cf <- getC ;; if Z.of_nat (c_dims cf) >? to_u64 n then ipSetDelta v ;;; ok else reterr EUnspec).
  xpop. xpop. rewrite hd_tl_nth, hd_nth, tl_tl_skip in *. rewrite <- En.
  assert (U : to_u64 n = n) by (unfold to_u64; apply Z.mod_small; lia). rewrite U.
  set (sg := if nth 1 l 0 =? 0 then 1 else -1).
  assert (V : vsetZ [] n sg = Ok (vset [] (Z.to_nat n) sg)).
  { unfold vsetZ. rewrite (proj2 (Z.leb_le 0 n)), (proj2 (Z.ltb_lt n (2 ^ 32))) by lia. reflexivity. }
  rewrite (run_bind _ _ _ _ _ (run_lift _ _ s1 V)).
  assert (O : Only_stack s s1 (skipn 2 l)) by os_finish.
  rewrite (run_bind getC _ s1 (u_cfg (w_uni (s_w s1) (r_uni (s_r s1)))) s1) by reflexivity.
  assert (Dm : c_dims (u_cfg (w_uni (s_w s1) (r_uni (s_r s1)))) = dims_of s).
  { unfold dims_of. now rewrite (Only_stack_w _ _ _ O), (Only_stack_r _ _ _ O). }
  rewrite Dm, Z.gtb_ltb. split; intros Hd.
  - rewrite (proj2 (Z.ltb_lt _ _) Hd). destruct (setdelta_plain s1 (vset [] (Z.to_nat n) sg) (nohover_only _ _ _ O NH)) as (s' & E' & D').
    rewrite (run_bind _ _ _ _ _ E'). exists s', (vset [] (Z.to_nat n) sg). split; [reflexivity|]. split; [exists s1; auto|].
    intros i. rewrite vget_vset. unfold unit_vec. destruct (Nat.eqb i (Z.to_nat n)); [reflexivity|]. apply vget_out. cbn. lia.
  - rewrite (proj2 (Z.ltb_ge _ _) Hd). exists s1. auto.
Qed.
(** With a negative dimension a vector of that size is built before the check. *)
Theorem C105_axis_refuted : forall F D s l, Ready s FP_TOYS 84 l -> - 2 ^ 63 <= at_top l 0 < 0 ->
  execute F (S D) 84 s = Bad BadThrow.
Proof.
  intros F D s l ((fld & L) & H) Hn. rewrite (execute_letter F D _ _ _ _ L).
  change (fp_exec F FP_TOYS fld 84) with (n <- popS ;; x <- popS ;;
    v <- lift (vsetZ [] (to_u64 n) (if x =? 0 then 1 else -1)) ;;
    cf <- getC ;; if Z.of_nat (c_dims cf) >? to_u64 n then ipSetDelta v ;;; ok else reterr EUnspec).
  xpop. xpop. rewrite hd_tl_nth, hd_nth in *. apply run_bind_bad. unfold lift, vsetZ.
  assert (U : 2 ^ 63 <= to_u64 (nth 0 l 0)).
  { unfold to_u64. rewrite <- (Z.mod_add _ 1) by lia. rewrite Z.mod_small; lia. }
  rewrite (proj2 (Z.ltb_ge _ (2 ^ 32))), andb_false_r; [reflexivity|]. lia.
Qed.
(** X, Y and Z step one cell in their dimension; without that dimension they fail. *)
Theorem C105_step : forall F D s c k l, In (c, k) [(88, 0%nat); (89, 1%nat); (90, 2%nat)] -> Ready s FP_TOYS c l ->
  ((k < dims_of s)%nat \/ k = 0%nat -> in64 (pos_of s k + 1) -> exists s' p, execute F (S D) c s = Ok (ENone, s') /\ Position_and_stack s s' p l /\
     forall i, vget p i = pos_of s i + if Nat.eqb i k then 1 else 0) /\
  ((dims_of s <= k)%nat -> k <> 0%nat -> execute F (S D) c s = Ok (EUnspec, s)).
Proof.
  intros F D s c k l I ((fld & L) & H). rewrite (execute_letter F D _ _ _ _ L).
  change (fp_exec F FP_TOYS fld c s) with (toys_exec F fld c s).
  assert (G : in64 (pos_of s k + 1) -> exists s' p, toys_inc k s = Ok (ENone, s') /\ Position_and_stack s s' p l /\
     forall i, vget p i = pos_of s i + if Nat.eqb i k then 1 else 0).
  { intros I1. unfold toys_inc. rewrite (run_bind getPos _ s (r_pos (s_r s)) s) by reflexivity.
    rewrite (run_bind _ _ _ _ _ (run_lift _ _ s (chk64_ok _ I1))).
    exists {| s_w := s_w s; s_r := set_r_pos (vset (r_pos (s_r s)) k (pos_of s k + 1)) (s_r s) |}, (vset (r_pos (s_r s)) k (pos_of s k + 1)).
    split; [reflexivity|]. split; [exists s; split; [now apply Only_stack_refl|reflexivity]|].
    intros i. rewrite vget_vset. destruct (Nat.eqb_spec i k) as [->|]; lia. }
  destruct I as [[= <- <-]|[[= <- <-]|[[= <- <-]|[]]]].
  - split; [intros _; exact G|intros _ N; congruence].
  - change (toys_exec F fld 89 s) with ((cf <- getC ;; if Nat.ltb 1 (c_dims cf) then toys_inc 1 else reterr EUnspec) s).
    rewrite (run_bind getC _ s (u_cfg (w_uni (s_w s) (r_uni (s_r s)))) s) by reflexivity. fold (dims_of s).
    split; [intros [A|A]; [|discriminate]; rewrite (proj2 (Nat.ltb_lt _ _) A); exact G|].
    intros A _. rewrite (proj2 (Nat.ltb_ge _ _) A). reflexivity.
  - change (toys_exec F fld 90 s) with ((cf <- getC ;; if Nat.ltb 2 (c_dims cf) then toys_inc 2 else reterr EUnspec) s).
    rewrite (run_bind getC _ s (u_cfg (w_uni (s_w s) (r_uni (s_r s)))) s) by reflexivity. fold (dims_of s).
    split; [intros [A|A]; [|discriminate]; rewrite (proj2 (Nat.ltb_lt _ _) A); exact G|].
    intros A _. rewrite (proj2 (Nat.ltb_ge _ _) A). reflexivity.
Qed.
(** U: a random direction among those of the first three dimensions; the instruction
    itself becomes the arrow for that direction. *)
Definition draws (s : st) (r : Z) : Prop :=
  (w_rnd (s_w s) (w_nrnd (s_w s)) mod 2 ^ 63) mod (2 * Z.of_nat (Nat.min (dims_of s) 3)) = r.
Definition same_place (s : st) (q : vec) : Prop := forall i, vget q i = pos_of s i.
Lemma random_run F D s fld l r : Letter s FP_TOYS fld 85 -> Holds s l -> NoHover s -> (1 <= dims_of s)%nat -> draws s r ->
  exists s' fish f', execute F (S D) 85 s = Ok (ENone, s') /\
    s_r s' = set_r_fish fish (set_r_delta (axis_dir r) (s_r s)) /\
    f' = f_put (r_pos (s_r s)) (toys_arrow r) (field_of s (r_uni (s_r s))) /\
    w_uni (s_w s') (r_uni (s_r s)) = set_u_field f' (w_uni (s_w s) (r_uni (s_r s))) /\
    (forall k, k <> r_uni (s_r s) -> w_uni (s_w s') k = w_uni (s_w s) k) /\
    s_w s' = set_w_uni (w_uni (s_w s')) (set_w_nrnd (S (w_nrnd (s_w s))) (s_w s)).
Proof.
  intros L H NH D1 R. rewrite (execute_letter F D _ _ _ _ L).
  change (fp_exec F FP_TOYS fld 85) with (x <- rnd ;; cf <- getC ;;
    let d := Z.of_nat (Nat.min (c_dims cf) 3) * 2 in
    if d =? 0 then fail BadDiv
    else let r := (x mod 2 ^ 63) mod d in ipPut (toys_arrow r) ;;; ipSetDelta (axis_dir r) ;;; ok).
  set (s1 := {| s_w := set_w_nrnd (S (w_nrnd (s_w s))) (s_w s); s_r := s_r s |}).
  rewrite (run_bind rnd _ s (w_rnd (s_w s) (w_nrnd (s_w s))) s1) by reflexivity.
  rewrite (run_bind getC _ s1 (u_cfg (w_uni (s_w s) (r_uni (s_r s)))) s1) by reflexivity. fold (dims_of s).
  cbv zeta. rewrite (Z.mul_comm _ 2). unfold draws in R. rewrite R.
  destruct (Z.eqb_spec (2 * Z.of_nat (Nat.min (dims_of s) 3)) 0) as [X|_]; [lia|].
  destruct (fput_run (r_uni (s_r s)) (r_pos (s_r s)) (toys_arrow r) s1) as (s2 & E2 & R2 & U2 & O2 & W2).
  rewrite (run_bind (ipPut (toys_arrow r)) _ s1 tt s2 E2).
  assert (NH2 : NoHover s2).
  { unfold NoHover. rewrite R2. cbn [s1 s_r]. rewrite U2. exact NH. }
  destruct (setdelta_plain s2 (axis_dir r) NH2) as (s3 & E3 & fish & C3). rewrite (run_bind _ _ _ _ _ E3).
  exists s3, fish, (f_put (r_pos (s_r s)) (toys_arrow r) (field_of s (r_uni (s_r s)))). split; [reflexivity|].
  rewrite C3. cbn [s_r s_w]. rewrite R2. split; [reflexivity|]. split; [reflexivity|]. split; [exact U2|]. split; [exact O2|]. exact W2.
Qed.
Theorem C105_random_partial : forall F D s l r, Ready s FP_TOYS 85 l -> NoHover s -> (1 <= dims_of s)%nat -> draws s r ->
  exists s' fish f' d axis sign arrow, execute F (S D) 85 s = Ok (ENone, s') /\
    (axis < dims_of s)%nat /\ (axis < 3)%nat /\ (sign = 1 \/ sign = -1) /\ r = 2 * Z.of_nat axis + (if sign =? 1 then 0 else 1) /\
    (forall i, vget d i = unit_vec axis sign i) /\ s_r s' = set_r_fish fish (set_r_delta d (s_r s)) /\
    In arrow [60; 62; 94; 118; 104; 108] /\ (forall i, dir_of false arrow i = unit_vec axis sign i) /\
    w_uni (s_w s') (r_uni (s_r s)) = set_u_field f' (w_uni (s_w s) (r_uni (s_r s))) /\
    (forall q, same_place s q -> f_get f' q = arrow) /\
    (forall q, ~ same_place s q -> f_get f' q = f_get (field_of s (r_uni (s_r s))) q) /\
    (forall k, k <> r_uni (s_r s) -> w_uni (s_w s') k = w_uni (s_w s) k) /\
    s_w s' = set_w_uni (w_uni (s_w s')) (set_w_nrnd (S (w_nrnd (s_w s))) (s_w s)).
Proof.
  intros F D s l r ((fld & L) & H) NH D1 R.
  destruct (random_run F D s fld l r L H NH D1 R) as (s' & fish & f' & E & Er & Ef & U & O & W).
  assert (B : 0 <= r < 2 * Z.of_nat (Nat.min (dims_of s) 3)) by (rewrite <- R; apply Z.mod_pos_bound; lia).
  exists s', fish, f', (axis_dir r), (Z.to_nat (r / 2)), (if Z.odd r then -1 else 1), (toys_arrow r).
  split; [exact E|].
  assert (Q2 : r / 2 < Z.of_nat (Nat.min (dims_of s) 3)) by (apply Z.div_lt_upper_bound; lia).
  assert (Q0 : 0 <= r / 2) by (apply Z.div_pos; lia).
  split; [lia|]. split; [lia|]. split; [destruct (Z.odd r); auto|].
  split. { rewrite Z2Nat.id by lia. rewrite <- Z.div2_div. pose proof (Z.div2_odd r) as DO.
    destruct (Z.odd r); cbn [Z.b2z Z.eqb Pos.eqb] in *; lia. }
  split. { intros i. unfold axis_dir, unit_vec. rewrite <- Z.div2_div, Z.div2_spec, Z.bit0_odd.
    rewrite vget_vset. destruct (Nat.eqb i (Z.to_nat (Z.shiftr r 1))); [reflexivity|apply vget_out; cbn; lia]. }
  split; [exact Er|].
  assert (C : In r [0; 1; 2; 3; 4; 5]) by (cbn; lia).
  split. { repeat (destruct C as [<-|C]; [cbn; tauto|]). contradiction. }
  split. { intros i. repeat (destruct C as [<-|C]; [reflexivity|]). contradiction. }
  split; [exact U|]. subst f'. split; [|split; [|split; [exact O|exact W]]].
  - intros q Q. rewrite f_get_put_same by (intros i; symmetry; apply Q).
    unfold cellval. destruct (f_char _); [|reflexivity]. repeat (destruct C as [<-|C]; [reflexivity|]). contradiction.
  - intros q N. apply f_get_put_other. intros X. apply N. intros i. symmetry. apply X.
Qed.
(** With h and l exchanged on the command line the arrow left behind points the other
    way. *)
Theorem C105_random_refuted : forall F D s l, Ready s FP_TOYS 85 l -> NoHover s -> (3 <= dims_of s)%nat -> draws s 4 ->
  c_inverthl (u_cfg (w_uni (s_w s) (r_uni (s_r s)))) = true ->
  exists s', execute F (S D) 85 s = Ok (ENone, s') /\ vget (r_delta (s_r s')) 2 = 1 /\
    f_get (field_of s' (r_uni (s_r s'))) (r_pos (s_r s')) = 104 /\ dir_of true 104 2 = -1.
Proof.
  intros F D s l ((fld & L) & H) NH D1 R I.
  destruct (random_run F D s fld l 4 L H NH) as (s' & fish & f' & E & Er & Ef & U & O & W); [lia|exact R|].
  exists s'. split; [exact E|]. rewrite Er. split; [reflexivity|]. split; [|reflexivity].
  cbn [set_r_fish set_r_delta r_uni r_pos]. unfold field_of at 1. rewrite U. cbn [set_u_field u_field]. rewrite Ef.
  change (field_of s (r_uni (s_r s))) with (u_field (w_uni (s_w s) (r_uni (s_r s)))).
  rewrite f_get_put_same by (intros i; reflexivity). change (toys_arrow 4) with 104. unfold cellval. now destruct (f_char _).
Qed.

(** W waits for a cell to reach a value. *)
Lemma vec_back n l v : (n <= List.length l)%nat -> (forall i, vget v i = vec_of n l i) -> rev (map (vget v) (seq 0 n)) = firstn n l.
Proof.
  intros L G. apply (nth_ext _ _ 0 0); [rewrite rev_length, map_length, seq_length, firstn_length; lia|].
  rewrite rev_length, map_length, seq_length. intros k K.
  rewrite rev_nth by (rewrite map_length, seq_length; lia). rewrite map_length, seq_length.
  rewrite (nth_indep _ 0 (vget v 0)) by (rewrite map_length, seq_length; lia).
  rewrite map_nth, seq_nth by lia. rewrite G. unfold vec_of.
  destruct (Nat.ltb_spec (0 + (n - S k)) n); [|lia].
  rewrite <- (firstn_skipn n l) at 1. rewrite app_nth1 by (rewrite firstn_length; lia). f_equal. lia.
Qed.
Theorem C105_wait : forall F D s fld l v q, Letter s FP_TOYS fld 87 -> Holds s l ->
  (dims_of s < List.length l)%nat -> (forall i, vget q i = vec_of (dims_of s) l i) -> v = at_top l (dims_of s) ->
  (cell s fld q < v -> exists s', execute F (S D) 87 s = Ok (EBlock, s') /\ Only_stack s s' l) /\
  (cell s fld q = v -> exists s', execute F (S D) 87 s = Ok (ENone, s') /\ Only_stack s s' (skipn (S (dims_of s)) l)) /\
  (v < cell s fld q -> vwf (r_delta (s_r s)) -> (forall i, in64 (- delta_of s i)) ->
     exists s' d, execute F (S D) 87 s = Ok (ENone, s') /\ Delta_and_stack s s' d (skipn (S (dims_of s)) l) /\
       forall i, vget d i = - delta_of s i).
Proof.
  intros F D s fld l v q L H Len Q Hv. rewrite (execute_letter F D _ _ _ _ L).
  change (fp_exec F FP_TOYS fld 87) with (v <- popVec ;; value <- popS ;; cell <- fget fld v ;;
    if cell <? value then pushS value ;;; pushVec v ;;; reterr EBlock
    else if cell >? value then ipReflect ;;; ok else ok).
  destruct (popVec_plain s l H) as (s1 & a & E1 & C1 & G & _). rewrite (run_bind _ _ _ _ _ E1).
  pose proof (Only_stack_holds _ _ _ _ H C1) as H1. xpop.
  assert (O : Only_stack s s0 (skipn (S (dims_of s)) l)).
  { replace (skipn (S (dims_of s)) l) with (tl (skipn (dims_of s) l)); [os_finish|]. apply tl_skipn. }
  assert (Hd : hd 0 (skipn (dims_of s) l) = v) by (rewrite hd_nth, nth_skip, Nat.add_0_r; auto). rewrite Hd.
  rewrite (run_bind (fget fld a) _ s0 (cell s0 fld a) s0) by reflexivity.
  assert (Ca : cell s0 fld a = cell s fld q).
  { unfold cell. rewrite (Only_stack_w _ _ _ O). apply f_get_ext. intros i. now rewrite G, Q. }
  rewrite Ca. rewrite Z.gtb_ltb. split; [|split].
  - intros Lt. rewrite (proj2 (Z.ltb_lt _ _) Lt). pose proof (Only_stack_holds _ _ _ _ H O) as H3.
    destruct (pushS_plain s0 _ v H3) as (s3 & E3 & C3). rewrite (run_bind _ _ _ _ _ E3).
    pose proof (Only_stack_holds _ _ _ _ H3 C3) as H4.
    destruct (pushVec_plain s3 _ a H4) as (s4 & E4 & C4). rewrite (run_bind _ _ _ _ _ E4).
    exists s4. split; [reflexivity|].
    pose proof (Only_stack_trans _ _ _ _ _ O C3) as O3.
    assert (Dm : dims_of s3 = dims_of s) by (unfold dims_of; now rewrite (Only_stack_w _ _ _ O3), (Only_stack_r _ _ _ O3)).
    rewrite Dm in C4. rewrite (vec_back (dims_of s) l a) in C4; [|lia|exact G].
    replace l with (firstn (dims_of s) l ++ v :: skipn (S (dims_of s)) l); [exact (Only_stack_trans _ _ _ _ _ O3 C4)|].
    transitivity (firstn (dims_of s) l ++ skipn (dims_of s) l); [f_equal|apply firstn_skipn]. rewrite <- tl_skipn, <- Hd.
    destruct (skipn (dims_of s) l) eqn:Sk; [|reflexivity].
    exfalso. assert (X : List.length (skipn (dims_of s) l) = 0%nat) by now rewrite Sk. rewrite skipn_length in X. lia.
  - intros Eq. rewrite (proj2 (Z.ltb_ge _ _)) by lia. rewrite (proj2 (Z.ltb_ge _ _)) by lia. exists s0. auto.
  - intros Gt W I. rewrite (proj2 (Z.ltb_ge _ _)) by lia. rewrite (proj2 (Z.ltb_lt _ _)) by lia.
    assert (Er : r_delta (s_r s0) = r_delta (s_r s)) by now rewrite (Only_stack_r _ _ _ O).
    destruct (vrev_ok _ W I) as (d & Ed & _ & _ & Gd).
    exists {| s_w := s_w s0; s_r := set_r_delta d (s_r s0) |}, d.
    split; [unfold ipReflect, ipTurn, mbind, getR; rewrite Er, Ed; reflexivity|]. split; [|exact Gd].
    exists s0. split; [exact O|]. exists (r_fish (s_r s0)). reflexivity.
Qed.

(** A concrete case: an IP at (3, 2) flying east, with A to its left and B to its
    right, waiting for the A to become 70. *)
Definition toybox : st := placed (put_list [([3; 1], 65); ([3; 3], 66)]) [3; 2] (loaded [FP_TOYS] [1; 3; 70]).
Lemma toybox_holds : Holds toybox [1; 3; 70].
Proof. apply placed_holds. apply holds_with_list; vm_compute; [reflexivity|discriminate]. Qed.
Lemma toybox_in64 (f : nat -> Z) : in64 (f 0%nat) -> in64 (f 1%nat) -> (forall i, f (S (S i)) = 0) -> forall i, in64 (f i).
Proof. intros A B C [|[|i]]; auto. rewrite C. unfold in64, INT64_MIN, INT64_MAX. lia. Qed.
Example C105_ex : Forall (Letter toybox FP_TOYS 0) [76; 82; 81; 84; 85; 87; 88; 89; 90] /\ Holds toybox [1; 3; 70] /\
  NoHover toybox /\ dims_of toybox = 2%nat /\ vwf (r_delta (s_r toybox)) /\
  (forall i, in64 (beside 76 (delta_of toybox) i) /\ in64 (beside 82 (delta_of toybox) i) /\ in64 (- delta_of toybox i)) /\
  (forall i, in64 (pos_of toybox i + beside 76 (delta_of toybox) i) /\ in64 (pos_of toybox i + beside 82 (delta_of toybox) i)) /\
  cell toybox 0 [3; 1] = 65 /\ cell toybox 0 [3; 3] = 66 /\ cell toybox 0 [3; 1] < at_top [1; 3; 70] (dims_of toybox) /\
  (exists r, draws toybox r).
Proof.
  split. { repeat (constructor; [apply letterb_ok; vm_compute; reflexivity|]). constructor. }
  split; [exact toybox_holds|]. split; [vm_compute; reflexivity|]. split; [vm_compute; reflexivity|].
  split; [right; vm_compute; discriminate|].
  assert (Q : forall i, vget (r_delta (s_r toybox)) (S (S i)) = 0) by (intros i; apply vget_out; vm_compute; lia).
  assert (P : forall i, vget (r_pos (s_r toybox)) (S (S i)) = 0) by (intros i; apply vget_out; vm_compute; lia).
  split. { intros i. split; [|split]; revert i; apply toybox_in64; try (vm_compute; split; discriminate);
    intros i; unfold beside; cbn [Z.eqb Pos.eqb]; rewrite Q; reflexivity. }
  split. { intros i. split; revert i; apply toybox_in64; try (vm_compute; split; discriminate);
    intros i; unfold beside; cbn [Z.eqb Pos.eqb]; rewrite Q, P; reflexivity. }
  split; [vm_compute; reflexivity|]. split; [vm_compute; reflexivity|]. split; [vm_compute; reflexivity|].
  eexists. reflexivity.
Qed.
(** The options -finvert-hl in three dimensions, with 4 as the next random number. *)
Definition inverted (s : st) : st :=
  {| s_w := {| w_uni := w_uni (upd_uni 0 (fun u => set_u_cfg (set_c_inverthl true (set_c_dims 3 (u_cfg u))) u) (s_w s));
     w_nuni := w_nuni (s_w s); w_run := w_run (s_w s); w_nrun := w_nrun (s_w s); w_in := w_in (s_w s); w_out := w_out (s_w s); w_log := w_log (s_w s); w_fs := w_fs (s_w s); w_wr := w_wr (s_w s); w_dir := w_dir (s_w s); w_rnd := (fun _ => 4); w_nrnd := w_nrnd (s_w s); w_sys := w_sys (s_w s); w_nsys := w_nsys (s_w s); w_clock := w_clock (s_w s); w_tm := w_tm (s_w s); w_nclock := w_nclock (s_w s); w_refs := w_refs (s_w s); w_fl := w_fl (s_w s) |}; s_r := s_r s |}.
Lemma inverted_holds s l : Holds s l -> Holds (inverted s) l.
Proof. intros H. exact H. Qed.
Example C105_random_ex : let s := inverted (loaded [FP_TOYS] [5]) in
  Ready s FP_TOYS 85 [5] /\ NoHover s /\ dims_of s = 3%nat /\ draws s 4 /\ c_inverthl (u_cfg (w_uni (s_w s) (r_uni (s_r s)))) = true.
Proof.
  cbv zeta. split. { split; [exists 0%nat; apply letterb_ok; vm_compute; reflexivity|].
    apply inverted_holds; apply holds_with_list; vm_compute; [reflexivity|discriminate]. }
  split; [vm_compute; reflexivity|]. split; [vm_compute; reflexivity|]. split; vm_compute; reflexivity.
Qed.
Print Assumptions C105_look.
Print Assumptions C105_store.
Print Assumptions C105_axis_partial.
Print Assumptions C105_axis_refuted.
Print Assumptions C105_step.
Print Assumptions C105_random_partial.
Print Assumptions C105_random_refuted.
Print Assumptions C105_wait.
