(** * Properties C01-C13 and C65: vectors, ranges, stacks, Funge-space.

    Each theorem is followed by an example that meets its hypotheses, and by
    the list of axioms it depends on. *)

From Coq Require Import ZArith List Bool Lia.
From Verif Require Import Base BaseProofs VectorModel VectorProofs RangeModel RangeProofs
  TextModel TextProofs StackModel StackProofs FieldModel FieldProofs DumpProofs LibProofs.
Import ListNotations.
Open Scope Z_scope.

(** ** C01 Vector arithmetic is coordinatewise *)

(** A vector is read as the infinite zero-padded tuple [vget v].  [vec64]: all
    its coordinates are signed 64-bit integers.  [vwf]: the normal form that
    every constructor produces (no trailing zero beyond the first cell). *)
Definition vec64 (v : vec) : Prop := forall i, in64 (vget v i).

(** The operation [r] yields the tuple [g] when every coordinate of [g] fits in
    64 bits, and is undefined (signed overflow) exactly otherwise. *)
Definition computes (r : res vec) (g : nat -> Z) : Prop :=
  ((forall i, in64 (g i)) -> exists v, r = Ok v /\ forall i, vget v i = g i) /\
  ((exists i, ~ in64 (g i)) -> r = Bad BadOverflow).

Lemma in64_dec_coord (a b : vec) (g : nat -> Z) n :
  (forall i, (n <= i)%nat -> in64 (g i)) -> (forall i, in64 (g i)) \/ exists i, ~ in64 (g i).
Proof.
  intros H. clear a b. induction n as [|n IH].
  - left. intros i. apply H. lia.
  - destruct (in64b (g n)) eqn:E.
    + apply IH. intros i Hi. destruct (Nat.eq_dec i n); [subst; now apply in64b_true|].
      apply H. lia.
    + right. exists n. now apply in64b_false.
Qed.

Theorem C01_add : forall a b, vec64 a -> computes (vadd a b) (fun i => vget a i + vget b i).
Proof.
  intros a b Ha. split.
  - intros H. destruct (vadd_defined a b H) as (r & E). exists r. split; auto.
    now apply vadd_get.
  - intros (i & Hi). destruct (vadd a b) as [r|e] eqn:E.
    + exfalso. apply Hi. unfold vadd in E. pose proof (pw_get _ _ _ _ _ _ E i) as G. simpl in G.
      destruct (Nat.ltb_spec i (Nat.max (vsize a) (vsize b))).
      * apply chk64_inv in G. tauto.
      * rewrite (vget_out b) by (unfold vsize in *; lia). rewrite Z.add_0_r. apply Ha.
    + f_equal. eapply vadd_bad; eauto.
Qed.
Theorem C01_sub : forall a b, vec64 a -> computes (vsub a b) (fun i => vget a i - vget b i).
Proof.
  intros a b Ha. split.
  - intros H. destruct (vsub_defined a b H) as (r & E). exists r. split; auto.
    now apply vsub_get.
  - intros (i & Hi). destruct (vsub a b) as [r|e] eqn:E.
    + exfalso. apply Hi. unfold vsub in E. pose proof (pw_get _ _ _ _ _ _ E i) as G. simpl in G.
      destruct (Nat.ltb_spec i (Nat.max (vsize a) (vsize b))).
      * apply chk64_inv in G. tauto.
      * rewrite (vget_out b) by (unfold vsize in *; lia). rewrite Z.sub_0_r. apply Ha.
    + f_equal. eapply vsub_bad; eauto.
Qed.
Theorem C01_reverse : forall v, vwf v -> vec64 v -> computes (vrev v) (fun i => - vget v i).
Proof.
  intros v W Hv. split.
  - intros H. destruct (vrev_ok v W H) as (r & E & _ & _ & G). eauto.
  - intros (i & Hi). destruct (vrev v) as [r|e] eqn:E.
    + exfalso. apply Hi. unfold vrev in E.
      apply (vrev_loop_inv (vsize v) 0 v r E); auto; lia.
    + f_equal. eapply vrev_bad; eauto.
Qed.
Theorem C01_left : forall v, vec64 v ->
  computes (vleft v) (fun i => match i with 0%nat => vget v 1 | 1%nat => - vget v 0 | _ => vget v i end).
Proof.
  intros v Hv. split.
  - intros H. destruct (vleft_ok v (H 1%nat)) as (r & E). exists r. split; auto.
    now apply vleft_get.
  - intros (i & Hi). unfold vleft, neg64, chk64.
    destruct (in64b (- vget v 0)) eqn:E; [|reflexivity]. exfalso. apply Hi.
    destruct i as [|[|i]]; try apply Hv. now apply in64b_true.
Qed.
Theorem C01_right : forall v, vec64 v ->
  computes (vright v) (fun i => match i with 0%nat => - vget v 1 | 1%nat => vget v 0 | _ => vget v i end).
Proof.
  intros v Hv. split.
  - intros H. destruct (vright_ok v (H 0%nat)) as (r & E). exists r. split; auto.
    now apply vright_get.
  - intros (i & Hi). unfold vright, neg64, chk64.
    destruct (in64b (- vget v 1)) eqn:E; [|reflexivity]. exfalso. apply Hi.
    destruct i as [|[|i]]; try apply Hv. now apply in64b_true.
Qed.
(** [set] changes one coordinate, and every result is in normal form. *)
Theorem C01_set : forall v d x i, vget (vset v d x) i = if Nat.eqb i d then x else vget v i.
Proof. exact vget_vset. Qed.

Example C01_ex_ok : vadd [1; 2] [3; -2; 7] = Ok [4; 0; 7].
Proof. reflexivity. Qed.
Example C01_ex_ub : vadd [1; INT64_MAX] [0; 1] = Bad BadOverflow.
Proof. reflexivity. Qed.
Example C01_ex_hyp : vec64 [1; INT64_MAX] /\ vwf [5; 0; -3].
Proof.
  split; [|right; discriminate]. intros i. destruct i as [|[|i]]; vm_compute; split; discriminate.
Qed.
Print Assumptions C01_add.
Print Assumptions C01_sub.
Print Assumptions C01_reverse.
Print Assumptions C01_left.
Print Assumptions C01_right.
Print Assumptions C01_set.

(** ** C02 Vector comparison is a strict total order compatible with equality *)

(** [a] comes before [b]: at the highest dimension where they differ, [a] is
    smaller. *)
Definition before (a b : vec) : Prop :=
  exists i, vget a i < vget b i /\ forall j, (i < j)%nat -> vget a j = vget b j.

Theorem C02_eq : forall a b, veqb a b = true <-> forall i, vget a i = vget b i.
Proof. exact veqb_spec. Qed.
Theorem C02_lt : forall a b, vltb a b = true <-> before a b.
Proof. exact vltb_spec. Qed.
Theorem C02_le : forall a b, vleb a b = (vltb a b || veqb a b).
Proof.
  intros a b. apply Bool.eq_iff_eq_true. rewrite orb_true_iff, vleb_spec, vltb_spec, veqb_spec. tauto.
Qed.
Theorem C02_strict_order :
  (forall a, vltb a a = false) /\
  (forall a b c, vltb a b = true -> vltb b c = true -> vltb a c = true) /\
  (forall a b, vltb a b = true \/ veqb a b = true \/ vltb b a = true) /\
  (forall a b, vltb a b = true -> veqb a b = false) /\
  (forall a a' b b', veqb a a' = true -> veqb b b' = true -> vltb a b = vltb a' b').
Proof.
  split; [|split; [|split; [|split]]].
  - intros a. destruct (vltb a a) eqn:E; auto. rewrite vltb_spec in E.
    exfalso. exact (vbefore_irrefl a E).
  - intros a b c. rewrite !vltb_spec. apply vbefore_trans.
  - intros a b. rewrite !vltb_spec, veqb_spec. destruct (vbefore_total a b) as [[?|?]|?]; auto.
  - intros a b H. destruct (veqb a b) eqn:E; auto. rewrite vltb_spec in H. rewrite veqb_spec in E.
    destruct H as (i & H & _). rewrite E in H. lia.
  - intros a a' b b' Ea Eb. rewrite veqb_spec in Ea, Eb.
    apply Bool.eq_iff_eq_true. rewrite !vltb_spec. unfold vbefore.
    split; intros (i & H1 & H2); exists i; (split; [|intros j Hj; specialize (H2 j Hj)]);
      rewrite ?Ea, ?Eb in *; auto.
Qed.
Example C02_ex : vltb [9; 1] [0; 2] = true /\ vltb [1] [1; 0; 3] = true /\ veqb [1] [1; 0] = true.
Proof. repeat split. Qed.
Print Assumptions C02_eq.
Print Assumptions C02_lt.
Print Assumptions C02_le.
Print Assumptions C02_strict_order.

(** ** C03 Equal Vectors hash equally *)

(** The vectors a program can obtain from the Vector API. *)
Inductive api_vec : vec -> Prop :=
| av_default : api_vec []
| av_init l : api_vec (mkvec l)
| av_set v d x : api_vec v -> api_vec (vset v d x)
| av_add a b r : api_vec a -> api_vec b -> vadd a b = Ok r -> api_vec r
| av_sub a b r : api_vec a -> api_vec b -> vsub a b = Ok r -> api_vec r
| av_rev v r : api_vec v -> vrev v = Ok r -> api_vec r
| av_left v r : api_vec v -> vleft v = Ok r -> api_vec r
| av_right v r : api_vec v -> vright v = Ok r -> api_vec r
| av_read fuel is v is' : vread fuel is = Ok (v, is') -> api_vec v.

Lemma api_wf v : api_vec v -> vwf v.
Proof.
  induction 1.
  - left. cbn. lia.
  - apply mkvec_wf.
  - apply vset_wf.
  - eapply vadd_wf; eauto.
  - eapply vsub_wf; eauto.
  - eapply vrev_get; eauto.
  - apply (vleft_get _ _ H0).
  - apply (vright_get _ _ H0).
  - unfold vread in H. destruct (extract is 0) as [c is1]. destruct (is_fail is1); [discriminate|].
    destruct (c =? 40).
    + destruct (extract is1 c). apply bind_ok in H. destruct H as (s & _ & H).
      apply bind_ok in H. destruct H as (x & _ & H). inversion H; subst. apply normalize_wf.
    + inversion H; subst. left. cbn. lia.
Qed.

Theorem C03_hash : forall a b, api_vec a -> api_vec b -> veqb a b = true -> vhash a = vhash b.
Proof. intros a b Ha Hb E. apply vhash_normal; auto using api_wf. now apply veqb_spec. Qed.
(** Without the normal form it would fail, so the normalisation matters. *)
Example C03_ex : api_vec (mkvec [1; 2; 0; 0]) /\ veqb (mkvec [1; 2; 0; 0]) (mkvec [1; 2]) = true
  /\ vhash (mkvec [1; 2; 0; 0]) = vhash (mkvec [1; 2]) /\ vhash [1; 2; 0; 0] <> vhash [1; 2].
Proof. repeat split; try constructor. vm_compute. discriminate. Qed.
Print Assumptions C03_hash.

(** ** C04 VectorRange enumerates a box exactly once *)

(** [box n a b] lists the points of the box with corners [a] and [b], the first
    dimension varying fastest, each axis walked from [a] to [b] (see
    RangeProofs.v); [foldR body vs s] runs the loop body on the positions [vs]
    in order.  The loop idiom [range_fold] does exactly that, for every body,
    and needs no more iterations than there are points. *)
Theorem C04_enumerates : forall va vb n,
  vsmall va -> vsmall vb -> (Nat.max 1 (Nat.max (vsize va) (vsize vb)) <= n)%nat ->
  exists vs,
    Forall2 denotes vs (box n (vget va) (vget vb)) /\
    forall (S : Type) (body : vec -> S -> res S) (s : S) fuel,
      Z.of_nat (length vs) < Z.pos fuel ->
      range_fold body fuel va vb s = foldR body vs s.
Proof. exact range_fold_box. Qed.

(** The specification list has each point of the box once. *)
Theorem C04_box_exact : forall n a b l,
  In l (box n a b) <->
  length l = n /\ forall i, (i < n)%nat -> Z.min (a i) (b i) <= nth i l 0 <= Z.max (a i) (b i).
Proof. exact box_in. Qed.
Theorem C04_box_once : forall n a b, NoDup (box n a b).
Proof. exact box_nodup. Qed.
Example C04_ex : box 2 (vget [0; 2]) (vget [1; 1]) = [[0; 2]; [1; 2]; [0; 1]; [1; 1]].
Proof. reflexivity. Qed.
Example C04_ex_run :
  range_fold (fun v acc => Ok (acc ++ [v])) 100 [0; 2] [1; 1] [] = Ok [[0; 2]; [1; 2]; [0; 1]; [1; 1]].
Proof. reflexivity. Qed.
Example C04_ex_hyp : vsmall [0; 2] /\ vsmall [1; 1].
Proof.
  split; intros i; (destruct i as [|[|i]]; [vm_compute; auto|vm_compute; auto|]);
    rewrite vget_out by (cbn; lia); vm_compute; auto.
Qed.
Print Assumptions C04_enumerates.
Print Assumptions C04_box_exact.
Print Assumptions C04_box_once.

(** ** C05 Vector text I/O round-trips and reading terminates *)

(** Missing from the full property: the coordinate -2^63 cannot be read back
    (its digits overflow before the sign is applied), and texts without a
    closing parenthesis can make the reader loop forever (C05_refuted). *)
Theorem C05_roundtrip_partial : forall v tail fuel,
  Forall (fun x => INT64_MIN < x <= INT64_MAX) v ->
  Z.of_nat (length (vprint v)) < Z.pos fuel ->
  exists r, vread fuel {| is_rest := vprint v ++ tail; is_fail := false |}
            = Ok (r, {| is_rest := tail; is_fail := false |}) /\ veqb r v = true.
Proof.
  intros v tail fuel F H. destruct (vread_vprint v tail fuel F H) as (r & E & _ & G).
  exists r. split; auto. now apply veqb_spec.
Qed.
Theorem C05_terminates_partial : forall l fuel,
  In 41 l -> Z.of_nat (length l) < Z.pos fuel ->
  vread fuel {| is_rest := l; is_fail := false |} <> Bad BadFuel.
Proof. exact vread_ends. Qed.
(** "(0" and end of input: no number of iterations is enough. *)
Theorem C05_refuted : exists l, forall fuel,
  vread fuel {| is_rest := l; is_fail := false |} = Bad BadFuel.
Proof. exists [40; 48]. exact vread_hangs. Qed.
Theorem C05_min_refuted : exists v, Forall in64 v /\
  forall fuel, (100 < fuel)%positive ->
    vread fuel {| is_rest := vprint v; is_fail := false |} = Bad BadOverflow.
Proof.
  exists [INT64_MIN]. split; [constructor; [vm_compute; split; discriminate|constructor]|].
  intros fuel Hf. unfold vread, vprint.
  replace (extract _ 0) with (40, {| is_rest := dec INT64_MIN ++ [41]; is_fail := false |}) by reflexivity.
  cbn [is_fail]. rewrite Z.eqb_refl.
  replace (extract _ 40) with (45, {| is_rest := tl (dec INT64_MIN) ++ [41]; is_fail := false |}) by reflexivity.
  rewrite loop_loopNr.
  rewrite (loopNr_more _ 100 _ _ (Bad BadOverflow)); [reflexivity| |discriminate|lia].
  vm_compute. reflexivity.
Qed.
Example C05_ex : vprint [3; -14; 159] = [40; 51; 44; 32; 45; 49; 52; 44; 32; 49; 53; 57; 41]
  /\ vread 50 {| is_rest := vprint [3; -14; 159]; is_fail := false |}
     = Ok ([3; -14; 159], {| is_rest := []; is_fail := false |}).
Proof. split; vm_compute; reflexivity. Qed.
Print Assumptions C05_roundtrip_partial.
Print Assumptions C05_terminates_partial.
Print Assumptions C05_refuted.
Print Assumptions C05_min_refuted.

(** ** C06 Stack obeys its discipline for every operation history *)

(** [dstep] is the specification: a sequence [dq] from front to back. *)
Theorem C06_history : forall os,
  let s := fst (srun stk_new os) in
  let d := fst (drun {| dq := []; dq_queue := false; dq_invert := false |} os) in
  rev (s_list s) = dq d /\
  snd (srun stk_new os) = snd (drun {| dq := []; dq_queue := false; dq_invert := false |} os) /\
  stk_size s = Z.of_nat (length (dq d)) /\
  stk_age s = aging os /\
  forall n, stk_get (Z.of_nat (S n)) s = pop_n n s.
Proof.
  intros os s d. destruct (srun_refines os stk_new) as [H1 H2].
  change (abs stk_new) with {| dq := []; dq_queue := false; dq_invert := false |} in *.
  fold s d in H1. split; [|split; [|split; [|split]]].
  - rewrite <- H1. reflexivity.
  - exact H2.
  - rewrite <- H1. unfold stk_size. cbn [dq abs]. now rewrite rev_length.
  - unfold stk_age, s. rewrite srun_age. cbn. lia.
  - intros n. apply get_pop_n.
Qed.
Example C06_ex :
  snd (srun stk_new [OPush 1; OPush 2; OPush 3; OMode (2^15); OPop; OMode (2^14); OPush 9; OMode 0; OPop; OPop; OPop; OPop])
  = [0; 0; 0; 0; 1; 0; 0; 0; 3; 2; 9; 0].
Proof. reflexivity. Qed.
Print Assumptions C06_history.

(** ** C07 Stack-stack selection never dangles *)

(** Without operations that remove a stack the selection stays in range. *)
Theorem C07_partial : forall os s,
  ssrun ss_new os = Ok s -> forallb grows os = true ->
  exists k, ss_top s = Ok k.
Proof.
  intros os s E G.
  assert (H : sel_ok s) by (eapply (ssrun_sel os ss_new s); eauto; unfold sel_ok; cbn; lia).
  unfold ss_top, ss_at. destruct (nth_error (ss_list s) (ss_sel s)) as [k|] eqn:N; eauto.
  apply nth_error_None in N. unfold sel_ok in H. lia.
Qed.
(** With them it does not: create a stack, select the one below, remove the
    new one. *)
Theorem C07_refuted : exists os s, ssrun ss_new os = Ok s /\ ss_top s = Bad BadOob.
Proof. exists [SPush; SDec; SPop]. eexists. split; reflexivity. Qed.
Example C07_ex : exists s, ssrun ss_new [SPush; SDec; SPush; SDec; SInsert 1; SInc] = Ok s /\
  ss_sel s = 1%nat /\ ss_size s = 4%nat.
Proof. eexists. repeat split. Qed.
Print Assumptions C07_partial.
Print Assumptions C07_refuted.

(** ** C08 A child IP starts with its parent's stacks *)

(** The copy holds copies of the same stacks, but in reverse order. *)
Theorem C08_copy_reverses : forall s, map s_list (ss_list (ss_copy s)) = rev (map s_list (ss_list s)).
Proof. intros s. rewrite ss_copy_rev, map_rev, map_map. reflexivity. Qed.
(** So the property holds for a stack-stack of one stack (and palindromes). *)
Theorem C08_partial : forall s, length (ss_list s) = 1%nat ->
  map s_list (ss_list (ss_copy s)) = map s_list (ss_list s).
Proof.
  intros s H. rewrite C08_copy_reverses. destruct (ss_list s) as [|k [|]]; try discriminate. reflexivity.
Qed.
Theorem C08_refuted : exists os s, ssrun ss_new os = Ok s /\
  let s' := ss_set s 0 (stk_push 7 stk_new) in
  map s_list (ss_list (ss_copy s')) <> map s_list (ss_list s').
Proof. exists [SPush]. eexists. split; [reflexivity|]. vm_compute. discriminate. Qed.
Example C08_ex : map s_list (ss_list (ss_copy (ss_set ss_new 0 (stk_push 7 (stk_push 8 stk_new))))) = [[7; 8]].
Proof. reflexivity. Qed.
Print Assumptions C08_copy_reverses.
Print Assumptions C08_partial.
Print Assumptions C08_refuted.

(** ** C09 Funge-space is a total map: reads return the last write *)

(** [puts h f] performs the writes [h], oldest first; [last_write 32 h p] is the
    last value written to [p], or a space; [cellval] reduces to a signed byte
    when cells are chars. *)
Theorem C09_history : forall dims char h p,
  f_get (puts h (field_empty dims char)) p = cellval char (last_write 32 h p).
Proof.
  intros dims char h p. rewrite (puts_get h (field_empty dims char) p 32); [reflexivity|].
  destruct char; reflexivity.
Qed.
Theorem C09_write : forall p v f q,
  (same p q -> f_get (f_put p v f) q = cellval (f_char f) v) /\
  (~ same p q -> f_get (f_put p v f) q = f_get f q).
Proof. intros. split; [apply f_get_put_same|apply f_get_put_other]. Qed.
Example C09_ex : let f := puts [([1; 2], 65); ([1], 66); ([1; 2; 0], 300); ([1; 0], 32)] (field_empty 2 true) in
  f_get f [1; 2] = 44 /\ f_get f [1] = 32 /\ f_get f [5; 5] = 32.
Proof. repeat split. Qed.
Print Assumptions C09_history.
Print Assumptions C09_write.

(** ** C10 Reported bounds contain every non-space cell *)

(** Proved: along every dimension where the cell's coordinate is not zero
    (always along dimension 0), for every history; and along all dimensions for
    histories without erasures.  Missing: dimensions where the coordinate is
    zero after erasures, see the refutation. *)
Theorem C10_nonzero_partial : forall dims char h p i,
  let f := puts h (field_empty dims char) in
  f_get f p <> 32 -> vget p i <> 0 -> f_min f i <= vget p i <= f_max f i.
Proof. intros. apply covered_bounds; auto. apply covered_puts, covered_empty. Qed.
Theorem C10_no_erase_partial : forall dims char h p i,
  let f := puts h (field_empty dims char) in
  Forall (fun w => snd w <> 32) h ->
  f_get f p <> 32 -> f_min f i <= vget p i <= f_max f i.
Proof.
  intros. apply covered_origin; auto.
  - apply covered_puts, covered_empty.
  - apply origin_puts; auto; [apply covered_empty|].
    intros j. unfold f_min, f_max. cbn. lia.
Qed.
(** Writes at (0,-1) and (0,5), then blanking (0,5): the maximum row becomes
    -1, and a cell written at (3,0) afterwards lies outside the bounds. *)
Theorem C10_refuted : exists h p i,
  let f := puts h (field_empty 2 false) in
  f_get f p <> 32 /\ ~ (f_min f i <= vget p i <= f_max f i).
Proof.
  exists [([0; -1], 65); ([0; 5], 65); ([0; 5], 32); ([3], 65)], [3], 1%nat.
  vm_compute. split; [discriminate|]. intros [_ H]. apply H. reflexivity.
Qed.
Example C10_ex : let f := puts [([4; 7], 65); ([-2; 3], 66); ([4; 7], 32)] (field_empty 2 false) in
  (f_min f 0, f_max f 0, f_min f 1, f_max f 1) = (-2, -2, 0, 3) /\ f_get f [-2; 3] <> 32.
Proof. vm_compute. split; [reflexivity|discriminate]. Qed.
Print Assumptions C10_nonzero_partial.
Print Assumptions C10_no_erase_partial.
Print Assumptions C10_refuted.

(** ** C11 Loading source text puts each character at its line and column *)

(** [lines_of] splits at LF, CR and CRLF; [at_xy s x y p]: [p] is [x] columns
    and [y] rows from [s]; [widest]: length of the longest line.  Texts without
    form feed and vertical tab. *)
Theorem C11_text : forall s l f,
  textual l -> vec64 s -> Z.of_nat (length l) <= INT64_MAX ->
  vget s 0 + Z.of_nat (length l) <= INT64_MAX -> vget s 1 + Z.of_nat (length l) <= INT64_MAX ->
  exists d f', f_parse s l false f = Ok (d, f') /\
    (forall x y p c, at_xy s (Z.of_nat x) (Z.of_nat y) p ->
       nth_error (nth y (lines_of l) []) x = Some c -> c <> 32 ->
       f_get f' p = cellval (f_char f) c) /\
    (forall p, (forall x y c, at_xy s (Z.of_nat x) (Z.of_nat y) p ->
                  nth_error (nth y (lines_of l) []) x = Some c -> c = 32) ->
       f_get f' p = f_get f p) /\
    vget d 0 = widest (lines_of l) /\ vget d 1 = Z.of_nat (length (lines_of l)) - 1 /\
    (forall i, (2 <= i)%nat -> vget d i = 0).
Proof. exact f_parse_text. Qed.
Example C11_ex : lines_of [65; 32; 66; 13; 10; 67; 13; 10; 68] = [[65; 32; 66]; [67]; [68]] /\
  match f_parse [10; 20] [65; 32; 66; 13; 10; 67; 13; 10; 68] false (field_empty 2 false) with
  | Ok (d, f') => [f_get f' [12; 20]; f_get f' [10; 21]; f_get f' [10; 22]] = [66; 67; 68] /\ d = [3; 2]
  | Bad _ => False
  end.
Proof. vm_compute. repeat split. Qed.
(** With form feeds (three dimensions) lines can be lost: the blank line after
    the form feed is dropped, so B lands on row 0 of the next plane instead of
    row 2. *)
Theorem C11_formfeed_refuted :
  match f_parse [] [65; 12; 10; 10; 66] false (field_empty 3 false) with
  | Ok (d, f') => f_get f' (mkvec [0; 0; 1]) = 66 /\ f_get f' (mkvec [0; 1; 1]) = 32 /\
                  f_get f' (mkvec [0; 2; 1]) = 32
  | Bad _ => False
  end.
Proof. vm_compute. repeat split. Qed.
Print Assumptions C11_text.
Print Assumptions C11_formfeed_refuted.

(** ** C12 File output followed by file input restores the region *)

(** [xy s x y]: the cell [x] columns and [y] rows from [s].  [texty]: the cell is
    one byte and not a line break.  The dump of the [w] by [h] region of [f] at
    [s], loaded at [t] into [g] where the target region is blank, reproduces
    every cell and changes no other. *)
Theorem C12_roundtrip : forall f s delta w h fuel g t,
  (0 < w)%nat -> (0 < h)%nat ->
  vget delta 0 = Z.of_nat w -> vget delta 1 = Z.of_nat h ->
  (forall i, (2 <= i)%nat -> vget delta i = 0) ->
  vec64 s -> vget s 0 + Z.of_nat w <= INT64_MAX -> vget s 1 + Z.of_nat h <= INT64_MAX ->
  Z.of_nat w * Z.of_nat h <= Z.pos fuel ->
  vec64 t -> Z.of_nat h * (Z.of_nat w + 1) <= INT64_MAX ->
  vget t 0 + Z.of_nat h * (Z.of_nat w + 1) <= INT64_MAX ->
  vget t 1 + Z.of_nat h * (Z.of_nat w + 1) <= INT64_MAX ->
  f_char g = f_char f ->
  (forall x y, 0 <= x < Z.of_nat w -> 0 <= y < Z.of_nat h ->
     texty (f_char f) (f_get f (xy s x y)) /\ f_get g (xy t x y) = 32) ->
  exists text d g',
    f_dump fuel s delta false f = Ok text /\
    f_parse t text false g = Ok (d, g') /\
    (forall x y, 0 <= x < Z.of_nat w -> 0 <= y < Z.of_nat h ->
       f_get g' (xy t x y) = f_get f (xy s x y)) /\
    (forall p, (forall x y, 0 <= x < Z.of_nat w -> 0 <= y < Z.of_nat h -> ~ same p (xy t x y)) ->
       f_get g' p = f_get g p).
Proof. exact dump_parse. Qed.
Example C12_ex : let f := puts [([1; 1], 65); ([3; 1], 200); ([2; 2], 66)] (field_empty 2 false) in
  f_dump 100 [1; 1] [3; 2] false f = Ok [65; 32; 200; 10; 32; 66; 10] /\
  match f_parse [7; 8] [65; 32; 200; 10; 32; 66; 10] false (field_empty 2 false) with
  | Ok (d, g') => f_get g' [9; 8] = 200 /\ f_get g' [8; 9] = 66
  | Bad _ => False
  end.
Proof. vm_compute. repeat split. Qed.
Print Assumptions C12_roundtrip.

(** ** C13 File output writes the whole requested region in any dimension *)

(** Two dimensions: each row without its trailing blanks, newline-terminated. *)
Theorem C13_2d_partial : forall f s delta w h fuel,
  (0 < w)%nat -> (0 < h)%nat ->
  vget delta 0 = Z.of_nat w -> vget delta 1 = Z.of_nat h ->
  (forall i, (2 <= i)%nat -> vget delta i = 0) ->
  vec64 s -> vget s 0 + Z.of_nat w <= INT64_MAX -> vget s 1 + Z.of_nat h <= INT64_MAX ->
  Z.of_nat w * Z.of_nat h <= Z.pos fuel ->
  f_dump fuel s delta false f = Ok (rows_text f s w 0 h).
Proof. exact f_dump_rows. Qed.
(** One dimension: whatever the field holds and however many cells (more than
    one) are asked for, at most the first is written. *)
Theorem C13_1d_refuted : forall f s delta fuel,
  (forall i, (1 <= i)%nat -> vget delta i = 0) -> 1 < vget delta 0 ->
  vec64 s -> vget s 0 + vget delta 0 <= INT64_MAX ->
  f_dump fuel s delta false f = Ok (if f_get f s =? 32 then [] else [to_u8 (f_get f s)]).
Proof. exact dump_1d. Qed.
Example C13_ex : let f := puts [([0], 65); ([1], 66); ([2], 67)] (field_empty 1 false) in
  f_dump 100 [0] [3] false f = Ok [65] /\ f_dump 100 [0] [3; 1] false f = Ok [65; 66; 67; 10].
Proof. vm_compute. repeat split. Qed.
Print Assumptions C13_2d_partial.
Print Assumptions C13_1d_refuted.

(** ** C65 FungeLib files bind one plane per letter *)

(** A file whose lines are, for each section (X, lines), the header "=X" and
    then [lines].  Afterwards the planes are the declared letters, and the cell
    (x,y,z) holds the character of line [y], column [x] of the section for
    letter 'A'+z if there is one, and what was there before otherwise. *)
Theorem C65_planes : forall secs f,
  secs <> [] -> Forall good_section secs -> NoDup (map fst secs) ->
  Forall (fun s => Forall (fun line => Z.of_nat (length line) <= INT64_MAX) (snd s) /\
                   Z.of_nat (length (snd s)) <= INT64_MAX) secs ->
  exists f', f_parse_lib (join (lib_lines secs)) f = Ok f' /\
    f_planes f' = f_planes f ++ map fst secs /\ f_char f' = f_char f /\
    forall x y z, f_get f' (mkvec [x; y; z]) =
      match in_section secs x y z with
      | Some c => cellval (f_char f) (to_i8 c)
      | None => f_get f (mkvec [x; y; z])
      end.
Proof. exact parse_lib_sections. Qed.
Example C65_ex : let secs := [(67, [[49; 46]; [64]]); (65, [[60]])] in
  Forall good_section secs /\ join (lib_lines secs) = [61; 67; 10; 49; 46; 10; 64; 10; 61; 65; 10; 60] /\
  match f_parse_lib (join (lib_lines secs)) (field_empty 3 false) with
  | Ok f' => f_planes f' = [67; 65] /\
     f_get f' (mkvec [1; 0; 2]) = 46 /\ f_get f' (mkvec [0; 1; 2]) = 64 /\ f_get f' (mkvec [0; 0; 0]) = 60
  | Bad _ => False
  end.
Proof.
  split.
  - assert (NH : forall c, ~ is_header [c]) by (intros c (x & H & _); discriminate).
    constructor; [|constructor; [|constructor]]; (split; [cbn; lia|]); cbn [snd];
      repeat (constructor; [split; [|repeat (constructor; [lia|]); constructor]|]); auto;
      try (intros (x & H & _); discriminate).
  - vm_compute. repeat split.
Qed.
Print Assumptions C65_planes.
