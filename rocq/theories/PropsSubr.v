(** * Property C52: SUBR *)

From Coq Require Import String ZArith List Bool Lia.
From Verif Require Import Base BaseProofs VectorModel VectorProofs TextModel TextProofs
  StackModel StackProofs FieldModel FieldProofs World IpModel LoadModel FingModel CoreModel
  UniModel IpProofs ExecProofs FlowProofs States PropsMove PropsStack PropsTurn PropsBlocks Effects SchedProofs PropsIO
  PropsLoad PropsFing.
Import ListNotations.
Open Scope Z_scope.

(** ** Specification *)

(** [s'] is [s] with another position, delta and stack. *)
Definition Goes (s s' : st) (p d : vec) (l' : list Z) : Prop :=
  s_w s' = s_w s /\ exists s1 fish, Only_stack s s1 l' /\
    s_r s' = set_r_fish fish (set_r_delta d (set_r_pos p (s_r s1))).
(** The cell a subroutine vector on the stack [l] means: with O, relative to the IP. *)
Definition target (s : st) (l : list Z) (i : nat) : Z :=
  vec_of (dims_of s) l i + (if r_offset (s_r s) then vget (r_pos (s_r s)) i else 0).

Lemma subr_offset_run s v l : (forall i, vget v i = vec_of (dims_of s) l i) -> (forall i, in64 (target s l i)) ->
  exists t, subr_offset v s = Ok (t, s) /\ forall i, vget t i = target s l i.
Proof.
  intros G I. unfold subr_offset. rewrite (run_bind getR _ s (s_r s) s) by reflexivity. unfold target in *.
  destruct (r_offset (s_r s)).
  - destruct (vadd_defined v (r_pos (s_r s))) as (t & E); [intros i; rewrite G; apply I|].
    exists t. split; [now apply run_lift|]. intros i. now rewrite (vadd_get _ _ _ E), G.
  - exists v. split; [reflexivity|]. intros i. rewrite G. lia.
Qed.

(** C takes the number of arguments, the target and the arguments from the stack, leaves
    the IP's position, delta and the arguments there, and sends the IP to the cell before
    the target, travelling east: the move that ends the instruction takes it to the
    target. *)
Theorem C52_call_partial : forall F D s fld n l args r,
  Letter s FP_SUBR fld 67 -> NoHover s -> Holds s (n :: l) ->
  0 <= n -> skipn (dims_of s) l = args ++ r -> length args = Z.to_nat n ->
  (forall i, in64 (target s l i)) -> in64 (target s l 0 - 1) ->
  exists s' p d, execute F (S D) 67 s = Ok (ENone, s') /\
    Goes s s' p d (args ++ coords (dims_of s) (r_delta (s_r s)) ++ coords (dims_of s) (r_pos (s_r s)) ++ r) /\
    vwf d /\ (forall i, vget d i = unit_vec 0 1 i) /\
    (forall i, vget p i = target s l i - unit_vec 0 1 i).
Proof.
  intros F D s fld n l args r L NH H N K LA I I0. rewrite (execute_letter F D _ _ _ _ L).
  change (fp_exec F FP_SUBR fld 67 s) with (subr_exec 67 s). cbn [subr_exec Z.eqb Pos.eqb].
  xpop. cbn [hd tl] in *.
  assert (Ds : forall s1 l1, Only_stack s s1 l1 -> dims_of s1 = dims_of s).
  { intros s1 l1 X. unfold dims_of. now rewrite (Only_stack_w _ _ _ X), (Only_stack_r _ _ _ X). }
  destruct (popVec_plain s0 l H0) as (s1 & v & E1 & C1 & G & _). rewrite (run_bind _ _ _ _ _ E1).
  pose proof (Only_stack_holds _ _ _ _ H0 C1) as H1. rewrite (Ds _ _ C) in *. rewrite K in *.
  unfold vla. replace (n <? 0) with false by (symmetry; now apply Z.ltb_ge).
  unfold mbind at 1. unfold ret at 1. rewrite <- LA.
  destruct (popL_plain (length args) _ _ H1) as (s2 & E2 & C2). rewrite (run_bind _ _ _ _ _ E2).
  pose proof (Only_stack_holds _ _ _ _ H1 C2) as H2.
  rewrite taken_app by reflexivity. rewrite skipn_app, skipn_all2, Nat.sub_diag in * by lia. cbn [skipn app] in *.
  pose proof (Only_stack_trans _ _ _ _ _ (Only_stack_trans _ _ _ _ _ C C1) C2) as O2.
  rewrite (run_bind getPos _ s2 (r_pos (s_r s2)) s2) by reflexivity.
  destruct (pushVec_plain s2 _ (r_pos (s_r s2)) H2) as (s3 & E3 & C3). rewrite (run_bind _ _ _ _ _ E3).
  pose proof (Only_stack_holds _ _ _ _ H2 C3) as H3.
  pose proof (Only_stack_trans _ _ _ _ _ O2 C3) as O3.
  rewrite (run_bind getDelta _ s3 (r_delta (s_r s3)) s3) by reflexivity.
  destruct (pushVec_plain s3 _ (r_delta (s_r s3)) H3) as (s4 & E4 & C4). rewrite (run_bind _ _ _ _ _ E4).
  pose proof (Only_stack_holds _ _ _ _ H3 C4) as H4.
  pose proof (Only_stack_trans _ _ _ _ _ O3 C4) as O4.
  unfold pushBack. destruct (pushL_plain (rev args) _ _ H4) as (s5 & E5 & C5). rewrite (run_bind _ _ _ _ _ E5).
  pose proof (Only_stack_trans _ _ _ _ _ O4 C5) as O5. rewrite rev_involutive in O5.
  assert (R2 : r_pos (s_r s2) = r_pos (s_r s) /\ r_delta (s_r s3) = r_delta (s_r s)).
  { rewrite (Only_stack_r _ _ _ O2), (Only_stack_r _ _ _ O3). auto. }
  destruct R2 as (R2 & R3). rewrite R2, R3 in *. rewrite (Ds _ _ O2), (Ds _ _ O3) in O5.
  assert (T5 : forall i, target s5 l i = target s l i).
  { intros i. unfold target. now rewrite (Ds _ _ O5), (Only_stack_r _ _ _ O5). }
  destruct (subr_offset_run s5 v l) as (t & E6 & G6).
  { intros i. rewrite (Ds _ _ O5). apply G. }
  { intros i. rewrite T5. apply I. }
  rewrite (run_bind _ _ _ _ _ E6).
  destruct (vsub_defined t (mkvec [1])) as (p & Ep).
  { intros i. rewrite G6, T5, vget_mkvec. destruct i as [|[|i]]; cbn [nth]; rewrite ?Z.sub_0_r; auto. }
  rewrite (run_bind (lift _) _ s5 p s5) by (now apply run_lift).
  set (s6 := {| s_w := s_w s5; s_r := set_r_pos p (s_r s5) |}).
  rewrite (run_bind (ipSetPos p) _ s5 tt s6) by reflexivity.
  assert (NH6 : NoHover s6) by exact (nohover_only _ _ _ O5 NH).
  destruct (setdelta_plain s6 (mkvec [1]) NH6) as (s7 & E7 & fish & C7). rewrite (run_bind _ _ _ _ _ E7).
  exists s7, p, (mkvec [1]). split; [reflexivity|]. split; [|split; [apply mkvec_wf|split]].
  - subst s7. cbn [s_w s_r s6]. split; [exact (Only_stack_w _ _ _ O5)|]. exists s5, fish.
    split; [|reflexivity]. unfold coords. exact O5.
  - intros i. rewrite vget_mkvec. unfold unit_vec. destruct i as [|[|i]]; reflexivity.
  - intros i. rewrite (vsub_get _ _ _ Ep), G6, T5, vget_mkvec. unfold unit_vec. destruct i as [|[|i]]; reflexivity.
Qed.
(** That move, in Lahey-space: the IP arrives at the target, still travelling east. *)
Theorem C52_enters : forall dims f p d t,
  (forall i, vget d i = unit_vec 0 1 i) -> (forall i, vget p i = t i - unit_vec 0 1 i) -> vwf d ->
  (1 <= dims)%nat -> (forall i, (dims <= i)%nat -> t i = 0) -> (forall i, in64 (t i)) -> in64 (t 0%nat - 1) ->
  bounds64 f -> room64 dims f d -> inside dims f t ->
  exists p', ip_next false dims f p d = Ok (p', d) /\ forall i, vget p' i = t i.
Proof.
  intros dims f p d t Gd Gp W D1 Lt It I0 B R In.
  assert (Nd : d <> []). { intros ->. specialize (Gd 0%nat). cbn in Gd. discriminate. }
  assert (In1 : inside dims f (along p d 1)).
  { intros i Hi. specialize (In i Hi). unfold along. rewrite Gp, Gd. replace (t i - unit_vec 0 1 i + 1 * unit_vec 0 1 i) with (t i) by lia. exact In. }
  assert (Dec : inside dims f (vget p) \/ ~ inside dims f (vget p)).
  { destruct (inside_dec dims f (vget p)); auto. }
  destruct Dec as [Y|Y].
  - destruct (C14_lahey dims f p d W Nd) as (p' & E & _ & _ & S & _); auto.
    + intros i Hi. rewrite Gp, Lt by auto. unfold unit_vec. destruct (Nat.eqb_spec i 0); [lia|reflexivity].
    + intros i Hi. rewrite Gd. unfold unit_vec. destruct (Nat.eqb_spec i 0); [lia|reflexivity].
    + exists p'. split; [exact E|]. intros i. rewrite S by auto. rewrite Gp, Gd. lia.
  - destruct (C14_outside dims f p d W Nd Y) as (p' & E & S).
    + intros i. rewrite Gp. unfold unit_vec. destruct (Nat.eqb_spec i 0) as [->|]; [exact I0|]. rewrite Z.sub_0_r. apply It.
    + intros i. rewrite Gd. unfold unit_vec, in64, INT64_MIN, INT64_MAX. destruct (Nat.eqb i 0); lia.
    + intros i. rewrite Gd. unfold unit_vec, in64, INT64_MIN, INT64_MAX. destruct (Nat.eqb i 0); lia.
    + intros i. rewrite Gp, Gd. replace (t i - unit_vec 0 1 i + unit_vec 0 1 i) with (t i) by lia. apply It.
    + exists p'. split; [exact E|]. intros i. rewrite S. rewrite Gp, Gd. lia.
Qed.

Lemma vec_of_coords n v x : lives n v -> forall i, vec_of n (coords n v ++ x) i = vget v i.
Proof.
  intros Lv i. unfold vec_of, coords. destruct (Nat.ltb_spec i n); [|symmetry; apply Lv; lia].
  rewrite app_nth1 by (rewrite rev_length, map_length, seq_length; lia).
  rewrite rev_nth by (rewrite map_length, seq_length; lia). rewrite map_length, seq_length.
  replace (n - S (n - 1 - i))%nat with i by lia.
  rewrite (nth_indep _ 0 (vget v 0)) by (rewrite map_length, seq_length; lia).
  rewrite map_nth, seq_nth by lia. reflexivity.
Qed.
Lemma skipn_coords n v x : skipn n (coords n v ++ x) = x.
Proof.
  rewrite skipn_app.
  assert (Lc : length (coords n v) = n) by (unfold coords; now rewrite rev_length, map_length, seq_length).
  rewrite skipn_all2 by lia. rewrite Lc, Nat.sub_diag. reflexivity.
Qed.

(** R, on the return address a call left, below [n] results: the IP is back at the call
    with the caller's delta, and the results are on the stack. *)
Theorem C52_return_partial : forall F D s fld n results p d r,
  Letter s FP_SUBR fld 82 -> NoHover s -> 0 <= n -> length results = Z.to_nat n ->
  Holds s (n :: results ++ coords (dims_of s) d ++ coords (dims_of s) p ++ r) ->
  dims_of s <> O -> vwf p -> p <> [] -> lives (dims_of s) p -> vwf d -> d <> [] -> lives (dims_of s) d ->
  exists s', execute F (S D) 82 s = Ok (ENone, s') /\ Goes s s' p d (results ++ r).
Proof.
  intros F D s fld n args p d r L NH N LA H D0 Wp Np Lp Wd Nd Ld. rewrite (execute_letter F D _ _ _ _ L).
  change (fp_exec F FP_SUBR fld 82 s) with (subr_exec 82 s). cbn [subr_exec Z.eqb Pos.eqb].
  xpop. cbn [hd tl] in *.
  assert (Ds : forall s1 l1, Only_stack s s1 l1 -> dims_of s1 = dims_of s).
  { intros s1 l1 X. unfold dims_of. now rewrite (Only_stack_w _ _ _ X), (Only_stack_r _ _ _ X). }
  unfold vla. replace (n <? 0) with false by (symmetry; now apply Z.ltb_ge).
  unfold mbind at 1. unfold ret at 1. rewrite <- LA.
  destruct (popL_plain (length args) _ _ H0) as (s2 & E2 & C2). rewrite (run_bind _ _ _ _ _ E2).
  pose proof (Only_stack_holds _ _ _ _ H0 C2) as H2.
  rewrite taken_app by reflexivity. rewrite skipn_app, skipn_all2, Nat.sub_diag in * by lia. cbn [skipn app] in *.
  pose proof (Only_stack_trans _ _ _ _ _ C C2) as O2.
  destruct (popVec_plain s2 _ H2) as (s3 & d' & E3 & C3 & G3 & W3). rewrite (run_bind _ _ _ _ _ E3).
  pose proof (Only_stack_holds _ _ _ _ H2 C3) as H3. rewrite (Ds _ _ O2) in *. rewrite skipn_coords in *.
  pose proof (Only_stack_trans _ _ _ _ _ O2 C3) as O3.
  destruct (popVec_plain s3 _ H3) as (s4 & p' & E4 & C4 & G4 & W4). rewrite (run_bind _ _ _ _ _ E4).
  pose proof (Only_stack_holds _ _ _ _ H3 C4) as H4. rewrite (Ds _ _ O3) in *. rewrite skipn_coords in *.
  pose proof (Only_stack_trans _ _ _ _ _ O3 C4) as O4.
  assert (d' = d).
  { destruct (W3 D0). apply vwf_ext; auto. intros i. rewrite G3. now apply vec_of_coords. }
  assert (p' = p).
  { destruct (W4 D0). apply vwf_ext; auto. intros i. rewrite G4. now apply vec_of_coords. }
  subst d' p'. unfold pushBack.
  destruct (pushL_plain (rev args) _ _ H4) as (s5 & E5 & C5). rewrite (run_bind _ _ _ _ _ E5).
  pose proof (Only_stack_trans _ _ _ _ _ O4 C5) as O5. rewrite rev_involutive in O5.
  set (s6 := {| s_w := s_w s5; s_r := set_r_pos p (s_r s5) |}).
  rewrite (run_bind (ipSetPos p) _ s5 tt s6) by reflexivity.
  assert (NH6 : NoHover s6) by exact (nohover_only _ _ _ O5 NH).
  destruct (setdelta_plain s6 d NH6) as (s7 & E7 & fish & C7). rewrite (run_bind _ _ _ _ _ E7).
  exists s7. split; [reflexivity|]. subst s7. cbn [s_w s_r s6]. split; [exact (Only_stack_w _ _ _ O5)|].
  exists s5, fish. split; [exact O5|reflexivity].
Qed.

(** Call and return together.  [s1] is any state the subroutine may reach, with the return
    address below its results; the move after R then goes where the move after an
    instruction that only changes the stack would have gone from the call. *)
Theorem C52_partial : forall F D s fld n l args r,
  Letter s FP_SUBR fld 67 -> NoHover s -> Holds s (n :: l) ->
  0 <= n -> skipn (dims_of s) l = args ++ r -> length args = Z.to_nat n ->
  (forall i, in64 (target s l i)) -> in64 (target s l 0 - 1) ->
  dims_of s <> O -> vwf (r_pos (s_r s)) -> r_pos (s_r s) <> [] -> lives (dims_of s) (r_pos (s_r s)) ->
  vwf (r_delta (s_r s)) -> r_delta (s_r s) <> [] -> lives (dims_of s) (r_delta (s_r s)) ->
  exists s' p d ret, execute F (S D) 67 s = Ok (ENone, s') /\
    Goes s s' p d (args ++ ret ++ r) /\
    vwf d /\ (forall i, vget d i = unit_vec 0 1 i) /\
    (forall i, vget p i = target s l i - unit_vec 0 1 i) /\
    forall s1 m results r',
      Letter s1 FP_SUBR fld 82 -> NoHover s1 -> Holds s1 (m :: results ++ ret ++ r') ->
      0 <= m -> length results = Z.to_nat m -> dims_of s1 = dims_of s ->
      exists s2, execute F (S D) 82 s1 = Ok (ENone, s2) /\
        Goes s1 s2 (r_pos (s_r s)) (r_delta (s_r s)) (results ++ r') /\
        (w_uni (s_w s1) (r_uni (s_r s1)) = w_uni (s_w s) (r_uni (s_r s)) -> next_of s2 = next_of s).
Proof.
  intros F D s fld n l args r L NH H N K LA I I0 D0 Wp Np Lp Wd Nd Ld.
  destruct (C52_call_partial F D s fld n l args r L NH H N K LA I I0) as (s' & p & d & E & G & W & Gd & Gp).
  exists s', p, d, (coords (dims_of s) (r_delta (s_r s)) ++ coords (dims_of s) (r_pos (s_r s))).
  split; [exact E|]. split; [now rewrite <- app_assoc|]. split; [exact W|]. split; [exact Gd|]. split; [exact Gp|].
  intros s1 m results r' L1 NH1 H1 M LR DE. rewrite <- app_assoc in H1.
  destruct (C52_return_partial F D s1 fld m results (r_pos (s_r s)) (r_delta (s_r s)) r') as (s2 & E2 & G2);
    rewrite ?DE; auto.
  exists s2. split; [exact E2|]. split; [exact G2|]. intros U.
  destruct G2 as (Wd2 & t & fish & O & R2). unfold next_of. rewrite Wd2, R2. cbn.
  assert (X : r_uni (s_r t) = r_uni (s_r s1)) by (now rewrite (Only_stack_r _ _ _ O)). rewrite X, U. reflexivity.
Qed.

(** J goes to the target itself, so the move that follows takes the IP one cell past it:
    the cell named is never executed (C subtracts the step, J does not). *)
Theorem C52_J : forall F D s fld l,
  Letter s FP_SUBR fld 74 -> NoHover s -> Holds s l -> (forall i, in64 (target s l i)) ->
  exists s' p d, execute F (S D) 74 s = Ok (ENone, s') /\ Goes s s' p d (skipn (dims_of s) l) /\
    vwf d /\ (forall i, vget d i = unit_vec 0 1 i) /\ (forall i, vget p i = target s l i).
Proof.
  intros F D s fld l L NH H I. rewrite (execute_letter F D _ _ _ _ L).
  change (fp_exec F FP_SUBR fld 74 s) with (subr_exec 74 s). cbn [subr_exec Z.eqb Pos.eqb].
  destruct (popVec_plain s l H) as (s1 & v & E1 & C1 & G & _). rewrite (run_bind _ _ _ _ _ E1).
  assert (D1 : dims_of s1 = dims_of s) by (unfold dims_of; now rewrite (Only_stack_w _ _ _ C1), (Only_stack_r _ _ _ C1)).
  assert (T5 : forall i, target s1 l i = target s l i).
  { intros i. unfold target. now rewrite D1, (Only_stack_r _ _ _ C1). }
  destruct (subr_offset_run s1 v l) as (t & E6 & G6).
  { intros i. rewrite D1. apply G. }
  { intros i. rewrite T5. apply I. }
  rewrite (run_bind _ _ _ _ _ E6).
  set (s6 := {| s_w := s_w s1; s_r := set_r_pos t (s_r s1) |}).
  rewrite (run_bind (ipSetPos t) _ s1 tt s6) by reflexivity.
  assert (NH6 : NoHover s6) by exact (nohover_only _ _ _ C1 NH).
  destruct (setdelta_plain s6 (mkvec [1]) NH6) as (s7 & E7 & fish & C7). rewrite (run_bind _ _ _ _ _ E7).
  exists s7, t, (mkvec [1]). split; [reflexivity|]. split; [|split; [apply mkvec_wf|split]].
  - subst s7. cbn [s_w s_r s6]. split; [exact (Only_stack_w _ _ _ C1)|]. exists s1, fish.
    split; [exact C1|reflexivity].
  - intros i. rewrite vget_mkvec. unfold unit_vec. destruct i as [|[|i]]; reflexivity.
  - intros i. now rewrite G6, T5.
Qed.

(** A and O choose between absolute and relative targets and touch nothing else. *)
Theorem C52_AO : forall F D s fld, 
  (Letter s FP_SUBR fld 65 -> execute F (S D) 65 s = Ok (ENone, {| s_w := s_w s; s_r := set_r_offset false (s_r s) |})) /\
  (Letter s FP_SUBR fld 79 -> execute F (S D) 79 s = Ok (ENone, {| s_w := s_w s; s_r := set_r_offset true (s_r s) |})).
Proof.
  intros F D s fld. split; intros L; rewrite (execute_letter F D _ _ _ _ L); reflexivity.
Qed.

(** The property as stated is false: a negative number of arguments or results sizes an
    array with it, which is undefined. *)
Theorem C52_refuted : exists s, Letter s FP_SUBR 0 67 /\ Letter s FP_SUBR 0 82 /\ Holds s [-1; 5; 0] /\
  forall F D, execute F (S D) 67 s = Bad BadOob /\ execute F (S D) 82 s = Bad BadOob.
Proof.
  exists (loaded [FP_SUBR] [-1; 5; 0]).
  assert (L1 : Letter (loaded [FP_SUBR] [-1; 5; 0]) FP_SUBR 0 67) by (apply letterb_ok; vm_compute; reflexivity).
  assert (L2 : Letter (loaded [FP_SUBR] [-1; 5; 0]) FP_SUBR 0 82) by (apply letterb_ok; vm_compute; reflexivity).
  split; [exact L1|]. split; [exact L2|]. split; [apply holds_with_list; vm_compute; [reflexivity|discriminate]|].
  intros F D. rewrite (execute_letter F D _ _ _ _ L1), (execute_letter F D _ _ _ _ L2).
  change (fp_exec F FP_SUBR 0 67) with (subr_exec 67). change (fp_exec F FP_SUBR 0 82) with (subr_exec 82).
  split; vm_compute; reflexivity.
Qed.

(** A call with two arguments to (7,0), and back with one result. *)
Example C52_ex : let s := loaded [FP_SUBR] [2; 0; 7; 31; 32; 33] in
  Letter s FP_SUBR 0 67 /\ NoHover s /\ Holds s [2; 0; 7; 31; 32; 33] /\ dims_of s = 2%nat /\
  (forall i, in64 (target s [0; 7; 31; 32; 33] i)) /\
  match execute 10 1 67 s with
  | Ok (ENone, s1) => r_pos (s_r s1) = [6] /\ r_delta (s_r s1) = [1] /\
      stack_of s1 = [31; 32; 0; 1; 0; 0; 33] /\ Letter s1 FP_SUBR 0 82
  | _ => False
  end.
Proof.
  cbv zeta. split; [apply letterb_ok; vm_compute; reflexivity|]. split; [vm_compute; reflexivity|].
  split; [apply holds_with_list; vm_compute; [reflexivity|discriminate]|].
  split; [vm_compute; reflexivity|].
  split; [intros [|[|i]]; vm_compute; intuition discriminate|].
  assert (X : match execute 10 1 67 (loaded [FP_SUBR] [2; 0; 7; 31; 32; 33]) with
    | Ok (ENone, s1) => letterb s1 FP_SUBR 0 82 = true /\ r_pos (s_r s1) = [6] /\ r_delta (s_r s1) = [1] /\
      stack_of s1 = [31; 32; 0; 1; 0; 0; 33] | _ => False end) by (vm_compute; auto).
  destruct (execute 10 1 67 _) as [[[] s1]|]; try contradiction.
  destruct X as (X & Y & Z & T). auto using letterb_ok.
Qed.
Print Assumptions C52_call_partial.
Print Assumptions C52_enters.
Print Assumptions C52_return_partial.
Print Assumptions C52_partial.
Print Assumptions C52_J.
Print Assumptions C52_AO.
Print Assumptions C52_refuted.
