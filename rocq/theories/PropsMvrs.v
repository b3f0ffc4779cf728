(** * Properties C40, C47, C48: universes and their names, MVRS *)

From Coq Require Import String ZArith List Bool Lia.
From Verif Require Import Base BaseProofs VectorModel VectorProofs RangeModel RangeProofs TextModel TextProofs
  StackModel StackProofs FieldModel FieldProofs World IpModel LoadModel FingModel CoreModel
  UniModel IpProofs ExecProofs FlowProofs States PropsStack PropsTurn PropsBlocks Effects SchedProofs PropsIO
  CopyProofs PropsCopy PropsSched PropsFing.
Import ListNotations.
Open Scope Z_scope.

(** ** Specification *)

Definition Named (w : world) (n : nat) (name : bytes) : Prop :=
  (n < w_nuni w)%nat /\ c_name (u_cfg (w_uni w n)) = name.
Definition Taken (w : world) (name : bytes) : Prop := exists n, Named w n name.
(** No two universes have the same name. *)
Definition Distinct (w : world) : Prop :=
  forall i j name, Named w i name -> Named w j name -> i = j.
(** The name given to a second universe: the name with .1 after it. *)
Definition dot1 (name : bytes) : bytes := name ++ [46; 49].

Lemma bytes_eqb_eq a : forall b, bytes_eqb a b = true <-> a = b.
Proof.
  induction a as [|x a IH]; intros [|y b]; cbn; split; try discriminate; auto.
  - rewrite andb_true_iff. intros (X & Y). apply Z.eqb_eq in X. apply IH in Y. congruence.
  - intros X. inversion X; subst. rewrite Z.eqb_refl. cbn. now apply IH.
Qed.
Lemma find_uni_some k : forall i name w n, find_uni k i name w = Some n ->
  (i <= n < i + k)%nat /\ c_name (u_cfg (w_uni w n)) = name.
Proof.
  induction k as [|k IH]; intros i name w n E; cbn [find_uni] in E; [discriminate|].
  destruct (bytes_eqb _ _) eqn:B.
  - inversion E; subst. apply bytes_eqb_eq in B. split; [lia|exact B].
  - apply IH in E. split; [lia|tauto].
Qed.
Lemma find_uni_none k : forall i name w, find_uni k i name w = None ->
  forall n, (i <= n < i + k)%nat -> c_name (u_cfg (w_uni w n)) <> name.
Proof.
  induction k as [|k IH]; intros i name w E n Hn; [lia|]. cbn [find_uni] in E.
  destruct (bytes_eqb _ _) eqn:B; [discriminate|]. destruct (Nat.eq_dec n i) as [->|N].
  - intros X. apply bytes_eqb_eq in X. congruence.
  - apply (IH (S i) name w E). lia.
Qed.
Lemma multi_find_some name w n : multi_find name w = Some n -> Named w n name.
Proof. intros E. apply find_uni_some in E. split; [lia|tauto]. Qed.
Lemma multi_find_none name w : multi_find name w = None <-> ~ Taken w name.
Proof.
  split.
  - intros E (n & L & X). apply (find_uni_none _ _ _ _ E n); [lia|exact X].
  - intros H. destruct (multi_find name w) as [n|] eqn:E; [|reflexivity]. exfalso. apply H. exists n. now apply multi_find_some.
Qed.
Lemma multi_find_named w n name : Distinct w -> Named w n name -> multi_find name w = Some n.
Proof.
  intros D H. destruct (multi_find name w) as [m|] eqn:E.
  - apply multi_find_some in E. now rewrite (D _ _ _ E H).
  - apply multi_find_none in E. exfalso. apply E. now exists n.
Qed.

(** ** C40 *)

(** [w'] is [w] with one more universe, called [name]. *)
Definition Adds (w w' : world) (name : bytes) : Prop :=
  w_nuni w' = S (w_nuni w) /\ Named w' (w_nuni w) name /\
  (forall k, (k < w_nuni w)%nat -> w_uni w' k = w_uni w k) /\ w_run w' = w_run w.

Lemma name_loop_runs F c w : (2 <= F)%positive -> ~ (Taken w c /\ Taken w (dot1 c)) ->
  exists name, loop (name_step c w) F c = Ok name /\ ~ Taken w name /\
    ((~ Taken w c /\ name = c) \/ (Taken w c /\ name = dot1 c)).
Proof.
  intros HF N. rewrite loop_loopNr. destruct (Pos.to_nat F) as [|[|k]] eqn:EF; [lia|lia|].
  rewrite loopNr_unfold. unfold name_step at 1. destruct (multi_find c w) as [n|] eqn:E.
  - assert (Tc : Taken w c) by (exists n; now apply multi_find_some).
    rewrite loopNr_unfold. unfold name_step at 1. fold (dot1 c).
    assert (X : multi_find (dot1 c) w = None) by (apply multi_find_none; intros Y; apply N; auto).
    rewrite X. exists (dot1 c). split; [reflexivity|]. split; [now apply multi_find_none|]. auto.
  - apply multi_find_none in E. exists c. split; [reflexivity|]. auto.
Qed.
(** A universe whose name is free gets it; the second of a name gets .1 appended. *)
Theorem C40_partial : forall F c w,
  (2 <= F)%positive -> ~ (Taken w (c_name c) /\ Taken w (dot1 (c_name c))) ->
  exists w' name, multi_create F c w = Ok w' /\ ~ Taken w name /\ Adds w w' name /\
    ((~ Taken w (c_name c) /\ name = c_name c) \/ (Taken w (c_name c) /\ name = dot1 (c_name c))).
Proof.
  intros F c w HF N. destruct (name_loop_runs F (c_name c) w HF N) as (name & E & T & O).
  unfold multi_create. rewrite E. cbn [bind]. eexists. exists name. split; [reflexivity|]. split; [exact T|].
  split; [|exact O]. split; [reflexivity|]. split; [split; [cbn; lia|]|split].
  - cbn. rewrite Nat.eqb_refl. reflexivity.
  - intros k Hk. cbn. destruct (Nat.eqb_spec k (w_nuni w)); [lia|reflexivity].
  - reflexivity.
Qed.
(** The same when it is created from a program text that loads. *)
Theorem C40_file_partial : forall F data c w df,
  (2 <= F)%positive -> ~ (Taken w (c_name c) /\ Taken w (dot1 (c_name c))) ->
  f_parse (mkvec [0]) data false (field_empty (c_dims c) (c_char c)) = Ok df ->
  exists w' name, multi_create_file F data c w = Ok w' /\ ~ Taken w name /\ Adds w w' name /\
    ((~ Taken w (c_name c) /\ name = c_name c) \/ (Taken w (c_name c) /\ name = dot1 (c_name c))).
Proof.
  intros F data c w df HF N P. destruct (name_loop_runs F (c_name c) w HF N) as (name & E & T & O).
  unfold multi_create_file. rewrite E. cbn [bind]. rewrite P. cbn [bind].
  eexists. exists name. split; [reflexivity|]. split; [exact T|].
  split; [|exact O]. split; [reflexivity|]. split; [split; [cbn; lia|]|split].
  - cbn. rewrite Nat.eqb_refl. reflexivity.
  - intros k Hk. cbn. destruct (Nat.eqb_spec k (w_nuni w)); [lia|reflexivity].
  - reflexivity.
Qed.
(** The property as stated is false: with both names taken the creation never ends. *)
Lemma C40_stuck F c w : Taken w (c_name c) -> Taken w (dot1 (c_name c)) -> multi_create F c w = Bad BadFuel.
Proof.
  intros T1 T2. unfold multi_create.
  rewrite (loop_diverges _ (fun name => name = c_name c \/ name = dot1 (c_name c))); [reflexivity|auto|].
  intros name Hn. exists (dot1 (c_name c)). split; [|auto]. unfold name_step.
  destruct (multi_find name w) eqn:E; [reflexivity|]. apply multi_find_none in E. destruct Hn as [-> | ->]; contradiction.
Qed.
Theorem C40_refuted : forall c w0, ~ (Taken w0 (c_name c) \/ Taken w0 (dot1 (c_name c))) ->
  exists w1 w2, multi_create 5 c w0 = Ok w1 /\ multi_create 5 c w1 = Ok w2 /\
    forall F, multi_create F c w2 = Bad BadFuel.
Proof.
  intros c w0 N.
  destruct (C40_partial 5 c w0) as (w1 & n1 & E1 & _ & (A1 & A2 & A3 & _) & O1); [lia|tauto|].
  destruct O1 as [(_ & ->)|(X & _)]; [|exfalso; auto].
  assert (D1 : dot1 (c_name c) <> c_name c).
  { unfold dot1. intros X. apply (f_equal (@length Z)) in X. rewrite app_length in X. cbn in X. lia. }
  assert (N1 : ~ Taken w1 (dot1 (c_name c))).
  { intros (n & L & X). destruct (Nat.eq_dec n (w_nuni w0)) as [->|Nn].
    - destruct A2 as (_ & A2). congruence.
    - apply N. right. exists n. split; [lia|]. rewrite <- A3 by lia. exact X. }
  destruct (C40_partial 5 c w1) as (w2 & n2 & E2 & _ & (B1 & B2 & B3 & _) & O2); [lia|tauto|].
  destruct O2 as [(X & _)|(_ & ->)]; [exfalso; apply X; eexists; exact A2|].
  exists w1, w2. split; [exact E1|]. split; [exact E2|]. intros F. apply C40_stuck.
  - exists (w_nuni w0). destruct A2 as (A2 & A4). split; [lia|]. rewrite B3 by lia. exact A4.
  - eexists. exact B2.
Qed.
(** Whatever programs run, in whatever order, names stay distinct. *)
Lemma eff_distinct t s s' : eff t s s' -> Distinct (s_w s) -> Distinct (s_w s').
Proof.
  intros E D.
  assert (K : forall w', w_nuni w' = w_nuni (s_w s) ->
    (forall n, c_name (u_cfg (w_uni w' n)) = c_name (u_cfg (w_uni (s_w s) n))) -> Distinct w').
  { intros w' A B i j name (X1 & X2) (Y1 & Y2). apply (D i j name); split; try (rewrite <- A; assumption);
      rewrite <- B; assumption. }
  assert (U : forall n f w, (forall u, c_name (u_cfg (f u)) = c_name (u_cfg u)) ->
    forall m, c_name (u_cfg (w_uni (upd_uni n f w) m)) = c_name (u_cfg (w_uni w m))).
  { intros n f w H m. destruct (Nat.eq_dec m n) as [->|N]; [rewrite upd_uni_same; apply H|now rewrite upd_uni_other]. }
  destruct E; cbn [s_w] in *; try exact D; try (apply K; [reflexivity|intros k; first [reflexivity|apply U; intros; reflexivity]]).
  - apply K; [reflexivity|]. apply U. intros u. destruct (H u) as (x & ->). reflexivity.
  - apply K; [reflexivity|]. apply U. intros u. destruct (H u) as (m & d & ->). reflexivity.
  - destruct H as (A & B & _). apply K; [exact B|]. intros n. now rewrite A.
  - apply K; [reflexivity|]. intros n. unfold add_runner. rewrite U by reflexivity. reflexivity.
  - apply multi_find_none in H1. intros i j name (X1 & X2) (Y1 & Y2). cbn in X1, X2, Y1, Y2.
    destruct (Nat.eqb_spec i (w_nuni (s_w s))) as [->|Ni], (Nat.eqb_spec j (w_nuni (s_w s))) as [->|Nj].
    + reflexivity.
    + exfalso. apply H1. exists j. split; [lia|congruence].
    + exfalso. apply H1. exists i. split; [lia|congruence].
    + apply (D i j name); split; auto; lia.
Qed.
Lemma step_distinct F D n w w' : uni_step F D n w = Ok w' -> Distinct w -> Distinct w'.
Proof.
  intros E H. destruct (queue w n) as [|id q] eqn:Q.
  - now rewrite (uni_step_idle _ _ _ _ _ E Q).
  - destruct (uni_step_inv F D n w w' id q E Q) as (r & w1 & r1 & R & HR & HS).
    assert (U : forall n f w, (forall u, c_name (u_cfg (f u)) = c_name (u_cfg u)) -> Distinct w -> Distinct (upd_uni n f w)).
    { intros n0 f w0 Hf D0 i j name (X1 & X2) (Y1 & Y2). apply (D0 i j name); split; auto.
      - rewrite <- X2. destruct (Nat.eq_dec i n0) as [->|N]; [rewrite upd_uni_same; symmetry; apply Hf|now rewrite upd_uni_other].
      - rewrite <- Y2. destruct (Nat.eq_dec j n0) as [->|N]; [rewrite upd_uni_same; symmetry; apply Hf|now rewrite upd_uni_other]. }
    assert (D1 : Distinct w1).
    { unfold Ran in HR. destruct (r_stopped r); [destruct HR as (-> & _); auto|]. destruct HR as (s & T & -> & _).
      apply tick_effs in T. change (Distinct (s_w s)).
      apply (effs_invariant true (fun s => Distinct (s_w s)) (eff_distinct true) _ _ T). exact H. }
    unfold Settled in HS. destruct (Nat.eqb _ _); [destruct (r_stopped r1)|]; subst w'.
    + change (Distinct (upd_uni n (fun u => set_u_queue (tl (u_queue u)) u) w1)). apply U; auto.
    + apply U; [reflexivity|]. apply U; auto.
    + apply U; auto.
Qed.
Theorem C40_distinct : forall F D data c input fs rnd w0 sched w,
  boot F data c (world0 input fs rnd) = Ok w0 -> uni_run F D sched w0 = Ok w -> Distinct w.
Proof.
  intros F D data c input fs rnd w0 sched w B. pose proof (boot_single _ _ _ _ _ _ _ B) as (N & _).
  assert (D0 : Distinct w0). { intros i j name (X & _) (Y & _). lia. }
  clear B N. revert w0 D0. induction sched as [|n t IH]; intros w0 D0 E; cbn [uni_run] in E; [inversion E; now subst|].
  destruct (uni_step F D n w0) as [w1|e] eqn:E1; [|discriminate]. cbn [bind] in E.
  eapply IH; [|exact E]. eapply step_distinct; eauto.
Qed.
Example C40_ex : let w0 := s_w (loaded [FP_MVRS] []) in let c := mvrs_cfg [65] 2 STD_98 0 in
  ~ (Taken w0 [65] \/ Taken w0 (dot1 [65])) /\
  match multi_create 5 c w0 with
  | Ok w1 => match multi_create 5 c w1 with
             | Ok w2 => map (fun n => c_name (u_cfg (w_uni w2 n))) [1; 2]%nat = [[65]; [65; 46; 49]] /\
                        multi_create 1000 c w2 = Bad BadFuel
             | _ => False
             end
  | _ => False
  end.
Proof.
  cbv zeta. split; [|vm_compute; auto].
  intros [H|H]; revert H; apply multi_find_none; vm_compute; reflexivity.
Qed.
Print Assumptions C40_partial.
Print Assumptions C40_file_partial.
Print Assumptions C40_refuted.
Print Assumptions C40_distinct.

(** ** C47 *)

(** [s'] is [s] after the IP took its operands, leaving [l'], and moved to universe [n]: it
    waits in that universe's queue, and its stacks have that universe's modes. *)
Definition Travels (s s' : st) (n : nat) (l' : list Z) : Prop :=
  exists s1, Only_stack s s1 l' /\
    s_r s' = run_setmode (c_mode (u_cfg (w_uni (s_w s) n))) (set_r_uni n (s_r s1)) /\
    s_w s' = upd_uni n (fun u => set_u_queue (u_queue u ++ [r_id (s_r s)]) u) (s_w s).

Lemma transfer_run s n : n <> r_uni (s_r s) -> transferRunner n s = Ok (tt,
  {| s_w := upd_uni n (fun u => set_u_queue (u_queue u ++ [r_id (s_r s)]) u) (s_w s);
     s_r := run_setmode (c_mode (u_cfg (w_uni (s_w s) n))) (set_r_uni n (s_r s)) |}).
Proof.
  intros N. unfold transferRunner, mbind, getR, getW, modR, modW.
  destruct (Nat.eqb_spec (r_uni (s_r s)) n); [congruence|]. reflexivity.
Qed.
(** J to another universe, to the one the IP is in, and to none. *)
Theorem C47_J : forall F D s fld b l,
  Letter s FP_MVRS fld 74 -> char_str b -> Holds s (b ++ 0 :: l) ->
  exists e s', execute F (S D) 74 s = Ok (e, s') /\
    match multi_find b (s_w s) with
    | None => e = EUnspec /\ Only_stack s s' l
    | Some n => e = ENone /\
        (n <> r_uni (s_r s) -> Travels s s' n l) /\ (n = r_uni (s_r s) -> Only_stack s s' l)
    end.
Proof.
  intros F D s fld b l L CB H. rewrite (execute_letter F D _ _ _ _ L).
  change (fp_exec F FP_MVRS fld 74 s) with (mvrs_exec F 74 s). unfold mvrs_exec.
  change (74 =? 66) with false. change (74 =? 67) with false. change (74 =? 70) with false.
  change (74 =? 71) with false. change (74 =? 74) with true. cbv iota.
  destruct (popString_plain s b l CB H) as (s1 & E1 & O1). rewrite (run_bind _ _ _ _ _ E1).
  rewrite (run_bind getW _ s1 (s_w s1) s1) by reflexivity.
  pose proof (Only_stack_w _ _ _ O1) as W1. pose proof (Only_stack_r _ _ _ O1) as R1. rewrite W1.
  destruct (multi_find b (s_w s)) as [n|]; [|exists EUnspec, s1; split; [reflexivity|auto]].
  assert (U1 : r_uni (s_r s1) = r_uni (s_r s)) by (now rewrite R1).
  assert (I1 : r_id (s_r s1) = r_id (s_r s)) by (now rewrite R1).
  destruct (Nat.eq_dec n (r_uni (s_r s))) as [->|N].
  - exists ENone, s1. split.
    + unfold transferRunner, mbind, getR, getW. rewrite U1, Nat.eqb_refl. reflexivity.
    + split; [reflexivity|]. split; [congruence|auto].
  - rewrite <- U1 in N. rewrite (run_bind _ _ _ _ _ (transfer_run s1 n N)). do 2 eexists. split; [reflexivity|].
    split; [reflexivity|]. split; [|congruence]. intros _. exists s1. split; [exact O1|]. cbn [s_r s_w].
    rewrite W1, I1. auto.
Qed.
(** g and p of any IP act on the Funge-space of the universe it was created in. *)
Theorem C47_get : forall F D s l,
  Normal s 103 -> Holds s l -> (forall i, in64 (address s l i)) ->
  exists s', execute F (S D) 103 s = Ok (ENone, s') /\
    forall q, (forall i, vget q i = address s l i) ->
      Only_stack s s' (cell s (r_fld (s_r s)) q :: skipn (dims_of s) l).
Proof.
  intros F D s l HN H I. rewrite (execute_normal F D _ s _ _ HN eq_refl). cbn [run_meth].
  destruct (popVec_plain s l H) as (s1 & v & E1 & C1 & G1 & _).
  rewrite (run_bind _ _ _ _ _ E1). pose proof (Only_stack_holds _ _ _ _ H C1) as H1.
  destruct (vadd_address _ _ l _ v C1 G1 I) as (p & Ep & Gp).
  rewrite (run_bind getStorage _ s1 (r_storage (s_r s1)) s1) by reflexivity.
  rewrite (run_bind (lift _) _ s1 p s1) by (now apply run_lift).
  rewrite (run_bind getR _ s1 (s_r s1) s1) by reflexivity.
  rewrite (run_bind (fget (r_fld (s_r s1)) p) _ s1 (f_get (u_field (w_uni (s_w s1) (r_fld (s_r s1)))) p) s1)
    by reflexivity.
  xpush. exists s0. split; [reflexivity|]. intros q Hq.
  pose proof (Only_stack_trans _ _ _ _ _ C1 C) as C2.
  assert (X : f_get (u_field (w_uni (s_w s1) (r_fld (s_r s1)))) p = cell s (r_fld (s_r s)) q).
  { rewrite (Only_stack_w _ _ _ C1), (Only_stack_r _ _ _ C1). cbn [r_fld set_r_ss].
    apply f_get_ext. intros i. now rewrite Gp, Hq. }
  rewrite <- X. exact C2.
Qed.
Theorem C47_put : forall F D s l,
  Normal s 112 -> Holds s l -> (forall i, in64 (address s l i)) ->
  exists s1 s', execute F (S D) 112 s = Ok (ENone, s') /\
    Only_stack s s1 (skipn (S (dims_of s)) l) /\ Only_fields s1 s' /\
    (forall q, (forall i, vget q i = address s l i) ->
       cell s' (r_fld (s_r s)) q = cellval (chars s (r_fld (s_r s))) (nth (dims_of s) l 0)) /\
    (forall n q, (n = r_fld (s_r s) -> ~ (forall i, vget q i = address s l i)) -> cell s' n q = cell s n q).
Proof.
  intros F D s l HN H I. rewrite (execute_normal F D _ s _ _ HN eq_refl). cbn [run_meth].
  destruct (popVec_plain s l H) as (s1 & v & E1 & C1 & G1 & _).
  rewrite (run_bind _ _ _ _ _ E1). pose proof (Only_stack_holds _ _ _ _ H C1) as H1.
  destruct (vadd_address _ _ l _ v C1 G1 I) as (p & Ep & Gp).
  rewrite (run_bind getStorage _ s1 (r_storage (s_r s1)) s1) by reflexivity.
  rewrite (run_bind (lift _) _ s1 p s1) by (now apply run_lift).
  xpop. rewrite (run_bind getR _ s0 (s_r s0) s0) by reflexivity.
  pose proof (Only_stack_trans _ _ _ _ _ C1 C) as C2.
  destruct (fput_only (r_fld (s_r s0)) p (hd 0 (skipn (dims_of s) l)) s0) as (s2 & E2 & O2 & A2 & B2).
  rewrite (run_bind _ _ _ _ _ E2). exists s0, s2. split; [reflexivity|].
  assert (W : s_w s0 = s_w s) by exact (Only_stack_w _ _ _ C2).
  assert (Fl : r_fld (s_r s0) = r_fld (s_r s)) by (now rewrite (Only_stack_r _ _ _ C2)).
  assert (CE : forall m q, cell s0 m q = cell s m q) by (intros; unfold cell; now rewrite W).
  assert (CH : forall m, chars s0 m = chars s m) by (intros; unfold chars; now rewrite W).
  rewrite Fl in *.
  split; [rewrite tl_skipn in C2; exact C2|]. split; [exact O2|]. split.
  - intros q Hq. rewrite A2 by (intros i; now rewrite Gp, Hq). rewrite CH. now rewrite nth_skipn_hd.
  - intros n q X. rewrite B2; [apply CE|]. intros U Y. apply (X U). intros i. now rewrite <- Gp, <- Y.
Qed.
(** So the property as stated is false: after J to another universe, g reads the universe
    the IP left. *)
Theorem C47_left : forall F D s fld b l n e s' l2,
  Letter s FP_MVRS fld 74 -> char_str b -> Holds s (b ++ 0 :: l) -> Home s ->
  multi_find b (s_w s) = Some n -> n <> r_uni (s_r s) -> execute F (S D) 74 s = Ok (e, s') ->
  Normal s' 103 -> Holds s' l2 -> (forall i, in64 (address s' l2 i)) ->
  r_uni (s_r s') = n /\ ~ Home s' /\
  exists s'', execute F (S D) 103 s' = Ok (ENone, s'') /\
    forall q, (forall i, vget q i = address s' l2 i) ->
      Only_stack s' s'' (cell s (r_uni (s_r s)) q :: skipn (dims_of s') l2).
Proof.
  intros F D s fld b l n e s' l2 L CB H HO Fd N E HN H2 I.
  destruct (C47_J F D s fld b l L CB H) as (e1 & s1 & E1 & X). rewrite E in E1. inversion E1; subst e1 s1. clear E1.
  rewrite Fd in X. destruct X as (_ & X & _). destruct (X N) as (s1 & O1 & R & W).
  assert (U : r_uni (s_r s') = n) by (rewrite R; reflexivity).
  assert (Fl : r_fld (s_r s') = r_uni (s_r s)) by (rewrite R, (Only_stack_r _ _ _ O1); exact HO).
  split; [exact U|]. split; [unfold Home; congruence|].
  destruct (C47_get F D s' l2 HN H2 I) as (s'' & E2 & G). exists s''. split; [exact E2|]. intros q Hq.
  specialize (G q Hq). rewrite Fl in G.
  assert (CE : cell s' (r_uni (s_r s)) q = cell s (r_uni (s_r s)) q).
  { unfold cell. rewrite W, upd_uni_other by auto. reflexivity. }
  rewrite CE in G. exact G.
Qed.
(** Two universes: in the first, cell (3,0) holds 65, in the second, called B, 66. *)
Definition pair_of (l : list Z) : st :=
  let s := loaded [FP_MVRS] l in
  let w0 := upd_uni 0 (set_u_field (f_put (mkvec [3]) 65 (field_empty 2 false))) (s_w s) in
  {| s_w := match multi_create 5 (mvrs_cfg [66] 2 STD_98 0) w0 with
            | Ok w1 => upd_uni 1 (set_u_field (f_put (mkvec [3]) 66 (field_empty 2 false))) w1
            | Bad _ => w0
            end; s_r := s_r s |}.
Theorem C47_refuted : exists s l, Letter s FP_MVRS 0 74 /\ Home s /\ Holds s (([66] : bytes) ++ 0 :: l) /\
  multi_find [66] (s_w s) = Some 1%nat /\
  match execute 10 1 74 s with
  | Ok (ENone, s1) => r_uni (s_r s1) = 1%nat /\ cell s1 (r_uni (s_r s1)) (mkvec [3]) = 66 /\
      run_stack (execute 10 1 103) s1 = Ok (ENone, [65; 88])
  | _ => False
  end.
Proof.
  exists (pair_of [66; 0; 0; 3; 88]), [0; 3; 88].
  split; [apply letterb_ok; vm_compute; reflexivity|]. split; [vm_compute; reflexivity|].
  split. { exists (match ss_top (mySS (pair_of [66; 0; 0; 3; 88])) with Ok k => k | Bad _ => stk_new end).
    split; [vm_compute; reflexivity|]. split; [split; vm_compute; reflexivity|]. vm_compute; reflexivity. }
  split; [vm_compute; reflexivity|]. vm_compute. auto.
Qed.
(** What holds: an IP that never moves keeps reading and writing the universe it runs in. *)
Theorem C47_partial : forall F D s e s' c,
  execute F (S D) c s = Ok (e, s') -> Home s -> r_uni (s_r s') = r_uni (s_r s) -> Home s'.
Proof.
  intros F D s e s' c E H U. apply execute_effs in E.
  assert (X : r_fld (s_r s') = r_fld (s_r s)).
  { clear H U. induction E as [|s s1 s2 H E IH]; [reflexivity|]. rewrite IH. clear IH E.
    destruct H; cbn [s_r]; auto; [destruct H as (_ & _ & X & _)|destruct H2 as (_ & _ & X & _)]; exact X. }
  unfold Home in *. congruence.
Qed.
Print Assumptions C47_J.
Print Assumptions C47_get.
Print Assumptions C47_put.
Print Assumptions C47_left.
Print Assumptions C47_refuted.
Print Assumptions C47_partial.

(** ** C48 *)

Lemma popVecN_plain n s l : Holds s l -> exists s' v, popVecN n s = Ok (v, s') /\
  Only_stack s s' (skipn n l) /\ (forall i, vget v i = vec_of n l i).
Proof.
  intros H. destruct (popVecLoop_plain n s l [] H) as (s' & v & E & C & G & _).
  exists s', v. split; [exact E|]. split; [exact C|]. intros i. rewrite G. unfold vec_of.
  destruct (Nat.ltb i n); [reflexivity|]. now apply vget_out, Nat.le_0_l.
Qed.
Lemma only_dims s s1 l : Only_stack s s1 l -> dims_of s1 = dims_of s.
Proof. intros X. unfold dims_of. now rewrite (Only_stack_w _ _ _ X), (Only_stack_r _ _ _ X). Qed.

(** The loop of F and P runs over every displacement from the origin to the size, both
    included. *)
Lemma mvrs_copy_run F us ud src dest size n s :
  (1 <= n)%nat -> (forall i, (n <= i)%nat -> vget size i = 0) -> vwf size -> vsmall size ->
  volume n (vget size) < Z.pos F ->
  (forall o, between n (vget size) o -> (forall i, in64 (vget src i + o i)) /\ (forall i, in64 (vget dest i + o i))) ->
  (us = ud -> forall o o', between n (vget size) o -> between n (vget size) o' ->
     ~ (forall i, vget src i + o i = vget dest i + o' i)) ->
  exists s', mvrs_copy F us src size ud dest s = Ok (tt, s') /\ Only_fields s s' /\
    (forall o q a, between n (vget size) o -> off (vget dest) o q -> off (vget src) o a ->
       cell s' ud q = cellval (chars s ud) (cell s us a)) /\
    (forall m q, (m = ud -> forall o, between n (vget size) o -> ~ off (vget dest) o q) -> cell s' m q = cell s m q).
Proof.
  intros N Z0 W Sm V I DJ.
  assert (L : (vsize size <= n)%nat).
  { destruct W as [W|W]; [unfold vsize; lia|]. destruct (Nat.le_gt_cases (vsize size) n) as [|G]; auto. exfalso.
    apply W. rewrite last_nth, <- vget_nth. apply Z0. unfold vsize in G. lia. }
  destruct (range_copy_body F us ud src dest false n size true s
    (fun p => a <- lift (vadd src p) ;; i <- fget us a ;; b <- lift (vadd dest p) ;; fput ud b i))
    as (s' & E & O & A & _ & C); auto; try discriminate.
  exists s'. split; [exact E|]. split; [exact O|]. split; [exact A|]. intros m q X. apply C; [exact X|discriminate].
Qed.

(** The operands of P, the size uppermost, then the source and the destination. *)
Definition P_size (s : st) (l : list Z) : nat -> Z := vec_of (dims_of s) l.
Definition P_src (s : st) (l : list Z) : nat -> Z := vec_of (dims_of s) (skipn (dims_of s) l).
Definition P_dest (s : st) (l : list Z) : nat -> Z := vec_of 3 (skipn (dims_of s + dims_of s) l).
(** And of F. *)
Definition F_src (s : st) (l : list Z) : nat -> Z := vec_of 3 (skipn (dims_of s) l).
Definition F_dest (s : st) (l : list Z) : nat -> Z := vec_of (dims_of s) (skipn (dims_of s + 3) l).

Lemma skipn_skipn' (a b : nat) (x : list Z) : skipn a (skipn b x) = skipn (b + a) x.
Proof. revert x. induction b; intros x; cbn; auto. destruct x; [now rewrite !skipn_nil|]. apply IHb. Qed.

Theorem C48_P_exact : forall F D s fld l b r n,
  Letter s FP_MVRS fld 80 -> Holds s l -> dims_of s <> O ->
  skipn (dims_of s + dims_of s + 3) l = b ++ 0 :: r -> char_str b -> multi_find b (s_w s) = Some n ->
  n <> r_uni (s_r s) ->
  (forall i, INT64_MIN < P_size s l i < INT64_MAX) -> volume (dims_of s) (P_size s l) < Z.pos F ->
  (forall o, between (dims_of s) (P_size s l) o ->
     (forall i, in64 (P_src s l i + o i)) /\ (forall i, in64 (P_dest s l i + o i))) ->
  exists s1 s', execute F (S D) 80 s = Ok (ENone, s') /\ Only_stack s s1 r /\ Only_fields s1 s' /\
    (forall o q a, between (dims_of s) (P_size s l) o -> off (P_dest s l) o q -> off (P_src s l) o a ->
       cell s' n q = cellval (chars s n) (cell s (r_uni (s_r s)) a)) /\
    (forall m q, (m = n -> forall o, between (dims_of s) (P_size s l) o -> ~ off (P_dest s l) o q) ->
       cell s' m q = cell s m q).
Proof.
  intros F D s fld l b r n L H D0 El CB Fd N Sm V I. rewrite (execute_letter F D _ _ _ _ L).
  change (fp_exec F FP_MVRS fld 80 s) with (mvrs_exec F 80 s). unfold mvrs_exec.
  change (80 =? 66) with false. change (80 =? 67) with false. change (80 =? 70) with false.
  change (80 =? 71) with false. change (80 =? 74) with false. change (80 =? 78) with false.
  change (80 =? 80) with true. cbv iota.
  destruct (popVec_plain s l H) as (s1 & size & E1 & C1 & G1 & W1). rewrite (run_bind _ _ _ _ _ E1).
  pose proof (Only_stack_holds _ _ _ _ H C1) as H1.
  destruct (popVec_plain s1 _ H1) as (s2 & src & E2 & C2 & G2 & _). rewrite (run_bind _ _ _ _ _ E2).
  rewrite (only_dims _ _ _ C1), skipn_skipn' in *.
  pose proof (Only_stack_holds _ _ _ _ H1 C2) as H2. pose proof (Only_stack_trans _ _ _ _ _ C1 C2) as O2.
  destruct (popVecN_plain 3 s2 _ H2) as (s3 & dest & E3 & C3 & G3). rewrite (run_bind _ _ _ _ _ E3).
  rewrite skipn_skipn', El in *.
  pose proof (Only_stack_holds _ _ _ _ H2 C3) as H3. pose proof (Only_stack_trans _ _ _ _ _ O2 C3) as O3.
  destruct (popString_plain s3 b r CB H3) as (s4 & E4 & C4). rewrite (run_bind _ _ _ _ _ E4).
  pose proof (Only_stack_trans _ _ _ _ _ O3 C4) as O4.
  rewrite (run_bind getW _ s4 (s_w s4) s4) by reflexivity. rewrite (run_bind getR _ s4 (s_r s4) s4) by reflexivity.
  assert (W4 : s_w s4 = s_w s) by exact (Only_stack_w _ _ _ O4).
  assert (U4 : r_uni (s_r s4) = r_uni (s_r s)) by (now rewrite (Only_stack_r _ _ _ O4)).
  rewrite W4, Fd, U4. destruct (W1 D0) as (Wf & _).
  assert (BW : forall o, between (dims_of s) (vget size) o <-> between (dims_of s) (P_size s l) o).
  { intros o. unfold between. split; intros (A & B); (split; [|exact B]); intros i Hi; specialize (A i Hi); rewrite ?G1 in *; exact A. }
  destruct (mvrs_copy_run F (r_uni (s_r s)) n src dest size (dims_of s) s4) as (s' & E & O & A & C).
  { lia. }
  { intros i Hi. rewrite G1. unfold vec_of. destruct (Nat.ltb_spec i (dims_of s)); [lia|reflexivity]. }
  { exact Wf. }
  { intros i. rewrite G1. apply Sm. }
  { replace (volume (dims_of s) (vget size)) with (volume (dims_of s) (P_size s l)); [exact V|].
    unfold volume. f_equal. apply map_ext. intros i. now rewrite G1. }
  { intros o Ho. apply BW in Ho. destruct (I o Ho) as (I1 & I2). split; intros i; [rewrite G2; exact (I1 i)|rewrite G3; exact (I2 i)]. }
  { congruence. }
  rewrite (run_bind _ _ _ _ _ E). exists s4, s'. split; [reflexivity|]. split; [exact O4|]. split; [exact O|].
  assert (CE : forall m q, cell s4 m q = cell s m q) by (intros; unfold cell; now rewrite W4).
  assert (CH : forall m, chars s4 m = chars s m) by (intros; unfold chars; now rewrite W4).
  split.
  - intros o q a Ho Q Qa. apply BW in Ho. rewrite (A o q a Ho); [now rewrite CH, CE| |].
    + intros i. rewrite G3. apply Q.
    + intros i. rewrite G2. apply Qa.
  - intros m q X. rewrite C; [apply CE|]. intros U o Ho Q. apply BW in Ho. apply (X U o Ho). intros i.
    rewrite Q, G3. reflexivity.
Qed.
Theorem C48_F_exact : forall F D s fld l b r n,
  Letter s FP_MVRS fld 70 -> Holds s l -> dims_of s <> O ->
  skipn (dims_of s + 3 + dims_of s) l = b ++ 0 :: r -> char_str b -> multi_find b (s_w s) = Some n ->
  n <> r_uni (s_r s) ->
  (forall i, INT64_MIN < P_size s l i < INT64_MAX) -> volume (dims_of s) (P_size s l) < Z.pos F ->
  (forall o, between (dims_of s) (P_size s l) o ->
     (forall i, in64 (F_src s l i + o i)) /\ (forall i, in64 (F_dest s l i + o i))) ->
  exists s1 s', execute F (S D) 70 s = Ok (ENone, s') /\ Only_stack s s1 r /\ Only_fields s1 s' /\
    (forall o q a, between (dims_of s) (P_size s l) o -> off (F_dest s l) o q -> off (F_src s l) o a ->
       cell s' (r_uni (s_r s)) q = cellval (chars s (r_uni (s_r s))) (cell s n a)) /\
    (forall m q, (m = r_uni (s_r s) -> forall o, between (dims_of s) (P_size s l) o -> ~ off (F_dest s l) o q) ->
       cell s' m q = cell s m q).
Proof.
  intros F D s fld l b r n L H D0 El CB Fd N Sm V I. rewrite (execute_letter F D _ _ _ _ L).
  change (fp_exec F FP_MVRS fld 70 s) with (mvrs_exec F 70 s). unfold mvrs_exec.
  change (70 =? 66) with false. change (70 =? 67) with false. change (70 =? 70) with true. cbv iota.
  destruct (popVec_plain s l H) as (s1 & size & E1 & C1 & G1 & W1). rewrite (run_bind _ _ _ _ _ E1).
  pose proof (Only_stack_holds _ _ _ _ H C1) as H1.
  destruct (popVecN_plain 3 s1 _ H1) as (s2 & src & E2 & C2 & G2). rewrite (run_bind _ _ _ _ _ E2).
  rewrite skipn_skipn' in *.
  pose proof (Only_stack_holds _ _ _ _ H1 C2) as H2. pose proof (Only_stack_trans _ _ _ _ _ C1 C2) as O2.
  destruct (popVec_plain s2 _ H2) as (s3 & dest & E3 & C3 & G3 & _). rewrite (run_bind _ _ _ _ _ E3).
  rewrite (only_dims _ _ _ O2), skipn_skipn', El in *.
  pose proof (Only_stack_holds _ _ _ _ H2 C3) as H3. pose proof (Only_stack_trans _ _ _ _ _ O2 C3) as O3.
  destruct (popString_plain s3 b r CB H3) as (s4 & E4 & C4). rewrite (run_bind _ _ _ _ _ E4).
  pose proof (Only_stack_trans _ _ _ _ _ O3 C4) as O4.
  rewrite (run_bind getW _ s4 (s_w s4) s4) by reflexivity. rewrite (run_bind getR _ s4 (s_r s4) s4) by reflexivity.
  assert (W4 : s_w s4 = s_w s) by exact (Only_stack_w _ _ _ O4).
  assert (U4 : r_uni (s_r s4) = r_uni (s_r s)) by (now rewrite (Only_stack_r _ _ _ O4)).
  rewrite W4, Fd, U4. destruct (W1 D0) as (Wf & _).
  assert (BW : forall o, between (dims_of s) (vget size) o <-> between (dims_of s) (P_size s l) o).
  { intros o. unfold between. split; intros (A & B); (split; [|exact B]); intros i Hi; specialize (A i Hi); rewrite ?G1 in *; exact A. }
  destruct (mvrs_copy_run F n (r_uni (s_r s)) src dest size (dims_of s) s4) as (s' & E & O & A & C).
  { lia. }
  { intros i Hi. rewrite G1. unfold vec_of. destruct (Nat.ltb_spec i (dims_of s)); [lia|reflexivity]. }
  { exact Wf. }
  { intros i. rewrite G1. apply Sm. }
  { replace (volume (dims_of s) (vget size)) with (volume (dims_of s) (P_size s l)); [exact V|].
    unfold volume. f_equal. apply map_ext. intros i. now rewrite G1. }
  { intros o Ho. apply BW in Ho. destruct (I o Ho) as (I1 & I2). split; intros i; [rewrite G2; exact (I1 i)|rewrite G3; exact (I2 i)]. }
  { congruence. }
  rewrite (run_bind _ _ _ _ _ E). exists s4, s'. split; [reflexivity|]. split; [exact O4|]. split; [exact O|].
  assert (CE : forall m q, cell s4 m q = cell s m q) by (intros; unfold cell; now rewrite W4).
  assert (CH : forall m, chars s4 m = chars s m) by (intros; unfold chars; now rewrite W4).
  split.
  - intros o q a Ho Q Qa. apply BW in Ho. rewrite (A o q a Ho); [now rewrite CH, CE| |].
    + intros i. rewrite G3. apply Q.
    + intros i. rewrite G2. apply Qa.
  - intros m q X. rewrite C; [apply CE|]. intros U o Ho Q. apply BW in Ho. apply (X U o Ho). intros i.
    rewrite Q, G3. reflexivity.
Qed.
(** The requested area is copied: part of what the property says. *)
Theorem C48_partial : forall F D s fld l b r n,
  Letter s FP_MVRS fld 80 -> Holds s l -> dims_of s <> O ->
  skipn (dims_of s + dims_of s + 3) l = b ++ 0 :: r -> char_str b -> multi_find b (s_w s) = Some n ->
  n <> r_uni (s_r s) ->
  (forall i, INT64_MIN < P_size s l i < INT64_MAX) -> volume (dims_of s) (P_size s l) < Z.pos F ->
  (forall o, between (dims_of s) (P_size s l) o ->
     (forall i, in64 (P_src s l i + o i)) /\ (forall i, in64 (P_dest s l i + o i))) ->
  exists s', execute F (S D) 80 s = Ok (ENone, s') /\
    (forall o q a, in_block (dims_of s) (P_size s l) o -> off (P_dest s l) o q -> off (P_src s l) o a ->
       cell s' n q = cellval (chars s n) (cell s (r_uni (s_r s)) a)).
Proof.
  intros F D s fld l b r n L H D0 El CB Fd N Sm V I.
  destruct (C48_P_exact F D s fld l b r n L H D0 El CB Fd N Sm V I) as (s1 & s' & E & _ & _ & A & _).
  exists s'. split; [exact E|]. intros o q a (B1 & B2). apply A. split; [|exact B2]. intros i Hi. specialize (B1 i Hi). lia.
Qed.
(** But a further column is too, whatever the size: the displacement of the size itself is
    outside the area and its cell is overwritten. *)
Theorem C48_refuted : forall F D s fld l b r n,
  Letter s FP_MVRS fld 80 -> Holds s l -> dims_of s <> O ->
  skipn (dims_of s + dims_of s + 3) l = b ++ 0 :: r -> char_str b -> multi_find b (s_w s) = Some n ->
  n <> r_uni (s_r s) ->
  (forall i, INT64_MIN < P_size s l i < INT64_MAX) -> volume (dims_of s) (P_size s l) < Z.pos F ->
  (forall o, between (dims_of s) (P_size s l) o ->
     (forall i, in64 (P_src s l i + o i)) /\ (forall i, in64 (P_dest s l i + o i))) ->
  exists s', execute F (S D) 80 s = Ok (ENone, s') /\ ~ in_block (dims_of s) (P_size s l) (P_size s l) /\
    (forall q a, off (P_dest s l) (P_size s l) q -> off (P_src s l) (P_size s l) a ->
       cell s' n q = cellval (chars s n) (cell s (r_uni (s_r s)) a)).
Proof.
  intros F D s fld l b r n L H D0 El CB Fd N Sm V I.
  destruct (C48_P_exact F D s fld l b r n L H D0 El CB Fd N Sm V I) as (s1 & s' & E & _ & _ & A & _).
  exists s'. split; [exact E|]. split.
  - intros (B & _). specialize (B 0%nat ltac:(lia)). lia.
  - intros q a Q Qa. apply (A (P_size s l)); auto. split; intros i Hi; [lia|]. unfold P_size, vec_of.
    destruct (Nat.ltb_spec i (dims_of s)); [lia|reflexivity].
Qed.
(** Size 1 by 1, source (3,0), destination (7,2): four cells of B are written. *)
Example C48_ex : let l := [1; 1; 0; 3; 0; 2; 7; 66; 0] in let s := pair_of l in
  Letter s FP_MVRS 0 80 /\ Holds s l /\ dims_of s = 2%nat /\
  skipn (2 + 2 + 3) l = ([66] : bytes) ++ 0 :: [] /\ multi_find [66] (s_w s) = Some 1%nat /\ r_uni (s_r s) = 0%nat /\
  volume 2 (P_size s l) = 4 /\
  match execute 100 1 80 s with
  | Ok (ENone, s') => cell s' 1 (mkvec [7; 2]) = 65 /\ cell s' 1 (mkvec [3]) = 66
  | _ => False
  end.
Proof.
  cbv zeta. split; [apply letterb_ok; vm_compute; reflexivity|].
  split. { exists (match ss_top (mySS (pair_of [1; 1; 0; 3; 0; 2; 7; 66; 0])) with Ok k => k | Bad _ => stk_new end).
    split; [vm_compute; reflexivity|]. split; [split; vm_compute; reflexivity|]. vm_compute; reflexivity. }
  do 5 (split; [vm_compute; reflexivity|]). vm_compute. auto.
Qed.
(** With size 1 by 1 and source (2,0), the cell beside the area is overwritten. *)
Example C48_beside : let s := pair_of [1; 1; 0; 2; 0; 0; 2; 66; 0] in
  match execute 100 1 80 s with
  | Ok (ENone, s') => cell s 1 (mkvec [3]) = 66 /\ cell s' 1 (mkvec [3]) = 65
  | _ => False
  end.
Proof. vm_compute. auto. Qed.
Print Assumptions C48_P_exact.
Print Assumptions C48_F_exact.
Print Assumptions C48_partial.
Print Assumptions C48_refuted.
