(** * Properties C113 and C114: the library NULL, and library code that acts on the
    calling IP. *)

From Coq Require Import ZArith List Bool Lia.
From Verif Require Import Base BaseProofs VectorModel VectorProofs TextModel StackModel StackProofs FieldModel FieldProofs
  World IpModel LoadModel FingModel CoreModel OptModel FileModel LibModel LibTexts ExecProofs LibRun
  LibDyn States PropsLib.
Import ListNotations.
Open Scope Z_scope.

(** ** C113: NULL *)

Definition null_field : field := Eval vm_compute in the (field_empty 0 false) (field_load FmtFl null_fl 0 false).
Definition alphabet : list Z := map Z.of_nat (seq 65 26).

(** C113, opening: the file NULL.fl gives all letters. *)
Theorem C113_open : forall F path w, multi_find path w = None ->
  exists w1, lib_open F path null_fl false w = Ok (alphabet, w1) /\
    w_nuni w1 = S (w_nuni w) /\ w_nrun w1 = w_nrun w /\
    forall r, r_uni r <> w_nuni w -> r_id r < w_nrun w -> w_fl w FP_DYN = false ->
      Ready_lib (w_nuni w) null_field 3 {| s_w := w1; s_r := r |}.
Proof.
  intros F path w H.
  assert (EL : field_load FmtFl null_fl 0 false = Ok null_field) by (vm_compute; reflexivity).
  destruct (lib_open_ready F path null_fl null_field 3 w EL eq_refl ltac:(lia) H)
    as (w1 & E & E1 & E2 & R).
  exists w1. split; [rewrite E; reflexivity|]. auto.
Qed.

Lemma null_run u c l r d : In c alphabet -> vrev (r_delta r) = Ok d ->
  exists c', DRun null_field 3 u 2 r (conf_at c l) (set_r_delta d r) c' /\
    k_stop c' = true /\ k_list c' = l /\ k_out c' = [].
Proof.
  intros Hc Hd.
  assert (A : f_get null_field (mkvec [0; 0; c - 65]) = 82 /\
              f_get null_field (mkvec [1; 0; c - 65]) = 64 /\
              nxt null_field 3 (mkvec [0; 0; c - 65]) (mkvec [1]) = Ok (mkvec [1; 0; c - 65], mkvec [1])).
  { cbn in Hc. repeat (destruct Hc as [<-|Hc]; [repeat split; vm_compute; reflexivity|]). destruct Hc. }
  destruct A as (A1 & A2 & A3).
  eexists. split; [|split; [|split]].
  - change 2%nat with (S (1 + 0)). eapply DR_dyn; [reflexivity|reflexivity| |exact A3|].
    + cbn [conf_at k_pos]. rewrite A1. apply Dyn_R. exact Hd.
    + eapply DR_tick; [reflexivity| |apply DR_end].
      eapply T_last; [cbn [kP kL k_pos]; rewrite A2; apply D_stop; reflexivity|reflexivity].
  - reflexivity.
  - reflexivity.
  - reflexivity.
Qed.

(** C113: every letter of NULL reverses the delta of the IP and does nothing
    else. *)
Theorem C113 : forall c n s F D l,
  In c alphabet -> Ready_lib n null_field 3 s -> Holding l s ->
  vwf (r_delta (s_r s)) -> (forall i, in64 (- vget (r_delta (s_r s)) i)) -> (3 <= F)%positive ->
  exists s' d, lib_call F (S D) n c s = Ok (ENone, s') /\
    (forall i, vget d i = - vget (r_delta (s_r s)) i) /\
    CalledAs (set_r_delta d (s_r s)) s s' l [] /\ Ready_lib n null_field 3 s'.
Proof.
  intros c n s F D l Hc HR HK WF R HF.
  destruct (vrev_ok (r_delta (s_r s)) WF R) as (d & Ed & _ & _ & G).
  destruct (null_run (w_uni (s_w s) (r_uni (s_r s))) c l (s_r s) d Hc Ed) as (c' & Run & St & El & Eo).
  destruct (lib_call_dyn n null_field 3 c l c' _ 2 s D F HR HK Run St ltac:(lia)) as (s' & E & C).
  exists s', d. rewrite El, Eo in C. split; [exact E|]. split; [exact G|]. split; [exact C|].
  destruct HR as (HL & HQ & HRn & HS & HFg & H3 & FL & HN & HI). destruct C as ((x & Er & _) & _ & SR & _).
  unfold Ready_lib. destruct SR as (SU & _ & En & _ & _ & _ & _ & _ & _ & _ & _ & _ & _ & _ & _ & _ & Ef).
  rewrite SU, Ef, En, Er. cbn. repeat split; auto; try apply HL. fold (r_id (s_r s)). lia.
Qed.

Example C113_example : let s := lib_world null_fl [5; 6] in
  Ready_lib 1 null_field 3 s /\ Holding [5; 6] s /\ vwf (r_delta (s_r s)) /\
  (forall i, in64 (- vget (r_delta (s_r s)) i)) /\ vget (r_delta (s_r s)) 0 = 1.
Proof.
  cbv zeta. destruct (lib_world_ready null_fl null_field [5; 6]) as (R & H); [vm_compute; reflexivity..|].
  assert (E : r_delta (s_r (lib_world null_fl [5; 6])) = [1]) by (vm_compute; reflexivity).
  rewrite E. split; [exact R|]. split; [exact H|]. split; [left; cbn; lia|]. split; [|reflexivity].
  intros i. change [1] with (mkvec [1]). rewrite vget_mkvec. unfold in64, INT64_MIN, INT64_MAX.
  destruct i as [|[|i]]; cbn; lia.
Qed.

(** ** C114: dynamic instructions *)

(** Instruction [c] of the library [f] is the word [is] followed by @, written from
    left to right. *)
Definition Word (f : field) (dims : nat) (c : Z) (is : list Z) : Prop :=
  let at_ k := mkvec [Z.of_nat k; 0; c - 65] in
  (forall k i, nth_error is k = Some i ->
     f_get f (at_ k) = i /\ nxt f dims (at_ k) (mkvec [1]) = Ok (at_ (S k), mkvec [1])) /\
  f_get f (at_ (length is)) = 64.
(** The effects of the instructions one after the other. *)
Inductive Dyns (dims : nat) (u : universe) : list Z -> list Z * runner -> list Z * runner -> Prop :=
| Dyns_nil a : Dyns dims u [] a a
| Dyns_cons i is a b c : Dyn dims u i a b -> Dyns dims u is b c -> Dyns dims u (i :: is) a c.

Lemma word_run f dims u z is : forall k a b c,
  (forall j i, nth_error is j = Some i ->
     f_get f (mkvec [Z.of_nat (k + j); 0; z]) = i /\
     nxt f dims (mkvec [Z.of_nat (k + j); 0; z]) (mkvec [1]) = Ok (mkvec [Z.of_nat (S (k + j)); 0; z], mkvec [1])) ->
  f_get f (mkvec [Z.of_nat (k + length is); 0; z]) = 64 ->
  Dyns dims u is a b ->
  k_pos c = mkvec [Z.of_nat k; 0; z] -> k_delta c = mkvec [1] -> k_list c = fst a -> k_str c = false ->
  k_stop c = false -> k_out c = [] ->
  exists c', DRun f dims u (S (length is)) (snd a) c (snd b) c' /\ k_stop c' = true /\
    k_list c' = fst b /\ k_out c' = [].
Proof.
  induction is as [|i is IH]; intros k a b c HW HE HD P1 P2 P3 P4 P5 P6.
  - inversion HD; subst. cbn [length] in HE. rewrite Nat.add_0_r in HE.
    eexists. split; [|split; [|split]].
    + change (S (length (@nil Z))) with (1 + 0)%nat. eapply DR_tick; [exact P5| |apply DR_end].
      eapply T_last; [rewrite P1, HE; apply D_stop; exact P4|reflexivity].
    + reflexivity.
    + exact P3.
    + exact P6.
  - inversion HD as [|? ? ? b1 ? Do Ds]; subst. destruct a as [l r], b1 as [l1 r1].
    destruct (HW 0%nat i eq_refl) as (G & N). rewrite Nat.add_0_r in G, N. cbn [fst snd] in *.
    destruct (IH (S k) (l1, r1) b (kP (mkvec [Z.of_nat (S k); 0; z]) (mkvec [1]) (kL l1 c))) as (c' & R & S1 & S2 & S3); auto.
    { intros j x Hj. replace (S k + j)%nat with (k + S j)%nat by lia. apply HW. exact Hj. }
    { replace (S k + length is)%nat with (k + length (i :: is))%nat by (cbn; lia). exact HE. }
    exists c'. split; [|auto]. eapply DR_dyn; [exact P5|exact P4| |rewrite P1, P2; exact N|exact R].
    rewrite P1, G, P3. exact Do.
Qed.

(** C114: calling an instruction whose code is a word of dynamic instructions has
    exactly the effects of its instructions on the stack and on the calling IP. *)
Theorem C114_word : forall f dims c is n s F D l l' cal',
  Word f dims c is -> Ready_lib n f dims s -> Holding l s ->
  Dyns dims (w_uni (s_w s) (r_uni (s_r s))) is (l, s_r s) (l', cal') ->
  (length is + 1 < Pos.to_nat F)%nat ->
  exists s', lib_call F (S D) n c s = Ok (ENone, s') /\ CalledAs cal' s s' l' [].
Proof.
  intros f dims c is n s F D l l' cal' (HW & HE) HR HK HD HF.
  destruct (word_run f dims _ (c - 65) is 0 _ _ (conf_at c l) HW HE HD) as (c' & R & S1 & S2 & S3); try reflexivity.
  cbn [fst snd] in *. rewrite <- S2, <- S3.
  eapply lib_call_dyn; eauto. lia.
Qed.

(** The coordinates of a vector lie within [dims] dimensions. *)
Definition Fits (dims : nat) (v : vec) : Prop := vwf v /\ v <> [] /\ (vsize v <= dims)%nat.

Lemma top_vec_on dims v l : (0 < dims)%nat -> Fits dims v ->
  top_vec dims (vec_on dims v l) = v /\ skipn dims (vec_on dims v l) = l.
Proof.
  intros H0 (WF & NN & SZ). unfold vec_on.
  assert (L : length (rev (map (vget v) (seq 0 dims))) = dims) by (rewrite rev_length, map_length, seq_length; auto).
  split.
  - apply vwf_ext; auto.
    + apply mkvec_wf.
    + apply normalize_not_nil. destruct dims; [lia|discriminate].
    + intros i. unfold top_vec. rewrite vget_mkvec. destruct (Nat.ltb_spec i dims) as [Hi|Hi].
      * rewrite (nth_indep _ 0 (vec_of dims (rev (map (vget v) (seq 0 dims)) ++ l) 0)) by (rewrite map_length, seq_length; auto).
        rewrite map_nth, seq_nth by auto. cbn [Nat.add]. unfold vec_of.
        replace (i <? dims)%nat with true by (symmetry; now apply Nat.ltb_lt).
        rewrite app_nth1 by (rewrite L; lia). rewrite rev_nth by (rewrite map_length, seq_length; lia).
        rewrite map_length, seq_length. replace (dims - S (dims - 1 - i))%nat with i by lia.
        rewrite (nth_indep _ 0 (vget v 0)) by (rewrite map_length, seq_length; auto).
        rewrite map_nth, seq_nth by auto. reflexivity.
      * rewrite nth_overflow by (rewrite map_length, seq_length; auto). symmetry. apply vget_out.
        unfold vsize in SZ. lia.
  - rewrite skipn_app, L, Nat.sub_diag, skipn_all2 by lia. reflexivity.
Qed.

(** C114: an instruction that asks for the state of the calling IP (Q) and sets
    storage offset (S), delta (D) and position (L) from what it was given changes
    nothing, if the caller has as many dimensions as the library. *)
Theorem C114_restore_partial : forall u dims l r,
  c_dims (u_cfg u) = dims -> (0 < dims)%nat -> testmode MODE_HOVER u = false -> r_fish r = None ->
  Fits dims (r_pos r) -> Fits dims (r_delta r) -> Fits dims (r_storage r) ->
  Dyns dims u [81; 83; 68; 76] (l, r) (l, r).
Proof.
  intros u dims l r HD H0 HM HF F1 F2 F3.
  eapply Dyns_cons; [apply Dyn_Q|]. rewrite HD. cbv zeta.
  destruct (top_vec_on dims (r_storage r) (vec_on dims (r_delta r) (vec_on dims (r_pos r) l)) H0 F3) as (A1 & A2).
  destruct (top_vec_on dims (r_delta r) (vec_on dims (r_pos r) l) H0 F2) as (B1 & B2).
  destruct (top_vec_on dims (r_pos r) l H0 F1) as (C1 & C2).
  eapply Dyns_cons; [apply Dyn_S|]. rewrite A1, A2.
  eapply Dyns_cons; [apply Dyn_D; exact HM|]. rewrite B1, B2, observe_nofish by exact HF.
  eapply Dyns_cons; [apply Dyn_L|]. rewrite C1, C2.
  replace (set_r_pos _ _) with r by (destruct r; reflexivity). apply Dyns_nil.
Qed.

(** A library whose instruction B is this word. *)
Definition qsdl_fl : bytes := [61; 66; 10; 81; 83; 68; 76; 64; 10].
Definition qsdl_field : field := Eval vm_compute in the (field_empty 0 false) (field_load FmtFl qsdl_fl 0 false).

Example C114_example : let s := lib_world qsdl_fl [7; 8; 9; 4] in
  Word qsdl_field 3 66 [81; 83; 68; 76] /\ Ready_lib 1 qsdl_field 3 s /\ Holding [7; 8; 9; 4] s /\
  c_dims (u_cfg (w_uni (s_w s) (r_uni (s_r s)))) = 2%nat /\
  testmode MODE_HOVER (w_uni (s_w s) (r_uni (s_r s))) = false /\ r_fish (s_r s) = None.
Proof.
  cbv zeta. destruct (lib_world_ready qsdl_fl qsdl_field [7; 8; 9; 4]) as (R & H); [vm_compute; reflexivity..|].
  split; [|split; [exact R|split; [exact H|repeat split; vm_compute; reflexivity]]].
  split; [|vm_compute; reflexivity].
  intros k i Hk. do 4 (destruct k as [|k]; [injection Hk as <-; split; vm_compute; reflexivity|]).
  destruct k; discriminate.
Qed.

(** C114 fails for callers of another number of dimensions: Q pushes as many
    coordinates as the caller has, S, D and L take as many as the library has.  A
    two-dimensional caller gets its position and the first coordinate of its delta as
    delta, and loses three values of its own as position. *)
Theorem C114_restore_refuted : forall u l r a b c,
  c_dims (u_cfg u) = 2%nat -> testmode MODE_HOVER u = false -> r_fish r = None ->
  exists r', Dyns 3 u [81; 83; 68; 76] (a :: b :: c :: l, r) (l, r') /\
    r_delta r' = mkvec [vget (r_pos r) 0; vget (r_pos r) 1; vget (r_delta r) 0] /\
    r_pos r' = mkvec [c; b; a] /\
    r_storage r' = mkvec [vget (r_delta r) 1; vget (r_storage r) 0; vget (r_storage r) 1].
Proof.
  intros u l r a b c HD HM HF. eexists. split.
  - eapply Dyns_cons; [apply Dyn_Q|]. rewrite HD. cbn [vec_on seq map rev app].
    eapply Dyns_cons; [apply Dyn_S|]. cbn [skipn].
    eapply Dyns_cons; [apply Dyn_D; exact HM|]. cbn [skipn]. rewrite observe_nofish by exact HF.
    eapply Dyns_cons; [apply Dyn_L|]. cbn [skipn]. apply Dyns_nil.
  - cbn [set_r_pos set_r_delta set_r_storage r_pos r_delta r_storage]. repeat split.
Qed.
(** For a two-dimensional program that has just started: after the call it moves
    along the third dimension. *)
Theorem C114_lost_refuted :
  exists s', lib_call 100 1 1 66 (lib_world qsdl_fl [7; 8; 9; 4]) = Ok (ENone, s') /\
    r_delta (s_r s') = [0; 0; 1] /\ r_pos (s_r s') = [9; 8; 7] /\ Holding [4] s'.
Proof.
  destruct C114_example as (HW & HR & HK & HD & HM & HF). set (s := lib_world qsdl_fl [7; 8; 9; 4]) in *.
  destruct (C114_restore_refuted _ [4] _ 7 8 9 HD HM HF) as (r' & Ds & E1 & E2 & _).
  destruct (C114_word qsdl_field 3 66 _ 1 s 100 0 _ _ _ HW HR HK Ds ltac:(cbn; lia)) as (s' & E & ((x & Er & (_ & _ & K & _)) & _)).
  exists s'. split; [exact E|]. rewrite Er. cbn [set_r_ss r_delta r_pos].
  fold (r_delta r') (r_pos r'). rewrite E1, E2.
  split; [vm_compute; reflexivity|]. split; [reflexivity|].
  unfold Holding. rewrite Er. exact K.
Qed.

(** The executing IP is the IP [main] of a library called by the IP [cid], which is in
    the state [cal], and the letter [c] is a dynamic instruction for it. *)
Definition Acting (cid main : Z) (s : st) (cal : runner) (c : Z) : Prop :=
  r_id (s_r s) = main /\ w_run (s_w s) cid = Some cal /\ In c dyn_letters /\
  r_string (s_r s) = false /\ sem_top c (r_sem (s_r s)) = None /\
  testmode MODE_DIVE (w_uni (s_w s) (r_uni (s_r s))) = false.
Lemma acting_run cid main F D s cal c : Acting cid main s cal c ->
  lib_execute cid main F (S D) c s = dyn_exec cid main c s.
Proof.
  intros (_ & _ & I & NS & T & M). cbn [lib_execute]. unfold mbind at 1, getR at 1. rewrite NS, T.
  replace (existsb (Z.eqb c) dyn_letters) with true
    by (symmetry; apply existsb_exists; exists c; split; [exact I|apply Z.eqb_refl]).
  unfold isMode. unfold mbind at 1. unfold mbind at 1. unfold getU at 1. unfold ret at 1. now rewrite M.
Qed.

Lemma tl_skipn {A} k : forall l : list A, tl (skipn k l) = skipn (S k) l.
Proof. induction k as [|k IH]; intros [|a l]; try reflexivity. exact (IH l). Qed.

(** C114: P writes the value below the vector into the cell the vector names in the
    Funge-space of the caller, and changes no other cell of any universe, nor the
    caller but for the stack both share. *)
Theorem C114_put : forall cid main F D s cal l,
  Acting cid main s cal 80 -> Holds s l -> dims_of s <> O ->
  exists s', lib_execute cid main F (S D) 80 s = Ok (ENone, s') /\ Holds s' (skipn (S (dims_of s)) l) /\
    (exists y, w_run (s_w s') cid = Some (set_r_ss y cal)) /\
    let fld w n := u_field (w_uni w n) in
    (forall q, same (top_vec (dims_of s) l) q ->
       f_get (fld (s_w s') (r_uni cal)) q = cellval (f_char (fld (s_w s) (r_uni cal))) (nth (dims_of s) l 0)) /\
    (forall n q, (n = r_uni cal -> ~ same (top_vec (dims_of s) l) q) ->
       f_get (fld (s_w s') n) q = f_get (fld (s_w s) n) q).
Proof.
  intros cid main F D s cal l A H H0. rewrite (acting_run _ _ _ _ _ _ _ A).
  destruct A as (Hid & Hc & _). unfold dyn_exec. cbn [Z.eqb Pos.eqb].
  destruct (popVec_plain s l H) as (s1 & v & E1 & O1 & G & WF). rewrite (run_bind _ _ _ _ _ E1).
  pose proof (Only_stack_holds _ _ _ _ H O1) as H1.
  destruct (popS_plain s1 _ H1) as (s2 & E2 & O2). rewrite (run_bind _ _ _ _ _ E2).
  pose proof (Only_stack_holds _ _ _ _ H1 O2) as H2.
  assert (EV : forall q, same v q <-> same (top_vec (dims_of s) l) q).
  { assert (X : forall i, vget v i = vget (top_vec (dims_of s) l) i).
    { intros i. rewrite G. unfold top_vec. rewrite vget_mkvec. destruct (Nat.ltb_spec i (dims_of s)).
      - rewrite (nth_indep _ 0 (vec_of (dims_of s) l 0)) by (rewrite map_length, seq_length; auto).
        rewrite map_nth, seq_nth by auto. reflexivity.
      - rewrite nth_overflow by (rewrite map_length, seq_length; auto).
        unfold vec_of. destruct (Nat.ltb_spec i (dims_of s)); [lia|reflexivity]. }
    intros q. unfold same. split; intros Y i; rewrite <- Y; auto. }
  assert (W2 : s_w s2 = s_w s) by (rewrite (Only_stack_w _ _ _ O2); apply (Only_stack_w _ _ _ O1)).
  assert (I2 : r_id (s_r s2) = main) by (rewrite (Only_stack_r _ _ _ O2), (Only_stack_r _ _ _ O1); exact Hid).
  unfold mbind at 1. unfold with_caller. rewrite W2, Hc, I2, Z.eqb_refl.
  unfold mbind at 1, getR at 1. cbn [s_r]. unfold fput, modW. cbn [s_w s_r].
  eexists. split; [reflexivity|]. cbn [s_w s_r].
  assert (HX : hd 0 (skipn (dims_of s) l) = nth (dims_of s) l 0).
  { clear. generalize (dims_of s) as k. intros k. revert l. induction k; intros [|a l]; cbn; auto. }
  assert (TX : tl (skipn (dims_of s) l) = skipn (S (dims_of s)) l).
  { apply tl_skipn. }
  split; [|split; [|split]].
  - rewrite TX in H2. destruct H2 as (k & K). exists k. exact K.
  - eexists. cbn. rewrite Z.eqb_refl. reflexivity.
  - intros q Q. cbn. rewrite Nat.eqb_refl. cbn [u_field set_u_field]. rewrite f_get_put_same by (now apply EV).
    now rewrite HX.
  - intros n q Q. cbn. destruct (Nat.eqb_spec n (r_uni cal)) as [->|]; [|reflexivity].
    cbn [u_field set_u_field]. apply f_get_put_other. rewrite EV. auto.
Qed.

(** C114: X stops the library's IP and the caller and does nothing else. *)
Theorem C114_stop : forall cid main F D s cal,
  Acting cid main s cal 88 ->
  exists s', lib_execute cid main F (S D) 88 s = Ok (ENone, s') /\
    s_r s' = set_r_stopped true (s_r s) /\
    s_w s' = upd_run cid (Some (set_r_stopped true (set_r_ss (r_ss (s_r s)) cal))) (s_w s).
Proof.
  intros cid main F D s cal A. rewrite (acting_run _ _ _ _ _ _ _ A).
  destruct A as (Hid & Hc & _). unfold dyn_exec. cbn [Z.eqb Pos.eqb].
  unfold mbind at 1. unfold with_caller. rewrite Hc, Hid, Z.eqb_refl. unfold ipStop, modR. cbn [s_w s_r].
  unfold mbind at 1. eexists. split; [reflexivity|]. cbn [s_w s_r]. destruct (s_r s); split; reflexivity.
Qed.

(** A word that moves, copies and counts values: the 3 makes [O] bring up the fourth
    value, -2 makes the next [O] bring the top value down by two. *)
Example C114_stack_example : forall u r,
  Dyns 3 u [79; 79; 75; 69] ([3; 5; 1; 6; -2; 7; 8; 9], r)
    ([6; 5; 6; 5; 7; 8; 9], r).
Proof.
  intros u r. eapply Dyns_cons; [apply (Dyn_O_up _ _ [5; 1; 6] (-2) [7; 8; 9]); unfold in64, INT64_MIN, INT64_MAX; cbn; lia|].
  cbn [app]. eapply Dyns_cons; [apply (Dyn_O_down _ _ 5 [1; 6] [7; 8; 9]); [discriminate|unfold in64, INT64_MIN, INT64_MAX; cbn; lia]|].
  cbn [app]. eapply Dyns_cons; [apply Dyn_K; unfold in64, INT64_MIN, INT64_MAX; cbn; lia|].
  eapply Dyns_cons; [apply Dyn_E|]. apply Dyns_nil.
Qed.
(** An IP of the library NULL about to execute a dynamic instruction, called by the IP
    with the number 0. *)
Example C114_acting_example : forall c, In c dyn_letters ->
  let s := lib_world null_fl [5; 6] in
  let r := set_r_ss (r_ss (s_r s)) (the (s_r s) (runner_new (fun _ => false) 7 1 (w_uni (s_w s) 1) (mkvec [0]) (mkvec [1]))) in
  Acting 0 7 {| s_w := upd_run 0 (Some (s_r s)) (s_w s); s_r := r |} (s_r s) c /\
  Holds {| s_w := upd_run 0 (Some (s_r s)) (s_w s); s_r := r |} [5; 6].
Proof.
  intros c I. cbv zeta. split.
  - unfold Acting. cbn [s_w s_r]. split; [vm_compute; reflexivity|]. split; [reflexivity|]. split; [exact I|].
    cbn in I. repeat (destruct I as [<-|I]; [repeat split; vm_compute; reflexivity|]). destruct I.
  - eexists. split; [vm_compute; reflexivity|]. split; [split; reflexivity|reflexivity].
Qed.

(** The number of dimensions of a library depends on its text: one whose only
    instruction is A, on one line, has one, so that G, P, L, D and S take a single
    coordinate there. *)
Theorem C114_dims_refuted :
  match lib_open 100 [77] [61; 65; 10; 71; 64] false (s_w (start98 2 [64] [])) with
  | Ok (letters, w) => letters = [65] /\ c_dims (u_cfg (w_uni w 1)) = 1%nat
  | Bad _ => False
  end.
Proof. vm_compute. split; reflexivity. Qed.

Print Assumptions C113_open.
Print Assumptions C113.
Print Assumptions C114_word.
Print Assumptions C114_restore_partial.
Print Assumptions C114_restore_refuted.
Print Assumptions C114_lost_refuted.
Print Assumptions C114_dims_refuted.
Print Assumptions C114_put.
Print Assumptions C114_stop.
