(** * Library code that acts on the calling IP: rules for the dynamic instructions
    and the proof that the model of a library call follows them. *)

From Coq Require Import ZArith List Bool Lia.
From Verif Require Import Base BaseProofs VectorModel VectorProofs TextModel StackModel StackProofs FieldModel
  World IpModel LoadModel FingModel CoreModel OptModel FileModel LibModel ExecProofs LibRun
  PropsBlocks PropsFing.
Import ListNotations.
Open Scope Z_scope.

(** The vector on top of a stack, its last coordinate first. *)
Definition top_vec (dims : nat) (l : list Z) : vec := mkvec (map (vec_of dims l) (seq 0 dims)).
(** A vector pushed by an IP with so many dimensions. *)
Definition vec_on (dims : nat) (v : vec) (l : list Z) : list Z :=
  rev (map (vget v) (seq 0 dims)) ++ l.

(** The effect of a dynamic instruction of a library with [dims] dimensions on the
    stack and on the calling IP, [u] being the caller's universe. *)
Inductive Dyn (dims : nat) (u : universe) : Z -> list Z * runner -> list Z * runner -> Prop :=
| Dyn_R l r d : vrev (r_delta r) = Ok d -> Dyn dims u 82 (l, r) (l, set_r_delta d r)
| Dyn_F l r p d : r_stopped r = false ->
    ip_next (c_torus (u_cfg u)) (c_dims (u_cfg u)) (u_field u) (r_pos r) (r_delta r) = Ok (p, d) ->
    Dyn dims u 70 (l, r) (l, set_r_delta d (set_r_pos p r))
| Dyn_B l r b p d d' : r_stopped r = false -> vrev (r_delta r) = Ok b ->
    ip_next (c_torus (u_cfg u)) (c_dims (u_cfg u)) (u_field u) (r_pos r) b = Ok (p, d) ->
    vrev d = Ok d' ->
    Dyn dims u 66 (l, r) (l, set_r_delta d' (set_r_pos p r))
| Dyn_D l r : testmode MODE_HOVER u = false ->
    Dyn dims u 68 (l, r)
      (skipn dims l, observe_delta (top_vec dims l) (set_r_delta (top_vec dims l) r))
| Dyn_L l r : Dyn dims u 76 (l, r) (skipn dims l, set_r_pos (top_vec dims l) r)
| Dyn_S l r : Dyn dims u 83 (l, r) (skipn dims l, set_r_storage (top_vec dims l) r)
| Dyn_Q l r : Dyn dims u 81 (l, r)
    (let d := c_dims (u_cfg u) in vec_on d (r_storage r) (vec_on d (r_delta r) (vec_on d (r_pos r) l)), r)
| Dyn_N l r v : vadd (r_pos r) (r_delta r) = Ok v ->
    Dyn dims u 78 (l, r) (f_get (u_field u) v :: l, r)
| Dyn_G l r : Dyn dims u 71 (l, r) (f_get (u_field u) (top_vec dims l) :: skipn dims l, r)
| Dyn_M l r : Dyn dims u 77 (l, r) (Z.shiftr (c_mode (u_cfg u)) 12 :: l, r)
| Dyn_E l r : Dyn dims u 69 (l, r) (Z.of_nat (length l) :: l, r)
| Dyn_K x l r : 0 <= x < Z.of_nat (length l) -> in64 (x + 1) ->
    Dyn dims u 75 (x :: l, r) (nth (Z.to_nat x) l 0 :: l, r)
| Dyn_O_up a y b r : in64 (Z.of_nat (length a) + 1) ->
    Dyn dims u 79 (Z.of_nat (length a) :: a ++ y :: b, r) (y :: a ++ b, r)
| Dyn_O_down y a b r : a <> [] -> in64 (Z.of_nat (length a) + 1) ->
    Dyn dims u 79 (- Z.of_nat (length a) :: y :: a ++ b, r) (a ++ y :: b, r).

Lemma taken_front (a b : list Z) : taken (length a) (a ++ b) = a.
Proof. induction a as [|x a IH]; [reflexivity|]. cbn [length app]. rewrite taken_S. cbn [hd tl]. now rewrite IH. Qed.
Lemma taken_mid (a b : list Z) y : taken (S (length a)) (a ++ y :: b) = a ++ [y].
Proof.
  change (y :: b) with ([y] ++ b). rewrite app_assoc.
  replace (S (length a)) with (length (a ++ [y])) by (rewrite app_length; cbn; lia). apply taken_front.
Qed.
Lemma skipn_mid (a b : list Z) y : skipn (S (length a)) (a ++ y :: b) = b.
Proof. induction a as [|x a IH]; [reflexivity|]. exact IH. Qed.

Section Dyn.
  Context (f : field) (dims n : nat) (cid main : Z) (F : positive) (D : nat).
  Context (W : world) (ss0 : sstk).
  Context (HU : Library f dims (w_uni W n)) (HT : exists k, ss_top ss0 = Ok k).
  Context (NE : cid <> main) (H0 : dims <> O).

  Definition DView (cal : runner) (c : conf) (s : st) : Prop :=
    Ip n main c (s_r s) /\ Shape ss0 (k_list c) (mySS s) /\
    Same_rest W (s_w s) /\ w_out (s_w s) = w_out W ++ k_out c /\
    (exists y, w_run (s_w s) cid = Some (set_r_ss y cal)) /\
    (forall i, i <> main -> i <> cid -> w_run (s_w s) i = w_run W i).

  Lemma dview_holds cal c s : DView cal c s -> Holds s (k_list c).
  Proof.
    intros (_ & (ops & E) & _). destruct HT as (k & K).
    exists {| s_mode := 0; s_list := k_list c; s_ops := ops |}. split; [|split; [split; reflexivity|reflexivity]].
    rewrite E. apply (ss_top_set _ _ k); auto.
  Qed.
  Lemma dview_uni cal c s : DView cal c s -> w_uni (s_w s) (r_uni (s_r s)) = w_uni W n.
  Proof. intros ((_ & E & _) & _ & (S & _) & _). now rewrite E, S. Qed.
  Lemma dview_mode cal c s b : DView cal c s -> testmode b (w_uni (s_w s) (r_uni (s_r s))) = false.
  Proof.
    intros V. rewrite (dview_uni _ _ _ V). destruct HU as (_ & _ & _ & E & _).
    unfold testmode. rewrite E. apply Z.testbit_0_l.
  Qed.
  Lemma dview_stack cal c s s' l : DView cal c s -> Only_stack s s' l -> DView cal (kL l c) s'.
  Proof.
    intros (I & (ops & E) & R) O. split; [|split].
    - rewrite (Only_stack_r _ _ _ O). exact I.
    - destruct O as (k & k' & T & M & L & ->). rewrite mySS_setSS.
      destruct HT as (k0 & K). rewrite E, (ss_top_set _ _ k0) in T by auto. injection T as <-.
      cbn [s_mode] in M. destruct k' as [m' l' ops']. cbn in M, L. subst m' l'.
      exists ops'. rewrite E. unfold ss_set. cbn [ss_sel ss_list]. now rewrite lupd_lupd.
    - rewrite (Only_stack_w _ _ _ O). exact R.
  Qed.
  Lemma dview_dims cal c s : DView cal c s -> dims_of s = dims.
  Proof. intros V. unfold dims_of. rewrite (dview_uni _ _ _ V). apply HU. Qed.

  (** A computation on the calling IP that leaves world and stacks alone. *)
  Lemma with_caller_run {A} (m : M A) (a : A) cal cal' c s : DView cal c s ->
    (forall w x, Same_rest W w -> 
       m {| s_w := w; s_r := set_r_ss x cal |} = Ok (a, {| s_w := w; s_r := set_r_ss x cal' |})) ->
    exists s', with_caller cid main m s = Ok (a, s') /\ DView cal' c s'.
  Proof.
    intros (I & Sh & SR & Ho & (y & Ec) & Hr) H. unfold with_caller. rewrite Ec.
    replace (r_id (s_r s) =? main) with true by (destruct I as (-> & _); now rewrite Z.eqb_refl).
    change (set_r_ss (r_ss (s_r s)) (set_r_ss y cal)) with (set_r_ss (r_ss (s_r s)) cal).
    rewrite H by exact SR. eexists. split; [reflexivity|].
    assert (ER : set_r_ss (r_ss (s_r s)) (s_r s) = s_r s) by (destruct (s_r s); reflexivity).
    cbn [s_r s_w]. replace (r_ss (set_r_ss (r_ss (s_r s)) cal')) with (r_ss (s_r s)) by reflexivity.
    split; [|split; [|split; [|split; [|split]]]]; cbn [s_r s_w].
    - rewrite ER. exact I.
    - unfold mySS in *. cbn [s_r]. rewrite ER. exact Sh.
    - eapply Same_rest_trans; [exact SR|]. unfold Same_rest. cbn. repeat split.
    - exact Ho.
    - exists (r_ss (s_r s)). cbn. now rewrite Z.eqb_refl.
    - intros i N1 N2. cbn. rewrite (proj2 (Z.eqb_neq i cid)) by auto. auto.
  Qed.
  (** The same for pushing vectors. *)
  Lemma with_caller_push (l : list Z) cal c s (m : M unit) : DView cal c s ->
    (forall s1 l1, Holds s1 l1 -> w_uni (s_w s1) (r_uni (s_r s1)) = w_uni W (r_uni cal) ->
       r_pos (s_r s1) = r_pos cal -> r_delta (s_r s1) = r_delta cal -> r_storage (s_r s1) = r_storage cal ->
       exists s2, m s1 = Ok (tt, s2) /\ Only_stack s1 s2 (l ++ l1)) ->
    exists s', with_caller cid main m s = Ok (tt, s') /\ DView cal (kL (l ++ k_list c) c) s'.
  Proof.
    intros V H. pose proof (dview_holds _ _ _ V) as HH.
    pose proof V as (I & Sh & SR & Ho & (y & Ec) & Hr). unfold with_caller. rewrite Ec.
    replace (r_id (s_r s) =? main) with true by (destruct I as (-> & _); now rewrite Z.eqb_refl).
    change (set_r_ss (r_ss (s_r s)) (set_r_ss y cal)) with (set_r_ss (r_ss (s_r s)) cal).
    set (s1 := {| s_w := s_w s; s_r := set_r_ss (r_ss (s_r s)) cal |}).
    destruct (H s1 (k_list c)) as (s2 & -> & O2).
    { destruct HH as (k & K). exists k. exact K. }
    { subst s1. cbn. now rewrite (proj1 SR). }
    { reflexivity. } { reflexivity. } { reflexivity. }
    eexists. split; [reflexivity|].
    destruct O2 as (k & k' & T & M & L & ->). 
    assert (O : Only_stack s (setSS (ss_set (mySS s) (ss_sel (mySS s)) k') s) (l ++ k_list c)).
    { exists k, k'. split; [exact T|]. split; [exact M|]. split; [exact L|reflexivity]. }
    pose proof (dview_stack _ _ _ _ _ V O) as (I2 & Sh2 & SR2 & Ho2 & _ & Hr2).
    split; [exact I2|]. split; [exact Sh2|]. cbn [s_w setSS].
    split; [eapply Same_rest_trans; [exact SR|]; unfold Same_rest; cbn; repeat split|].
    split; [exact Ho2|]. split.
    - eexists. cbn. rewrite Z.eqb_refl. reflexivity.
    - intros i N1 N2. cbn. rewrite (proj2 (Z.eqb_neq i cid)) by auto. auto.
  Qed.

  Lemma pop_top cal c s : DView cal c s -> exists s', popVec s = Ok (top_vec dims (k_list c), s') /\
    DView cal (kL (skipn dims (k_list c)) c) s'.
  Proof.
    intros V. destruct (popVec_plain s _ (dview_holds _ _ _ V)) as (s' & v & E & O & G & WF).
    rewrite (dview_dims _ _ _ V) in *. exists s'. split; [|eapply dview_stack; eauto].
    rewrite E. f_equal. f_equal. destruct (WF H0) as (W1 & W2). apply vwf_ext; auto.
    - apply mkvec_wf.
    - unfold top_vec. destruct dims; [congruence|]. cbn [seq map]. apply normalize_not_nil. discriminate.
    - intros i. rewrite G. unfold top_vec. rewrite vget_mkvec.
      destruct (Nat.ltb_spec i dims).
      + rewrite (nth_indep _ 0 (vec_of dims (k_list c) 0)) by (rewrite map_length, seq_length; auto).
        rewrite map_nth, seq_nth by auto. reflexivity.
      + rewrite nth_overflow by (rewrite map_length, seq_length; auto).
        unfold vec_of. destruct (Nat.ltb_spec i dims); [lia|reflexivity].
  Qed.

  Lemma sem_dyn i : In i dyn_letters -> sem_top i lib_sem = None.
  Proof. intros H. repeat (destruct H as [<-|H]; [reflexivity|]). destruct H. Qed.
  Lemma exec_dyn cal c s i : DView cal c s -> k_str c = false -> In i dyn_letters ->
    lib_execute cid main F (S D) i s = dyn_exec cid main i s.
  Proof.
    intros V NS Hi. pose proof V as ((_ & _ & _ & _ & _ & I & _ & _ & _ & _ & _ & IS) & _).
    cbn [lib_execute]. unfold mbind at 1, getR at 1. rewrite I, NS, IS, (sem_dyn i Hi).
    replace (existsb (Z.eqb i) dyn_letters) with true
      by (symmetry; apply existsb_exists; exists i; split; [exact Hi|apply Z.eqb_refl]).
    unfold isMode. unfold mbind at 1. unfold mbind at 1. unfold getU at 1. unfold ret at 1.
    now rewrite (dview_mode _ _ _ _ V).
  Qed.
  Lemma dview_push cal c s x : DView cal c s -> exists s', pushS x s = Ok (tt, s') /\
    DView cal (kL (x :: k_list c) c) s'.
  Proof.
    intros V. destruct (pushS_plain s _ x (dview_holds _ _ _ V)) as (s' & E & O).
    exists s'. split; [exact E|]. eapply dview_stack; eauto.
  Qed.

  Ltac use := match goal with
    | H : vrev ?a = Ok _ |- context [vrev ?a] => rewrite H
    | H : ip_next ?t ?d ?f ?p ?v = Ok _ |- context [ip_next ?t ?d ?f ?p ?v] => rewrite H
    | H : vadd ?a ?b = Ok _ |- context [vadd ?a ?b] => rewrite H
    | H : r_stopped ?r = false |- context [r_stopped ?r] => rewrite H
    end.

  (** The model follows the rules. *)
  Lemma dyn_sim i c cal l' cal' s : k_str c = false ->
    Dyn dims (w_uni W (r_uni cal)) i (k_list c, cal) (l', cal') -> DView cal c s ->
    exists s', lib_execute cid main F (S D) i s = Ok (ENone, s') /\ DView cal' (kL l' c) s'.
  Proof.
    intros NS Do V.
    assert (Hi : In i dyn_letters) by (inversion Do; cbn; auto 20).
    rewrite (exec_dyn _ _ _ _ V NS Hi).
    assert (KL : kL (k_list c) c = c) by (destruct c; reflexivity).
    inversion Do; subst; unfold dyn_exec; cbn [Z.eqb Pos.eqb]; try rewrite KL.
    - destruct (with_caller_run ipReflect tt _ (set_r_delta d cal) _ _ V) as (s1 & E1 & V1).
      { intros w x SR. unfold ipReflect, ipTurn, mbind, getR, lift, modR. cbn [s_r].
        change (r_delta (set_r_ss x cal)) with (r_delta cal). use. reflexivity. }
      rewrite (run_bind _ _ _ _ _ E1). exists s1. auto.
    - destruct (with_caller_run ipNext tt _ (set_r_delta d (set_r_pos p cal)) _ _ V) as (s1 & E1 & V1).
      { intros w x SR. unfold ipNext, mbind, getR, getU, lift, modR. cbn [s_r s_w].
        change (r_stopped (set_r_ss x cal)) with (r_stopped cal). use.
        change (r_uni (set_r_ss x cal)) with (r_uni cal). rewrite (proj1 SR).
        change (r_pos (set_r_ss x cal)) with (r_pos cal).
        change (r_delta (set_r_ss x cal)) with (r_delta cal). use. reflexivity. }
      rewrite (run_bind _ _ _ _ _ E1). exists s1. auto.
    - destruct (with_caller_run (ipReflect ;;; ipNext ;;; ipReflect) tt _ (set_r_delta d' (set_r_pos p cal)) _ _ V)
        as (s1 & E1 & V1).
      { intros w x SR. unfold ipReflect, ipTurn, ipNext, mbind, getR, getU, lift, modR. cbn [s_r s_w].
        change (r_delta (set_r_ss x cal)) with (r_delta cal). use. cbn [s_r s_w].
        change (r_stopped (set_r_delta b (set_r_ss x cal))) with (r_stopped cal). use.
        change (r_uni (set_r_delta b (set_r_ss x cal))) with (r_uni cal). rewrite (proj1 SR).
        change (r_pos (set_r_delta b (set_r_ss x cal))) with (r_pos cal).
        change (r_delta (set_r_delta b (set_r_ss x cal))) with b. use. cbn [s_r s_w fst snd].
        match goal with |- context [vrev (r_delta ?r)] => change (r_delta r) with d end.
        use. reflexivity. }
      rewrite (run_bind _ _ _ _ _ E1). exists s1. auto.
    - destruct (pop_top _ _ _ V) as (s1 & E1 & V1). rewrite (run_bind _ _ _ _ _ E1).
      set (v := top_vec dims (k_list c)) in *.
      destruct (with_caller_run (ipSetDelta v) tt _ (observe_delta v (set_r_delta v cal)) _ _ V1) as (s2 & E2 & V2).
      { intros w x SR. rewrite ipSetDelta_run.
        - cbn [s_r s_w]. f_equal. f_equal. f_equal. unfold observe_delta. destruct cal as []. cbn.
          destruct r_fish as [[? ?]|]; [|reflexivity]. destruct (_ && _); reflexivity.
        - cbn [s_r s_w]. change (r_uni (set_r_ss x cal)) with (r_uni cal). now rewrite (proj1 SR). }
      rewrite (run_bind _ _ _ _ _ E2). exists s2. auto.
    - destruct (pop_top _ _ _ V) as (s1 & E1 & V1). rewrite (run_bind _ _ _ _ _ E1).
      set (v := top_vec dims (k_list c)) in *.
      destruct (with_caller_run (ipSetPos v) tt _ (set_r_pos v cal) _ _ V1) as (s2 & E2 & V2); [reflexivity|].
      rewrite (run_bind _ _ _ _ _ E2). exists s2. auto.
    - destruct (pop_top _ _ _ V) as (s1 & E1 & V1). rewrite (run_bind _ _ _ _ _ E1).
      set (v := top_vec dims (k_list c)) in *.
      destruct (with_caller_run (ipSetStorage v) tt _ (set_r_storage v cal) _ _ V1) as (s2 & E2 & V2); [reflexivity|].
      rewrite (run_bind _ _ _ _ _ E2). exists s2. auto.
    - set (dc := c_dims (u_cfg (w_uni W (r_uni cal')))).
      destruct (with_caller_push (rev (map (vget (r_storage cal')) (seq 0 dc)) ++
          rev (map (vget (r_delta cal')) (seq 0 dc)) ++ rev (map (vget (r_pos cal')) (seq 0 dc)))
        _ _ _ (r <- getR ;; pushVec (r_pos r) ;;; pushVec (r_delta r) ;;; pushVec (r_storage r)) V)
        as (s1 & E1 & V1).
      { intros s1 l1 HH EU EP ED ES. unfold mbind at 1, getR at 1. rewrite EP, ED, ES.
        assert (DD : dims_of s1 = dc) by (unfold dims_of; now rewrite EU).
        destruct (pushVec_plain s1 l1 (r_pos cal') HH) as (s2 & E2 & O2).
        rewrite (run_bind _ _ _ _ _ E2). pose proof (Only_stack_holds _ _ _ _ HH O2) as HH2.
        destruct (pushVec_plain s2 _ (r_delta cal') HH2) as (s3 & E3 & O3).
        rewrite (run_bind _ _ _ _ _ E3). pose proof (Only_stack_holds _ _ _ _ HH2 O3) as HH3.
        destruct (pushVec_plain s3 _ (r_storage cal') HH3) as (s4 & E4 & O4).
        exists s4. split; [exact E4|].
        assert (D2 : dims_of s2 = dc) by (unfold dims_of; rewrite (Only_stack_r _ _ _ O2), (Only_stack_w _ _ _ O2); exact DD).
        assert (D3 : dims_of s3 = dc) by (unfold dims_of; rewrite (Only_stack_r _ _ _ O3), (Only_stack_w _ _ _ O3); exact D2).
        rewrite DD, D2, D3 in *. rewrite <- !app_assoc.
        eapply Only_stack_trans; [exact O2|]. eapply Only_stack_trans; [exact O3|exact O4]. }
      rewrite (run_bind _ _ _ _ _ E1). exists s1. split; [reflexivity|].
      rewrite <- !app_assoc in V1. exact V1.
    - destruct (with_caller_run (r <- getR ;; v <- lift (vadd (r_pos r) (r_delta r)) ;; fget (r_uni r) v)
        (f_get (u_field (w_uni W (r_uni cal'))) v) _ cal' _ _ V) as (s1 & E1 & V1).
      { intros w x SR. unfold mbind, getR, lift, fget. cbn [s_r s_w].
        change (r_pos (set_r_ss x cal')) with (r_pos cal').
        change (r_delta (set_r_ss x cal')) with (r_delta cal'). use. cbn [s_r s_w].
        change (r_uni (set_r_ss x cal')) with (r_uni cal'). now rewrite (proj1 SR). }
      rewrite (run_bind _ _ _ _ _ E1). destruct (dview_push _ _ _ (f_get (u_field (w_uni W (r_uni cal'))) v) V1) as (s2 & E2 & V2).
      rewrite (run_bind _ _ _ _ _ E2). exists s2. auto.
    - destruct (pop_top _ _ _ V) as (s1 & E1 & V1). rewrite (run_bind _ _ _ _ _ E1).
      set (v := top_vec dims (k_list c)) in *.
      destruct (with_caller_run (r <- getR ;; fget (r_uni r) v)
        (f_get (u_field (w_uni W (r_uni cal'))) v) _ cal' _ _ V1) as (s2 & E2 & V2).
      { intros w x SR. unfold mbind, getR, lift, fget. cbn [s_r s_w].
        change (r_uni (set_r_ss x cal')) with (r_uni cal'). now rewrite (proj1 SR). }
      rewrite (run_bind _ _ _ _ _ E2). destruct (dview_push _ _ _ (f_get (u_field (w_uni W (r_uni cal'))) v) V2) as (s3 & E3 & V3).
      rewrite (run_bind _ _ _ _ _ E3). exists s3. auto.
    - destruct (with_caller_run (u <- getU ;; ret (Z.shiftr (c_mode (u_cfg u)) 12))
        (Z.shiftr (c_mode (u_cfg (w_uni W (r_uni cal')))) 12) _ cal' _ _ V) as (s1 & E1 & V1).
      { intros w x SR. unfold mbind, getU, ret. cbn [s_r s_w].
        change (r_uni (set_r_ss x cal')) with (r_uni cal'). now rewrite (proj1 SR). }
      rewrite (run_bind _ _ _ _ _ E1).
      destruct (dview_push _ _ _ (Z.shiftr (c_mode (u_cfg (w_uni W (r_uni cal')))) 12) V1) as (s2 & E2 & V2).
      rewrite (run_bind _ _ _ _ _ E2). exists s2. auto.
    - pose proof (dview_holds _ _ _ V) as HH.
      destruct (onStack_plain (fun k => (stk_size k, k)) s _ (k_list c) (Z.of_nat (length (k_list c))) HH) as (s1 & E1 & C1).
      { intros k P L. cbn [fst snd]. split; [unfold stk_size; now rewrite L|auto]. }
      unfold sizeS. rewrite (run_bind _ _ _ _ _ E1). pose proof (dview_stack _ _ _ _ _ V C1) as V1. rewrite KL in V1.
      destruct (dview_push _ _ _ (Z.of_nat (length (k_list c))) V1) as (s2 & E2 & V2).
      rewrite (run_bind _ _ _ _ _ E2). exists s2. auto.
    - pose proof (dview_holds _ _ _ V) as HH. match goal with H : _ = k_list c |- _ => rewrite <- H in HH end.
      xpop. cbn [hd tl] in *. destruct (Z.ltb_spec x 0); [lia|].
      rewrite (run_bind (lift (add64 x 1)) _ _ (x + 1) s0) by (unfold lift; unfold add64; now rewrite chk64_ok).
      match goal with H : Holds s0 _ |- _ => rename H into HS end.
      destruct (onStack_plain (fun k => (stk_get (x + 1) k, k)) s0 l l (nth (Z.to_nat x) l 0) HS)
        as (s1 & EG & CG).
      { intros k P L. cbn [fst snd]. split; [|auto]. unfold stk_get, stk_size. rewrite L.
        destruct (Z.leb_spec (x + 1) (Z.of_nat (length l))); [|lia].
        destruct (Z.ltb_spec 0 (x + 1)); [|lia]. cbn [andb]. destruct P as [-> _].
        now rewrite Z.add_simpl_r. }
      unfold getS. rewrite (run_bind _ _ _ _ _ EG).
      pose proof (Only_stack_holds _ _ _ _ HS CG) as HG.
      xpush. eexists. split; [reflexivity|]. eapply dview_stack; [exact V|]. os_finish.
    - pose proof (dview_holds _ _ _ V) as HH. match goal with H : _ = k_list c |- _ => rewrite <- H in HH end.
      xpop. cbn [hd tl] in *. destruct (Z.ltb_spec (Z.of_nat (length a)) 0); [lia|].
      unfold mbind at 1, ret at 1.
      rewrite (run_bind (lift (add64 (Z.of_nat (length a)) 1)) _ _ (Z.of_nat (length a) + 1) s0)
        by (unfold lift; unfold add64; now rewrite chk64_ok).
      unfold vla. destruct (Z.ltb_spec (Z.of_nat (length a) + 1) 0); [lia|]. unfold mbind at 1, ret at 1.
      replace (Z.to_nat (Z.of_nat (length a) + 1)) with (S (length a)) by lia.
      match goal with H : Holds s0 _ |- _ => rename H into HS end.
      destruct (popL_plain (S (length a)) s0 _ HS) as (s1 & E1 & C1). rewrite (run_bind _ _ _ _ _ E1).
      rewrite taken_mid. rewrite skipn_mid in C1. rewrite Nat2Z.id, firstn_app, Nat.sub_diag, firstn_all, app_nil_r.
      rewrite skipn_app, Nat.sub_diag, skipn_all. cbn [firstn skipn app].
      pose proof (Only_stack_holds _ _ _ _ HS C1) as H1'.
      destruct (pushL_plain (rev a) s1 _ H1') as (s2 & E2 & C2). pose proof (Only_stack_holds _ _ _ _ H1' C2) as H2'.
      destruct (pushL_plain [y] s2 _ H2') as (s3 & E3 & C3). rewrite rev_involutive in *.
      rewrite (run_bind (pushL (rev a) ;;; pushL [y]) _ _ tt s3) by (rewrite (run_bind _ _ _ _ _ E2); exact E3).
      exists s3. split; [reflexivity|]. eapply dview_stack; [exact V|].
      eapply Only_stack_trans; [exact C|]. eapply Only_stack_trans; [exact C1|]. eapply Only_stack_trans; [exact C2|exact C3].
    - pose proof (dview_holds _ _ _ V) as HH. match goal with H : _ = k_list c |- _ => rewrite <- H in HH end.
      assert (LA : (0 < length a)%nat) by (destruct a; [congruence|cbn; lia]).
      xpop. cbn [hd tl] in *. destruct (Z.ltb_spec (- Z.of_nat (length a)) 0); [|lia].
      rewrite (run_bind (lift (neg64 (- Z.of_nat (length a)))) _ _ (Z.of_nat (length a)) s0)
        by (unfold lift, neg64; rewrite Z.opp_involutive, chk64_ok; [reflexivity|unfold in64, INT64_MIN, INT64_MAX in *; lia]).
      rewrite (run_bind (lift (add64 (Z.of_nat (length a)) 1)) _ _ (Z.of_nat (length a) + 1) s0)
        by (unfold lift; unfold add64; now rewrite chk64_ok).
      unfold vla. destruct (Z.ltb_spec (Z.of_nat (length a) + 1) 0); [lia|]. unfold mbind at 1, ret at 1.
      replace (Z.to_nat (Z.of_nat (length a) + 1)) with (S (length a)) by lia.
      match goal with H : Holds s0 _ |- _ => rename H into HS end.
      destruct (popL_plain (S (length a)) s0 _ HS) as (s1 & E1 & C1). rewrite (run_bind _ _ _ _ _ E1).
      assert (LT : taken (S (length a)) (y :: a ++ b) = y :: a).
      { rewrite taken_S. cbn [hd tl]. f_equal. apply taken_front. }
      rewrite LT. cbn [firstn skipn]. 
      assert (LS : skipn (S (length a)) (y :: a ++ b) = b).
      { cbn [skipn]. rewrite skipn_app, Nat.sub_diag, skipn_all. reflexivity. }
      rewrite LS in C1.
      pose proof (Only_stack_holds _ _ _ _ HS C1) as H2'.
      destruct (pushL_plain [y] s1 _ H2') as (s2 & E2 & C2). pose proof (Only_stack_holds _ _ _ _ H2' C2) as H3'.
      destruct (pushL_plain (rev a) s2 _ H3') as (s3 & E3 & C3). rewrite rev_involutive in *.
      rewrite (run_bind (pushL [y] ;;; pushL (rev a)) _ _ tt s3) by (rewrite (run_bind _ _ _ _ _ E2); exact E3).
      exists s3. split; [reflexivity|]. eapply dview_stack; [exact V|].
      eapply Only_stack_trans; [exact C|]. eapply Only_stack_trans; [exact C1|]. eapply Only_stack_trans; [exact C2|exact C3].
  Qed.

  (** A tick that executes a dynamic instruction. *)
  Lemma dyn_tick c cal l' cal' p d w : k_str c = false -> k_stop c = false ->
    Dyn dims (w_uni W (r_uni cal)) (f_get f (k_pos c)) (k_list c, cal) (l', cal') ->
    nxt f dims (k_pos c) (k_delta c) = Ok (p, d) ->
    Wview n cid main W cal ss0 c w ->
    exists w', lib_as cid main main (tick_with F (lib_execute cid main F (S D))) w = Ok w' /\
      Wview n cid main W cal' ss0 (kP p d (kL l' c)) w'.
  Proof.
    intros NS St Do EN (SR & Ho & (r & Er & I) & (x & Ec & Sh) & Hr).
    unfold lib_as. rewrite Er, Ec, Z.eqb_refl.
    change (r_ss (set_r_ss x cal)) with x.
    set (s := {| s_w := w; s_r := set_r_ss x r |}).
    assert (V : DView cal c s).
    { split; [exact I|]. split; [exact Sh|]. split; [exact SR|]. split; [exact Ho|].
      split; [exists x; exact Ec|exact Hr]. }
    destruct (dyn_sim _ _ _ _ _ _ NS Do V) as (s1 & E1 & V1).
    assert (EG : ipGet s = Ok (f_get f (k_pos c), s)).
    { unfold ipGet, mbind, getR, fget. rewrite (dview_uni _ _ _ V). destruct HU as (-> & _).
      destruct I as (_ & _ & I & _). subst s. cbn [s_r]. change (r_pos (set_r_ss x r)) with (r_pos r).
      rewrite I. reflexivity. }
    assert (ENx : ipNext s1 = Ok (tt, moved s1 p d)).
    { pose proof V1 as ((_ & _ & I3 & I4 & I5 & _) & _). apply ipNext_run; [rewrite I5; exact St|].
      unfold next_of. rewrite (dview_uni _ _ _ V1). destruct HU as (-> & -> & -> & _).
      rewrite I3, I4. exact EN. }
    assert (ET : tick_with F (lib_execute cid main F (S D)) s = Ok (tt, moved s1 p d)).
    { unfold tick_with, loopM. rewrite loop_loopNr. destruct (Pos2Nat.is_succ F) as (k & ->).
      rewrite loopNr_unfold. cbn [fst snd].
      unfold tick_step_with. unfold isMode. unfold mbind at 1. unfold mbind at 1, getU at 1, ret at 1.
      rewrite (dview_mode _ _ _ _ V). rewrite (run_bind _ _ _ _ _ EG).
      rewrite (run_bind _ _ _ _ _ E1). unfold mbind at 1, getR at 1. unfold mbind at 1, ret at 1.
      rewrite (run_bind _ _ _ _ _ ENx). reflexivity. }
    rewrite ET. destruct V1 as (I1 & Sh1 & SR1 & Ho1 & (y & Ey) & Hr1).
    cbn [s_w moved]. rewrite Ey. eexists. split; [reflexivity|].
    split; [|split; [|split; [|split]]]; cbn [s_r s_w].
    - eapply Same_rest_trans; [exact SR1|]. unfold Same_rest. cbn. repeat split.
    - exact Ho1.
    - eexists. split; [cbn; rewrite Z.eqb_refl; reflexivity|].
      destruct I1 as (J1 & J2 & J3 & J4 & J5 & J). unfold Ip. cbn. auto 12.
    - exists (mySS s1). split; [|exact Sh1]. cbn.
      rewrite (proj2 (Z.eqb_neq cid main)), Z.eqb_refl by auto. reflexivity.
    - intros i N1 N2. cbn. rewrite (proj2 (Z.eqb_neq i main)), (proj2 (Z.eqb_neq i cid)) by auto. auto.
  Qed.

  Lemma dyn_go c cal l' cal' p d w : u_queue (w_uni W n) = [main] ->
    k_str c = false -> k_stop c = false ->
    Dyn dims (w_uni W (r_uni cal)) (f_get f (k_pos c)) (k_list c, cal) (l', cal') ->
    nxt f dims (k_pos c) (k_delta c) = Ok (p, d) ->
    Wview n cid main W cal ss0 c w ->
    exists w', lib_wait_step F (S D) cid main n w = Ok (inl w') /\
      Wview n cid main W cal' ss0 (kP p d (kL l' c)) w'.
  Proof.
    intros HQ NS St Do EN V. pose proof V as (SR & Ho & (r & Er & I) & (x & Ec & Sh) & Hr).
    destruct (dyn_tick _ _ _ _ _ _ _ NS St Do EN V) as (w1 & E1 & (SR1 & Ho1 & (r1 & Er1 & I1) & C1 & Hr1)).
    assert (Q : u_queue (w_uni w n) = [main]) by (destruct SR as (-> & _); exact HQ).
    assert (Q1 : u_queue (w_uni w1 n) = [main]) by (destruct SR1 as (-> & _); exact HQ).
    unfold lib_wait_step, lib_step. rewrite Q, Er.
    replace (r_stopped r) with false by (destruct I as (_ & _ & _ & _ & -> & _); auto).
    rewrite E1. cbn [bind]. cbn [w_run upd_uni set_w_uni]. rewrite Er1.
    replace (Nat.eqb (r_uni r1) n) with true
      by (destruct I1 as (_ & -> & _); symmetry; apply Nat.eqb_refl).
    replace (r_stopped r1) with false by (destruct I1 as (_ & _ & _ & _ & -> & _); auto).
    cbn [bind]. eexists. split; [reflexivity|].
    split; [|split; [exact Ho1|split; [exists r1; split; [exact Er1|exact I1]|split; [exact C1|exact Hr1]]]].
    eapply Same_rest_trans; [exact SR1|]. unfold Same_rest. cbn. repeat split.
    intros m. rewrite Nat.eqb_refl. destruct (Nat.eqb_spec m n) as [->|]; [|reflexivity].
    rewrite Q1. cbn [tl app]. destruct (w_uni w1 n) eqn:EU. cbn in *. now rewrite Q1.
  Qed.
End Dyn.

(** ** Runs with dynamic instructions *)

(** A run of the library from [c] to [c'], [u] being the universe of the caller,
    that takes the calling IP from [cal] to [cal']. *)
Inductive DRun (f : field) (dims : nat) (u : universe) : nat -> runner -> conf -> runner -> conf -> Prop :=
| DR_end c cal : DRun f dims u 0 cal c cal c
| DR_tick m N c c1 cal cal' c' : k_stop c = false -> Tick f dims m c c1 ->
    DRun f dims u N cal c1 cal' c' -> DRun f dims u (m + N) cal c cal' c'
| DR_dyn N c l1 cal cal1 p d cal' c' : k_stop c = false -> k_str c = false ->
    Dyn dims u (f_get f (k_pos c)) (k_list c, cal) (l1, cal1) ->
    nxt f dims (k_pos c) (k_delta c) = Ok (p, d) ->
    DRun f dims u N cal1 (kP p d (kL l1 c)) cal' c' -> DRun f dims u (S N) cal c cal' c'.

Lemma Dyn_uni dims u i a b : Dyn dims u i a b -> r_uni (snd b) = r_uni (snd a).
Proof.
  destruct 1; cbn [snd]; try reflexivity.
  unfold observe_delta. destruct (r_fish _) as [[? ?]|]; [|reflexivity]. destruct (_ && _); reflexivity.
Qed.
Lemma DRun_uni f dims u N cal c cal' c' : DRun f dims u N cal c cal' c' -> r_uni cal' = r_uni cal.
Proof.
  induction 1 as [| |N c l1 cal cal1 p d cal' c' St NS Do EN R IH]; auto.
  apply Dyn_uni in Do. cbn [snd] in Do. congruence.
Qed.

Lemma drun_sim f dims n cid main F D W ss0 u0 : Library f dims (w_uni W n) ->
  (exists k, ss_top ss0 = Ok k) -> cid <> main -> dims <> O -> u_queue (w_uni W n) = [main] ->
  forall N cal c cal' c', DRun f dims u0 N cal c cal' c' -> w_uni W (r_uni cal) = u0 ->
    k_stop c = false -> k_stop c' = true ->
    (N <= Pos.to_nat F)%nat -> forall m w, (N < m)%nat -> Wview n cid main W cal ss0 c w ->
    exists w', loopNr (lib_wait_step F (S D) cid main n) m w = Ok w' /\ Done n cid main W cal' ss0 c' w'.
Proof.
  intros HU HT NE H0 HQ N cal c cal' c' R.
  induction R as [c cal|k N c c1 cal cal' c' St T R IH|N c l1 cal cal1 p d cal' c' St NS Do EN R IH];
    intros EU St0 St' HN m w Hm V; [congruence| |].
  - pose proof (Tick_pos _ _ _ _ _ T) as Hk.
    destruct m as [|m]; [lia|]. rewrite loopNr_unfold.
    destruct (k_stop c1) eqn:S1.
    + destruct (step_last f dims n cid main F D W cal ss0 HU HT NE HQ _ _ _ w T St S1 ltac:(lia) V) as (w1 & E1 & D1).
      rewrite E1. inversion R; subst; [|congruence..].
      destruct m as [|m]; [lia|]. rewrite loopNr_unfold. unfold lib_wait_step at 1.
      assert (Q : u_queue (w_uni w1 n) = []).
      { destruct D1 as ((-> & _) & _). cbn. now rewrite Nat.eqb_refl. }
      rewrite Q. exists w1. auto.
    + destruct (step_go f dims n cid main F D W cal ss0 HU HT NE HQ _ _ _ w T St S1 ltac:(lia) V) as (w1 & E1 & V1).
      rewrite E1. apply IH; auto; lia.
  - destruct m as [|m]; [lia|]. rewrite loopNr_unfold. rewrite <- EU in Do.
    destruct (dyn_go f dims n cid main F D W ss0 HU HT NE H0 _ _ _ _ _ _ w HQ NS St Do EN V) as (w1 & E1 & V1).
    rewrite E1. apply IH; auto; try lia. apply Dyn_uni in Do. cbn [snd] in Do. congruence.
Qed.

(** A call of an instruction whose code acts on the calling IP. *)
Theorem lib_call_dyn n f dims cmd l c' cal' N s D F :
  Ready_lib n f dims s -> (exists k, ss_top (r_ss (s_r s)) = Ok k /\ s_list k = l) ->
  DRun f dims (w_uni (s_w s) (r_uni (s_r s))) N (s_r s) (conf_at cmd l) cal' c' ->
  k_stop c' = true -> (N < Pos.to_nat F)%nat ->
  exists s', lib_call F (S D) n cmd s = Ok (ENone, s') /\ CalledAs cal' s s' (k_list c') (k_out c').
Proof.
  intros HR HK R St HF. apply (lib_call_gen n f dims cmd l); auto.
  { eapply DRun_uni; eauto. }
  intros W ss0 HL HT HQ HN HW V. pose proof HR as (_ & _ & _ & _ & _ & H3 & _ & HU & _).
  eapply drun_sim; eauto; lia.
Qed.
