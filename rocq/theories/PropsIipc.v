(** * Property C55: IIPC *)

From Coq Require Import String ZArith List Bool Lia.
From Verif Require Import Base BaseProofs VectorModel VectorProofs TextModel TextProofs
  StackModel StackProofs FieldModel FieldProofs World IpModel LoadModel FingModel CoreModel
  UniModel IpProofs ExecProofs FlowProofs States PropsStack PropsTurn PropsBlocks Effects SchedProofs PropsIO
  PropsLoad PropsFing.
Import ListNotations.
Open Scope Z_scope.

(** ** Specification *)

(** The IP with ID [i] is in the executing IP's universe, is not that IP itself, and its
    selected stack is [k], with no mode that changes push and pop. *)
Definition Peer (s : st) (i : Z) (q : runner) (k : stk) : Prop :=
  In i (queue (s_w s) (r_uni (s_r s))) /\ i <> r_id (s_r s) /\ w_run (s_w s) i = Some q /\
  ss_top (r_ss q) = Ok k /\ plain k.
(** [s'] is [s] with the executing IP's stack now [own] and the selected stack of IP [i], which
    was [k], now holding [theirs] after [n] more operations.  Nothing else differs. *)
Definition Both (s s' : st) (own : list Z) (i : Z) (q : runner) (k : stk) (theirs : list Z) (n : Z) : Prop :=
  exists s1 k', Only_stack s s1 own /\ s_list k' = theirs /\ s_mode k' = s_mode k /\ s_ops k' = s_ops k + n /\
    s' = {| s_w := upd_run i (Some (set_r_ss (ss_set (r_ss q) (ss_sel (r_ss q)) k') q)) (s_w s); s_r := s_r s1 |}.

Lemma getRunner_in s i : In i (queue (s_w s) (r_uni (s_r s))) -> getRunner i s = Ok (Some i, s).
Proof.
  intros H. unfold getRunner. rewrite (run_bind getU _ s (w_uni (s_w s) (r_uni (s_r s))) s) by reflexivity.
  unfold ret. fold (queue (s_w s) (r_uni (s_r s))). induction (queue _ _) as [|x l IH]; [destruct H|].
  cbn [find]. destruct (Z.eqb_spec x i) as [->|N]; [reflexivity|]. destruct H as [H|H]; [contradiction|]. auto.
Qed.
Lemma getRunner_out s i : ~ In i (queue (s_w s) (r_uni (s_r s))) -> getRunner i s = Ok (None, s).
Proof.
  intros H. unfold getRunner. rewrite (run_bind getU _ s (w_uni (s_w s) (r_uni (s_r s))) s) by reflexivity.
  unfold ret. fold (queue (s_w s) (r_uni (s_r s))). induction (queue _ _) as [|x l IH]; [reflexivity|].
  cbn [find]. destruct (Z.eqb_spec x i) as [->|N]; [cbn in H; intuition|]. apply IH. cbn in H. auto.
Qed.
Lemma on_other_run {A} s i q k (f : stk -> A * stk) : Peer s i q k ->
  on_other_top i f s = Ok (fst (f k), {| s_w := upd_run i (Some (set_r_ss (ss_set (r_ss q) (ss_sel (r_ss q)) (snd (f k))) q)) (s_w s); s_r := s_r s |}).
Proof.
  intros (_ & N & E & T & _). unfold on_other_top. unfold mbind at 1. unfold find_runner.
  destruct (Z.eqb_spec i (r_id (s_r s))) as [Y|_]; [contradiction|]. rewrite E.
  unfold mbind at 1. unfold lift, run_top. rewrite T. cbn [bind fst snd].
  unfold mbind, on_runner, ret. destruct (Z.eqb_spec i (r_id (s_r s))) as [Y|_]; [contradiction|]. rewrite E. reflexivity.
Qed.
Lemma peer_only s s' l i q k : Only_stack s s' l -> Peer s i q k -> Peer s' i q k.
Proof.
  intros O (A & B). unfold Peer. rewrite (Only_stack_w _ _ _ O), (Only_stack_r _ _ _ O). auto.
Qed.
Lemma holds_w s w l : Holds s l -> Holds {| s_w := w; s_r := s_r s |} l.
Proof. auto. Qed.
Lemma only_w s s1 w l : Only_stack s s1 l -> Only_stack {| s_w := w; s_r := s_r s |} {| s_w := w; s_r := s_r s1 |} l.
Proof. intros (k & k' & A & B & C & ->). exists k, k'. repeat split; auto. Qed.

(** G, L and P on another IP: G moves the top of its stack here, L copies it, P moves one
    element there. *)
Theorem C55_G : forall F D s fld id l q k,
  Letter s FP_IIPC fld 71 -> Holds s (id :: l) -> Peer s (to_u64 id) q k ->
  exists s', execute F (S D) 71 s = Ok (ENone, s') /\
    Both s s' (hd 0 (s_list k) :: l) (to_u64 id) q k (tl (s_list k)) 1.
Proof.
  intros F D s fld id l q k L H P. rewrite (execute_letter F D _ _ _ _ L).
  change (fp_exec F FP_IIPC fld 71 s) with (iipc_exec 71 s). cbn [iipc_exec Z.eqb Pos.eqb].
  xpop. cbn [hd tl] in *. pose proof (peer_only _ _ _ _ _ _ C P) as P0.
  rewrite (run_bind _ _ _ _ _ (getRunner_in s0 (to_u64 id) (proj1 P0))).
  rewrite (run_bind _ _ _ _ _ (on_other_run s0 (to_u64 id) q k stk_pop P0)).
  set (k' := snd (stk_pop k)). set (w1 := upd_run _ _ (s_w s0)).
  destruct (pushS_plain {| s_w := w1; s_r := s_r s0 |} l (fst (stk_pop k)) (holds_w _ _ _ H0)) as (s2 & E2 & C2).
  rewrite (run_bind _ _ _ _ _ E2). exists s2. split; [reflexivity|].
  destruct P as (_ & _ & _ & _ & (Q & _)).
  pose proof (Only_stack_trans _ _ _ _ _ (only_w _ _ w1 _ C) C2) as O2.
  exists {| s_w := s_w s; s_r := s_r s2 |}, k'.
  assert (X : fst (stk_pop k) = hd 0 (s_list k)) by (unfold stk_pop; destruct (s_list k); [|rewrite Q]; reflexivity).
  rewrite X in O2.
  split; [apply (only_w _ _ (s_w s)) in O2; cbn [s_r s_w] in O2; destruct s; exact O2|].
  split; [unfold k', stk_pop; destruct (s_list k); [|rewrite Q]; reflexivity|].
  split; [unfold k', stk_pop; destruct (s_list k); [|rewrite Q]; reflexivity|].
  split; [unfold k', stk_pop; destruct (s_list k); [|rewrite Q]; reflexivity|].
  pose proof (Only_stack_w _ _ _ O2) as W2. cbn [s_w] in W2. destruct s2 as [w2 r2]. cbn [s_w s_r] in *.
  rewrite W2. unfold w1. rewrite (Only_stack_w _ _ _ C). reflexivity.
Qed.
Theorem C55_L : forall F D s fld id l q k,
  Letter s FP_IIPC fld 76 -> Holds s (id :: l) -> Peer s (to_u64 id) q k ->
  exists s', execute F (S D) 76 s = Ok (ENone, s') /\
    Both s s' (hd 0 (s_list k) :: l) (to_u64 id) q k (s_list k) 0.
Proof.
  intros F D s fld id l q k L H P. rewrite (execute_letter F D _ _ _ _ L).
  change (fp_exec F FP_IIPC fld 76 s) with (iipc_exec 76 s). cbn [iipc_exec Z.eqb Pos.eqb].
  xpop. cbn [hd tl] in *. pose proof (peer_only _ _ _ _ _ _ C P) as P0.
  rewrite (run_bind _ _ _ _ _ (getRunner_in s0 (to_u64 id) (proj1 P0))).
  rewrite (run_bind _ _ _ _ _ (on_other_run s0 (to_u64 id) q k (fun k => (stk_peek k, k)) P0)).
  cbn [fst snd]. set (w1 := upd_run _ _ (s_w s0)).
  destruct (pushS_plain {| s_w := w1; s_r := s_r s0 |} l (stk_peek k) (holds_w _ _ _ H0)) as (s2 & E2 & C2).
  rewrite (run_bind _ _ _ _ _ E2). exists s2. split; [reflexivity|].
  destruct P as (_ & _ & _ & _ & (Q & _)).
  pose proof (Only_stack_trans _ _ _ _ _ (only_w _ _ w1 _ C) C2) as O2.
  exists {| s_w := s_w s; s_r := s_r s2 |}, k.
  assert (X : stk_peek k = hd 0 (s_list k)) by (unfold stk_peek; destruct (s_list k); [|rewrite Q]; reflexivity).
  rewrite X in O2.
  split; [apply (only_w _ _ (s_w s)) in O2; cbn [s_r s_w] in O2; destruct s; exact O2|].
  split; [reflexivity|]. split; [reflexivity|]. split; [lia|].
  pose proof (Only_stack_w _ _ _ O2) as W2. cbn [s_w] in W2. destruct s2 as [w2 r2]. cbn [s_w s_r] in *.
  rewrite W2. unfold w1. rewrite (Only_stack_w _ _ _ C). reflexivity.
Qed.
Theorem C55_P : forall F D s fld id v l q k,
  Letter s FP_IIPC fld 80 -> Holds s (id :: v :: l) -> Peer s (to_u64 id) q k ->
  exists s', execute F (S D) 80 s = Ok (ENone, s') /\
    Both s s' l (to_u64 id) q k (v :: s_list k) 1.
Proof.
  intros F D s fld id v l q k L H P. rewrite (execute_letter F D _ _ _ _ L).
  change (fp_exec F FP_IIPC fld 80 s) with (iipc_exec 80 s). cbn [iipc_exec Z.eqb Pos.eqb].
  xpop. cbn [hd tl] in *. xpop. cbn [hd tl] in *.
  pose proof (Only_stack_trans _ _ _ _ _ C C0) as O2.
  pose proof (peer_only _ _ _ _ _ _ O2 P) as P0.
  rewrite (run_bind _ _ _ _ _ (getRunner_in s1 (to_u64 id) (proj1 P0))).
  rewrite (run_bind _ _ _ _ _ (on_other_run s1 (to_u64 id) q k (fun k => (tt, stk_push v k)) P0)).
  cbn [fst snd]. eexists. split; [reflexivity|].
  destruct P as (_ & _ & _ & _ & (_ & I)).
  exists s1, (stk_push v k). split; [exact O2|].
  split; [unfold stk_push; rewrite I; reflexivity|]. split; [reflexivity|]. split; [reflexivity|].
  rewrite (Only_stack_w _ _ _ O2). reflexivity.
Qed.
(** An IP that is not in this universe is refused. *)
Theorem C55_refuses : forall F D s fld id l c,
  In c [71; 76; 80] -> Letter s FP_IIPC fld c -> Holds s (id :: l) ->
  ~ In (to_u64 id) (queue (s_w s) (r_uni (s_r s))) ->
  exists s', fp_exec F FP_IIPC fld c s = Ok (EUnspec, s') /\ execute F (S D) c s = Ok (EUnspec, s') /\
    Only_stack s s' (if c =? 80 then tl l else l).
Proof.
  intros F D s fld id l c Hc L H N. rewrite (execute_letter F D _ _ _ _ L).
  change (fp_exec F FP_IIPC fld c s) with (iipc_exec c s).
  assert (NN : forall s1 l1, Only_stack s s1 l1 -> ~ In (to_u64 id) (queue (s_w s1) (r_uni (s_r s1)))).
  { intros s1 l1 O. rewrite (Only_stack_w _ _ _ O), (Only_stack_r _ _ _ O). exact N. }
  destruct Hc as [<-|[<-|[<-|[]]]]; cbn [iipc_exec Z.eqb Pos.eqb]; xpop; cbn [hd tl] in *.
  - rewrite (run_bind _ _ _ _ _ (getRunner_out s0 _ (NN _ _ C))). exists s0. split; [reflexivity|]. auto.
  - rewrite (run_bind _ _ _ _ _ (getRunner_out s0 _ (NN _ _ C))). exists s0. split; [reflexivity|]. auto.
  - xpop. pose proof (Only_stack_trans _ _ _ _ _ C C0) as O2.
    rewrite (run_bind _ _ _ _ _ (getRunner_out s1 _ (NN _ _ O2))). exists s1. split; [reflexivity|]. auto.
Qed.
(** I gives this IP's ID, A its parent's when the parent is still there. *)
Theorem C55_I : forall F D s fld l, Letter s FP_IIPC fld 73 -> Holds s l ->
  exists s', execute F (S D) 73 s = Ok (ENone, s') /\ Only_stack s s' (r_id (s_r s) :: l).
Proof.
  intros F D s fld l L H. rewrite (execute_letter F D _ _ _ _ L).
  change (fp_exec F FP_IIPC fld 73 s) with (iipc_exec 73 s). cbn [iipc_exec Z.eqb Pos.eqb].
  rewrite (run_bind getR _ s (s_r s) s) by reflexivity. xpush. eexists. split; [reflexivity|assumption].
Qed.
Theorem C55_A_partial : forall F D s fld l p q, Letter s FP_IIPC fld 65 -> Holds s l ->
  r_parent (s_r s) = Some p -> p <> r_id (s_r s) -> w_run (s_w s) p = Some q -> Ids (s_w s) ->
  exists s', execute F (S D) 65 s = Ok (ENone, s') /\ Only_stack s s' (p :: l).
Proof.
  intros F D s fld l p q L H P N E I. rewrite (execute_letter F D _ _ _ _ L).
  change (fp_exec F FP_IIPC fld 65 s) with (iipc_exec 65 s). cbn [iipc_exec Z.eqb Pos.eqb].
  rewrite (run_bind getR _ s (s_r s) s) by reflexivity. rewrite P.
  rewrite (run_bind (find_runner p) _ s q s).
  2: { unfold find_runner. destruct (Z.eqb_spec p (r_id (s_r s))); [contradiction|]. now rewrite E. }
  destruct (I _ _ E) as (-> & _). xpush. eexists. split; [reflexivity|assumption].
Qed.
(** The property as stated is false: without a parent A dereferences a null pointer, and
    after the parent stopped A reads a deleted object. *)
Theorem C55_refuted :
  (forall F D s fld l, Letter s FP_IIPC fld 65 -> Holds s l -> r_parent (s_r s) = None ->
     execute F (S D) 65 s = Bad BadNull) /\
  (forall F D s fld l p, Letter s FP_IIPC fld 65 -> Holds s l -> r_parent (s_r s) = Some p ->
     p <> r_id (s_r s) -> w_run (s_w s) p = None -> execute F (S D) 65 s = Bad BadFreed) /\
  exists l, Letter (loaded [FP_IIPC] l) FP_IIPC 0 65 /\ Holds (loaded [FP_IIPC] l) l /\
    r_parent (s_r (loaded [FP_IIPC] l)) = None.
Proof.
  split; [|split].
  - intros F D s fld l L H P. rewrite (execute_letter F D _ _ _ _ L).
    change (fp_exec F FP_IIPC fld 65 s) with (iipc_exec 65 s). cbn [iipc_exec Z.eqb Pos.eqb].
    rewrite (run_bind getR _ s (s_r s) s) by reflexivity. rewrite P. reflexivity.
  - intros F D s fld l p L H P N E. rewrite (execute_letter F D _ _ _ _ L).
    change (fp_exec F FP_IIPC fld 65 s) with (iipc_exec 65 s). cbn [iipc_exec Z.eqb Pos.eqb].
    rewrite (run_bind getR _ s (s_r s) s) by reflexivity. rewrite P.
    unfold mbind, find_runner. destruct (Z.eqb_spec p (r_id (s_r s))); [contradiction|]. now rewrite E.
  - exists [4]. split; [apply letterb_ok; vm_compute; reflexivity|].
    split; [apply holds_with_list; vm_compute; [reflexivity|discriminate]|]. vm_compute. reflexivity.
Qed.

(** ** Sleeping *)

(** D: an IP goes to sleep, noting how many operations its stack has seen; asleep, it
    wakes when that number has changed. *)
Theorem C55_D : forall F D s fld k, Letter s FP_IIPC fld 68 -> ss_top (mySS s) = Ok k ->
  exists s', execute F (S D) 68 s =
    Ok (if r_dormant (s_r s) then (if s_ops k =? r_sage (s_r s) then EBlock else ENone) else EBlock, s') /\
  s_w s' = s_w s /\
  s_r s' = (if r_dormant (s_r s)
            then if s_ops k =? r_sage (s_r s) then s_r s else set_r_dormant false (s_r s)
            else set_r_dormant true (set_r_sage (s_ops k) (s_r s))).
Proof.
  intros F D s fld k L T. rewrite (execute_letter F D _ _ _ _ L).
  change (fp_exec F FP_IIPC fld 68 s) with (iipc_exec 68 s). cbn [iipc_exec Z.eqb Pos.eqb].
  assert (E : ageS s = Ok (s_ops k, s)).
  { unfold ageS, onStack, TOP. unfold ss_top in T. fold (mySS s). rewrite T. cbn [fst snd]. unfold stk_age.
    f_equal. f_equal. destruct s as [w r]. unfold mySS, ss_set in *. cbn [s_w s_r] in *. f_equal.
    assert (X : lupd (ss_list (r_ss r)) (ss_sel (r_ss r)) k = ss_list (r_ss r)).
    { unfold ss_at in T. destruct (nth_error _ _) eqn:N in T; [|discriminate]. inversion T; subst.
      revert N. clear. generalize (ss_sel (r_ss r)). induction (ss_list (r_ss r)) as [|x t IH]; intros [|n] N;
        cbn in *; try discriminate; [now inversion N|]. now rewrite IH. }
    rewrite X. transitivity (set_r_ss (r_ss r) r); [|now destruct r]. f_equal. now destruct (r_ss r). }
  rewrite (run_bind _ _ _ _ _ E). rewrite (run_bind getR _ s (s_r s) s) by reflexivity.
  destruct (r_dormant (s_r s)); [destruct (s_ops k =? r_sage (s_r s))|]; eexists; (split; [reflexivity|]); auto.
Qed.

(** [w'] comes from [w] by turns of IPs other than [id], in any universes and order. *)
Inductive Others (F : positive) (D : nat) (id : Z) : world -> world -> Prop :=
| others_refl w : Others F D id w w
| others_step w w1 w2 n h q : queue w n = h :: q -> h <> id -> uni_step F D n w = Ok w1 ->
    Others F D id w1 w2 -> Others F D id w w2.

Lemma step_kept F D n w w' id r h q : uni_step F D n w = Ok w' -> Ids w -> queue w n = h :: q -> h <> id ->
  w_run w id = Some r -> exists r', w_run w' id = Some r' /\ Poked r r'.
Proof.
  intros E I Q N E0. destruct (uni_step_inv F D n w w' h q E Q) as (r0 & w1 & r1 & R & HR & HS).
  assert (K : exists r', w_run w1 id = Some r' /\ Poked r r').
  { unfold Ran in HR. destruct (r_stopped r0) eqn:St0.
    - destruct HR as (-> & _). exists r. split; [auto|apply poked_refl].
    - destruct HR as (s & T & -> & ->). apply tick_effs in T. destruct (I _ _ R) as (A1 & A2).
      rewrite upd_run_other by auto.
      refine (effs_kept _ _ _ id T _ _ r E0); [cbn [s_r]; congruence|]. split; [exact I|]. cbn [s_r s_w]. lia. }
  destruct K as (r' & K1 & K2).
  unfold Settled in HS. destruct (Nat.eqb _ _); [destruct (r_stopped r1)|]; subst w'; try (exists r'; split; [exact K1|exact K2]).
  exists r'. rewrite upd_run_other by auto. split; [exact K1|exact K2].
Qed.
Lemma others_kept F D id w w' : Others F D id w w' -> forall r, Ids w -> w_run w id = Some r ->
  exists r', w_run w' id = Some r' /\ Poked r r'.
Proof.
  intros O. induction O as [w|w w1 w2 n h q Q N E O IH]; intros r I R.
  - exists r. split; [auto|apply poked_refl].
  - destruct (step_kept _ _ _ _ _ _ _ _ _ E I Q N R) as (r1 & R1 & P1).
    destruct (IH r1 (step_ids _ _ _ _ _ E I) R1) as (r2 & R2 & P2). exists r2. split; [auto|eapply poked_trans; eauto].
Qed.

(** While an IP sleeps, whatever programs the other IPs run: at its next turn at D it goes on
    exactly if its stack was operated on, and if it does not its stack is as it was. *)
Theorem C55_sleeps : forall F D id w w' r k fld, Ids w -> w_run w id = Some r ->
  r_dormant r = true -> ss_top (r_ss r) = Ok k -> r_sage r = s_ops k ->
  Others F D id w w' ->
  exists r' k', w_run w' id = Some r' /\ ss_top (r_ss r') = Ok k' /\ s_ops k <= s_ops k' /\
    (s_ops k' = s_ops k -> s_list k' = s_list k) /\
    forall E, Letter {| s_w := w'; s_r := r' |} FP_IIPC fld 68 ->
      exists s', execute F (S E) 68 {| s_w := w'; s_r := r' |} =
        Ok (if s_ops k' =? s_ops k then EBlock else ENone, s') /\
      s_w s' = w' /\ s_r s' = (if s_ops k' =? s_ops k then r' else set_r_dormant false r').
Proof.
  intros F D id w w' r k fld I R Dm T Sg O.
  destruct (others_kept _ _ _ _ _ O r I R) as (r' & R' & (x & b & X & _ & (Ts & Tl))).
  assert (K : exists k', ss_top (r_ss r') = Ok k' /\ Aged k k').
  { subst r'. cbn [r_ss set_r_ss]. unfold ss_top, ss_at in *. rewrite Ts.
    revert T Tl. generalize (ss_sel (r_ss r)) as n. generalize (ss_list x) as l'. generalize (ss_list (r_ss r)) as l. clear.
    intros l l' n T Tl. revert n T. induction Tl as [|a c l l' A Tl IH]; intros [|n] T; cbn [nth_error] in *; try discriminate.
    - inversion T; subst. eauto.
    - apply IH. exact T. }
  destruct K as (k' & T' & A). exists r', k'.
  split; [exact R'|]. split; [exact T'|]. split; [destruct A as [(_ & ->)|A]; lia|].
  split; [intros Y; destruct A as [(A & _)|A]; [exact A|lia]|].
  intros E L. destruct (C55_D F E _ fld k' L T') as (s' & Ex & W & Rr). cbn [s_r s_w] in *.
  assert (Dm' : r_dormant r' = true) by (subst r'; exact Dm).
  assert (Sg' : r_sage r' = s_ops k) by (subst r'; exact Sg).
  rewrite Dm', Sg' in *. exists s'. auto.
Qed.

(** Two IPs: 0, running, and 1, asleep at D with a stack of two elements. *)
Definition two : st :=
  let s := loaded [FP_IIPC] [1; 7] in
  let r1 := set_r_dormant true (set_r_id 1 (s_r (loaded [FP_IIPC] [5; 6]))) in
  let r1 := set_r_sage (match ss_top (r_ss r1) with Ok k => s_ops k | Bad _ => 0 end) r1 in
  {| s_w := upd_uni 0 (set_u_queue [0; 1]) (set_w_nrun 2 (upd_run 1 (Some r1) (s_w s))); s_r := s_r s |}.
Definition one (s : st) : st :=
  match w_run (s_w s) 1 with Some r => {| s_w := s_w s; s_r := r |} | None => s end.
Example C55_ex :
  Letter two FP_IIPC 0 71 /\ Letter two FP_IIPC 0 76 /\ Letter two FP_IIPC 0 80 /\
  Holds two [1; 7] /\ (exists q k, Peer two (to_u64 1) q k /\ s_list k = [5; 6] /\ r_dormant q = true /\ r_sage q = s_ops k) /\
  ~ In (to_u64 7) (queue (s_w two) (r_uni (s_r two))) /\
  (forall c, c = 71 \/ c = 76 \/ c = 80 ->
   match execute 10 1 c two with
   | Ok (ENone, s1) => 
       stack_of s1 = (if c =? 71 then [5; 7] else if c =? 76 then [5; 7] else []) /\
       stack_of (one s1) = (if c =? 71 then [6] else if c =? 76 then [5; 6] else [7; 5; 6]) /\
       match execute 10 1 68 (one s1) with
       | Ok (e, _) => e = (if c =? 76 then EBlock else ENone)
       | _ => False
       end
   | _ => False
   end).
Proof.
  split; [apply letterb_ok; vm_compute; reflexivity|]. split; [apply letterb_ok; vm_compute; reflexivity|].
  split; [apply letterb_ok; vm_compute; reflexivity|].
  split. { exists (match ss_top (mySS two) with Ok k => k | Bad _ => stk_new end).
    split; [vm_compute; reflexivity|]. split; [split; vm_compute; reflexivity|]. vm_compute; reflexivity. }
  split. { exists (s_r (one two)), (match ss_top (mySS (one two)) with Ok k => k | Bad _ => stk_new end).
    split; [|split; [vm_compute; reflexivity|split; vm_compute; reflexivity]].
    split; [vm_compute; auto|]. split; [vm_compute; discriminate|]. split; [vm_compute; reflexivity|].
    split; [vm_compute; reflexivity|]. split; vm_compute; reflexivity. }
  split; [vm_compute; intuition discriminate|].
  intros c [-> |[-> | ->]]; vm_compute; auto.
Qed.
Print Assumptions C55_G.
Print Assumptions C55_L.
Print Assumptions C55_P.
Print Assumptions C55_refuses.
Print Assumptions C55_I.
Print Assumptions C55_A_partial.
Print Assumptions C55_refuted.
Print Assumptions C55_D.
Print Assumptions C55_sleeps.
