(** * Properties C24 and C25: { } and u.

    Here the whole stack of stacks matters: [Contents s ls] lists the contents
    of all stacks, the topmost stack first, each with its top element first. *)

From Coq Require Import ZArith List Bool Lia.
From Verif Require Import Base BaseProofs VectorModel VectorProofs StackModel StackProofs
  FieldModel FieldProofs World IpModel LoadModel FingModel CoreModel UniModel
  ExecProofs States PropsStack PropsIO PropsTurn.
Import ListNotations.
Open Scope Z_scope.

(** ** Vocabulary *)

(** All stacks are ordinary ones (no MODE flag) and the top one is selected. *)
Definition Contents (s : st) (ls : list (list Z)) : Prop :=
  ss_sel (mySS s) = 0%nat /\ Forall plain (ss_list (mySS s)) /\ map s_list (ss_list (mySS s)) = ls.
(** [s'] differs from [s] in the contents of the stacks only, which are [ls']
    (the per-stack operation counters aside). *)
Definition Only_stacks (s s' : st) (ls' : list (list Z)) : Prop :=
  (exists x, s' = setSS x s) /\ Contents s' ls'.
(** ... and in the storage offset, which is [v]. *)
Definition Stacks_and_storage (s s' : st) (v : vec) (ls' : list (list Z)) : Prop :=
  exists s1, Only_stacks s s1 ls' /\ s' = {| s_w := s_w s1; s_r := set_r_storage v (s_r s1) |}.
(** The top [n] elements of [l]; an empty stack yields zeros. *)
Definition taken (n : nat) (l : list Z) : list Z := map (fun i => nth i l 0) (seq 0 n).
(** The coordinates of [v] as pushed: the last one on top. *)
Definition coords (n : nat) (v : vec) : list Z := rev (map (vget v) (seq 0 n)).

(** ** Stack operations *)

Lemma only_trans s s1 s2 l1 l2 : Only_stacks s s1 l1 -> Only_stacks s1 s2 l2 -> Only_stacks s s2 l2.
Proof.
  intros ((x & ->) & _) ((y & ->) & C). split; auto. exists y. reflexivity.
Qed.
Lemma only_refl s l : Contents s l -> Only_stacks s s l.
Proof.
  intros C. split; auto. exists (mySS s). destruct s as [w r]. unfold setSS, mySS. cbn [s_w s_r].
  now destruct r.
Qed.
Lemma only_w s s' l : Only_stacks s s' l -> s_w s' = s_w s.
Proof. intros ((x & ->) & _). reflexivity. Qed.
Lemma only_r s s' l : Only_stacks s s' l -> s_r s' = set_r_ss (mySS s') (s_r s).
Proof. intros ((x & ->) & _). reflexivity. Qed.

Lemma map_lupd {A B} (f : A -> B) l : forall i x, map f (lupd l i x) = lupd (map f l) i (f x).
Proof. induction l as [|a l IH]; intros [|i] x; cbn; auto. now rewrite IH. Qed.
Lemma forall_lupd {A} (P : A -> Prop) l : forall i x, Forall P l -> P x -> Forall P (lupd l i x).
Proof. induction l as [|a l IH]; intros [|i] x H Px; cbn; auto; inversion H; subst; constructor; auto. Qed.

Lemma onStack_run {A} (at_ : sstk -> nat) i (f : stk -> A * stk) s ls l l' a :
  Contents s ls -> at_ (mySS s) = i -> nth_error ls i = Some l ->
  (forall k, plain k -> s_list k = l -> fst (f k) = a /\ s_list (snd (f k)) = l' /\ s_mode (snd (f k)) = s_mode k) ->
  exists s', onStack at_ f s = Ok (a, s') /\ Only_stacks s s' (lupd ls i l').
Proof.
  intros (Se & Pl & <-) Ai Ni Hf. rewrite nth_error_map in Ni.
  destruct (nth_error (ss_list (mySS s)) i) as [k|] eqn:E; [|discriminate]. injection Ni as Ni.
  assert (Pk : plain k) by (rewrite Forall_forall in Pl; apply Pl; eapply nth_error_In; eauto).
  destruct (Hf k Pk Ni) as (A1 & A2 & A3).
  unfold onStack. fold (mySS s). rewrite Ai. unfold ss_at. rewrite E, A1.
  eexists. split; [reflexivity|].
  split; [eexists; reflexivity|]. unfold Contents. cbn [mySS s_r r_ss set_r_ss]. unfold ss_set. cbn [ss_sel ss_list].
  split; [exact Se|]. split.
  - apply forall_lupd; auto. unfold plain in *. now rewrite A3.
  - rewrite map_lupd, A2. reflexivity.
Qed.
Definition AT (i : nat) (at_ : sstk -> nat) : Prop := forall x, ss_sel x = 0%nat -> at_ x = i.
Lemma AT_top : AT 0 TOP. Proof. intros x H. exact H. Qed.
Lemma AT_second : AT 1 SECOND. Proof. intros x H. unfold SECOND. now rewrite H. Qed.
Lemma at_is at_ i s ls : AT i at_ -> Contents s ls -> at_ (mySS s) = i.
Proof. intros A (S & _). now apply A. Qed.
Lemma popAt_run at_ i s ls l : AT i at_ -> Contents s ls -> nth_error ls i = Some l ->
  exists s', popAt at_ s = Ok (hd 0 l, s') /\ Only_stacks s s' (lupd ls i (tl l)).
Proof.
  intros A C N. apply (onStack_run at_ i stk_pop s ls l (tl l) (hd 0 l) C (at_is _ _ _ _ A C) N).
  intros k (Q & _) L. unfold stk_pop. rewrite L. destruct l as [|x t]; [auto|]. rewrite Q. auto.
Qed.
Lemma pushAt_run at_ i s ls l x : AT i at_ -> Contents s ls -> nth_error ls i = Some l ->
  exists s', pushAt at_ x s = Ok (tt, s') /\ Only_stacks s s' (lupd ls i (x :: l)).
Proof.
  intros A C N. apply (onStack_run at_ i _ s ls l (x :: l) tt C (at_is _ _ _ _ A C) N).
  intros k P L. cbn [fst snd]. destruct (push_plain x k P) as [H1 H2]. rewrite H1, L. auto.
Qed.
Lemma only_contents s s' l : Only_stacks s s' l -> Contents s' l.
Proof. now intros (_ & C). Qed.
Lemma nth_lupd {A} (l : list A) : forall i x y, nth_error l i = Some y -> nth_error (lupd l i x) i = Some x.
Proof. apply lupd_nth_error. Qed.

Lemma taken_S n l : taken (S n) l = hd 0 l :: taken n (tl l).
Proof.
  unfold taken. cbn [seq map]. rewrite <- hd_nth. f_equal. rewrite <- seq_shift, map_map.
  apply map_ext. intros i. now rewrite nth_tl.
Qed.
Lemma taken_firstn n l : (n <= length l)%nat -> taken n l = firstn n l.
Proof.
  revert l. induction n as [|n IH]; intros l H; [reflexivity|]. rewrite taken_S.
  destruct l as [|x l]; [cbn in H; lia|]. cbn [hd tl firstn]. rewrite IH; auto. cbn [length] in H. lia.
Qed.
Lemma taken_length n l : length (taken n l) = n.
Proof. unfold taken. now rewrite map_length, seq_length. Qed.
Lemma taken_app n l r : length l = n -> taken n (l ++ r) = l.
Proof.
  intros H. rewrite taken_firstn by (rewrite app_length; lia).
  rewrite firstn_app, H, Nat.sub_diag, firstn_O, app_nil_r. now rewrite firstn_all2 by lia.
Qed.

Lemma popNAt_run at_ i n : AT i at_ -> forall s ls l, Contents s ls -> nth_error ls i = Some l ->
  exists s', popNAt at_ n s = Ok (taken n l, s') /\ Only_stacks s s' (lupd ls i (skipn n l)).
Proof.
  intros A. induction n as [|n IH]; intros s ls l C N; cbn [popNAt].
  - exists s. split; [reflexivity|]. cbn [skipn]. rewrite lupd_same by auto. now apply only_refl.
  - destruct (popAt_run at_ i s ls l A C N) as (s1 & E1 & C1).
    rewrite (run_bind _ _ _ _ _ E1).
    destruct (IH s1 _ (tl l) (only_contents _ _ _ C1) (nth_lupd _ _ _ _ N)) as (s2 & E2 & C2).
    rewrite (run_bind _ _ _ _ _ E2). exists s2. rewrite taken_S. split; [reflexivity|].
    rewrite lupd_lupd, skipn_tl in C2. exact (only_trans _ _ _ _ _ C1 C2).
Qed.
Lemma pushLAt_run at_ i x : AT i at_ -> forall s ls l, Contents s ls -> nth_error ls i = Some l ->
  exists s', pushLAt at_ x s = Ok (tt, s') /\ Only_stacks s s' (lupd ls i (rev x ++ l)).
Proof.
  intros A. induction x as [|y x IH]; intros s ls l C N; cbn [pushLAt].
  - exists s. split; [reflexivity|]. cbn [rev app]. rewrite lupd_same by auto. now apply only_refl.
  - destruct (pushAt_run at_ i s ls l y A C N) as (s1 & E1 & C1).
    rewrite (run_bind _ _ _ _ _ E1).
    destruct (IH s1 _ (y :: l) (only_contents _ _ _ C1) (nth_lupd _ _ _ _ N)) as (s2 & E2 & C2).
    exists s2. split; [exact E2|]. cbn [rev]. rewrite <- app_assoc. cbn [app].
    rewrite lupd_lupd in C2. exact (only_trans _ _ _ _ _ C1 C2).
Qed.
(** [n] zeros pushed. *)
Lemma pushZeros_run at_ i n : AT i at_ -> forall s ls l, Contents s ls -> nth_error ls i = Some l ->
  exists s', repM n (pushAt at_ 0) s = Ok (tt, s') /\ Only_stacks s s' (lupd ls i (repeat 0 n ++ l)).
Proof.
  intros A. induction n as [|n IH]; intros s ls l C N; cbn [repM].
  - exists s. split; [reflexivity|]. cbn [repeat app]. rewrite lupd_same by auto. now apply only_refl.
  - destruct (pushAt_run at_ i s ls l 0 A C N) as (s1 & E1 & C1).
    rewrite (run_bind _ _ _ _ _ E1).
    destruct (IH s1 _ (0 :: l) (only_contents _ _ _ C1) (nth_lupd _ _ _ _ N)) as (s2 & E2 & C2).
    exists s2. split; [exact E2|].
    assert (X : repeat 0 (S n) ++ l = repeat 0 n ++ 0 :: l).
    { change (repeat 0 (S n)) with (0 :: repeat 0 n). rewrite repeat_cons, <- app_assoc. reflexivity. }
    rewrite X. rewrite lupd_lupd in C2. exact (only_trans _ _ _ _ _ C1 C2).
Qed.
(** [n] elements dropped. *)
Lemma drop_run at_ i n : AT i at_ -> forall s ls l, Contents s ls -> nth_error ls i = Some l ->
  exists s', repM n (popAt at_ ;;; ret tt) s = Ok (tt, s') /\ Only_stacks s s' (lupd ls i (skipn n l)).
Proof.
  intros A. induction n as [|n IH]; intros s ls l C N; cbn [repM].
  - exists s. split; [reflexivity|]. cbn [skipn]. rewrite lupd_same by auto. now apply only_refl.
  - destruct (popAt_run at_ i s ls l A C N) as (s1 & E1 & C1).
    assert (E : (popAt at_ ;;; ret tt) s = Ok (tt, s1)) by (now rewrite (run_bind _ _ _ _ _ E1)).
    rewrite (run_bind _ _ _ _ _ E).
    destruct (IH s1 _ (tl l) (only_contents _ _ _ C1) (nth_lupd _ _ _ _ N)) as (s2 & E2 & C2).
    exists s2. split; [exact E2|]. rewrite lupd_lupd, skipn_tl in C2. exact (only_trans _ _ _ _ _ C1 C2).
Qed.
Lemma nth_lupd_other {A} (l : list A) : forall i j x, i <> j -> nth_error (lupd l i x) j = nth_error l j.
Proof.
  induction l as [|a l IH]; intros [|i] [|j] x H; cbn; auto; try congruence.
Qed.
Lemma lupd_swap {A} (l : list A) : forall i j x y, i <> j -> lupd (lupd l i x) j y = lupd (lupd l j y) i x.
Proof.
  induction l as [|a l IH]; intros [|i] [|j] x y H; cbn; auto; try congruence.
  f_equal. apply IH. congruence.
Qed.
(** [n] elements carried over one by one from stack [i] to stack [j]. *)
Lemma carry_run ai aj i j n : AT i ai -> AT j aj -> i <> j ->
  forall s ls l m, Contents s ls -> nth_error ls i = Some l -> nth_error ls j = Some m ->
  exists s', repM n (x <- popAt ai ;; pushAt aj x) s = Ok (tt, s') /\
    Only_stacks s s' (lupd (lupd ls i (skipn n l)) j (rev (taken n l) ++ m)).
Proof.
  intros Ai Aj Nij. induction n as [|n IH]; intros s ls l m C Ni Nj; cbn [repM].
  - exists s. split; [reflexivity|]. cbn [skipn taken seq map rev app].
    rewrite (lupd_same _ i) by auto. rewrite (lupd_same _ j) by auto. now apply only_refl.
  - destruct (popAt_run ai i s ls l Ai C Ni) as (s1 & E1 & C1).
    assert (Nj1 : nth_error (lupd ls i (tl l)) j = Some m).
    { now rewrite nth_lupd_other. }
    destruct (pushAt_run aj j s1 _ m (hd 0 l) Aj (only_contents _ _ _ C1) Nj1) as (s2 & E2 & C2).
    assert (E : (x <- popAt ai ;; pushAt aj x) s = Ok (tt, s2)) by (now rewrite (run_bind _ _ _ _ _ E1)).
    rewrite (run_bind _ _ _ _ _ E).
    assert (Ni2 : nth_error (lupd (lupd ls i (tl l)) j (hd 0 l :: m)) i = Some (tl l)).
    { rewrite nth_lupd_other by congruence. eapply nth_lupd; eauto. }
    destruct (IH s2 _ (tl l) (hd 0 l :: m) (only_contents _ _ _ C2) Ni2 (nth_lupd _ _ _ _ Nj1)) as (s3 & E3 & C3).
    exists s3. split; [exact E3|]. rewrite taken_S. cbn [rev]. rewrite <- app_assoc. cbn [app].
    assert (LL : lupd (lupd (lupd (lupd ls i (tl l)) j (hd 0 l :: m)) i (skipn n (tl l))) j
                   (rev (taken n (tl l)) ++ hd 0 l :: m)
                 = lupd (lupd ls i (skipn (S n) l)) j (rev (taken n (tl l)) ++ hd 0 l :: m)).
    { rewrite skipn_tl, (lupd_swap _ j i) by congruence. now rewrite !lupd_lupd. }
    rewrite LL in C3. exact (only_trans _ _ _ _ _ (only_trans _ _ _ _ _ C1 C2) C3).
Qed.
Lemma pushVecAt_run at_ i s ls l v : AT i at_ -> Contents s ls -> nth_error ls i = Some l ->
  exists s' x, pushVecAt at_ v s = Ok (x, s') /\ Only_stacks s s' (lupd ls i (coords (dims_of s) v ++ l)).
Proof.
  intros A C N.
  destruct (onStack_run at_ i (fun k => (tt, stk_push_vec_loop (dims_of s) 0 (vget v) k)) s ls l
              (coords (dims_of s) v ++ l) tt C (at_is _ _ _ _ A C) N) as (s' & E & O).
  { intros k P L. cbn [fst snd]. destruct (push_vec_loop_plain (dims_of s) 0 (vget v) k P) as [H1 H2].
    rewrite H1, L. auto. }
  exists s', (Z.of_nat (dims_of s)). split; auto. unfold pushVecAt.
  rewrite (run_bind getC _ s (u_cfg (w_uni (s_w s) (r_uni (s_r s)))) s) by reflexivity.
  fold (dims_of s). rewrite (run_bind _ _ _ _ _ E). reflexivity.
Qed.
Lemma popVecAt_run at_ i s ls l : AT i at_ -> Contents s ls -> nth_error ls i = Some l ->
  exists s' v, popVecAt at_ s = Ok (v, s') /\ Only_stacks s s' (lupd ls i (skipn (dims_of s) l)) /\
    (forall j, vget v j = vec_of (dims_of s) l j).
Proof.
  intros A C N. unfold popVecAt.
  rewrite (run_bind getC _ s (u_cfg (w_uni (s_w s) (r_uni (s_r s)))) s) by reflexivity.
  fold (dims_of s).
  assert (X : forall n s ls l v, Contents s ls -> nth_error ls i = Some l ->
    exists s' v', popVecLoop at_ n v s = Ok (v', s') /\ Only_stacks s s' (lupd ls i (skipn n l)) /\
      (forall j, vget v' j = if Nat.ltb j n then nth (n - 1 - j) l 0 else vget v j)).
  { clear s ls l C N. induction n as [|n IH]; intros s ls l v C N; cbn [popVecLoop].
    - exists s, v. split; [reflexivity|]. split; [cbn [skipn]; rewrite lupd_same by auto; now apply only_refl|reflexivity].
    - destruct (popAt_run at_ i s ls l A C N) as (s1 & E1 & C1).
      rewrite (run_bind _ _ _ _ _ E1).
      destruct (IH s1 _ (tl l) (vset v n (hd 0 l)) (only_contents _ _ _ C1) (nth_lupd _ _ _ _ N)) as (s2 & v2 & E2 & C2 & G).
      exists s2, v2. split; [exact E2|]. split.
      { rewrite lupd_lupd, skipn_tl in C2. exact (only_trans _ _ _ _ _ C1 C2). }
      intros j. rewrite G. destruct (Nat.ltb_spec j n), (Nat.ltb_spec j (S n)); try lia.
      + rewrite nth_tl. f_equal. lia.
      + rewrite vget_vset. assert (j = n) by lia. subst. rewrite Nat.eqb_refl.
        replace (S n - 1 - n)%nat with 0%nat by lia. apply hd_nth.
      + rewrite vget_vset. destruct (Nat.eqb_spec j n); [lia|reflexivity]. }
  destruct (X (dims_of s) s ls l [] C N) as (s' & v & E & O & G). exists s', v. auto.
Qed.

(** ** C24 { and } are inverse *)

Lemma noswitch_only s s' l : Only_stacks s s' l -> NoSwitch s -> NoSwitch s'.
Proof. intros C H. unfold NoSwitch. rewrite (only_w _ _ _ C), (only_r _ _ _ C). exact H. Qed.

(** n{ with n > 0 carries n elements over, keeping their order (an element
    beyond the bottom is 0); with n <= 0 it pushes |n| zeros below.  The storage
    offset is saved on the old stack, and becomes the cell in front of the IP. *)
Theorem C24_begin : forall F D s l r,
  let n := hd 0 l in let a := tl l in
  Normal s 123 -> NoSwitch s -> Contents s (l :: r) -> INT64_MIN < n <= INT64_MAX ->
  (forall i, in64 (vget (r_pos (s_r s)) i + vget (r_delta (s_r s)) i)) ->
  exists s' v, execute F (S D) 123 s = Ok (ENone, s') /\
    (forall i, vget v i = vget (r_pos (s_r s)) i + vget (r_delta (s_r s)) i) /\
    Stacks_and_storage s s' v
      (if 0 <? n
       then taken (Z.to_nat n) a :: (coords (dims_of s) (r_storage (s_r s)) ++ skipn (Z.to_nat n) a) :: r
       else [] :: (coords (dims_of s) (r_storage (s_r s)) ++ repeat 0 (Z.to_nat (- n)) ++ a) :: r).
Proof.
  intros F D s l r n a HN NS C Rn P64.
  rewrite (execute_normal F D _ s _ _ HN eq_refl). cbn [run_meth]. unfold begin_.
  destruct (popAt_run TOP 0 s _ l AT_top C eq_refl) as (s1 & E1 & C1). cbn [lupd] in C1.
  fold popS in E1. rewrite (run_bind _ _ _ _ _ E1). fold n. fold a in C1.
  pose proof (only_contents _ _ _ C1) as K1.
  set (s2 := setSS (ss_push (mySS s1)) s1).
  assert (E2 : modSS (fun s => Ok (ss_push s)) s1 = Ok (tt, s2)) by reflexivity.
  rewrite (run_bind _ _ _ _ _ E2).
  assert (C2 : Only_stacks s1 s2 ([] :: a :: r)).
  { split; [eexists; reflexivity|]. destruct K1 as (S1 & P1 & M1).
    unfold Contents, s2. rewrite mySS_setSS. unfold ss_push. cbn [ss_sel ss_list].
    split; auto. split; [constructor; [split; reflexivity|auto]|]. cbn [map]. now rewrite M1. }
  pose proof (only_trans _ _ _ _ _ C1 C2) as C2'. pose proof (only_contents _ _ _ C2) as K2.
  set (mid := if 0 <? n then taken (Z.to_nat n) a :: skipn (Z.to_nat n) a :: r
              else [] :: (repeat 0 (Z.to_nat (- n)) ++ a) :: r).
  assert (X : exists s3, (if n >? 0
     then l <- popNAt SECOND (Z.to_nat n) ;; pushLAt TOP (rev l)
     else m <- lift (chk64 (Z.abs n)) ;; repM (Z.to_nat m) (pushAt SECOND 0)) s2 = Ok (tt, s3) /\
     Only_stacks s s3 mid).
  { unfold mid. rewrite Z.gtb_ltb. destruct (Z.ltb_spec 0 n) as [Pn|Nn].
    - destruct (popNAt_run SECOND 1 (Z.to_nat n) AT_second s2 _ a K2 eq_refl) as (s3 & E3 & C3). cbn [lupd] in C3.
      rewrite (run_bind _ _ _ _ _ E3).
      destruct (pushLAt_run TOP 0 (rev (taken (Z.to_nat n) a)) AT_top s3 _ [] (only_contents _ _ _ C3) eq_refl) as (s4 & E4 & C4).
      exists s4. split; auto. cbn [lupd] in C4. rewrite rev_involutive, app_nil_r in C4.
      exact (only_trans _ _ _ _ _ (only_trans _ _ _ _ _ C2' C3) C4).
    - assert (Ec : chk64 (Z.abs n) = Ok (- n)).
      { rewrite Z.abs_neq by lia. apply chk64_ok. unfold in64, INT64_MIN, INT64_MAX in *. lia. }
      rewrite Ec. rewrite (run_bind (lift (Ok (- n))) _ s2 (- n) s2) by reflexivity.
      destruct (pushZeros_run SECOND 1 (Z.to_nat (- n)) AT_second s2 _ a K2 eq_refl) as (s3 & E3 & C3).
      exists s3. split; auto. exact (only_trans _ _ _ _ _ C2' C3). }
  destruct X as (s3 & E3 & C3). rewrite (run_bind _ _ _ _ _ E3).
  rewrite (run_bind getStorage _ s3 (r_storage (s_r s)) s3).
  2:{ unfold getStorage, mbind, getR, ret. rewrite (only_r _ _ _ C3). reflexivity. }
  assert (D3 : dims_of s3 = dims_of s) by (unfold dims_of; rewrite (only_w _ _ _ C3), (only_r _ _ _ C3); reflexivity).
  assert (Y : exists s4 x, pushVecAt SECOND (r_storage (s_r s)) s3 = Ok (x, s4) /\
    Only_stacks s s4 (if 0 <? n
       then taken (Z.to_nat n) a :: (coords (dims_of s) (r_storage (s_r s)) ++ skipn (Z.to_nat n) a) :: r
       else [] :: (coords (dims_of s) (r_storage (s_r s)) ++ repeat 0 (Z.to_nat (- n)) ++ a) :: r)).
  { unfold mid in C3. destruct (0 <? n).
    - destruct (pushVecAt_run SECOND 1 s3 _ _ (r_storage (s_r s)) AT_second (only_contents _ _ _ C3) eq_refl) as (s4 & x & E4 & C4).
      exists s4, x. split; auto. rewrite D3 in C4. exact (only_trans _ _ _ _ _ C3 C4).
    - destruct (pushVecAt_run SECOND 1 s3 _ _ (r_storage (s_r s)) AT_second (only_contents _ _ _ C3) eq_refl) as (s4 & x & E4 & C4).
      exists s4, x. split; auto. rewrite D3 in C4. exact (only_trans _ _ _ _ _ C3 C4). }
  destruct Y as (s4 & x & E4 & C4). rewrite (run_bind _ _ _ _ _ E4).
  destruct (vadd_defined _ _ P64) as (v & Ev).
  rewrite (run_bind getPos _ s4 (r_pos (s_r s)) s4).
  2:{ unfold getPos, mbind, getR, ret. rewrite (only_r _ _ _ C4). reflexivity. }
  rewrite (run_bind getDelta _ s4 (r_delta (s_r s)) s4).
  2:{ unfold getDelta, mbind, getR, ret. rewrite (only_r _ _ _ C4). reflexivity. }
  rewrite Ev. rewrite (run_bind (lift (Ok v)) _ s4 v s4) by reflexivity.
  set (s5 := {| s_w := s_w s4; s_r := set_r_storage v (s_r s4) |}).
  rewrite (run_bind (ipSetStorage v) _ s4 tt s5) by reflexivity.
  exists s5, v. split; [|split; [exact (vadd_get _ _ _ Ev)|exists s4; auto]].
  assert (NS5 : NoSwitch s5) by exact (noswitch_only _ _ _ C4 NS).
  rewrite (run_bind _ _ _ _ _ (switch_off 125 s5 NS5)). reflexivity.
Qed.

(** n} takes the storage offset from the second stack, carries n elements back
    (n <= 0: drops |n| of the second stack) and drops the top stack. *)
Theorem C24_end : forall F D s l b r,
  let n := hd 0 l in let a := tl l in let b' := skipn (dims_of s) b in
  Normal s 125 -> NoSwitch s -> Contents s (l :: b :: r) -> INT64_MIN < n <= INT64_MAX ->
  exists s' v, execute F (S D) 125 s = Ok (ENone, s') /\
    (forall i, vget v i = vec_of (dims_of s) b i) /\
    Stacks_and_storage s s' v
      (if 0 <? n then (taken (Z.to_nat n) a ++ b') :: r else skipn (Z.to_nat (- n)) b' :: r).
Proof.
  intros F D s l b r n a b' HN NS C Rn.
  rewrite (execute_normal F D _ s _ _ HN eq_refl). cbn [run_meth]. unfold end_.
  rewrite (run_bind getR _ s (s_r s) s) by reflexivity.
  assert (Sz : Nat.ltb 1 (ss_size (r_ss (s_r s))) = true).
  { destruct C as (_ & _ & M). unfold ss_size. change (r_ss (s_r s)) with (mySS s).
    rewrite <- (map_length s_list), M. reflexivity. }
  rewrite Sz.
  destruct (popAt_run TOP 0 s _ l AT_top C eq_refl) as (s1 & E1 & C1). cbn [lupd] in C1.
  fold popS in E1. fold a in C1.
  destruct (popVecAt_run SECOND 1 s1 _ b AT_second (only_contents _ _ _ C1) eq_refl) as (s2 & v & E2 & C2 & G).
  cbn [lupd] in C2.
  assert (D1 : dims_of s1 = dims_of s) by (unfold dims_of; rewrite (only_w _ _ _ C1), (only_r _ _ _ C1); reflexivity).
  rewrite D1 in C2, G. fold b' in C2.
  pose proof (only_trans _ _ _ _ _ C1 C2) as C2'.
  set (s3 := {| s_w := s_w s2; s_r := set_r_storage v (s_r s2) |}).
  assert (K3 : Contents s3 (a :: b' :: r)) by exact (only_contents _ _ _ C2).
  set (mid := if 0 <? n then skipn (Z.to_nat n) a :: (taken (Z.to_nat n) a ++ b') :: r
              else a :: skipn (Z.to_nat (- n)) b' :: r).
  assert (X : exists s4, (if n >? 0
             then l <- popNAt TOP (Z.to_nat n) ;; pushLAt SECOND (rev l)
             else m <- lift (chk64 (Z.abs n)) ;;
                  repM (Z.to_nat m) (popAt SECOND ;;; ret tt)) s3 = Ok (tt, s4) /\ Only_stacks s3 s4 mid).
  { unfold mid. rewrite Z.gtb_ltb. destruct (Z.ltb_spec 0 n) as [Pn|Nn].
    - destruct (popNAt_run TOP 0 (Z.to_nat n) AT_top s3 _ a K3 eq_refl) as (s4 & E4 & C4). cbn [lupd] in C4.
      rewrite (run_bind _ _ _ _ _ E4).
      destruct (pushLAt_run SECOND 1 (rev (taken (Z.to_nat n) a)) AT_second s4 _ b' (only_contents _ _ _ C4) eq_refl) as (s5 & E5 & C5).
      exists s5. split; auto. cbn [lupd] in C5. rewrite rev_involutive in C5. exact (only_trans _ _ _ _ _ C4 C5).
    - assert (Ec : chk64 (Z.abs n) = Ok (- n)).
      { rewrite Z.abs_neq by lia. apply chk64_ok. unfold in64, INT64_MIN, INT64_MAX in *. lia. }
      rewrite Ec. rewrite (run_bind (lift (Ok (- n))) _ s3 (- n) s3) by reflexivity.
      destruct (drop_run SECOND 1 (Z.to_nat (- n)) AT_second s3 _ b' K3 eq_refl) as (s4 & E4 & C4).
      exists s4. split; auto. }
  destruct X as (s4 & E4 & C4).
  pose proof (only_contents _ _ _ C4) as K4.
  assert (Y : exists x, ss_pop (mySS s4) = Ok x /\ ss_sel x = 0%nat /\ Forall plain (ss_list x) /\ map s_list (ss_list x) = tl mid).
  { destruct K4 as (S4 & P4 & M4). unfold ss_pop. destruct (ss_list (mySS s4)) as [|k ks].
    - exfalso. revert M4. unfold mid. destruct (0 <? n); discriminate.
    - eexists. split; [reflexivity|]. cbn [ss_sel ss_list]. inversion P4; subst. repeat split; auto.
      rewrite <- M4. reflexivity. }
  destruct Y as (x & Ex & Sx & Px & Mx).
  set (s5 := setSS x s4).
  assert (Ee : (n0 <- popS ;; v0 <- popVecAt SECOND ;; ipSetStorage v0 ;;;
            (if n0 >? 0
             then l <- popNAt TOP (Z.to_nat n0) ;; pushLAt SECOND (rev l)
             else m <- lift (chk64 (Z.abs n0)) ;;
                  repM (Z.to_nat m) (popAt SECOND ;;; ret tt)) ;;;
            modSS ss_pop ;;; ok) s = Ok (ENone, s5)).
  { rewrite (run_bind _ _ _ _ _ E1). fold n. rewrite (run_bind _ _ _ _ _ E2).
    rewrite (run_bind (ipSetStorage v) _ s2 tt s3) by reflexivity.
    rewrite (run_bind _ _ _ _ _ E4).
    rewrite (run_bind (modSS ss_pop) _ s4 tt s5); [reflexivity|].
    unfold modSS, mbind, getR. fold (mySS s4). rewrite Ex. reflexivity. }
  rewrite (run_bind _ _ _ _ _ Ee).
  assert (NS5 : NoSwitch s5).
  { unfold NoSwitch, s5. destruct C4 as ((y & ->) & _). exact (noswitch_only _ _ _ C2' NS). }
  rewrite (run_bind _ _ _ _ _ (switch_off 123 s5 NS5)).
  exists s5, v. split; [reflexivity|]. split; [exact G|].
  exists (setSS x s2). split.
  - split.
    + destruct C2' as ((y & ->) & _). eexists. reflexivity.
    + unfold Contents. rewrite mySS_setSS. split; auto. split; auto. rewrite Mx. unfold mid.
      destruct (0 <? n); reflexivity.
  - unfold s5. destruct C4 as ((y & ->) & _). reflexivity.
Qed.

(** n{ body n} where the body leaves the stacks as n{ left them (whatever else
    it does) and then pushes n: the stacks are those from before n{, and so is
    the storage offset. *)
Theorem C24_inverse : forall F D s n a r,
  Normal s 123 -> NoSwitch s -> Contents s ((n :: a) :: r) -> INT64_MIN < n <= INT64_MAX ->
  (Z.to_nat n <= length a)%nat ->
  (forall i, in64 (vget (r_pos (s_r s)) i + vget (r_delta (s_r s)) i)) ->
  exists s1 toss rest, execute F (S D) 123 s = Ok (ENone, s1) /\ Contents s1 (toss :: rest) /\
    forall s2, Normal s2 125 -> NoSwitch s2 -> dims_of s2 = dims_of s ->
      Contents s2 ((n :: toss) :: rest) ->
      exists s3 v, execute F (S D) 125 s2 = Ok (ENone, s3) /\ Stacks_and_storage s2 s3 v (a :: r) /\
        forall i, (i < dims_of s)%nat -> vget v i = vget (r_storage (s_r s)) i.
Proof.
  intros F D s n a r HN NS C Rn La P64.
  destruct (C24_begin F D s (n :: a) r HN NS C Rn P64) as (s1 & v & E & G & (s0 & O & ->)). cbn [hd tl] in *.
  assert (VO : forall x i, (i < dims_of s)%nat ->
    vec_of (dims_of s) (coords (dims_of s) (r_storage (s_r s)) ++ x) i = vget (r_storage (s_r s)) i).
  { intros x i Hi. unfold vec_of, coords. destruct (Nat.ltb_spec i (dims_of s)); [|lia].
    rewrite app_nth1 by (rewrite rev_length, map_length, seq_length; lia).
    rewrite rev_nth by (rewrite map_length, seq_length; lia). rewrite map_length, seq_length.
    replace (dims_of s - S (dims_of s - 1 - i))%nat with i by lia.
    rewrite (nth_indep _ 0 (vget (r_storage (s_r s)) 0)) by (rewrite map_length, seq_length; lia).
    rewrite map_nth, seq_nth by lia. reflexivity. }
  assert (SK : forall x, skipn (dims_of s) (coords (dims_of s) (r_storage (s_r s)) ++ x) = x).
  { intros x. rewrite skipn_app.
    assert (Lc : length (coords (dims_of s) (r_storage (s_r s))) = dims_of s)
      by (unfold coords; now rewrite rev_length, map_length, seq_length).
    rewrite skipn_all2 by lia. rewrite Lc, Nat.sub_diag. reflexivity. }
  destruct (Z.ltb_spec 0 n) as [Pn|Nn].
  - do 3 eexists. split; [exact E|]. split; [exact (only_contents _ _ _ O)|].
    intros s2 HN2 NS2 D2 C2.
    destruct (C24_end F D s2 _ _ _ HN2 NS2 C2 Rn) as (s3 & v2 & E3 & G3 & S3). cbn [hd tl] in *.
    destruct (Z.ltb_spec 0 n) as [_|]; [|lia].
    exists s3, v2. split; [exact E3|]. rewrite D2 in *. split.
    + rewrite SK in S3. rewrite (taken_firstn _ (taken _ _)) in S3 by (rewrite taken_length; lia).
      rewrite firstn_all2 in S3 by (rewrite taken_length; lia).
      rewrite taken_firstn, firstn_skipn in S3 by auto. exact S3.
    + intros i Hi. rewrite G3. now apply VO.
  - do 3 eexists. split; [exact E|]. split; [exact (only_contents _ _ _ O)|].
    intros s2 HN2 NS2 D2 C2.
    destruct (C24_end F D s2 _ _ _ HN2 NS2 C2 Rn) as (s3 & v2 & E3 & G3 & S3). cbn [hd tl] in *.
    destruct (Z.ltb_spec 0 n) as [|_]; [lia|].
    exists s3, v2. split; [exact E3|]. rewrite D2 in *. split.
    + rewrite SK in S3. rewrite skipn_app, skipn_all2 in S3 by (rewrite repeat_length; lia).
      rewrite repeat_length, Nat.sub_diag in S3. exact S3.
    + intros i Hi. rewrite G3. now apply VO.
Qed.

(** Stack [1 2 3] under the count 2, storage offset (7,8). *)
Definition ex_block : st :=
  let s := with_list [2; 11; 12; 13] (start98 2 [123; 49; 50; 51; 64] []) in
  {| s_w := s_w s; s_r := set_r_storage (mkvec [7; 8]) (s_r s) |}.
Definition stacks_after {A} (x : res (A * st)) : res (A * vec * list (list Z)) :=
  match x with Ok (a, s) => Ok (a, r_storage (s_r s), map s_list (ss_list (mySS s))) | Bad e => Bad e end.
Example C24_ex_hyp : Normal ex_block 123 /\ NoSwitch ex_block /\ Contents ex_block ([2; 11; 12; 13] :: []) /\
  (Z.to_nat 2 <= length [11; 12; 13])%nat.
Proof.
  split; [vm_compute; repeat split|]. split; [vm_compute; reflexivity|].
  split; [|cbn; lia]. split; [vm_compute; reflexivity|]. split; [|vm_compute; reflexivity].
  vm_compute. repeat (apply Forall_cons; [repeat split|]). apply Forall_nil.
Qed.
Example C24_ex : stacks_after (execute 100 1 123 ex_block) =
    Ok (ENone, mkvec [1], [[11; 12]; [8; 7; 13]]) /\
  stacks_after ((execute 100 1 123 ;;; pushS 2 ;;; execute 100 1 125) ex_block) =
    Ok (ENone, mkvec [7; 8], [[11; 12; 13]]).
Proof. vm_compute. split; reflexivity. Qed.
Print Assumptions C24_begin.
Print Assumptions C24_end.
Print Assumptions C24_inverse.

(** ** C25 u transfers cells one at a time and is undone by the opposite count *)

Theorem C25_under : forall F D s l b r,
  let n := hd 0 l in let a := tl l in
  Normal s 117 -> Contents s (l :: b :: r) -> INT64_MIN < n <= INT64_MAX ->
  exists s', execute F (S D) 117 s = Ok (ENone, s') /\
    Only_stacks s s'
      (if 0 <? n then (rev (taken (Z.to_nat n) b) ++ a) :: skipn (Z.to_nat n) b :: r
       else skipn (Z.to_nat (- n)) a :: (rev (taken (Z.to_nat (- n)) a) ++ b) :: r).
Proof.
  intros F D s l b r n a HN C Rn.
  rewrite (execute_normal F D _ s _ _ HN eq_refl). cbn [run_meth]. unfold under.
  rewrite (run_bind getR _ s (s_r s) s) by reflexivity.
  assert (Sz : Nat.ltb 1 (ss_size (r_ss (s_r s))) = true).
  { destruct C as (_ & _ & M). unfold ss_size. change (r_ss (s_r s)) with (mySS s).
    rewrite <- (map_length s_list), M. reflexivity. }
  rewrite Sz.
  destruct (popAt_run TOP 0 s _ l AT_top C eq_refl) as (s1 & E1 & C1). cbn [lupd] in C1.
  fold popS in E1. rewrite (run_bind _ _ _ _ _ E1). fold n. fold a in C1. rewrite Z.gtb_ltb.
  destruct (Z.ltb_spec 0 n) as [Pn|Nn].
  - destruct (carry_run SECOND TOP 1 0 (Z.to_nat n) AT_second AT_top ltac:(lia) s1 _ b a (only_contents _ _ _ C1) eq_refl eq_refl) as (s2 & E2 & C2).
    change (fun x => pushAt TOP x) with pushS in E2.
    assert (E2' : repM (Z.to_nat n) (x <- popAt SECOND ;; pushS x) s1 = Ok (tt, s2)) by exact E2.
    rewrite (run_bind _ _ _ _ _ E2'). exists s2. split; [reflexivity|]. exact (only_trans _ _ _ _ _ C1 C2).
  - assert (Ec : neg64 n = Ok (- n)).
    { apply chk64_ok. unfold in64, INT64_MIN, INT64_MAX in *. lia. }
    rewrite Ec.
    destruct (carry_run TOP SECOND 0 1 (Z.to_nat (- n)) AT_top AT_second ltac:(lia) s1 _ a b (only_contents _ _ _ C1) eq_refl eq_refl) as (s2 & E2 & C2).
    assert (E2' : (m <- lift (Ok (- n)) ;; repM (Z.to_nat m) (x <- popS ;; pushAt SECOND x)) s1 = Ok (tt, s2)).
    { rewrite (run_bind (lift (Ok (- n))) _ s1 (- n) s1) by reflexivity. exact E2. }
    rewrite (run_bind _ _ _ _ _ E2'). exists s2. split; [reflexivity|]. exact (only_trans _ _ _ _ _ C1 C2).
Qed.
Theorem C25_undo : forall F D s n a b r,
  Normal s 117 -> Contents s ((n :: a) :: b :: r) -> INT64_MIN < n <= INT64_MAX ->
  (Z.to_nat n <= length b)%nat -> (Z.to_nat (- n) <= length a)%nat ->
  exists s1 toss soss, execute F (S D) 117 s = Ok (ENone, s1) /\ Contents s1 (toss :: soss :: r) /\
    forall s2, Normal s2 117 -> Contents s2 ((- n :: toss) :: soss :: r) ->
      exists s3, execute F (S D) 117 s2 = Ok (ENone, s3) /\ Only_stacks s2 s3 (a :: b :: r).
Proof.
  intros F D s n a b r HN C Rn Lb La.
  destruct (C25_under F D s (n :: a) b r HN C Rn) as (s1 & E & O). cbn [hd tl] in *.
  destruct (Z.ltb_spec 0 n) as [Pn|Nn].
  - exists s1. do 2 eexists. split; [exact E|]. split; [exact (only_contents _ _ _ O)|].
    intros s2 HN2 C2.
    destruct (C25_under F D s2 _ _ _ HN2 C2) as (s3 & E3 & O3); cbn [hd tl] in *.
    { unfold INT64_MIN, INT64_MAX in *. lia. }
    exists s3. split; [exact E3|]. destruct (Z.ltb_spec 0 (- n)) as [|_]; [lia|].
    rewrite Z.opp_involutive in O3.
    rewrite taken_app in O3 by (now rewrite rev_length, taken_length).
    rewrite rev_involutive, (taken_firstn _ b), firstn_skipn in O3 by auto.
    rewrite skipn_app, skipn_all2 in O3 by (rewrite rev_length, firstn_length; lia).
    rewrite rev_length, firstn_length, Nat.min_l, Nat.sub_diag in O3 by lia. exact O3.
  - exists s1. do 2 eexists. split; [exact E|]. split; [exact (only_contents _ _ _ O)|].
    intros s2 HN2 C2.
    destruct (C25_under F D s2 _ _ _ HN2 C2) as (s3 & E3 & O3); cbn [hd tl] in *.
    { unfold INT64_MIN, INT64_MAX in *. lia. }
    exists s3. split; [exact E3|]. destruct (Z.ltb_spec 0 (- n)) as [Q|Q].
    + rewrite taken_app in O3 by (now rewrite rev_length, taken_length).
      rewrite rev_involutive, (taken_firstn _ a), firstn_skipn in O3 by auto.
      rewrite skipn_app, skipn_all2 in O3 by (rewrite rev_length, firstn_length; lia).
      rewrite rev_length, firstn_length, Nat.min_l, Nat.sub_diag in O3 by lia. exact O3.
    + assert (n = 0) by lia. subst n. exact O3.
Qed.
(** With a single stack u fails, changing nothing (and so reflects, C30). *)
Theorem C25_single : forall F D s l, Normal s 117 -> Contents s [l] ->
  execute F (S D) 117 s = Ok (EUnspec, s).
Proof.
  intros F D s l HN (_ & _ & M).
  rewrite (execute_normal F D _ s _ _ HN eq_refl). cbn [run_meth]. unfold under.
  rewrite (run_bind getR _ s (s_r s) s) by reflexivity.
  change (ss_size (r_ss (s_r s))) with (length (ss_list (mySS s))).
  rewrite <- (map_length s_list), M. reflexivity.
Qed.
Definition ex_under : st :=
  let s := with_list [2; 11] (start98 2 [117; 64] []) in
  setSS {| ss_sel := 0; ss_list := ss_list (mySS s) ++ [{| s_mode := 0; s_list := [1; 2; 3]; s_ops := 0 |}] |} s.
Example C25_ex_hyp : Normal ex_under 117 /\ Contents ex_under ([2; 11] :: [1; 2; 3] :: []).
Proof.
  split; [vm_compute; repeat split|]. split; [vm_compute; reflexivity|]. split; [|vm_compute; reflexivity].
  vm_compute. repeat (apply Forall_cons; [repeat split|]). apply Forall_nil.
Qed.
Example C25_ex : stacks_after (execute 100 1 117 ex_under) = Ok (ENone, mkvec [0], [[2; 1; 11]; [3]]).
Proof. vm_compute. reflexivity. Qed.
Print Assumptions C25_under.
Print Assumptions C25_undo.
Print Assumptions C25_single.
