(** * Properties C17 and C18: string mode.  See FlowProofs.v for [Path]. *)

From Coq Require Import ZArith List Bool Lia.
From Verif Require Import Base BaseProofs VectorModel VectorProofs StackModel StackProofs
  FieldModel FieldProofs World IpModel LoadModel FingModel CoreModel UniModel IpProofs
  ExecProofs FlowProofs States PropsStack PropsIO PropsTurn PropsFlow.
Import ListNotations.
Open Scope Z_scope.

(** ** Vocabulary *)

(** [n] ticks of the IP. *)
Definition ticks (F : positive) (D n : nat) : M unit := repM n (tick F D).

(** The IP of [s] is in string mode, just after an opening quote; strings are
    read in style [style]. *)
Definition InString (style : strstyle) (s : st) : Prop :=
  r_string (s_r s) = true /\ r_end (s_r s) = 34 /\ r_prev (s_r s) = 0 /\
  r_stopped (s_r s) = false /\ r_strats (s_r s) <> [] /\
  c_str (u_cfg (w_uni (s_w s) (r_uni (s_r s)))) = style /\ no_debug s.

(** From the IP's cell onwards Funge-space holds the cells [w], the closing
    quote, and one more cell, which is at [q]. *)
Definition Text (s : st) (w : list Z) (q : vec) : Prop :=
  exists y cs, f_get (space s) (r_pos (s_r s)) :: cs = w ++ [34; y] /\ Path s (r_pos (s_r s)) cs q.

(** [s'] is [s] after a string: stack [l'], IP at [q] in normal mode, all else
    as in [s]. *)
Definition Read (s s' : st) (q : vec) (l' : list Z) : Prop :=
  exists s1, Only_stack s s1 l' /\
    s' = {| s_w := s_w s1; s_r := set_r_string false (set_r_prev 0 (set_r_pos q (s_r s1))) |}.

(** ** Stepping through a string *)

Definition mid (s : st) (p : vec) (x : Z) : st :=
  {| s_w := s_w s; s_r := set_r_prev x (set_r_pos p (s_r s)) |}.
Definition closed (s : st) (p : vec) : st :=
  {| s_w := s_w s; s_r := set_r_string false (set_r_prev 0 (set_r_pos p (s_r s))) |}.

Lemma mid_only s p x s' l : Only_stack (mid s p x) s' l -> exists s1, Only_stack s s1 l /\ s' = mid s1 p x.
Proof.
  intros (k & k' & E & M & L & ->). exists (setSS (ss_set (mySS s) (ss_sel (mySS s)) k') s).
  split; [exists k, k'; auto|reflexivity].
Qed.
Lemma mid_push s p x l c : Holds s l -> r_strats (s_r s) <> [] ->
  exists s1, runnerPush c (mid s p x) = Ok (tt, mid s1 p x) /\ Only_stack s s1 (c :: l).
Proof.
  intros H N. destruct (pushS_plain (mid s p x) l c H) as (s' & E & C).
  destruct (mid_only _ _ _ _ _ C) as (s1 & C1 & ->). exists s1. split; auto.
  unfold runnerPush, mbind, getR. change (r_strats (s_r (mid s p x))) with (r_strats (s_r s)).
  destruct (r_strats (s_r s)); [congruence|exact E].
Qed.

Section Steps.
Variables (F : positive) (D : nat) (s : st) (style : strstyle).
Hypothesis (HI : InString style s).

(** What is the same in every state on the way. *)
Lemma mid_next s1 l p p1 x : Only_stack s s1 l ->
  ip_next (c_torus (u_cfg (w_uni (s_w s) (r_uni (s_r s))))) (dims_of s) (here s) p (r_delta (s_r s))
      = Ok (p1, r_delta (s_r s)) ->
  ipNext (mid s1 p x) = Ok (tt, mid s1 p1 x).
Proof.
  intros C E. destruct HI as (_ & _ & _ & St & _).
  rewrite (ipNext_run (mid s1 p x) p1 (r_delta (s_r s))).
  - pose proof (Only_stack_r _ _ _ C) as R. unfold moved, mid. cbn [s_w s_r]. f_equal. f_equal. f_equal.
    rewrite R. now destruct (s_r s).
  - change (r_stopped (s_r (mid s1 p x))) with (r_stopped (s_r s1)). now rewrite (Only_stack_r _ _ _ C).
  - unfold next_of. cbn [mid s_w s_r r_pos r_delta r_uni set_r_prev set_r_pos].
    rewrite (Only_stack_w _ _ _ C), (Only_stack_r _ _ _ C). exact E.
Qed.
Lemma mid_facts s1 l p x : Only_stack s s1 l ->
  r_string (s_r (mid s1 p x)) = true /\ r_end (s_r (mid s1 p x)) = 34 /\
  r_strats (s_r s1) <> [] /\ no_debug (mid s1 p x) /\
  ipGet (mid s1 p x) = Ok (f_get (here s) p, mid s1 p x) /\
  getC (mid s1 p x) = Ok (u_cfg (w_uni (s_w s) (r_uni (s_r s))), mid s1 p x) /\
  c_str (u_cfg (w_uni (s_w s) (r_uni (s_r s)))) = style.
Proof.
  intros C. destruct HI as (A & B & _ & _ & E & G & N).
  pose proof (Only_stack_r _ _ _ C) as R. pose proof (Only_stack_w _ _ _ C) as W.
  unfold no_debug, ipGet, getC, fget, mbind, getR, getU, getW, here.
  cbn [mid s_w s_r r_string r_end r_uni r_pos set_r_prev set_r_pos]. rewrite R, W.
  cbn [r_string r_end r_uni r_strats set_r_ss]. auto 10.
Qed.

(** One iteration of a tick whose instruction, in string mode, ends with ENone
    or ESkip and moves on. *)
Lemma string_step s1 l p x e s2 s3 : Only_stack s s1 l ->
  exec_string (f_get (here s) p) (mid s1 p x) = Ok (e, s2) ->
  e = ENone \/ e = ESkip -> ipNext s2 = Ok (tt, s3) ->
  tick_step F (S D) tt (mid s1 p x) = Ok ((match e with ENone => inr tt | _ => inl tt end), s3).
Proof.
  intros C E He N. destruct (mid_facts s1 l p x C) as (A & _ & _ & Nd & G & _).
  unfold tick_step, isMode, getU, mbind. unfold ret at 1. unfold no_debug in Nd. rewrite Nd.
  rewrite G. cbv beta iota. cbn [execute]. unfold mbind at 1, getR at 1. rewrite A. rewrite E.
  destruct He as [-> | ->]; unfold getR, ret; cbv beta iota; rewrite N; reflexivity.
Qed.
Lemma mid_close s1 l p x : Only_stack s s1 l -> f_get (here s) p = 34 ->
  forall p1, ip_next (c_torus (u_cfg (w_uni (s_w s) (r_uni (s_r s))))) (dims_of s) (here s) p (r_delta (s_r s))
      = Ok (p1, r_delta (s_r s)) ->
  tick_step F (S D) tt (mid s1 p x) = Ok (inr tt, closed s1 p1).
Proof.
  intros C E p1 N. destruct (mid_facts s1 l p x C) as (A & B & _).
  refine (string_step s1 l p x ENone (closed s1 p) (closed s1 p1) C _ (or_introl eq_refl) _).
  - unfold exec_string, mbind, getR. rewrite B, E. reflexivity.
  - destruct HI as (_ & _ & _ & St & _).
    rewrite (ipNext_run (closed s1 p) p1 (r_delta (s_r s))).
    + pose proof (Only_stack_r _ _ _ C) as R. unfold moved, closed. cbn [s_w s_r]. f_equal. f_equal. f_equal.
      rewrite R. now destruct (s_r s).
    + change (r_stopped (s_r (closed s1 p))) with (r_stopped (s_r s1)). now rewrite (Only_stack_r _ _ _ C).
    + unfold next_of. cbn [closed s_w s_r r_pos r_delta r_uni set_r_prev set_r_pos set_r_string].
      rewrite (Only_stack_w _ _ _ C), (Only_stack_r _ _ _ C). exact N.
Qed.
End Steps.

Lemma read_closed s s1 l q : Only_stack s s1 l -> Read s (closed s1 q) q l.
Proof. intros C. exists s1. auto. Qed.
Lemma mid_self s : r_prev (s_r s) = 0 -> mid s (r_pos (s_r s)) 0 = s.
Proof. intros H. destruct s as [w r]. unfold mid. cbn [s_w s_r] in *. destruct r. cbn in H. now subst. Qed.

(** [n + 1] ticks, the first of which is under way with fuel [G]. *)
Definition ticks_from (F : positive) (D : nat) (G : positive) (n : nat) : M unit :=
  loopM G (tick_step F D) tt ;;; ticks F D n.
Lemma ticks_step F D G n s s' : tick_step F D tt s = Ok (inr tt, s') ->
  ticks_from F D G (S n) s = ticks_from F D F n s'.
Proof.
  intros E. unfold ticks_from. rewrite (run_bind _ _ _ _ _ (loopM_inr G _ _ _ _ _ E)).
  cbn [ticks repM]. reflexivity.
Qed.
Lemma ticks_last F D G s s' : tick_step F D tt s = Ok (inr tt, s') ->
  ticks_from F D G 0 s = Ok (tt, s').
Proof.
  intros E. unfold ticks_from. now rewrite (run_bind _ _ _ _ _ (loopM_inr G _ _ _ _ _ E)).
Qed.
Lemma ticks_skip F D G n s s' : (1 < Pos.to_nat G)%nat -> tick_step F D tt s = Ok (inl tt, s') ->
  ticks_from F D G n s = ticks_from F D (Pos.pred G) n s'.
Proof. intros L E. unfold ticks_from, mbind. now rewrite (loopM_inl G _ _ _ _ _ L E). Qed.
Lemma cons_path (s : st) p cs q (y : Z) w :
  f_get (here s) p :: cs = y :: w -> w <> [] -> Path s p cs q ->
  f_get (here s) p = y /\ exists p1 cs', f_get (here s) p1 :: cs' = w /\ Path s p1 cs' q /\
    ip_next (c_torus (u_cfg (w_uni (s_w s) (r_uni (s_r s))))) (dims_of s) (here s) p (r_delta (s_r s))
      = Ok (p1, r_delta (s_r s)).
Proof.
  intros E N P. injection E as E1 E2. subst w. split; auto.
  destruct P as [p|p p1 cs q En Hp]; [congruence|]. exists p1, cs. auto.
Qed.
Lemma close_all F D s style G s1 l p x y cs q : InString style s -> Only_stack s s1 l ->
  f_get (here s) p :: cs = [34; y] -> Path s p cs q ->
  ticks_from F (S D) G 0 (mid s1 p x) = Ok (tt, closed s1 q).
Proof.
  intros HI C E P. destruct (cons_path s p cs q 34 [y] E ltac:(discriminate) P) as (E1 & p1 & cs' & E2 & P2 & N).
  injection E2 as _ E2. subst cs'. inversion P2; subst.
  apply ticks_last. eapply mid_close; eauto.
Qed.
Lemma app_quote w y : w ++ [34; y] <> [].
Proof. destruct w; discriminate. Qed.

(** ** C17 SGML strings collapse each run of white space to one cell *)

(** White space: space, tab, newline, vertical tab, form feed, return. *)
Definition ws (c : Z) : Prop := In c [32; 9; 10; 11; 12; 13].
Definition starts_dark (w : list Z) : Prop := match w with [] => True | c :: _ => ~ ws c end.
Inductive Collapsed : list Z -> list Z -> Prop :=
| Collapsed_nil : Collapsed [] []
| Collapsed_dark c w v : ~ ws c -> Collapsed w v -> Collapsed (c :: w) (c :: v)
| Collapsed_run c run w v : ws c -> Forall ws run -> starts_dark w -> Collapsed w v ->
    Collapsed (c :: run ++ w) (c :: v).

Lemma ws_isspace c : isspace c = true <-> ws c.
Proof.
  unfold isspace, ws. rewrite orb_true_iff, andb_true_iff, Z.eqb_eq, !Z.leb_le. cbn [In]. lia.
Qed.
Definition ubyte (c : Z) : Prop := 0 <= c <= 255.
Lemma isspace_byte c : ubyte c -> isspace_ub c = Ok (isspace c).
Proof.
  unfold ubyte. intros H. unfold isspace_ub. rewrite to_i32_id by lia.
  destruct (Z.leb_spec (-1) c), (Z.leb_spec c 255); try lia. reflexivity.
Qed.

Section Sgml.
Variables (F : positive) (D : nat) (s : st) (q : vec) (y : Z).
Hypothesis (HI : InString StrSgml s).

Lemma sgml_dark s1 l p x c p1 : Only_stack s s1 l -> Holds s1 l -> f_get (here s) p = c -> c <> 34 ->
  ubyte c -> ubyte x -> isspace c && isspace x = false ->
  ip_next (c_torus (u_cfg (w_uni (s_w s) (r_uni (s_r s))))) (dims_of s) (here s) p (r_delta (s_r s))
      = Ok (p1, r_delta (s_r s)) ->
  exists s2, tick_step F (S D) tt (mid s1 p x) = Ok (inr tt, mid s2 p1 c) /\ Only_stack s s2 (c :: l) /\ Holds s2 (c :: l).
Proof.
  intros C H E N Uc Ux Sp Nx. destruct (mid_facts s StrSgml HI s1 l p x C) as (A & B & R & Nd & G & Cf & Cs).
  destruct (mid_push s1 p x l c H R) as (s2 & Ep & C2). exists s2.
  pose proof (Only_stack_trans _ _ _ _ _ C C2) as C3.
  split; [|split; [exact C3|exact (Only_stack_holds _ _ _ _ H C2)]].
  refine (string_step F D s StrSgml HI s1 l p x ENone (mid s2 p c) (mid s2 p1 c) C _ (or_introl eq_refl) _).
  2:{ eapply mid_next; eauto. }
  rewrite E. unfold exec_string. unfold mbind at 1. unfold getR at 1. rewrite B.
  apply Z.eqb_neq in N. rewrite N. rewrite (run_bind _ _ _ _ _ Cf). rewrite Cs.
  rewrite isspace_byte by auto.
  rewrite (run_bind (lift (Ok (isspace c))) _ (mid s1 p x) (isspace c) (mid s1 p x)) by reflexivity.
  assert (K : (if isspace c then s3 <- lift (isspace_ub (r_prev (s_r (mid s1 p x))));; ret (negb s3) else ret true)
                (mid s1 p x) = Ok (true, mid s1 p x)).
  { change (r_prev (s_r (mid s1 p x))) with x. rewrite isspace_byte by auto.
    destruct (isspace c); [|reflexivity]. cbn [andb] in Sp. rewrite Sp. reflexivity. }
  rewrite (run_bind _ _ _ _ _ K). rewrite (run_bind _ _ _ _ _ Ep). reflexivity.
Qed.
Lemma sgml_skip s1 l p x c p1 : Only_stack s s1 l -> f_get (here s) p = c -> c <> 34 ->
  ubyte c -> ubyte x -> isspace c = true -> isspace x = true ->
  ip_next (c_torus (u_cfg (w_uni (s_w s) (r_uni (s_r s))))) (dims_of s) (here s) p (r_delta (s_r s))
      = Ok (p1, r_delta (s_r s)) ->
  tick_step F (S D) tt (mid s1 p x) = Ok (inl tt, mid s1 p1 x).
Proof.
  intros C E N Uc Ux S1 S2 Nx. destruct (mid_facts s StrSgml HI s1 l p x C) as (A & B & R & Nd & G & Cf & Cs).
  refine (string_step F D s StrSgml HI s1 l p x ESkip (mid s1 p x) (mid s1 p1 x) C _ (or_intror eq_refl) _).
  2:{ eapply mid_next; eauto. }
  rewrite E. unfold exec_string. unfold mbind at 1. unfold getR at 1. rewrite B.
  apply Z.eqb_neq in N. rewrite N. rewrite (run_bind _ _ _ _ _ Cf). rewrite Cs.
  rewrite isspace_byte, S1 by auto.
  rewrite (run_bind (lift (Ok true)) _ (mid s1 p x) true (mid s1 p x)) by reflexivity. cbv iota.
  assert (K : (s3 <- lift (isspace_ub (r_prev (s_r (mid s1 p x))));; ret (negb s3)) (mid s1 p x) = Ok (false, mid s1 p x)).
  { change (r_prev (s_r (mid s1 p x))) with x. rewrite isspace_byte, S2 by auto. reflexivity. }
  rewrite (run_bind _ _ _ _ _ K). reflexivity.
Qed.
(** The rest of a run of white space. *)
Lemma sgml_run n run : forall G s1 l p x w cs, Only_stack s s1 l -> Forall ws run ->
  f_get (here s) p :: cs = run ++ w ++ [34; y] -> Path s p cs q ->
  isspace x = true -> ubyte x -> (length run < Pos.to_nat G)%nat ->
  exists G' p' cs', f_get (here s) p' :: cs' = w ++ [34; y] /\ Path s p' cs' q /\
    (Pos.to_nat G - length run = Pos.to_nat G')%nat /\
    ticks_from F (S D) G n (mid s1 p x) = ticks_from F (S D) G' n (mid s1 p' x).
Proof.
  induction run as [|c run IH]; intros G s1 l p x w cs C Fw E P Sx Ux L.
  - exists G, p, cs. cbn [app length] in *. repeat split; auto. lia.
  - inversion Fw as [|? ? Wc Fw']; subst. cbn [app length] in *.
    destruct (cons_path s p cs q c _ E) as (E1 & p1 & cs1 & E2 & P2 & Nx); auto.
    { destruct run; [apply app_quote|discriminate]. }
    destruct (IH (Pos.pred G) s1 l p1 x w cs1 C Fw' E2 P2 Sx Ux ltac:(lia)) as (G' & p' & cs' & A1 & A2 & A3 & A4).
    exists G', p', cs'. repeat split; auto; [lia|]. rewrite <- A4.
    apply ticks_skip; [lia|]. eapply sgml_skip; eauto.
    + intros ->. unfold ws in Wc. cbn [In] in Wc. lia.
    + unfold ws, ubyte in *. cbn [In] in Wc. lia.
    + now apply ws_isspace.
Qed.
Lemma sgml_all w v : Collapsed w v -> forall G s1 l p x cs, Only_stack s s1 l -> Holds s1 l ->
  Forall ubyte w -> ~ In 34 w ->
  f_get (here s) p :: cs = w ++ [34; y] -> Path s p cs q ->
  isspace x = false \/ starts_dark w -> ubyte x ->
  (length w < Pos.to_nat F)%nat ->
  exists s2, Only_stack s s2 (rev v ++ l) /\ ticks_from F (S D) G (length v) (mid s1 p x) = Ok (tt, closed s2 q).
Proof.
  intros K. induction K as [|c w v Nc K IH|c run w v Wc Fr Sd K IH]; intros G s1 l p x cs C H Ub Nq E P Hx Ux L.
  - exists s1. cbn [rev app length]. split; auto. eapply close_all; eauto.
  - cbn [app length] in *. destruct (cons_path s p cs q c _ E (app_quote _ _) P) as (E1 & p1 & cs1 & E2 & P2 & Nx).
    inversion Ub as [|? ? Uc Ub']; subst.
    assert (Ic : isspace (f_get (here s) p) = false).
    { destruct (isspace (f_get (here s) p)) eqn:X; auto. apply ws_isspace in X. contradiction. }
    destruct (sgml_dark s1 l p x _ p1 C H eq_refl) as (s2 & T & C2 & H2); auto.
    { intros X. apply Nq. left. auto. }
    { now rewrite Ic. }
    destruct (IH F s2 (f_get (here s) p :: l) p1 (f_get (here s) p) cs1 C2 H2 Ub') as (s3 & C3 & T3); auto; [|lia|].
    { intros X. apply Nq. now right. }
    exists s3. cbn [rev]. rewrite <- app_assoc. split; auto. rewrite (ticks_step _ _ _ _ _ _ T). exact T3.
  - cbn [app length] in *. rewrite <- app_assoc in E.
    destruct (cons_path s p cs q c _ E) as (E1 & p1 & cs1 & E2 & P2 & Nx); auto.
    { destruct run; [apply app_quote|discriminate]. }
    inversion Ub as [|? ? Uc Ub']; subst. apply Forall_app in Ub'. destruct Ub' as (Ub1 & Ub2).
    rewrite app_length in L.
    assert (Ic : isspace x = false).
    { destruct Hx as [Hx|Hx]; auto. cbn [starts_dark] in Hx. contradiction. }
    destruct (sgml_dark s1 l p x _ p1 C H eq_refl) as (s2 & T & C2 & H2); auto.
    { intros X. apply Nq. left. auto. }
    { rewrite Ic. apply andb_false_r. }
    set (c := f_get (here s) p) in *.
    destruct (sgml_run (length v) run F s2 (c :: l) p1 c w cs1 C2 Fr E2 P2) as (G' & p' & cs' & A1 & A2 & A3 & A4); auto.
    { now apply ws_isspace. } { lia. }
    destruct (IH G' s2 (c :: l) p' c cs' C2 H2 Ub2) as (s3 & C3 & T3); auto; [|lia|].
    { intros X. apply Nq. right. apply in_or_app. now right. }
    exists s3. cbn [rev]. rewrite <- app_assoc. split; auto.
    rewrite (ticks_step _ _ _ _ _ _ T), A4. exact T3.
Qed.
End Sgml.

(** After one tick per pushed cell and one for the closing quote, the stack
    holds the collapsed text, last cell on top. *)
Theorem C17_sgml : forall F D s l w v q,
  InString StrSgml s -> Holds s l -> Text s w q -> ~ In 34 w -> Forall ubyte w ->
  Collapsed w v -> (length w < Pos.to_nat F)%nat ->
  exists s', ticks F (S D) (S (length v)) s = Ok (tt, s') /\ Read s s' q (rev v ++ l).
Proof.
  intros F D s l w v q HI H (y & cs & E & P) Nq Ub K L.
  assert (H0 : r_prev (s_r s) = 0) by (destruct HI as (_ & _ & ? & _); auto).
  destruct (sgml_all F D s q y HI w v K F s l (r_pos (s_r s)) 0 cs) as (s2 & C2 & T2); auto.
  - now apply Only_stack_refl.
  - unfold ubyte. lia.
  - exists (closed s2 q). split; [|now apply read_closed]. rewrite mid_self in T2 by auto. exact T2.
Qed.
(** [Collapsed] relates every text to exactly one other. *)
Theorem C17_collapsed_total : forall w, exists v, Collapsed w v.
Proof.
  assert (R : forall w, exists run rest, w = run ++ rest /\ Forall ws run /\ starts_dark rest).
  { induction w as [|c w (run & rest & -> & A & B)]; [exists [], []; repeat split; auto|].
    destruct (isspace c) eqn:X.
    - exists (c :: run), rest. repeat split; auto. constructor; auto. now apply ws_isspace.
    - exists [], (c :: run ++ rest). repeat split; auto. cbn [starts_dark]. rewrite <- ws_isspace. congruence. }
  intros w. remember (length w) as n eqn:En. revert w En.
  induction n as [n IH] using lt_wf_ind. intros w En. destruct w as [|c w]; [exists []; constructor|].
  destruct (isspace c) eqn:X.
  - destruct (R w) as (run & rest & -> & A & B).
    destruct (IH (length rest)) with (w := rest) as (v & V); [subst; cbn [length]; rewrite app_length; lia|reflexivity|].
    exists (c :: v). apply Collapsed_run; auto. now apply ws_isspace.
  - destruct (IH (length w)) with (w := w) as (v & V); [subst; cbn [length]; lia|reflexivity|].
    exists (c :: v). apply Collapsed_dark; auto. rewrite <- ws_isspace. congruence.
Qed.
(** [s] just after an opening quote, without executing it. *)
Definition in_string (s : st) : st := {| s_w := s_w s; s_r := set_r_string true (s_r s) |}.

(** With 8-bit cells (-fcells=char) the bytes above 127 of a program become
    negative cells, on which isspace is undefined. *)
Theorem C17_char_cells_refuted : exists s, InString StrSgml s /\ Holds s [] /\
  (exists q, Text s [-36] q) /\ (forall F D, (1 < Pos.to_nat F)%nat -> tick F (S D) s = Bad BadCtype).
Proof.
  set (s := in_string (the dummy (start (set_c_char true (set_c_dims 2 (set_c_std STD_98 cfg_default)))
                                        [220; 34; 64] []))).
  exists s. split; [vm_compute; repeat split; discriminate|].
  split; [exists {| s_mode := 0; s_list := []; s_ops := 0 |}; vm_compute; repeat split|].
  split.
  - exists (mkvec [2]), 64. exists [34; 64]. split; [vm_compute; reflexivity|].
    assert (X : forall n c, ip_next false (dims_of s) (here s) (mkvec [n]) (mkvec [1]) = Ok (mkvec [n + 1], mkvec [1]) ->
              f_get (here s) (mkvec [n + 1]) = c ->
              forall cs q, Path s (mkvec [n + 1]) cs q ->
              Path s (mkvec [n]) (c :: cs) q).
    { intros n c En <- cs q Pq. econstructor; eauto. }
    apply (X 0); [vm_compute; reflexivity|vm_compute; reflexivity|].
    apply (X 1); [vm_compute; reflexivity|vm_compute; reflexivity|]. constructor.
  - intros F D L. unfold tick. apply loopM_err. vm_compute. reflexivity.
Qed.

(** Multispace: every cell is pushed. *)
Theorem C17_multispace : forall F D s l w q,
  InString StrMultispace s -> Holds s l -> Text s w q -> ~ In 34 w ->
  exists s', ticks F (S D) (S (length w)) s = Ok (tt, s') /\ Read s s' q (rev w ++ l).
Proof.
  intros F D s l w q HI H (y & cs & E & P) Nq.
  assert (A : forall w G s1 l p x cs, Only_stack s s1 l -> Holds s1 l -> ~ In 34 w ->
    f_get (here s) p :: cs = w ++ [34; y] -> Path s p cs q ->
    exists s2, Only_stack s s2 (rev w ++ l) /\ ticks_from F (S D) G (length w) (mid s1 p x) = Ok (tt, closed s2 q)).
  { clear H E P Nq. intros w'. induction w' as [|c w' IH]; intros G s1 l' p x cs' C H Nq E P.
    - exists s1. cbn [rev app length]. split; auto. eapply close_all; eauto.
    - cbn [app length] in *. destruct (cons_path s p cs' q c _ E (app_quote _ _) P) as (E1 & p1 & cs1 & E2 & P2 & Nx).
      destruct (mid_facts s _ HI s1 l' p x C) as (A & B & R & Nd & _ & Cf & Cs).
      destruct (mid_push s1 p x l' c H R) as (s2 & Ep & C2).
      pose proof (Only_stack_trans _ _ _ _ _ C C2) as C3.
      destruct (IH F s2 (c :: l') p1 x cs1 C3 (Only_stack_holds _ _ _ _ H C2)) as (s3 & C4 & T3); auto.
      { intros X. apply Nq. now right. }
      exists s3. cbn [rev]. rewrite <- app_assoc. split; auto. rewrite <- T3. apply ticks_step.
      refine (string_step F D s _ HI s1 l' p x ENone (mid s2 p x) (mid s2 p1 x) C _ (or_introl eq_refl) _).
      2:{ eapply mid_next; eauto. }
      rewrite E1. unfold exec_string. unfold mbind at 1. unfold getR at 1. rewrite B.
      destruct (Z.eqb_spec c 34) as [X|_]; [exfalso; apply Nq; now left|].
      rewrite (run_bind _ _ _ _ _ Cf). rewrite Cs. rewrite (run_bind _ _ _ _ _ Ep). reflexivity. }
  assert (H0 : r_prev (s_r s) = 0) by (destruct HI as (_ & _ & ? & _); auto).
  destruct (A w F s l (r_pos (s_r s)) 0 cs) as (s2 & C2 & T2); auto.
  - now apply Only_stack_refl.
  - exists (closed s2 q). split; [|now apply read_closed]. rewrite mid_self in T2 by auto. exact T2.
Qed.

(** ** C18 C-style strings decode escapes *)

(** \0 \a \b \t \n \v \f \r \e *)
Definition escapes : list (Z * Z) :=
  [(48, 0); (97, 7); (98, 8); (116, 9); (110, 10); (118, 11); (102, 12); (114, 13); (101, 27)].
Definition Escape (c x : Z) : Prop :=
  In (c, x) escapes \/ (~ In c (map fst escapes) /\ x = c).
(** [Decoded w v]: the text [w], without its closing quote, denotes [v]. *)
Inductive Decoded : list Z -> list Z -> Prop :=
| Decoded_nil : Decoded [] []
| Decoded_plain c w v : c <> 34 -> c <> 92 -> Decoded w v -> Decoded (c :: w) (c :: v)
| Decoded_escape c x w v : Escape c x -> Decoded w v -> Decoded (92 :: c :: w) (x :: v).

Lemma escape_code_spec c x : Escape c x -> escape_code c = x.
Proof.
  unfold Escape, escapes, escape_code. intros [H|(H & ->)].
  - cbn [In] in H. repeat (destruct H as [H|H]; [inversion H; reflexivity|]). contradiction.
  - cbn [map fst In] in H.
    repeat match goal with |- context [?a =? ?b] => destruct (Z.eqb_spec a b); [exfalso; subst; tauto|] end.
    reflexivity.
Qed.

Theorem C18_cstring : forall F D s l w v q,
  InString StrC s -> Holds s l -> Text s w q -> Decoded w v ->
  exists s', ticks F (S D) (S (length v)) s = Ok (tt, s') /\ Read s s' q (rev v ++ l).
Proof.
  intros F D s l w v q HI H (y & cs & E & P) K.
  assert (A : forall w v, Decoded w v -> forall G s1 l p x cs, Only_stack s s1 l -> Holds s1 l ->
    f_get (here s) p :: cs = w ++ [34; y] -> Path s p cs q ->
    exists s2, Only_stack s s2 (rev v ++ l) /\ ticks_from F (S D) G (length v) (mid s1 p x) = Ok (tt, closed s2 q)).
  { clear H E P K. intros w' v' K. induction K as [|c w' v' N1 N2 K IH|c z w' v' Ez K IH]; intros G s1 l' p x cs' C H E P.
    - exists s1. cbn [rev app length]. split; auto. eapply close_all; eauto.
    - cbn [app length] in *. destruct (cons_path s p cs' q c _ E (app_quote _ _) P) as (E1 & p1 & cs1 & E2 & P2 & Nx).
      destruct (mid_facts s _ HI s1 l' p x C) as (A & B & R & Nd & _ & Cf & Cs).
      destruct (mid_push s1 p x l' c H R) as (s2 & Ep & C2).
      pose proof (Only_stack_trans _ _ _ _ _ C C2) as C3.
      destruct (IH F s2 (c :: l') p1 x cs1 C3 (Only_stack_holds _ _ _ _ H C2)) as (s3 & C4 & T3); auto.
      exists s3. cbn [rev]. rewrite <- app_assoc. split; auto. rewrite <- T3. apply ticks_step.
      refine (string_step F D s _ HI s1 l' p x ENone (mid s2 p x) (mid s2 p1 x) C _ (or_introl eq_refl) _).
      2:{ eapply mid_next; eauto. }
      rewrite E1. unfold exec_string. unfold mbind at 1. unfold getR at 1. rewrite B.
      destruct (Z.eqb_spec c 34) as [X|_]; [contradiction|].
      rewrite (run_bind _ _ _ _ _ Cf). rewrite Cs.
      destruct (Z.eqb_spec c 92) as [X|_]; [contradiction|].
      rewrite (run_bind _ _ _ _ _ Ep). reflexivity.
    - cbn [app length] in *.
      destruct (cons_path s p cs' q 92 _ E ltac:(discriminate) P) as (E1 & p1 & cs1 & E2 & P2 & Nx).
      destruct (cons_path s p1 cs1 q c _ E2 (app_quote _ _) P2) as (E3 & p2 & cs2 & E4 & P4 & Nx2).
      destruct (mid_facts s _ HI s1 l' p x C) as (A & B & R & Nd & _ & Cf & Cs).
      destruct (mid_facts s _ HI s1 l' p1 x C) as (_ & _ & _ & _ & G1 & _ & _).
      destruct (mid_push s1 p1 x l' z H R) as (s2 & Ep & C2).
      pose proof (Only_stack_trans _ _ _ _ _ C C2) as C3.
      destruct (IH F s2 (z :: l') p2 x cs2 C3 (Only_stack_holds _ _ _ _ H C2)) as (s3 & C4 & T3); auto.
      exists s3. cbn [rev]. rewrite <- app_assoc. split; auto. rewrite <- T3. apply ticks_step.
      refine (string_step F D s _ HI s1 l' p x ENone (mid s2 p1 x) (mid s2 p2 x) C _ (or_introl eq_refl) _).
      2:{ eapply mid_next; eauto. }
      rewrite E1. unfold exec_string. unfold mbind at 1. unfold getR at 1. rewrite B.
      change (92 =? 34) with false. cbv iota.
      rewrite (run_bind _ _ _ _ _ Cf). rewrite Cs. change (92 =? 92) with true. cbv iota.
      rewrite (run_bind _ _ _ _ _ (mid_next s _ HI s1 l' p p1 x C Nx)).
      rewrite (run_bind _ _ _ _ _ G1). rewrite E3, (escape_code_spec c z Ez).
      rewrite (run_bind _ _ _ _ _ Ep). reflexivity. }
  assert (H0 : r_prev (s_r s) = 0) by (destruct HI as (_ & _ & ? & _); auto).
  destruct (A w v K F s l (r_pos (s_r s)) 0 cs) as (s2 & C2 & T2); auto.
  - now apply Only_stack_refl.
  - exists (closed s2 q). split; [|now apply read_closed]. rewrite mid_self in T2 by auto. exact T2.
Qed.
(** The opening quote enters string mode. *)
Theorem C17_open : forall F D s, Normal s 34 ->
  exists s', execute F (S D) 34 s = Ok (ENone, s') /\ s_w s' = s_w s /\
    s_r s' = set_r_string true (set_r_end 34 (s_r s)).
Proof.
  intros F D s HN. rewrite (execute_normal F D _ s _ _ HN eq_refl). cbn [run_meth].
  eexists. split; [reflexivity|]. auto.
Qed.

(** Examples: the text [a  b ] in two styles. *)
Definition ex_str (y : strstyle) (t : list Z) : st :=
  in_string (the dummy (start (set_c_str y (set_c_dims 2 (set_c_std STD_98 cfg_default))) t [])).
Lemma text_by_steps s n : forall w x,
  c_torus (u_cfg (w_uni (s_w s) (r_uni (s_r s)))) = false -> r_delta (s_r s) = mkvec [1] ->
  (forall k, (k < n)%nat ->
     ip_next false (dims_of s) (here s) (mkvec [x + Z.of_nat k]) (mkvec [1]) = Ok (mkvec [x + Z.of_nat k + 1], mkvec [1])) ->
  map (fun k => f_get (here s) (mkvec [x + Z.of_nat k + 1])) (seq 0 n) = w ->
  Path s (mkvec [x]) w (mkvec [x + Z.of_nat n]).
Proof.
  induction n as [|n IH]; intros w x T Dl Hn <-.
  - cbn [seq map]. replace (x + Z.of_nat 0) with x by lia. constructor.
  - cbn [seq map]. replace (x + Z.of_nat 0 + 1) with (x + 1) by lia.
    econstructor.
    + rewrite T, Dl. pose proof (Hn 0%nat ltac:(lia)) as X.
      replace (x + Z.of_nat 0) with x in X by lia. exact X.
    + rewrite <- seq_shift, map_map. replace (x + Z.of_nat (S n)) with (x + 1 + Z.of_nat n) by lia.
      apply IH; auto.
      * intros k Hk. pose proof (Hn (S k) ltac:(lia)) as X.
        replace (x + Z.of_nat (S k)) with (x + 1 + Z.of_nat k) in X by lia. exact X.
      * apply map_ext. intros k. f_equal. f_equal. f_equal. lia.
Qed.
Example C17_ex_hyp : let s := ex_str StrSgml [97; 32; 32; 98; 32; 34; 64] in
  InString StrSgml s /\ Holds s [] /\ Text s [97; 32; 32; 98; 32] (mkvec [6]) /\
  Collapsed [97; 32; 32; 98; 32] [97; 32; 98; 32].
Proof.
  set (s := ex_str StrSgml [97; 32; 32; 98; 32; 34; 64]).
  split; [vm_compute; repeat split; discriminate|].
  split; [exists {| s_mode := 0; s_list := []; s_ops := 0 |}; vm_compute; repeat split|].
  split.
  - exists 64, [32; 32; 98; 32; 34; 64]. split; [vm_compute; reflexivity|].
    apply (text_by_steps s 6 _ 0); [vm_compute; reflexivity|vm_compute; reflexivity| |vm_compute; reflexivity].
    intros k Hk. do 6 (destruct k as [|k]; [vm_compute; reflexivity|]). lia.
  - apply Collapsed_dark; [unfold ws; cbn [In]; lia|].
    apply (Collapsed_run 32 [32] [98; 32] [98; 32]); [unfold ws; cbn [In]; auto|repeat constructor|unfold starts_dark, ws; cbn [In]; lia|].
    apply Collapsed_dark; [unfold ws; cbn [In]; lia|].
    apply (Collapsed_run 32 [] [] []); [unfold ws; cbn [In]; auto|constructor|exact I|constructor].
Qed.
Example C17_ex : map (fun y => run_stack (ticks 100 1 (match y with StrMultispace => 6 | _ => 5 end))
    (ex_str y [97; 32; 32; 98; 32; 34; 64])) [StrSgml; StrMultispace] =
  [Ok (tt, [32; 98; 32; 97]); Ok (tt, [32; 98; 32; 32; 97])].
Proof. vm_compute. reflexivity. Qed.
(** a, escaped n, escaped quote, b. *)
Example C18_ex_hyp : let s := ex_str StrC [97; 92; 110; 92; 34; 98; 34; 64] in
  InString StrC s /\ Text s [97; 92; 110; 92; 34; 98] (mkvec [7]) /\
  Decoded [97; 92; 110; 92; 34; 98] [97; 10; 34; 98].
Proof.
  set (s := ex_str StrC [97; 92; 110; 92; 34; 98; 34; 64]).
  split; [vm_compute; repeat split; discriminate|].
  split.
  - exists 64, [92; 110; 92; 34; 98; 34; 64]. split; [vm_compute; reflexivity|].
    apply (text_by_steps s 7 _ 0); [vm_compute; reflexivity|vm_compute; reflexivity| |vm_compute; reflexivity].
    intros k Hk. do 7 (destruct k as [|k]; [vm_compute; reflexivity|]). lia.
  - apply Decoded_plain; [lia|lia|]. apply Decoded_escape; [left; cbn; tauto|].
    apply Decoded_escape; [right; split; [cbn; lia|reflexivity]|]. apply Decoded_plain; [lia|lia|]. constructor.
Qed.
Example C18_ex : run_stack (ticks 100 1 5) (ex_str StrC [97; 92; 110; 92; 34; 98; 34; 64]) = Ok (tt, [98; 34; 10; 97]).
Proof. vm_compute. reflexivity. Qed.
Print Assumptions C17_sgml.
Print Assumptions C17_collapsed_total.
Print Assumptions C17_char_cells_refuted.
Print Assumptions C17_multispace.
Print Assumptions C17_open.
Print Assumptions C18_cstring.
