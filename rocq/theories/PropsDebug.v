(** * C63, C68, C69, C70: the debugger. *)

From Coq Require Import ZArith String Ascii List Bool Lia.
From Verif Require Import Base BaseProofs VectorModel VectorProofs TextModel StackModel FieldModel
  World IpModel LoadModel FingModel CoreModel UniModel OptModel DebugModel ExecProofs FlowProofs States.
Import ListNotations.
Open Scope Z_scope.

(** ** Tables, sets and loops *)

Lemma th_find_put : forall id x j l, th_find j (th_put id x l) = if id =? j then Some x else th_find j l.
Proof.
  intros id x j l. induction l as [|[i t] r IH]; cbn [th_put th_find].
  - reflexivity.
  - destruct (id <? i) eqn:E1; [reflexivity|]. destruct (i =? id) eqn:E2; cbn [th_find].
    + apply Z.eqb_eq in E2. subst i. destruct (id =? j); reflexivity.
    + rewrite IH. destruct (i =? j) eqn:E3; [|reflexivity].
      apply Z.eqb_eq in E3. subst i. destruct (id =? j) eqn:E4; auto. apply Z.eqb_eq in E4. subst. now rewrite Z.eqb_refl in E2.
Qed.

Lemma th_at_upd : forall id f j d, th_at j (th_upd id f d) = if id =? j then f (th_at id d) else th_at j d.
Proof.
  intros. unfold th_at at 1, th_upd. cbn [d_threads set_d_threads]. rewrite th_find_put.
  destruct (id =? j); reflexivity.
Qed.

Lemma loopM_post : forall A B F (f : A -> M (A + B)) (I : A -> st -> Prop) (P : B -> st -> Prop),
  (forall a s a' s', I a s -> f a s = Ok (inl a', s') -> I a' s') ->
  (forall a s b s', I a s -> f a s = Ok (inr b, s') -> P b s') ->
  forall a s b s', I a s -> loopM F f a s = Ok (b, s') -> P b s'.
Proof.
  intros A B F f I P H1 H2. induction F as [|F IH] using Pos.peano_ind; intros a s b s' Ia E.
  - unfold loopM, loop in E. cbn in E. destruct (f a s) as [[[a1|b1] s1]|] eqn:Ef; try discriminate.
    injection E as <- <-. eapply H2; eauto.
  - rewrite loopM_step in E. destruct (f a s) as [[[a1|b1] s1]|] eqn:Ef; try discriminate.
    + eapply IH; [|exact E]. eapply H1; eauto.
    + injection E as <- <-. eapply H2; eauto.
Qed.

(** ** Backtraces survive the prompt *)

(** [d'] has the backtraces of [d]. *)
Definition Same_bt (d d' : dbg) : Prop := forall id, th_bt (th_at id d') = th_bt (th_at id d).
Lemma same_bt_state : forall id x d, Same_bt d (th_upd id (set_th_state x) d).
Proof.
  intros id x d j. rewrite th_at_upd. destruct (id =? j) eqn:E; [|reflexivity].
  apply Z.eqb_eq in E. subst. reflexivity.
Qed.
Lemma same_bt_trans : forall a b c, Same_bt a b -> Same_bt b c -> Same_bt a c.
Proof. intros a b c H1 H2 id. now rewrite H2, H1. Qed.
Lemma same_bt_break : forall v d, Same_bt d (addBreakpoint v d).
Proof. intros [|x v] d id; reflexivity. Qed.
Lemma same_bt_watch : forall v d, Same_bt d (addWatchpoint v d).
Proof. intros [|x v] d id; reflexivity. Qed.
Global Hint Resolve same_bt_state same_bt_break same_bt_watch : dbgdb.

Ltac minv E := match type of E with
  | mbind _ _ _ = Ok _ => let E1 := fresh "E" in let E2 := fresh "E" in
      apply run_bind_inv in E; destruct E as (? & ? & E1 & E2); cbv beta in E2
  end.

Lemma command_bt : forall F d sel c is s x s', command_run F d sel c is s = Ok (x, s') ->
  Same_bt d (fst (fst x)).
Proof.
  intros F d sel c is s x s' E.
  assert (R : Same_bt d d) by (intros id; reflexivity).
  destruct c; cbn [command_run] in E; unfold ret, fail in E;
    repeat match type of E with
    | match ?y with _ => _ end _ = _ => destruct y
    | mbind _ _ _ = _ => let E1 := fresh "E" in apply run_bind_inv in E; destruct E as (? & ? & E1 & E); cbv beta in E
    end; try discriminate; injection E as <- <-; cbn [fst]; auto with dbgdb.
Qed.

Lemma prompt_bt : forall F d sel s d' s', loopM F (prompt_step F) (d, sel) s = Ok (d', s') -> Same_bt d d'.
Proof.
  intros F d sel s d' s' E.
  revert E. apply (loopM_post _ _ F (prompt_step F) (fun x _ => Same_bt d (fst x)) (fun b _ => Same_bt d b)).
  - intros [d1 s1] s2 a' s3 I E. unfold prompt_step in E.
    apply run_bind_inv in E. destruct E as (? & ? & _ & E). cbv beta in E.
    apply run_bind_inv in E. destruct E as (ln & ? & _ & E). cbv beta in E.
    destruct (word ln) as [cmd is]. destruct (lookup cmd commands) as [c|].
    + apply run_bind_inv in E. destruct E as ([[d2 sel2] stop] & s4 & E1 & E). cbv beta iota in E.
      destruct stop; unfold ret in E; [discriminate|]. injection E as <- <-. cbn [fst] in *.
      apply command_bt in E1. cbn [fst] in E1. eapply same_bt_trans; eauto.
    + unfold ret in E. injection E as <- <-. exact I.
  - intros [d1 s1] s2 b s3 I E. unfold prompt_step in E.
    apply run_bind_inv in E. destruct E as (? & ? & _ & E). cbv beta in E.
    apply run_bind_inv in E. destruct E as (ln & ? & _ & E). cbv beta in E.
    destruct (word ln) as [cmd is]. destruct (lookup cmd commands) as [c|].
    + apply run_bind_inv in E. destruct E as ([[d2 sel2] stop] & s4 & E1 & E). cbv beta iota in E.
      destruct stop; unfold ret in E; [|discriminate]. injection E as <- <-. cbn [fst] in *.
      apply command_bt in E1. cbn [fst] in E1. eapply same_bt_trans; eauto.
    + unfold ret in E. discriminate.
  - intros id. reflexivity.
Qed.

Lemma debug_bt : forall F d s d' s', debug F d s = Ok (d', s') -> Same_bt d d'.
Proof.
  intros F d s d' s' E. unfold debug in E.
  assert (K : forall s1, (r <- getR ;; print_ip (r_id r) (r_id r) ;;; loopM F (prompt_step F) (d, r_id r)) s1 = Ok (d', s') -> Same_bt d d').
  { intros s1 E1. apply run_bind_inv in E1. destruct E1 as (r & ? & _ & E1). cbv beta in E1.
    apply run_bind_inv in E1. destruct E1 as (? & ? & _ & E1). cbv beta in E1. eapply prompt_bt; eauto. }
  destruct (th_state (th_at (d_last d) d)); try (eapply K; exact E).
  unfold ret in E. injection E as <- <-. intros id. reflexivity.
Qed.

Lemma note_tick_bt : forall id pos d j, (length (th_bt (th_at id d)) <= 10)%nat ->
  th_bt (th_at j (fst (note_tick id pos d))) =
    if id =? j then firstn 10 (pos :: th_bt (th_at id d)) else th_bt (th_at j d).
Proof.
  intros id pos d j L. unfold note_tick.
  set (p1 := match th_find id (d_threads d) with Some _ => _ | None => _ end).
  assert (B1 : forall j, th_bt (th_at j (fst p1)) = th_bt (th_at j d)).
  { intros i. unfold p1, th_at. destruct (th_find id (d_threads d)) eqn:Ef; cbn [fst]; [reflexivity|].
    cbn [d_threads set_d_threads]. rewrite th_find_put. destruct (id =? i) eqn:Ei; [|reflexivity].
    apply Z.eqb_eq in Ei. subst i. rewrite Ef. reflexivity. }
  destruct p1 as [d1 o1]. cbn [fst] in B1.
  set (d2 := set_d_last id d1).
  assert (B2 : forall j, th_bt (th_at j d2) = th_bt (th_at j d)) by (intros i; rewrite <- B1; reflexivity).
  set (p3 := if set_contains pos (d_break d2) then _ else _).
  assert (B3 : forall j, th_bt (th_at j (fst p3)) = th_bt (th_at j d)).
  { intros i. unfold p3. destruct (set_contains pos (d_break d2)); cbn [fst]; [|apply B2].
    rewrite (same_bt_state id DBreak d2 i). apply B2. }
  destruct p3 as [d3 o3]. cbn [fst] in B3. cbn [fst].
  rewrite th_at_upd. unfold MAX_BACKTRACE. rewrite B3.
  destruct (Nat.leb 10 (length (th_bt (th_at id d)))) eqn:El.
  - apply Nat.leb_le in El. rewrite !th_at_upd, Z.eqb_refl. cbn [th_bt set_th_bt]. rewrite B3.
    destruct (id =? j) eqn:Ej; [|apply B3]. cbn [th_bt set_th_bt]. rewrite firstn_cons. f_equal.
    unfold pop_back. rewrite removelast_firstn_len.
    replace (Nat.pred (length (th_bt (th_at id d)))) with 9%nat by lia. reflexivity.
  - apply Nat.leb_gt in El. destruct (id =? j) eqn:Ej; [|apply B3].
    cbn [th_bt set_th_bt]. rewrite B3. rewrite firstn_all2; [reflexivity|]. cbn [length]. lia.
Qed.

(** ** C63 The backtrace is the last ten positions *)

(** What can happen to a universe's debugger: an instruction of an IP is about to be
    executed (then the debugger is told the IP and its position, and the user may
    type commands), an IP hits a software breakpoint or an error, an IP ends, or
    the program sets a break- or watchpoint.  The history lists the executed
    instructions' IPs and positions, newest first; in between the program may do
    anything, so the states are arbitrary. *)
Inductive Session : list (Z * vec) -> dbg -> Prop :=
| ses_start : Session [] dbg_new
| ses_tick h d F s d' s' : Session h d -> testmode MODE_DEBUG (w_uni (s_w s) (r_uni (s_r s))) = true ->
    dbg_tick F d s = Ok (d', s') -> Session ((r_id (s_r s), r_pos (s_r s)) :: h) d'
| ses_off h d F s d' s' : Session h d -> testmode MODE_DEBUG (w_uni (s_w s) (r_uni (s_r s))) = false ->
    dbg_tick F d s = Ok (d', s') -> Session h d'
| ses_swbreak h d F s d' s' : Session h d -> swbreak F d s = Ok (d', s') -> Session h d'
| ses_trap h d F s d' s' : Session h d -> trap F d s = Ok (d', s') -> Session h d'
| ses_end h d id : Session h d -> Session h (endThread id d)
| ses_break h d v : Session h d -> Session h (addBreakpoint v d)
| ses_watch h d v : Session h d -> Session h (addWatchpoint v d).

(** The positions of IP [id] in a history. *)
Definition visits (id : Z) (h : list (Z * vec)) : list vec :=
  map snd (filter (fun e => fst e =? id) h).

Lemma mode_run : forall b s, isMode b s = Ok (testmode b (w_uni (s_w s) (r_uni (s_r s))), s).
Proof. reflexivity. Qed.

Lemma stop_bt : forall t F d s d' s', dbg_stop t F d s = Ok (d', s') -> Same_bt d d'.
Proof.
  intros t F d s d' s' E. unfold dbg_stop in E. apply run_bind_inv in E. destruct E as (on & ? & _ & E). cbv beta in E.
  destruct on; [|unfold ret in E; injection E as <- <-; intros id; reflexivity].
  apply run_bind_inv in E. destruct E as (? & ? & _ & E). cbv beta in E.
  apply run_bind_inv in E. destruct E as (? & ? & _ & E). cbv beta in E.
  apply debug_bt in E. eapply same_bt_trans; [|exact E]. auto with dbgdb.
Qed.

Theorem C63_backtrace : forall h d, Session h d ->
  forall id, th_bt (th_at id d) = firstn 10 (visits id h).
Proof.
  intros h d S. induction S as [|h d F s d' s' S IH On E|h d F s d' s' S IH On E|h d F s d' s' S IH E
    |h d F s d' s' S IH E|h d i S IH|h d v S IH|h d v S IH]; intros id.
  - reflexivity.
  - unfold dbg_tick in E. rewrite (run_bind _ _ _ _ _ (mode_run _ _)), On in E. cbv beta iota in E.
    apply run_bind_inv in E. destruct E as (r & s1 & E1 & E). unfold getR in E1. injection E1 as <- <-. cbv beta in E.
    pose proof (note_tick_bt (r_id (s_r s)) (r_pos (s_r s)) d id) as N.
    destruct (note_tick (r_id (s_r s)) (r_pos (s_r s)) d) as [d1 o]. cbn [fst] in N.
    apply run_bind_inv in E. destruct E as (? & s2 & _ & E). cbv beta in E.
    rewrite (debug_bt _ _ _ _ _ E id), N.
    + unfold visits. cbn [filter fst]. destruct (r_id (s_r s) =? id) eqn:Ei; [|apply IH].
      apply Z.eqb_eq in Ei. subst id. cbn [map snd]. rewrite IH. fold (visits (r_id (s_r s)) h).
      generalize (visits (r_id (s_r s)) h). intros l. rewrite (firstn_cons 9 _ (firstn 10 l)), (firstn_cons 9 _ l). f_equal.
      rewrite firstn_firstn. reflexivity.
    + rewrite IH. rewrite firstn_length. lia.
  - unfold dbg_tick in E. rewrite (run_bind _ _ _ _ _ (mode_run _ _)), On in E. cbv beta iota in E.
    unfold ret in E. injection E as <- <-. apply IH.
  - rewrite (stop_bt _ _ _ _ _ _ E id). apply IH.
  - rewrite (stop_bt _ _ _ _ _ _ E id). apply IH.
  - unfold endThread. rewrite (same_bt_state i DEnd d id). apply IH.
  - rewrite (same_bt_break v d id). apply IH.
  - rewrite (same_bt_watch v d id). apply IH.
Qed.

(** The backtrace command prints those positions, newest first, with their cells. *)
Fixpoint trace_text (f : vec -> Z) (i : Z) (l : list vec) : bytes :=
  match l with
  | [] => []
  | p :: t => lit "#" ++ dec i ++ lit "  " ++ vprint p ++ [32; 34; to_u8 (f p); 34; 10] ++ trace_text f (i + 1) t
  end.
Lemma set_out_out : forall a b w, set_w_out b (set_w_out a w) = set_w_out b w.
Proof. reflexivity. Qed.
Lemma bt_lines_run : forall n l i s,
  bt_lines n i l s = Ok (tt, {| s_w := set_w_out (w_out (s_w s) ++ trace_text (f_get (u_field (w_uni (s_w s) n))) i l) (s_w s); s_r := s_r s |}).
Proof.
  intros n l. induction l as [|p t IH]; intros i s; cbn [bt_lines trace_text].
  - unfold ret. rewrite app_nil_r. destruct s as [w r]. destruct w; reflexivity.
  - unfold mbind at 1, fget at 1. unfold mbind at 1, out at 1, modW at 1. cbn [s_w s_r].
    rewrite IH. cbn [s_w s_r]. do 2 f_equal. f_equal. cbn [w_out w_uni set_w_out]. rewrite set_out_out.
    f_equal. change (lit "#") with [35]. change (lit "  ") with [32; 32]. cbn [app].
    repeat (progress (rewrite <- ?app_assoc; cbn [app])). reflexivity.
Qed.
Theorem C63_printed : forall h d F is s, Session h d -> let id := r_id (s_r s) in
  command_run F d id CBacktrace is s =
  Ok ((d, id, false),
      {| s_w := set_w_out (w_out (s_w s) ++ lit "Backtrace" ++ [10] ++
                  trace_text (f_get (u_field (w_uni (s_w s) (r_uni (s_r s))))) 0 (firstn 10 (visits id h))) (s_w s);
         s_r := s_r s |}).
Proof.
  intros h d F is s S id. cbn [command_run]. unfold mbind at 1, out, modW. cbn [s_w s_r].
  unfold mbind at 1, find_runner at 1. cbn [s_w s_r]. unfold id. rewrite Z.eqb_refl.
  unfold mbind at 1. rewrite bt_lines_run. cbn [s_w s_r]. unfold ret. rewrite (C63_backtrace _ _ S).
  do 2 f_equal. f_equal. cbn [w_out w_uni set_w_out]. rewrite set_out_out. f_equal. now rewrite <- !app_assoc.
Qed.

(** IP 0 executes twelve instructions, IP 1 one, with the user typing run at each
    first prompt: the backtrace of IP 0 is its last ten positions. *)
Definition dstart (input : bytes) : st :=
  the dummy (start (set_debug (set_c_dims 2 (set_c_std STD_98 cfg_default))) [62; 50; 43; 64] input).
Definition at_ip (id x : Z) (s : st) : st :=
  {| s_w := s_w s; s_r := set_r_id id (set_r_pos [x] (s_r s)) |}.
Definition say (text : string) (id x : Z) : st := at_ip id x (dstart (lit text ++ [10])).
Definition dgo (d : dbg) (id x : Z) : dbg :=
  match dbg_tick 10 d (say "run" id x) with Ok (d', _) => d' | Bad _ => d end.
Lemma ses_go : forall h d id x, Session h d ->
  match dbg_tick 10 d (say "run" id x) with Ok _ => true | Bad _ => false end = true ->
  testmode MODE_DEBUG (w_uni (s_w (say "run" id x)) (r_uni (s_r (say "run" id x)))) = true ->
  Session ((id, [x]) :: h) (dgo d id x).
Proof.
  intros h d id x S H1 H2. unfold dgo. destruct (dbg_tick 10 d (say "run" id x)) as [[d' s']|] eqn:E; [|discriminate].
  exact (ses_tick h d 10 (say "run" id x) d' s' S H2 E).
Qed.
Example C63_ex : exists h d, Session h d /\ length h = 13%nat /\ length (visits 0 h) = 12%nat /\
  th_bt (th_at 0 d) = [[12]; [11]; [10]; [9]; [8]; [7]; [6]; [5]; [4]; [3]] /\ th_bt (th_at 1 d) = [[100]].
Proof.
  eexists. exists (dgo (dgo (dgo (dgo (dgo (dgo (dgo (dgo (dgo (dgo (dgo (dgo (dgo dbg_new 0 1) 0 2) 0 3) 0 4) 0 5) 0 6) 1 100) 0 7) 0 8) 0 9) 0 10) 0 11) 0 12).
  split.
  - repeat (apply ses_go; [|vm_compute; reflexivity|vm_compute; reflexivity]). apply ses_start.
  - split; [vm_compute; reflexivity|]. split; [vm_compute; reflexivity|]. split; vm_compute; reflexivity.
Qed.
Print Assumptions C63_backtrace.
Print Assumptions C63_printed.

(** ** C68 When the prompt appears *)

Lemma vltb_irrefl_pt : forall a b, (forall i, vget a i = vget b i) -> vltb a b = false.
Proof.
  intros a b H. destruct (vltb a b) eqn:E; auto. apply vltb_spec in E. destruct E as (i & L & _). rewrite H in L. lia.
Qed.
Lemma not_before_eq : forall a b, vltb a b = false -> vltb b a = false -> forall i, vget a i = vget b i.
Proof.
  intros a b H1 H2.
  destruct (vcmp_loop_spec false (Nat.max (vsize a) (vsize b)) a b) as [[_ H]|(i & Hi & Hne & Heq & E)].
  - intros i. destruct (Nat.lt_ge_cases i (Nat.max (vsize a) (vsize b))) as [L|L]; [now apply H|].
    unfold vsize in L. rewrite !vget_out; auto; lia.
  - assert (Heq' : forall j, (i < j)%nat -> vget a j = vget b j).
    { intros j Hj. destruct (Nat.lt_ge_cases j (Nat.max (vsize a) (vsize b))) as [L|L]; [now apply Heq|].
      unfold vsize in L. rewrite !vget_out; auto; lia. }
    exfalso. destruct (Z.lt_total (vget a i) (vget b i)) as [L|[L|L]]; [|contradiction|].
    + assert (vltb a b = true); [|congruence]. apply vltb_spec. exists i. split; [exact L|].
      intros j Hj. now apply Heq'.
    + assert (vltb b a = true); [|congruence]. apply vltb_spec. exists i. split; [exact L|].
      intros j Hj. symmetry. now apply Heq'.
Qed.
Lemma contains_spec : forall v l, set_contains v l = true <-> exists b, In b l /\ forall i, vget b i = vget v i.
Proof.
  intros v l. unfold set_contains. rewrite existsb_exists. split; intros (b & I & H); exists b; split; auto.
  - apply andb_true_iff in H. destruct H as [H1 H2]. apply not_before_eq; now apply negb_true_iff.
  - rewrite (vltb_irrefl_pt b v), (vltb_irrefl_pt v b); auto.
Qed.
Lemma insert_spec : forall v w l,
  set_contains v (set_insert w l) = true <-> (forall i, vget w i = vget v i) \/ set_contains v l = true.
Proof.
  intros v w l. rewrite !contains_spec. induction l as [|x t IH]; cbn [set_insert].
  - split; [intros (b & [<-|[]] & H); auto|]. intros [H|(b & [] & _)]. exists w. split; [now left|auto].
  - destruct (vltb w x) eqn:E1; [|destruct (vltb x w) eqn:E2].
    + split.
      * intros (b & [<-|I] & H); [now left|]. right. exists b. auto.
      * intros [H|(b & I & H)]; [exists w; split; [now left|auto]|]. exists b. split; [now right|auto].
    + split.
      * intros (b & [<-|I] & H); [right; exists x; split; [now left|auto]|].
        destruct (proj1 IH) as [K|(b' & I' & H')]; [exists b; auto|auto|]. right. exists b'. split; [now right|auto].
      * intros K. assert (K' : (exists b, In b (x :: t) /\ b = x /\ forall i, vget b i = vget v i) \/
                              ((forall i, vget w i = vget v i) \/ exists b, In b t /\ forall i, vget b i = vget v i)).
        { destruct K as [K|(b & [<-|I] & H)]; [right; now left| |right; right; eauto].
          left. exists x. split; [now left|]. split; auto. }
        destruct K' as [(b & _ & -> & H)|K']; [exists x; split; [now left|auto]|].
        apply IH in K'. destruct K' as (b & I & H). exists b. split; [now right|auto].
    + split.
      * intros (b & I & H). right. exists b. auto.
      * intros [H|K]; [|exact K]. exists x. split; [now left|]. intros i. rewrite <- H. symmetry. now apply not_before_eq.
Qed.

(** Setting breakpoints one after the other: the program stops at [v] exactly when one
    of those given (other than the empty vector) equals [v] in every dimension. *)
Theorem C68_breakpoints : forall vs d v,
  set_contains v (d_break (fold_left (fun d b => addBreakpoint b d) vs d)) = true <->
  (exists b, In b vs /\ b <> [] /\ forall i, vget b i = vget v i) \/ set_contains v (d_break d) = true.
Proof.
  intros vs. induction vs as [|b vs IH]; intros d v; cbn [fold_left].
  - split; [now right|]. intros [(b & [] & _)|H]; exact H.
  - rewrite IH. assert (K : set_contains v (d_break (addBreakpoint b d)) = true <->
                            (b <> [] /\ forall i, vget b i = vget v i) \/ set_contains v (d_break d) = true).
    { destruct b as [|x b]; cbn [addBreakpoint].
      - split; [now right|]. intros [[H _]|H]; [congruence|exact H].
      - cbn [d_break set_d_break]. rewrite insert_spec. split; (intros [H|H]; [left|now right]); [split; [discriminate|exact H]|apply H]. }
    rewrite K. split.
    + intros [(c & I & H)|[H|H]]; [left; exists c; split; [now right|exact H] | left; exists b; split; [now left|exact H] | now right].
    + intros [(c & [<-|I] & H)|H]; [right; now left | left; exists c; auto | right; now right].
Qed.

(** [ex_at id d]: the state the debugger has recorded for IP [id]; a new IP starts at
    the prompt. *)
Definition recorded (id : Z) (d : dbg) : dstate := th_state (th_at id d).
(** The world after text [o] was printed. *)
Definition printed (o : bytes) (s : st) : st :=
  {| s_w := set_w_out (w_out (s_w s) ++ o) (s_w s); s_r := s_r s |}.
Lemma printed_nil : forall s, printed [] s = s.
Proof. intros [w r]. unfold printed. cbn [s_w s_r]. rewrite app_nil_r. destruct w; reflexivity. Qed.
Lemma printed_app : forall a b s, printed b (printed a s) = printed (a ++ b) s.
Proof. intros a b [w r]. unfold printed. cbn [s_w s_r w_out set_w_out]. rewrite set_out_out, app_assoc. reflexivity. Qed.
Lemma out_run : forall o s, out o s = Ok (tt, printed o s).
Proof. reflexivity. Qed.

(** The line that shows an IP: its number, position and instruction. *)
Definition ip_text (id : Z) (pos : vec) (c : Z) : bytes :=
  dec id ++ lit ": " ++ vprint pos ++ [32; 34; to_u8 c; 34; 10].
Lemma print_self : forall s, let r := s_r s in
  print_ip (r_id r) (r_id r) s =
  Ok (tt, printed (ip_text (r_id r) (r_pos r) (f_get (u_field (w_uni (s_w s) (r_uni r))) (r_pos r))) s).
Proof.
  intros s r. unfold print_ip, mbind at 1, find_runner. fold r. rewrite Z.eqb_refl. reflexivity.
Qed.

Lemma note_tick_text : forall id pos d,
  snd (note_tick id pos d) =
    (match th_find id (d_threads d) with Some _ => [] | None => lit "New IP " ++ dec id ++ [10] end) ++
    (if set_contains pos (d_break d) then lit "Breakpoint " ++ vprint pos ++ [10] else []).
Proof.
  intros id pos d. unfold note_tick. destruct (th_find id (d_threads d)); cbn [d_break set_d_last set_d_threads];
    destruct (set_contains pos (d_break d)); reflexivity.
Qed.
Lemma upd_bt_state : forall id g d j, recorded j (th_upd id (fun t => set_th_bt (g t) t) d) = recorded j d.
Proof.
  intros. unfold recorded. rewrite th_at_upd. destruct (id =? j) eqn:E; [|reflexivity].
  apply Z.eqb_eq in E. now subst.
Qed.
Lemma note_tick_state : forall id pos d j,
  recorded j (fst (note_tick id pos d)) =
    (if (id =? j) && set_contains pos (d_break d) then DBreak else recorded j d) /\
  d_last (fst (note_tick id pos d)) = id /\ d_break (fst (note_tick id pos d)) = d_break d.
Proof.
  intros id pos d j. unfold note_tick.
  set (p1 := match th_find id (d_threads d) with Some _ => _ | None => _ end).
  assert (B1 : forall j, recorded j (fst p1) = recorded j d).
  { intros i. unfold p1, recorded, th_at. destruct (th_find id (d_threads d)) eqn:Ef; cbn [fst]; [reflexivity|].
    cbn [d_threads set_d_threads]. rewrite th_find_put. destruct (id =? i) eqn:Ei; [|reflexivity].
    apply Z.eqb_eq in Ei. subst i. rewrite Ef. reflexivity. }
  assert (B1b : d_break (fst p1) = d_break d) by (unfold p1; destruct (th_find id (d_threads d)); reflexivity).
  destruct p1 as [d1 o1]. cbn [fst] in *.
  set (d2 := set_d_last id d1).
  assert (B2 : forall j, recorded j d2 = recorded j d) by (intros i; rewrite <- B1; reflexivity).
  assert (B2b : d_break d2 = d_break d) by (rewrite <- B1b; reflexivity).
  assert (B2l : d_last d2 = id) by reflexivity. rewrite B2b. clearbody d2.
  destruct (set_contains pos (d_break d)) eqn:Ec; cbn [fst].
  - assert (B3 : recorded j (th_upd id (set_th_state DBreak) d2) = if id =? j then DBreak else recorded j d).
    { unfold recorded at 1. rewrite th_at_upd. destruct (id =? j); [reflexivity|apply B2]. }
    rewrite andb_true_r. destruct (Nat.leb _ _); rewrite ?upd_bt_state; cbn [d_last d_break th_upd set_d_threads]; auto.
  - rewrite andb_false_r. destruct (Nat.leb _ _); rewrite ?upd_bt_state; cbn [d_last d_break th_upd set_d_threads]; auto.
Qed.

(** Before an instruction with debugging on: the prompt appears exactly when the IP is
    on a breakpoint or is not recorded as running; otherwise nothing is printed and
    nothing changes. *)
Theorem C68_prompt : forall F d s, testmode MODE_DEBUG (w_uni (s_w s) (r_uni (s_r s))) = true ->
  let r := s_r s in
  let stops := set_contains (r_pos r) (d_break d) in
  exists d', d_break d' = d_break d /\
  (forall id, recorded id d' = if (r_id r =? id) && stops then DBreak else recorded id d) /\
  ((stops = true \/ recorded (r_id r) d <> DRun) ->
     dbg_tick F d s = loopM F (prompt_step F) (d', r_id r)
       (printed ((match th_find (r_id r) (d_threads d) with
                  | Some _ => [] | None => lit "New IP " ++ dec (r_id r) ++ [10] end) ++
                 (if stops then lit "Breakpoint " ++ vprint (r_pos r) ++ [10] else []) ++
                 ip_text (r_id r) (r_pos r) (f_get (u_field (w_uni (s_w s) (r_uni r))) (r_pos r))) s)) /\
  (stops = false -> recorded (r_id r) d = DRun -> dbg_tick F d s = Ok (d', s)).
Proof.
  intros F d s On r stops.
  pose proof (fun j => note_tick_state (r_id r) (r_pos r) d j) as N. fold stops in N.
  pose proof (note_tick_text (r_id r) (r_pos r) d) as T. fold stops in T.
  exists (fst (note_tick (r_id r) (r_pos r) d)).
  split; [apply (N 0)|]. split; [intros id; apply N|].
  assert (E : dbg_tick F d s = debug F (fst (note_tick (r_id r) (r_pos r) d)) (printed (snd (note_tick (r_id r) (r_pos r) d)) s)).
  { unfold dbg_tick. rewrite (run_bind _ _ _ _ _ (mode_run _ _)), On. cbv beta iota.
    unfold mbind at 1, getR. fold r. destruct (note_tick (r_id r) (r_pos r) d) as [d1 o]. cbn [fst snd].
    rewrite (run_bind _ _ _ _ _ (out_run o s)). reflexivity. }
  rewrite E. set (d1 := fst (note_tick (r_id r) (r_pos r) d)) in *.
  set (o := snd (note_tick (r_id r) (r_pos r) d)) in *.
  assert (L : d_last d1 = r_id r) by apply (N 0).
  assert (R : recorded (r_id r) d1 = if stops then DBreak else recorded (r_id r) d).
  { destruct (N (r_id r)) as [R _]. rewrite Z.eqb_refl in R. exact R. }
  clearbody d1 o.
  assert (P : (r0 <- getR ;; print_ip (r_id r0) (r_id r0) ;;; loopM F (prompt_step F) (d1, r_id r0)) (printed o s) =
    loopM F (prompt_step F) (d1, r_id r) (printed ((match th_find (r_id r) (d_threads d) with
                  | Some _ => [] | None => lit "New IP " ++ dec (r_id r) ++ [10] end) ++
                 (if stops then lit "Breakpoint " ++ vprint (r_pos r) ++ [10] else []) ++
                 ip_text (r_id r) (r_pos r) (f_get (u_field (w_uni (s_w s) (r_uni r))) (r_pos r))) s)).
  { unfold mbind at 1, getR. rewrite (run_bind _ _ _ _ _ (print_self (printed o s))).
    rewrite printed_app, T, <- app_assoc. reflexivity. }
  split.
  - intros H. unfold debug. rewrite L. fold (recorded (r_id r) d1). rewrite R.
    destruct stops; [exact P|]. destruct H as [H|H]; [discriminate|].
    destruct (recorded (r_id r) d); try exact P. congruence.
  - intros H1 H2. unfold debug. rewrite L. fold (recorded (r_id r) d1). rewrite R, H1, H2.
    rewrite H1, app_nil_r in T. destruct (th_find (r_id r) (d_threads d)) eqn:Ef.
    + rewrite T, printed_nil. reflexivity.
    + exfalso. unfold recorded, th_at in H2. rewrite Ef in H2. discriminate.
Qed.

(** run lets the selected IP run to the next breakpoint, step makes it stop before its
    next instruction; both leave the prompt, without other effects. *)
Theorem C68_commands : forall F d sel is s,
  (exists d', command_run F d sel CRun is s = Ok ((d', sel, true), s) /\ d_break d' = d_break d /\
     forall id, recorded id d' = if sel =? id then DRun else recorded id d) /\
  (exists d', command_run F d sel CStep is s = Ok ((d', sel, true), s) /\ d_break d' = d_break d /\
     forall id, recorded id d' = if sel =? id then DStep else recorded id d).
Proof.
  intros. split; eexists; (split; [reflexivity|]; split; [reflexivity|]);
    intros id; unfold recorded; rewrite th_at_upd; destruct (sel =? id); reflexivity.
Qed.

(** An IP running with breakpoint (2) set is stopped there and not before. *)
Definition broken : dbg := addBreakpoint [2] (dgo dbg_new 0 0).
Example C68_ex :
  testmode MODE_DEBUG (w_uni (s_w (say "s" 0 1)) (r_uni (s_r (say "s" 0 1)))) = true /\
  recorded 0 broken = DRun /\ set_contains [1] (d_break broken) = false /\ set_contains [2; 0] (d_break broken) = true /\
  (exists s, dbg_tick 10 broken (say "s" 0 2) = Ok (th_upd 0 (set_th_state DStep) (fst (note_tick 0 [2] broken)), s) /\
     w_in (s_w s) = []).
Proof.
  split; [vm_compute; reflexivity|]. split; [vm_compute; reflexivity|]. split; [vm_compute; reflexivity|].
  split; [vm_compute; reflexivity|].
  exists (match dbg_tick 10 broken (say "s" 0 2) with Ok (_, s) => s | _ => dummy end).
  split; vm_compute; reflexivity.
Qed.
Print Assumptions C68_breakpoints.
Print Assumptions C68_prompt.
Print Assumptions C68_commands.

(** ** C69 Leaving the prompt *)

(** One turn of the prompt on a line that is no command. *)
Definition prompt_text : bytes := [27] ++ lit "[33m(defunge)" ++ [27] ++ lit "[0m ".
Lemma prompt_other : forall F x s line rest, split_line (w_in (s_w s)) = (line, rest) ->
  lookup (fst (word line)) commands = None ->
  prompt_step F x s = Ok (inl x, {| s_w := set_w_in rest (s_w (printed prompt_text s)); s_r := s_r s |}).
Proof.
  intros F x s line rest H1 H2. unfold prompt_step. fold prompt_text.
  rewrite (run_bind _ _ _ _ _ (out_run prompt_text s)). unfold mbind at 1, getline.
  change (w_in (s_w (printed prompt_text s))) with (w_in (s_w s)). rewrite H1.
  destruct (word line) as [cmd is]. cbn [fst] in H2. rewrite H2. reflexivity.
Qed.

(** When the input has ended, the prompt is printed again and again and never left. *)
Theorem C69_refuted : forall F d s, testmode MODE_DEBUG (w_uni (s_w s) (r_uni (s_r s))) = true ->
  w_in (s_w s) = [] ->
  set_contains (r_pos (s_r s)) (d_break d) = true \/ recorded (r_id (s_r s)) d <> DRun ->
  dbg_tick F d s = Bad BadFuel.
Proof.
  intros F d s On I H. destruct (C68_prompt F d s On) as (d' & _ & _ & E & _). rewrite (E H).
  apply (loopM_invariant F (prompt_step F) (fun _ s => w_in (s_w s) = [])); [|exact I].
  intros a s1 I1. exists a. eexists. split; [apply (prompt_other F a s1 [] []); [now rewrite I1|reflexivity]|reflexivity].
Qed.
Example C69_ex : testmode MODE_DEBUG (w_uni (s_w (dstart [])) (r_uni (s_r (dstart [])))) = true /\
  w_in (s_w (dstart [])) = [] /\ recorded (r_id (s_r (dstart []))) dbg_new <> DRun.
Proof. split; [vm_compute; reflexivity|]. split; [vm_compute; reflexivity|]. vm_compute. discriminate. Qed.

(** With input left: lines that are no commands are ignored, and the prompt is left at
    the first run, step or quit. *)
Definition other_line (l : bytes) : Prop := ~ In 10 l /\ lookup (fst (word l)) commands = None.
Lemma split_line_app : forall l rest, ~ In 10 l -> split_line (l ++ 10 :: rest) = (l, rest).
Proof.
  induction l as [|c l IH]; intros rest H; cbn [app split_line]; [reflexivity|].
  destruct (c =? 10) eqn:E; [apply Z.eqb_eq in E; exfalso; apply H; now left|].
  rewrite IH; [reflexivity|]. intros K. apply H. now right.
Qed.
(** The state after text [o] was printed and the input is [i]. *)
Definition said (o i : bytes) (s : st) : st :=
  {| s_w := set_w_in i (set_w_out (w_out (s_w s) ++ o) (s_w s)); s_r := s_r s |}.
Lemma said_said : forall o i o' i' s, said o' i' (said o i s) = said (o ++ o') i' s.
Proof.
  intros. unfold said. cbn [s_w s_r w_out set_w_out set_w_in]. now rewrite app_assoc.
Qed.
Lemma said_id : forall s, said [] (w_in (s_w s)) s = s.
Proof. intros [w r]. unfold said. cbn [s_w s_r]. rewrite app_nil_r. destruct w; reflexivity. Qed.
Lemma prompt_skips : forall G x rest ls s F, Forall other_line ls ->
  w_in (s_w s) = concat (map (fun l => l ++ [10]) ls) ++ rest -> (length ls < Pos.to_nat F)%nat ->
  exists o, loopM F (prompt_step G) x s =
    loopM (Pos.of_nat (Pos.to_nat F - length ls)) (prompt_step G) x (said o rest s).
Proof.
  intros G x rest. induction ls as [|l ls IH]; intros s F H W L; cbn [length map concat app] in *.
  - exists []. rewrite <- W, said_id, Nat.sub_0_r, Pos2Nat.id. reflexivity.
  - inversion H as [|? ? [N K] H']; subst.
    assert (exists F', F = Pos.succ F') as [F' ->].
    { exists (Pos.pred F). rewrite Pos.succ_pred; auto. intros ->. rewrite Pos2Nat.inj_1 in L. lia. }
    rewrite loopM_step. rewrite <- !app_assoc in W. cbn [app] in W.
    rewrite (prompt_other G x s l (concat (map (fun l => l ++ [10]) ls) ++ rest)); [|rewrite W; now apply split_line_app|exact K].
    rewrite Pos2Nat.inj_succ in L |- *.
    change ({| s_w := set_w_in (concat (map (fun l => l ++ [10]) ls) ++ rest) (s_w (printed prompt_text s)); s_r := s_r s |})
      with (said prompt_text (concat (map (fun l => l ++ [10]) ls) ++ rest) s).
    destruct (IH (said prompt_text (concat (map (fun l => l ++ [10]) ls) ++ rest) s) F' H') as (o & E); [reflexivity|lia|].
    exists (prompt_text ++ o). rewrite E, said_said. reflexivity.
Qed.
Theorem C69_partial : forall F d s ls line c rest,
  testmode MODE_DEBUG (w_uni (s_w s) (r_uni (s_r s))) = true ->
  set_contains (r_pos (s_r s)) (d_break d) = true \/ recorded (r_id (s_r s)) d <> DRun ->
  Forall other_line ls -> ~ In 10 line -> lookup (fst (word line)) commands = Some c ->
  w_in (s_w s) = concat (map (fun l => l ++ [10]) ls) ++ line ++ 10 :: rest ->
  (length ls < Pos.to_nat F)%nat ->
  (c = CRun \/ c = CStep -> exists d' o, dbg_tick F d s = Ok (d', said o rest s) /\
     recorded (r_id (s_r s)) d' = match c with CRun => DRun | _ => DStep end) /\
  (c = CQuit -> exists d' o, dbg_tick F d s = (multi_killAll 1 ;;; ret d') (said o rest s)).
Proof.
  intros F d s ls line c rest On H Hl N Hc W L.
  destruct (C68_prompt F d s On) as (d1 & _ & _ & E & _). rewrite (E H). clear E.
  match goal with |- context [printed ?o s] => set (o0 := o) end.
  destruct (prompt_skips F (d1, r_id (s_r s)) (line ++ 10 :: rest) ls (printed o0 s) F Hl W L) as (o1 & E).
  rewrite E. clear E.
  replace (said o1 (line ++ 10 :: rest) (printed o0 s)) with (said (o0 ++ o1) (line ++ 10 :: rest) s)
    by (unfold said, printed; cbn [s_w s_r w_out set_w_out]; now rewrite app_assoc).
  set (n := Pos.of_nat _).
  assert (P : forall y s', command_run F d1 (r_id (s_r s)) c (snd (word line)) (said ((o0 ++ o1) ++ prompt_text) rest s) = Ok (y, s') ->
     snd y = true -> loopM n (prompt_step F) (d1, r_id (s_r s)) (said (o0 ++ o1) (line ++ 10 :: rest) s) = Ok (fst (fst y), s')).
  { intros [[d2 sel] b] s' E Eb. cbn [snd] in Eb. subst b.
    assert (S : prompt_step F (d1, r_id (s_r s)) (said (o0 ++ o1) (line ++ 10 :: rest) s) = Ok (inr d2, s')).
    { unfold prompt_step. fold prompt_text. rewrite (run_bind _ _ _ _ _ (out_run prompt_text _)).
      unfold mbind at 1, getline.
      change (w_in (s_w (printed prompt_text (said (o0 ++ o1) (line ++ 10 :: rest) s)))) with (line ++ 10 :: rest).
      rewrite split_line_app by exact N. destruct (word line) as [cmd is]. cbn [fst snd] in *. rewrite Hc.
      change ({| s_w := set_w_in rest (s_w (printed prompt_text (said (o0 ++ o1) (line ++ 10 :: rest) s))); s_r := s_r (printed prompt_text (said (o0 ++ o1) (line ++ 10 :: rest) s)) |})
        with (said prompt_text rest (said (o0 ++ o1) (line ++ 10 :: rest) s)).
      rewrite said_said. rewrite (run_bind _ _ _ _ _ E). reflexivity. }
    now apply loopM_inr. }
  split.
  - intros [->| ->]; (eexists; eexists; split;
      [match type of P with forall y s', ?m = Ok (y, s') -> _ => destruct m as [[y t]|] eqn:E; [|discriminate E] end;
       rewrite (P _ _ eq_refl); [cbn [command_run] in E; unfold ret in E; injection E as <- <-; reflexivity|
         cbn [command_run] in E; unfold ret in E; injection E as <- <-; reflexivity]|]);
      unfold recorded; cbn [fst]; rewrite th_at_upd, Z.eqb_refl; reflexivity.
  - intros ->. exists d1, ((o0 ++ o1) ++ prompt_text).
    assert (Q : forall s', (multi_killAll 1 ;;; ret (d1, r_id (s_r s), true)) (said ((o0 ++ o1) ++ prompt_text) rest s) = s' ->
      loopM n (prompt_step F) (d1, r_id (s_r s)) (said (o0 ++ o1) (line ++ 10 :: rest) s) =
      match s' with Ok (y, t) => Ok (fst (fst y), t) | Bad b => Bad b end).
    { intros s' E. destruct s' as [[y t]|b].
      - apply P; [exact E|]. unfold mbind in E. destruct (multi_killAll 1 _) as [[? ?]|]; [|discriminate]. unfold ret in E. injection E as <- <-. reflexivity.
      - assert (S : prompt_step F (d1, r_id (s_r s)) (said (o0 ++ o1) (line ++ 10 :: rest) s) = Bad b).
        { unfold prompt_step. fold prompt_text. rewrite (run_bind _ _ _ _ _ (out_run prompt_text _)).
          unfold mbind at 1, getline.
          change (w_in (s_w (printed prompt_text (said (o0 ++ o1) (line ++ 10 :: rest) s)))) with (line ++ 10 :: rest).
          rewrite split_line_app by exact N. destruct (word line) as [cmd is]. cbn [fst snd] in *. rewrite Hc.
          change ({| s_w := set_w_in rest (s_w (printed prompt_text (said (o0 ++ o1) (line ++ 10 :: rest) s))); s_r := s_r (printed prompt_text (said (o0 ++ o1) (line ++ 10 :: rest) s)) |})
            with (said prompt_text rest (said (o0 ++ o1) (line ++ 10 :: rest) s)).
          rewrite said_said. unfold mbind at 1. cbn [command_run]. rewrite E. reflexivity. }
        now apply loopM_err. }
    rewrite (Q _ eq_refl). unfold mbind. destruct (multi_killAll 1 _) as [[? ?]|]; reflexivity.
Qed.
Example C69_partial_ex : exists s, testmode MODE_DEBUG (w_uni (s_w s) (r_uni (s_r s))) = true /\
  recorded (r_id (s_r s)) dbg_new <> DRun /\ Forall other_line [lit "hello"; []] /\ ~ In 10 (lit " step now") /\
  lookup (fst (word (lit " step now"))) commands = Some CStep /\
  w_in (s_w s) = concat (map (fun l => l ++ [10]) [lit "hello"; []]) ++ lit " step now" ++ 10 :: lit "rest".
Proof.
  exists (dstart (lit "hello" ++ [10; 10] ++ lit " step now" ++ [10] ++ lit "rest")).
  split; [vm_compute; reflexivity|]. split; [vm_compute; discriminate|].
  split; [apply Forall_cons; [|apply Forall_cons; [|apply Forall_nil]]; (split; [vm_compute; intuition discriminate|vm_compute; reflexivity])|].
  split; [vm_compute; intuition discriminate|]. split; vm_compute; reflexivity.
Qed.
Print Assumptions C69_refuted.
Print Assumptions C69_partial.

(** ** C70 Looking does not touch *)

(** Everything but input and output is as before: [s'] is [s] with more output and the
    read lines removed from the input. *)
Definition Looked (s s' : st) : Prop := exists o i, s' = said o i s.
Definition looking (c : command) : Prop :=
  match c with CQuit | CSetdelta | CSetpos => False | _ => True end.

Lemma looked_refl : forall s, Looked s s.
Proof. intros s. exists [], (w_in (s_w s)). symmetry. apply said_id. Qed.
Lemma looked_trans : forall a b c, Looked a b -> Looked b c -> Looked a c.
Proof. intros a b c (o & i & ->) (o' & i' & ->). exists (o ++ o'), i'. apply said_said. Qed.
Lemma looked_printed : forall o s, Looked s (printed o s).
Proof. intros o [w r]. exists o, (w_in w). destruct w. reflexivity. Qed.
Definition quiet {A} (m : M A) : Prop := forall s x s', m s = Ok (x, s') -> exists o, s' = printed o s.
Lemma quiet_out : forall o, quiet (out o).
Proof. intros o s [] s' E. rewrite out_run in E. injection E as <-. now exists o. Qed.
Lemma quiet_same : forall s, exists o, s = printed o s.
Proof. intros s. exists []. now rewrite printed_nil. Qed.
Lemma quiet_ret : forall A (x : A), quiet (ret x).
Proof. intros A x s y s' E. unfold ret in E. injection E as <- <-. apply quiet_same. Qed.
Lemma quiet_fail : forall A b, quiet (fail b : M A).
Proof. intros A b s y s' E. discriminate. Qed.
Lemma quiet_lift : forall A (x : res A), quiet (lift x).
Proof. intros A x s y s' E. unfold lift in E. destruct x; [|discriminate]. injection E as <- <-. apply quiet_same. Qed.
Lemma quiet_find : forall id, quiet (find_runner id).
Proof.
  intros id s x s' E. unfold find_runner in E. destruct (id =? r_id (s_r s)); [injection E as <- <-; apply quiet_same|].
  destruct (w_run (s_w s) id); [|discriminate]. injection E as <- <-. apply quiet_same.
Qed.
Lemma quiet_fget : forall n v, quiet (fget n v).
Proof. intros n v s x s' E. unfold fget in E. injection E as <- <-. apply quiet_same. Qed.
Lemma quiet_getR : quiet getR.
Proof. intros s x s' E. unfold getR in E. injection E as <- <-. apply quiet_same. Qed.
Lemma quiet_bind : forall A B (m : M A) (f : A -> M B), quiet m -> (forall x, quiet (f x)) -> quiet (mbind m f).
Proof.
  intros A B m f H1 H2 s x s' E. apply run_bind_inv in E. destruct E as (y & s1 & E1 & E2).
  destruct (H1 _ _ _ E1) as (o & ->). destruct (H2 _ _ _ _ E2) as (o' & ->). exists (o ++ o'). apply printed_app.
Qed.
Global Hint Resolve quiet_out quiet_ret quiet_fail quiet_lift quiet_find quiet_fget quiet_getR quiet_bind : quietdb.
Lemma quiet_print_ip : forall i j, quiet (print_ip i j).
Proof. intros. unfold print_ip. auto 10 with quietdb. Qed.
Global Hint Resolve quiet_print_ip : quietdb.
Lemma quiet_threads : forall sel l, quiet (thread_lines sel l).
Proof.
  induction l as [|[i t] r IH]; cbn [thread_lines]; [auto with quietdb|].
  apply quiet_bind; [|auto]. destruct (th_state t); auto with quietdb; destruct (th_runner t); auto with quietdb.
Qed.
Lemma quiet_bt : forall n l i, quiet (bt_lines n i l).
Proof. induction l as [|b l IH]; intros i; cbn [bt_lines]; auto 10 with quietdb. Qed.
Lemma quiet_lines : forall t l, quiet (lines_of t l).
Proof. induction l as [|b l IH]; cbn [lines_of]; auto 10 with quietdb. Qed.
Lemma quiet_getW : quiet getW.
Proof. intros s x s' E. unfold getW in E. injection E as <- <-. apply quiet_same. Qed.
Lemma quiet_peek : forall l, quiet (peek_all l).
Proof. induction l as [|k l IH]; cbn [peek_all]; auto 10 with quietdb. Qed.
Lemma quiet_unis : forall c l, quiet (uni_lines c l).
Proof. induction l as [|k l IH]; cbn [uni_lines]; auto 10 with quietdb. Qed.
Lemma quiet_any : forall p l, quiet (any_ip p l).
Proof.
  induction l as [|[i t] l IH]; cbn [any_ip]; [auto with quietdb|]. destruct (th_runner t); [|auto with quietdb].
  apply quiet_bind; [auto with quietdb|]. intros x. destruct (veqb _ _); auto with quietdb.
Qed.
Global Hint Resolve quiet_threads quiet_bt quiet_lines quiet_getW quiet_peek quiet_unis quiet_any : quietdb.
Lemma quiet_loop : forall A B F (f : A -> M (A + B)), (forall a, quiet (f a)) -> forall a, quiet (loopM F f a).
Proof.
  intros A B F f H a s x s' E.
  refine (loopM_post A B F f (fun _ t => exists o, t = printed o s) (fun _ t => exists o, t = printed o s) _ _ a s x s' (quiet_same s) E).
  - intros a1 t a2 t' (o & ->) E1. destruct (H _ _ _ _ E1) as (o' & ->). exists (o ++ o'). apply printed_app.
  - intros a1 t a2 t' (o & ->) E1. destruct (H _ _ _ _ E1) as (o' & ->). exists (o ++ o'). apply printed_app.
Qed.
Lemma quiet_field : forall F d n c z m h, quiet (print_field F d n c z m h).
Proof.
  intros. unfold print_field. apply quiet_bind; [auto with quietdb|]. intros a. apply quiet_bind; [auto with quietdb|].
  intros b. apply quiet_loop. intros p. unfold field_step, field_cell. destruct (vleb p b); [|auto with quietdb].
  repeat (apply quiet_bind; [auto 10 with quietdb|intros ?]). destruct (_ <? _); auto 10 with quietdb.
Qed.
Global Hint Resolve quiet_field : quietdb.

(** Each command other than quit, setdelta and setpos, on any state, only prints. *)
Theorem C70_command : forall F d sel c is s x s', looking c ->
  command_run F d sel c is s = Ok (x, s') -> exists o, s' = printed o s.
Proof.
  intros F d sel c is s x s' L. revert s x s'. change (quiet (command_run F d sel c is)).
  destruct c; try contradiction; cbn [command_run]; auto 10 with quietdb.
  - destruct (read_num _) as [[n rest]|]; [|auto with quietdb]. apply quiet_bind; [auto with quietdb|]. intros r.
    destruct (n =? 0); [auto with quietdb|]. destruct (read_num rest) as [[k rest']|]; [|auto with quietdb].
    destruct (k <? _); auto with quietdb.
  - destruct (skipws (is_rest is)); [auto with quietdb|]. destruct (digits _ 0) as [n|]; [|auto with quietdb].
    destruct (th_find n (d_threads d)) as [t|]; [|auto with quietdb]. destruct (th_runner t); auto with quietdb.
  - apply quiet_bind; [auto with quietdb|]. intros r. apply quiet_bind; [auto with quietdb|]. intros w. cbv zeta.
    apply quiet_bind; [|intros q; auto with quietdb].
    destruct (match fst (word (is_rest is)) with [] => None | _ => _ end) as [n|]; [|auto with quietdb].
    destruct (Nat.eqb _ _); [|auto with quietdb]. destruct (th_runner _); auto with quietdb.
Qed.

(** A whole stop at the prompt: when no line of the input is one of those three
    commands, the program finds everything as it left it. *)
Definition line_start (a : bytes) : Prop := a = [] \/ exists b, a = b ++ [10].
Definition only_looking (input : bytes) : Prop :=
  forall a b c, line_start a -> input = a ++ b ->
    lookup (fst (word (fst (split_line b)))) commands = Some c -> looking c.
Lemma split_line_eq : forall l a b, split_line l = (a, b) -> l = a ++ 10 :: b \/ (l = a /\ b = []).
Proof.
  induction l as [|c l IH]; intros a b E; cbn [split_line] in E.
  - injection E as <- <-. now right.
  - destruct (c =? 10) eqn:Ec.
    + injection E as <- <-. apply Z.eqb_eq in Ec. subst. now left.
    + destruct (split_line l) as [a1 b1]. injection E as <- <-. destruct (IH a1 b1 eq_refl) as [->|[-> ->]]; auto.
Qed.
Lemma only_looking_rest : forall i a b, only_looking i -> split_line i = (a, b) -> only_looking b.
Proof.
  intros i a b H E p q c Hp Eq. apply split_line_eq in E. destruct E as [E|[E ->]].
  - apply (H (a ++ 10 :: p) q c).
    + right. destruct Hp as [->|[p' ->]]; [now exists a|]. exists (a ++ 10 :: p'). now rewrite <- app_assoc.
    + rewrite E, Eq. now rewrite <- app_assoc.
  - destruct p; [|discriminate]. destruct q; [|discriminate]. intros K. vm_compute in K. discriminate.
Qed.
Theorem C70_session : forall F d s d' s', only_looking (w_in (s_w s)) ->
  dbg_tick F d s = Ok (d', s') -> Looked s s' /\ only_looking (w_in (s_w s')).
Proof.
  intros F d s d' s' H E.
  destruct (testmode MODE_DEBUG (w_uni (s_w s) (r_uni (s_r s)))) eqn:On.
  2: { unfold dbg_tick in E. rewrite (run_bind _ _ _ _ _ (mode_run _ _)), On in E. unfold ret in E.
       injection E as <- <-. split; [apply looked_refl|exact H]. }
  destruct (C68_prompt F d s On) as (d1 & _ & _ & E1 & E2).
  assert (D : (set_contains (r_pos (s_r s)) (d_break d) = true \/ recorded (r_id (s_r s)) d <> DRun) \/
              (set_contains (r_pos (s_r s)) (d_break d) = false /\ recorded (r_id (s_r s)) d = DRun)).
  { destruct (set_contains (r_pos (s_r s)) (d_break d)); [left; now left|].
    destruct (recorded (r_id (s_r s)) d); [left; right; discriminate|right; auto|left; right; discriminate..]. }
  destruct D as [D|[D1 D2]]; [|rewrite (E2 D1 D2) in E; injection E as <- <-; split; [apply looked_refl|exact H]].
  rewrite (E1 D) in E. clear E1 E2 D. revert E.
  match goal with |- context [printed ?o s] => set (o0 := o) end. intros E.
  revert E. apply (loopM_post _ _ F (prompt_step F) (fun _ t => Looked s t /\ only_looking (w_in (s_w t))) (fun _ t => Looked s t /\ only_looking (w_in (s_w t)))).
  1,2: intros [da sa] t y t' [I1 I2] E; unfold prompt_step in E; fold prompt_text in E;
    rewrite (run_bind _ _ _ _ _ (out_run prompt_text t)) in E;
    unfold mbind at 1, getline in E;
    change (w_in (s_w (printed prompt_text t))) with (w_in (s_w t)) in E;
    destruct (split_line (w_in (s_w t))) as [line rest] eqn:El;
    change ({| s_w := set_w_in rest (s_w (printed prompt_text t)); s_r := s_r (printed prompt_text t) |})
      with (said prompt_text rest t) in E;
    assert (J1 : Looked s (said prompt_text rest t)) by (eapply looked_trans; [exact I1|eexists; eexists; reflexivity]);
    assert (J2 : only_looking (w_in (s_w (said prompt_text rest t)))) by (exact (only_looking_rest _ _ _ I2 El));
    pose proof (I2 [] (w_in (s_w t))) as C; rewrite El in C; cbn [fst] in C;
    destruct (word line) as [cmd is]; cbn [fst] in C; destruct (lookup cmd commands) as [c|];
    [|unfold ret in E; first [discriminate | injection E as <- <-; split; [exact J1|exact J2]]].
  1,2: specialize (C c (or_introl eq_refl) eq_refl eq_refl);
    apply run_bind_inv in E; destruct E as ([[d2 sel2] stop] & t2 & E3 & E); cbv beta iota in E;
    pose proof (C70_command _ _ _ _ _ _ _ _ C E3) as (o & ->);
    destruct stop; unfold ret in E; first [discriminate | injection E as <- <-;
      split; [eapply looked_trans; [exact J1|apply looked_printed]|exact J2]].
  split; [apply looked_printed|exact H].
Qed.

Lemma line_split : forall l i b q, ~ In 10 l -> l ++ 10 :: i = b ++ 10 :: q -> exists p, line_start p /\ i = p ++ q.
Proof.
  induction l as [|c l IH]; intros i b q N E; destruct b as [|c' b]; cbn [app] in E.
  - injection E as <-. exists []. split; [now left|reflexivity].
  - injection E as <- E. exists (b ++ [10]). split; [right; now exists b|]. now rewrite E, <- app_assoc.
  - injection E as -> _. exfalso. apply N. now left.
  - injection E as <- E. apply (IH i b q); [intros K; apply N; now right|exact E].
Qed.
Lemma only_looking_cons : forall l i, ~ In 10 l ->
  match lookup (fst (word l)) commands with Some CQuit | Some CSetdelta | Some CSetpos => false | _ => true end = true ->
  only_looking i -> only_looking (l ++ 10 :: i).
Proof.
  intros l i N H I a b c [->|[a' ->]] E Hc.
  - cbn [app] in E. rewrite <- E, split_line_app in Hc by exact N. cbn [fst] in Hc. rewrite Hc in H.
    destruct c; try discriminate; exact Logic.I.
  - rewrite <- app_assoc in E. cbn [app] in E. destruct (line_split l i a' b N E) as (p & Hp & Ei).
    exact (I p b c Hp Ei Hc).
Qed.
Lemma only_looking_nil : only_looking [].
Proof. intros [|x a] [|y b] c _ E; try discriminate E. intros K. vm_compute in K. discriminate K. Qed.

Definition looker : bytes := lit "bt" ++ 10 :: lit "read (1)" ++ 10 :: lit "thread" ++ 10 :: lit "bp (3)" ++ 10 :: lit "s" ++ 10 :: [].
(** A session of five commands: the input is used up, the program is untouched. *)
Example C70_ex : only_looking (w_in (s_w (dstart looker))) /\
  exists d' s', dbg_tick 10 dbg_new (dstart looker) = Ok (d', s') /\ w_in (s_w s') = [] /\ d_break d' = [[3]] /\
    (Datatypes.length (w_out (s_w s')) > 100)%nat.
Proof.
  split.
  - assert (E : w_in (s_w (dstart looker)) = looker) by (vm_compute; reflexivity). rewrite E. unfold looker.
    repeat (apply only_looking_cons; [vm_compute; intuition discriminate|vm_compute; reflexivity|]). apply only_looking_nil.
  - exists (match dbg_tick 10 dbg_new (dstart looker) with Ok (d, _) => d | _ => dbg_new end).
    exists (match dbg_tick 10 dbg_new (dstart looker) with Ok (_, s) => s | _ => dummy end).
    split; [vm_compute; reflexivity|]. split; [vm_compute; reflexivity|]. split; [vm_compute; reflexivity|].
    vm_compute. lia.
Qed.
Print Assumptions C70_command.
Print Assumptions C70_session.

(** ** C71 The list of IPs *)

(** What the thread command should print: one line per IP, the selected one marked,
    each with its own position and instruction; [who] gives an IP. *)
Fixpoint ip_list (w : world) (who : Z -> option runner) (sel : Z) (l : list (Z * thread)) : option bytes :=
  match l with
  | [] => Some []
  | (i, t) :: rest =>
      match ip_list w who sel rest with
      | None => None
      | Some text =>
          match th_state t with
          | DEnd => Some (lit "  " ++ dec i ++ lit ": end" ++ [10] ++ text)
          | _ => match who i with
                 | None => None
                 | Some r => Some ((if i =? sel then lit "* " else lit "  ") ++
                     ip_text i (r_pos r) (f_get (u_field (w_uni w (r_uni r))) (r_pos r)) ++ text)
                 end
          end
      end
  end.
Definition who_of (s : st) (id : Z) : option runner :=
  if id =? r_id (s_r s) then Some (s_r s) else w_run (s_w s) id.

(** Right when the selected IP is the only live one. *)
Lemma thread_lines_run : forall s0 sel l text o, 
  Forall (fun e => th_state (snd e) = DEnd \/ (fst e = sel /\ th_runner (snd e) = Some sel)) l ->
  ip_list (s_w s0) (who_of s0) sel l = Some text ->
  thread_lines sel l (printed o s0) = Ok (tt, printed (o ++ text) s0).
Proof.
  intros s0 sel l. induction l as [|[i t] rest IH]; intros text o H E; cbn [ip_list thread_lines] in *.
  - injection E as <-. unfold ret. now rewrite app_nil_r.
  - inversion H as [|? ? H1 H2]; subst. cbn [fst snd] in H1.
    destruct (ip_list (s_w s0) (who_of s0) sel rest) as [tx|]; [|discriminate].
    destruct (th_state t) eqn:Es.
    5: { injection E as <-. rewrite (run_bind _ _ _ _ _ (out_run _ _)), printed_app.
         rewrite (IH tx _ H2 eq_refl). do 2 f_equal. f_equal.
         repeat (progress (rewrite <- ?app_assoc; cbn [app])). reflexivity. }
    all: destruct H1 as [H1|[-> H1]]; [discriminate|]; rewrite H1;
      destruct (who_of s0 sel) as [r|] eqn:Ew; [|discriminate]; injection E as <-; rewrite Z.eqb_refl;
      rewrite (run_bind _ _ _ tt (printed ((o ++ [42; 32]) ++ ip_text sel (r_pos r) (f_get (u_field (w_uni (s_w s0) (r_uni r))) (r_pos r))) s0));
      [rewrite (IH tx _ H2 eq_refl); do 2 f_equal; f_equal;
         repeat (progress (rewrite <- ?app_assoc; cbn [app])); reflexivity
      |rewrite (run_bind _ _ _ _ _ (out_run _ _)), printed_app; unfold print_ip;
         rewrite (run_bind _ _ _ r (printed (o ++ [42; 32]) s0));
         [unfold mbind at 1, fget; rewrite out_run, printed_app; reflexivity
         |unfold find_runner; unfold who_of in Ew; change (s_r (printed (o ++ [42; 32]) s0)) with (s_r s0);
          change (w_run (s_w (printed (o ++ [42; 32]) s0))) with (w_run (s_w s0));
          destruct (sel =? r_id (s_r s0)); [injection Ew as <-; reflexivity|rewrite Ew; reflexivity]]].
Qed.
Theorem C71_partial : forall F d sel is s text, skipws (is_rest is) = [] ->
  Forall (fun e => th_state (snd e) = DEnd \/ (fst e = sel /\ th_runner (snd e) = Some sel)) (d_threads d) ->
  ip_list (s_w s) (who_of s) sel (d_threads d) = Some text ->
  command_run F d sel CThread is s = Ok ((d, sel, false), printed text s).
Proof.
  intros F d sel is s text H1 H2 H3. cbn [command_run]. rewrite H1.
  pose proof (thread_lines_run s sel (d_threads d) text [] H2 H3) as E. rewrite printed_nil in E.
  rewrite (run_bind _ _ _ _ _ E). reflexivity.
Qed.
(** With two live IPs it prints the selected IP's position for both; and after
    selecting an IP that has ended, it reads the deleted IP. *)
Definition two_live : dbg := dgo (dgo dbg_new 0 0) 1 5.
Definition two_state : st :=
  let s := dstart [] in
  {| s_w := upd_run 1 (Some (set_r_id 1 (set_r_pos [2] (s_r s)))) (s_w s); s_r := s_r s |}.
Theorem C71_refuted :
  (exists text s', ip_list (s_w two_state) (who_of two_state) 0 (d_threads two_live) = Some text /\
     command_run 10 two_live 0 CThread {| is_rest := []; is_fail := false |} two_state = Ok ((two_live, 0, false), s') /\
     w_out (s_w s') <> w_out (s_w two_state) ++ text) /\
  (command_run 10 (endThread 1 two_live) 0 CThread {| is_rest := lit " 1"; is_fail := false |} (dstart []) = Bad BadFreed).
Proof.
  split; [|vm_compute; reflexivity].
  exists (match ip_list (s_w two_state) (who_of two_state) 0 (d_threads two_live) with Some x => x | None => [] end).
  exists (match command_run 10 two_live 0 CThread {| is_rest := []; is_fail := false |} two_state with Ok (_, s) => s | _ => dummy end).
  split; [vm_compute; reflexivity|]. split; [vm_compute; reflexivity|]. vm_compute. discriminate.
Qed.
Example C71_ex : exists d text, Forall (fun e => th_state (snd e) = DEnd \/ (fst e = 0 /\ th_runner (snd e) = Some 0)) (d_threads d) /\
  ip_list (s_w two_state) (who_of two_state) 0 (d_threads d) = Some text /\ (Datatypes.length (d_threads d) = 2)%nat.
Proof.
  exists (endThread 1 two_live).
  exists (match ip_list (s_w two_state) (who_of two_state) 0 (d_threads (endThread 1 two_live)) with Some x => x | None => [] end).
  split; [|split; vm_compute; reflexivity]. vm_compute. repeat (apply Forall_cons; [auto|]). apply Forall_nil.
Qed.
Print Assumptions C71_partial.
Print Assumptions C71_refuted.
