(** * C94, C95, C96: the debugger's commands that change, show the stacks and show
    Funge-space. *)

From Coq Require Import ZArith String Ascii List Bool Lia.
From Verif Require Import Base BaseProofs VectorModel VectorProofs TextModel TextProofs StackModel StackProofs
  FieldModel FieldProofs World IpModel LoadModel FingModel CoreModel UniModel OptModel DebugModel ExecProofs FlowProofs
  States Effects SchedProofs PropsSched PropsDebug.
Import ListNotations.
Open Scope Z_scope.
Local Notation length := List.length.

(** ** C94 Commands change what they name *)

(** The IP with number [id], if it exists: the executing one or another. *)
Definition Ip (s : st) (id : Z) : option runner :=
  if id =? r_id (s_r s) then Some (s_r s) else w_run (s_w s) id.
(** [s] with the IP [id] replaced by [r]; nothing else differs. *)
Definition with_ip (id : Z) (r : runner) (s : st) : st :=
  if id =? r_id (s_r s) then {| s_w := s_w s; s_r := r |}
  else {| s_w := upd_run id (Some r) (s_w s); s_r := s_r s |}.
(** A Vector typed after a command. *)
Definition typed (v : vec) (tail : bytes) : istr := {| is_rest := 32 :: vprint v ++ tail; is_fail := false |}.
Definition coords (v : vec) (F : positive) : Prop :=
  Forall (fun x => INT64_MIN < x <= INT64_MAX) v /\ Z.of_nat (length (vprint v)) < Z.pos F.
(** The same coordinates. *)
Definition Same_vec (a b : vec) : Prop := forall i, vget a i = vget b i.

Lemma find_ip s id r : Ip s id = Some r -> find_runner id s = Ok (r, s).
Proof.
  unfold Ip, find_runner. destruct (id =? r_id (s_r s)); [now intros [= ->]|]. intros ->. reflexivity.
Qed.
Lemma on_ip s id r f : Ip s id = Some r -> on_runner id f s = Ok (tt, with_ip id (f r) s).
Proof.
  unfold Ip, on_runner, with_ip. destruct (id =? r_id (s_r s)); [now intros [= ->]|]. intros ->. reflexivity.
Qed.
Lemma ip_with s id r r' : Ip s id = Some r -> r_id r' = r_id r -> Ip (with_ip id r' s) id = Some r'.
Proof.
  unfold Ip, with_ip. destruct (Z.eqb_spec id (r_id (s_r s))) as [E|N].
  - intros [= <-] I. cbn [s_r]. rewrite I, E, Z.eqb_refl. reflexivity.
  - intros _ _. cbn [s_r s_w]. rewrite (proj2 (Z.eqb_neq _ _) N). apply (upd_run_same id (Some r') (s_w s)).
Qed.
Lemma with_ip_uni s id r n : w_uni (s_w (with_ip id r s)) n = w_uni (s_w s) n.
Proof. unfold with_ip. destruct (id =? r_id (s_r s)); reflexivity. Qed.
Lemma extract_space l c : extract {| is_rest := 32 :: l; is_fail := false |} c = extract {| is_rest := l; is_fail := false |} c.
Proof. reflexivity. Qed.
Lemma vread_typed v tail F : coords v F -> exists r, vread F (typed v tail) = Ok (r, {| is_rest := tail; is_fail := false |}) /\ Same_vec r v.
Proof.
  intros (C & L). destruct (vread_vprint v tail F C L) as (r & E & _ & G). exists r. split; [|exact G].
  rewrite <- E. unfold vread, typed. now rewrite extract_space.
Qed.
Lemma print_ip_run s id sel r : Ip s sel = Some r ->
  print_ip id sel s = Ok (tt, printed (ip_text id (r_pos r) (f_get (u_field (w_uni (s_w s) (r_uni r))) (r_pos r))) s).
Proof. intros I. unfold print_ip. rewrite (run_bind _ _ _ _ _ (find_ip _ _ _ I)). reflexivity. Qed.

Lemma hover_add_vadd a b : hover_add a b = vadd a b.
Proof.
  unfold hover_add, vadd. generalize 0%nat. generalize (Nat.max (vsize a) (vsize b)). intros n. revert a.
  induction n as [|n IH]; intros a i; cbn [hover_loop forN]; [reflexivity|].
  destruct (add64 (vget a i) (vget b i)) as [x|]; cbn [bind]; [apply IH|reflexivity].
Qed.
Lemma hover_add_get a b : (forall i, in64 (vget a i + vget b i)) ->
  exists v, hover_add a b = Ok v /\ forall i, vget v i = vget a i + vget b i.
Proof.
  intros H. rewrite hover_add_vadd. destruct (vadd_defined a b H) as (v & E). exists v. split; [exact E|]. now apply vadd_get.
Qed.

(** setpos moves the selected IP, which need not be the executing one, to the typed
    position and shows it there. *)
Theorem C94_setpos : forall F d sel r v tail s, Ip s sel = Some r -> coords v F ->
  exists v', Same_vec v' v /\
    command_run F d sel CSetpos (typed v tail) s =
    Ok ((d, sel, false),
        printed (ip_text sel v' (f_get (u_field (w_uni (s_w s) (r_uni r))) v')) (with_ip sel (set_r_pos v' r) s)).
Proof.
  intros F d sel r v tail s I C. destruct (vread_typed v tail F C) as (v' & E & G). exists v'. split; [exact G|].
  cbn [command_run]. rewrite (run_bind _ _ s _ s (run_lift _ _ _ E)). cbn [fst].
  rewrite (run_bind _ _ _ _ _ (on_ip _ _ _ _ I)).
  assert (I' : Ip (with_ip sel (set_r_pos v' r) s) sel = Some (set_r_pos v' r)) by (apply (ip_with _ _ _ _ I); reflexivity).
  rewrite (run_bind _ _ _ _ _ (print_ip_run _ sel sel _ I')), with_ip_uni. reflexivity.
Qed.

(** setdelta gives the selected IP the typed delta - with MODE's hover mode on it is
    added, as with every other change of direction.  When the IP has no fisherman,
    nothing else changes. *)
Theorem C94_setdelta : forall F d sel r v tail s, Ip s sel = Some r -> coords v F ->
  let hover := testmode MODE_HOVER (w_uni (s_w s) (r_uni r)) in
  (hover = true -> forall i, in64 (vget (r_delta r) i + vget v i)) ->
  exists v' r', (forall i, vget v' i = (if hover then vget (r_delta r) i else 0) + vget v i) /\
    r_delta r' = v' /\ (r_fish r = None -> r' = set_r_delta v' r) /\
    command_run F d sel CSetdelta (typed v tail) s =
    Ok ((d, sel, false), printed (lit "Delta " ++ vprint v' ++ [10]) (with_ip sel r' s)).
Proof.
  intros F d sel r v tail s I C hover Hh. destruct (vread_typed v tail F C) as (v1 & E & G).
  assert (D : exists v', (if hover then lift (hover_add (r_delta r) v1) else ret v1) s = Ok (v', s) /\
    forall i, vget v' i = (if hover then vget (r_delta r) i else 0) + vget v i).
  { destruct hover eqn:Eh.
    - destruct (hover_add_get (r_delta r) v1) as (v' & E' & G'); [intros i; rewrite G; now apply Hh|].
      exists v'. split; [now apply run_lift|]. intros i. now rewrite G', G.
    - exists v1. split; [reflexivity|]. intros i. now rewrite G. }
  destruct D as (v' & E1 & G1). exists v', (observe_delta v' (set_r_delta v' r)). split; [exact G1|].
  assert (Dl : r_delta (observe_delta v' (set_r_delta v' r)) = v').
  { unfold observe_delta. cbn [r_fish set_r_delta]. destruct (r_fish r) as [[a b]|]; [|reflexivity]. now destruct (_ && _). }
  assert (Id : r_id (observe_delta v' (set_r_delta v' r)) = r_id r).
  { unfold observe_delta. cbn [r_fish set_r_delta]. destruct (r_fish r) as [[a b]|]; [|reflexivity]. now destruct (_ && _). }
  split; [exact Dl|]. split; [intros N; apply observe_nofish; exact N|].
  cbn [command_run]. rewrite (run_bind _ _ s _ s (run_lift _ _ _ E)). cbn [fst].
  assert (S : setDeltaOf sel v1 s = Ok (tt, with_ip sel (observe_delta v' (set_r_delta v' r)) s)).
  { unfold setDeltaOf. rewrite (run_bind _ _ _ _ _ (find_ip _ _ _ I)). unfold mbind at 1, getW.
    fold hover. rewrite (run_bind _ _ _ _ _ E1). apply (on_ip _ _ _ (fun r => observe_delta v' (set_r_delta v' r)) I). }
  rewrite (run_bind _ _ _ _ _ S).
  rewrite (run_bind _ _ _ _ _ (find_ip _ _ _ (ip_with _ _ _ _ I Id))), Dl. reflexivity.
Qed.

(** quit stops every IP waiting in any universe, makes every universe stop with exit
    code 1, and changes nothing else. *)
Definition waiting (w : world) (id : Z) : Prop := exists n, (n < w_nuni w)%nat /\ In id (queue w n).

Lemma existsb_ext {A} (f g : A -> bool) l : (forall x, f x = g x) -> existsb f l = existsb g l.
Proof. intros H. induction l as [|x l IH]; cbn [existsb]; [reflexivity|]. now rewrite H, IH. Qed.
Lemma kill_unis_run code : forall l s, NoDup l ->
  (forall n id, In n l -> In id (queue (s_w s) n) -> Ip s id <> None) ->
  exists s', kill_unis code l s = Ok (tt, s') /\
    (forall n, w_uni (s_w s') n = if existsb (Nat.eqb n) l then set_u_running false (set_u_exit code (w_uni (s_w s) n)) else w_uni (s_w s) n) /\
    (forall id, Ip s' id = option_map (fun r => if existsb (fun n => inb id (queue (s_w s) n)) l then set_r_stopped true r else r) (Ip s id)) /\
    r_id (s_r s') = r_id (s_r s) /\
    s_w s' = set_w_run (w_run (s_w s')) (set_w_uni (w_uni (s_w s')) (s_w s)).
Proof.
  induction l as [|n l IH]; intros s Nd A; cbn [kill_unis].
  - exists s. split; [reflexivity|]. split; [reflexivity|]. split; [intros id; cbn [existsb]; now destruct (Ip s id)|].
    split; [reflexivity|]. now destruct s as [[]].
  - inversion Nd as [|? ? Ni Nd']; subst.
    set (s1 := {| s_w := upd_uni n (set_u_exit code) (s_w s); s_r := s_r s |}).
    assert (Q1 : queue (s_w s1) n = queue (s_w s) n) by (unfold queue, s1; cbn [s_w]; now rewrite upd_uni_same).
    destruct (on_runners_run (set_r_stopped true) (fun r => eq_refl) (fun r => eq_refl) (queue (s_w s) n) s1)
      as (s2 & E2 & R2 & W2 & S2).
    { intros id I. specialize (A n id (or_introl eq_refl) I). unfold Ip in A. cbn [s1 s_r s_w].
      destruct (Z.eqb_spec id (r_id (s_r s))) as [Eq|N]; [left; exact Eq|right].
      change (w_run (upd_uni n (set_u_exit code) (s_w s)) id) with (w_run (s_w s) id).
      destruct (w_run (s_w s) id) as [r|]; [now exists r|congruence]. }
    change (s_r s1) with (s_r s) in *.
    set (s3 := {| s_w := upd_uni n (set_u_running false) (s_w s2); s_r := s_r s2 |}).
    assert (E3 : kill_uni code n s = Ok (tt, s3)).
    { unfold kill_uni. rewrite (run_bind _ _ s tt s1) by reflexivity.
      rewrite (run_bind getW _ s1 (s_w s1) s1) by reflexivity.
      change (u_queue (w_uni (s_w s1) n)) with (queue (s_w s1) n). rewrite Q1, (run_bind _ _ _ _ _ E2). reflexivity. }
    rewrite (run_bind _ _ _ _ _ E3).
    assert (Id2 : r_id (s_r s2) = r_id (s_r s)) by (rewrite R2; now destruct (inb _ _)).
    assert (U3 : forall m, w_uni (s_w s3) m = if Nat.eqb m n then set_u_running false (set_u_exit code (w_uni (s_w s) n)) else w_uni (s_w s) m).
    { intros m. unfold s3. cbn [s_w]. destruct (Nat.eqb_spec m n) as [->|Nm].
      - rewrite upd_uni_same, S2. cbn [w_uni set_w_run]. unfold s1. cbn [s_w]. now rewrite upd_uni_same.
      - rewrite upd_uni_other by congruence. rewrite S2. cbn [w_uni set_w_run]. unfold s1. cbn [s_w]. now rewrite upd_uni_other by congruence. }
    assert (Q3 : forall m, queue (s_w s3) m = queue (s_w s) m).
    { intros m. unfold queue. rewrite U3. destruct (Nat.eqb_spec m n) as [->|]; reflexivity. }
    assert (I3 : forall id, Ip s3 id = option_map (fun r => if inb id (queue (s_w s) n) then set_r_stopped true r else r) (Ip s id)).
    { intros id. unfold Ip. change (s_r s3) with (s_r s2). rewrite Id2. destruct (Z.eqb_spec id (r_id (s_r s))) as [->|N].
      - cbn [option_map]. rewrite R2. now destruct (inb _ _).
      - change (w_run (s_w s3) id) with (w_run (s_w s2) id). rewrite W2, (proj2 (Z.eqb_neq _ _) N), andb_true_r.
        change (w_run (s_w s1) id) with (w_run (s_w s) id). destruct (inb id _); [reflexivity|]. now destruct (w_run (s_w s) id). }
    destruct (IH s3 Nd') as (s' & E' & U' & I' & Id' & S').
    { intros m id Im Iq. rewrite Q3 in Iq. specialize (A m id (or_intror Im) Iq). rewrite I3. destruct (Ip s id); [discriminate|congruence]. }
    exists s'. split; [exact E'|]. split; [|split; [|split]].
    + intros m. rewrite U', U3. cbn [existsb]. destruct (Nat.eqb_spec m n) as [->|Nm]; cbn [orb]; [|reflexivity].
      destruct (existsb (Nat.eqb n) l) eqn:Ex; [|reflexivity]. exfalso. apply existsb_exists in Ex. destruct Ex as (x & Ix & Ex).
      apply Nat.eqb_eq in Ex. subst. contradiction.
    + intros id. rewrite I', I3. cbn [existsb].
      rewrite (existsb_ext (fun n0 => inb id (queue (s_w s3) n0)) (fun n0 => inb id (queue (s_w s) n0))) by (intros m; now rewrite Q3).
      destruct (Ip s id) as [r|]; [|reflexivity]. cbn [option_map].
      destruct (inb id (queue (s_w s) n)); cbn [orb]; [|reflexivity]. now destruct (existsb _ l).
    + rewrite Id'. exact Id2.
    + rewrite S'. cbn [w_run set_w_run w_uni set_w_uni]. unfold s3. cbn [s_w]. rewrite S2. reflexivity.
Qed.

Theorem C94_quit : forall F d sel is s,
  (forall id, waiting (s_w s) id -> Ip s id <> None) ->
  exists s', command_run F d sel CQuit is s = Ok ((d, sel, true), s') /\
    (forall n, (n < w_nuni (s_w s))%nat -> w_uni (s_w s') n = set_u_running false (set_u_exit 1 (w_uni (s_w s) n))) /\
    (forall id r, waiting (s_w s) id -> Ip s id = Some r -> Ip s' id = Some (set_r_stopped true r)) /\
    (forall id, ~ waiting (s_w s) id -> Ip s' id = Ip s id) /\
    s_w s' = set_w_run (w_run (s_w s')) (set_w_uni (w_uni (s_w s')) (s_w s)).
Proof.
  intros F d sel is s A. destruct (kill_unis_run 1 (seq 0 (w_nuni (s_w s))) s) as (s' & E & U & I & _ & W).
  - apply seq_NoDup.
  - intros n id In_ Q. apply A. exists n. apply in_seq in In_. split; [lia|exact Q].
  - assert (X : forall id, existsb (fun n => inb id (queue (s_w s) n)) (seq 0 (w_nuni (s_w s))) = true <-> waiting (s_w s) id).
    { intros id. rewrite existsb_exists. split.
      - intros (n & H1 & H2). apply in_seq in H1. apply inb_in in H2. exists n. split; [lia|exact H2].
      - intros (n & H1 & H2). exists n. split; [apply in_seq; lia|now apply inb_in]. }
    exists s'. split; [|split; [|split; [|split]]].
    + cbn [command_run]. rewrite (run_bind (multi_killAll 1) _ s tt s'); [reflexivity|]. unfold multi_killAll. unfold mbind at 1, getW. exact E.
    + intros n L. rewrite U. destruct (existsb _ _) eqn:Ex; [reflexivity|]. exfalso.
      assert (T : existsb (Nat.eqb n) (seq 0 (w_nuni (s_w s))) = true); [|congruence].
      apply existsb_exists. exists n. split; [apply in_seq; lia|apply Nat.eqb_refl].
    + intros id r Wt Er. rewrite I, Er. cbn [option_map]. now rewrite (proj2 (X id) Wt).
    + intros id N. rewrite I. destruct (existsb _ _) eqn:Ex; [exfalso; apply N, X; exact Ex|]. now destruct (Ip s id).
    + exact W.
Qed.

(** An instruction that fails - unimplemented, not available or unspecified - stops
    the IP at the prompt where it stands, before the error is handled; one that does
    not fail does not. *)
Definition fails (e : err) : Prop := e = EUnimp \/ e = ENotAvail \/ e = EUnspec.
Theorem C94_trap : forall F D d s d1 s1 i e s2,
  dbg_tick F d s = Ok (d1, s1) -> ipGet s1 = Ok (i, s1) -> execute F D i s1 = Ok (e, s2) ->
  (fails e -> testmode MODE_DEBUG (w_uni (s_w s2) (r_uni (s_r s2))) = true ->
   exists d', d_break d' = d_break d1 /\
     (forall id, recorded id d' = if d_last d1 =? id then DBreak else recorded id d1) /\
     dtick_step F D d s =
       (d2 <- loopM F (prompt_step F) (d', r_id (s_r s2)) ;;
        r <- getR ;; (if r_handler r then errorHandler e else ipNext ;;; ret e) ;;; ret (inr d2))
       (printed (lit "Exception Trapped " ++ vprint (r_pos (s_r s2)) ++ [10] ++
                 ip_text (r_id (s_r s2)) (r_pos (s_r s2))
                   (f_get (u_field (w_uni (s_w s2) (r_uni (s_r s2)))) (r_pos (s_r s2)))) s2)) /\
  (e = ENone -> dtick_step F D d s = (ipNext ;;; ret (inr d1)) s2) /\
  (e = ESkip -> dtick_step F D d s = (ipNext ;;; ret (inl d1)) s2) /\
  (e = EBlock -> dtick_step F D d s = Ok (inr d1, s2)).
Proof.
  intros F D d s d1 s1 i e s2 E1 E2 E3. unfold dtick_step.
  rewrite (run_bind _ _ _ _ _ E1), (run_bind _ _ _ _ _ E2), (run_bind _ _ _ _ _ E3).
  split; [|split; [|split]]; try (intros ->; reflexivity).
  intros Fe On. exists (th_upd (d_last d1) (set_th_state DBreak) d1). split; [reflexivity|]. split.
  { intros id. unfold recorded. rewrite th_at_upd. now destruct (d_last d1 =? id). }
  assert (T : trap F d1 s2 = loopM F (prompt_step F) (th_upd (d_last d1) (set_th_state DBreak) d1, r_id (s_r s2))
     (printed (lit "Exception Trapped " ++ vprint (r_pos (s_r s2)) ++ [10] ++
                 ip_text (r_id (s_r s2)) (r_pos (s_r s2))
                   (f_get (u_field (w_uni (s_w s2) (r_uni (s_r s2)))) (r_pos (s_r s2)))) s2)).
  { unfold trap, dbg_stop. rewrite (run_bind _ _ _ _ _ (mode_run _ _)), On. unfold mbind at 1, getR.
    rewrite (run_bind _ _ _ _ _ (out_run _ s2)). unfold debug. rewrite th_at_upd, Z.eqb_refl. cbn [th_state set_th_state].
    unfold mbind at 1, getR. rewrite (run_bind _ _ _ _ _ (print_self (printed _ s2))), printed_app, <- !app_assoc. reflexivity. }
  destruct Fe as [->|[->| ->]]; unfold mbind at 1; rewrite T; reflexivity.
Qed.

(** With debugging off, before and after the instruction, the debugger is not
    noticed. *)
Theorem C94_off : forall F D d s,
  testmode MODE_DEBUG (w_uni (s_w s) (r_uni (s_r s))) = false ->
  (forall i e s2, execute F D i s = Ok (e, s2) -> testmode MODE_DEBUG (w_uni (s_w s2) (r_uni (s_r s2))) = false) ->
  dtick_step F D d s = match tick_step F D tt s with
                       | Ok (inl _, s') => Ok (inl d, s') | Ok (inr _, s') => Ok (inr d, s') | Bad b => Bad b end.
Proof.
  intros F D d s Off Off2. unfold dtick_step, tick_step.
  assert (T : forall d s, testmode MODE_DEBUG (w_uni (s_w s) (r_uni (s_r s))) = false -> dbg_tick F d s = Ok (d, s)).
  { intros d0 s0 O. unfold dbg_tick. rewrite (run_bind _ _ _ _ _ (mode_run _ _)), O. reflexivity. }
  rewrite (run_bind _ _ _ _ _ (T d s Off)). rewrite (run_bind (isMode MODE_DEBUG) _ _ _ _ (mode_run _ _)), Off.
  assert (G : ipGet s = Ok (f_get (u_field (w_uni (s_w s) (r_uni (s_r s)))) (r_pos (s_r s)), s)) by reflexivity.
  rewrite !(run_bind _ _ _ _ _ G).
  set (i := f_get _ _). destruct (execute F D i s) as [[e s2]|b] eqn:E.
  2:{ rewrite !(run_bind_bad _ _ _ _ E). reflexivity. }
  rewrite !(run_bind _ _ _ _ _ E). specialize (Off2 _ _ _ E).
  rewrite (run_bind getR _ s2 (s_r s2) s2) by reflexivity.
  assert (Tr : trap F d s2 = Ok (d, s2)).
  { unfold trap, dbg_stop. rewrite (run_bind _ _ _ _ _ (mode_run _ _)), Off2. reflexivity. }
  assert (N : forall (x : dbg + dbg) (y : unit + unit), match x, y with inl a, inl _ => a = d | inr a, inr _ => a = d | _, _ => False end ->
     (ipNext ;;; ret x) s2 = match (ipNext ;;; ret y) s2 with
       | Ok (inl _, s') => Ok (inl d, s') | Ok (inr _, s') => Ok (inr d, s') | Bad b => Bad b end).
  { intros x y H. unfold mbind. destruct (ipNext s2) as [[[] s3]|]; [|reflexivity]. unfold ret.
    destruct x, y; try contradiction; now subst. }
  assert (Hd : forall e, fails e -> (d2 <- trap F d ;; r <- getR ;; (if r_handler r then errorHandler e else ipNext ;;; ret e) ;;; ret (inr d2)) s2 =
    match (e' <- (if r_handler (s_r s2) then errorHandler e else ipNext ;;; ret e) ;;
           match e' with ENone => ipNext ;;; ret (inr tt) | ESkip => ipNext ;;; ret (inl tt) | _ => ret (inr tt) end) s2 with
     | Ok (inl _, s') => Ok (inl d, s') | Ok (inr _, s') => Ok (inr d, s') | Bad b => Bad b end).
  { intros e0 Fe. rewrite (run_bind _ _ _ _ _ Tr). rewrite (run_bind getR _ s2 (s_r s2) s2) by reflexivity.
    assert (He : errorHandler e0 = (ipReflect ;;; ipNext ;;; ret e0)) by (destruct Fe as [->|[->| ->]]; reflexivity).
    rewrite He. destruct (r_handler (s_r s2)); unfold mbind.
    - destruct (ipReflect s2) as [[[] s3]|]; [|reflexivity]. destruct (ipNext s3) as [[[] s4]|]; [|reflexivity].
      destruct Fe as [->|[->| ->]]; reflexivity.
    - destruct (ipNext s2) as [[[] s3]|]; [|reflexivity]. destruct Fe as [->|[->| ->]]; reflexivity. }
  destruct e; try (refine (Hd _ _); unfold fails; tauto).
  - unfold ret at 2. rewrite (run_bind _ _ s2 ENone s2) by reflexivity. now apply N.
  - unfold ret at 2. rewrite (run_bind _ _ s2 ESkip s2) by reflexivity. now apply N.
  - reflexivity.
Qed.

(** ** C95 peek shows the stacks *)

(** The cells of a stack in the order in which they would be popped are
    [pop_n 0 k], [pop_n 1 k], ...: the last one is shown first. *)
Definition stack_line (k : stk) : bytes :=
  lit "[0] " ++ concat (map (fun i => dec (pop_n i k) ++ [32]) (rev (seq 0 (length (s_list k))))) ++ [10].

Lemma peek_cells_line k : forall n : nat, peek_cells n k = concat (map (fun i => dec (pop_n i k) ++ [32]) (rev (seq 0 n))).
Proof.
  induction n as [|n IH]; [reflexivity|]. rewrite seq_S, rev_app_distr. cbn [peek_cells rev app map concat plus].
  rewrite IH, get_pop_n, <- app_assoc. reflexivity.
Qed.
Lemma peek_all_run : forall l s, peek_all l s = Ok (tt, printed (concat (map stack_line l)) s).
Proof.
  induction l as [|k l IH]; intros s; cbn [peek_all map concat]; [now rewrite printed_nil|].
  rewrite (run_bind _ _ _ _ _ (out_run _ s)), IH, printed_app. unfold stack_line, stk_size. rewrite Nat2Z.id, peek_cells_line. reflexivity.
Qed.

Theorem C95_all : forall F d sel r is s, Ip s sel = Some r -> skipws (is_rest is) = [] ->
  command_run F d sel CPeek is s = Ok ((d, sel, false), printed (concat (map stack_line (ss_list (r_ss r)))) s).
Proof.
  intros F d sel r is s I E. cbn [command_run]. unfold read_num. rewrite E.
  rewrite (run_bind _ _ _ _ _ (find_ip _ _ _ I)). cbn [Z.eqb]. rewrite (run_bind _ _ _ _ _ (peek_all_run _ s)). reflexivity.
Qed.

(** Numbers typed after the command. *)
Lemma take_dec : forall ds rest n, Forall digit ds -> match rest with [] => True | c :: _ => isdigit c = false end ->
  take_digits (ds ++ rest) n = (digits_value n ds, rest).
Proof.
  induction ds as [|c ds IH]; intros rest n Fd R; cbn [app take_digits digits_value].
  - destruct rest as [|c t]; cbn [take_digits]; [reflexivity|]. now rewrite R.
  - inversion Fd as [|? ? D Fd']; subst. assert (Dc : isdigit c = true) by (unfold digit, isdigit in *; lia).
    rewrite Dc, IH by assumption. reflexivity.
Qed.
Lemma read_num_dec n rest : 0 <= n < 2 ^ 64 -> match rest with [] => True | c :: _ => isdigit c = false end ->
  read_num (32 :: dec n ++ rest) = Some (n, rest).
Proof.
  intros H R. unfold read_num. cbn [skipws]. change (isspace 32) with true. cbv iota.
  unfold dec. rewrite (proj2 (Z.ltb_ge n 0)) by lia.
  destruct (dec_nat_spec n) as (Fd & Ne & V & _); [lia|].
  pose proof (take_dec (dec_nat n) rest 0 Fd R) as T. rewrite V in T.
  destruct (dec_nat n) as [|c t]; [congruence|]. cbn [app] in *. pose proof (Forall_inv Fd) as Dc.
  assert (Sp : isspace c = false) by (unfold digit, isspace in *; lia). cbn [skipws]. rewrite Sp.
  assert (Sg : (c =? 43) || (c =? 45) = false) by (unfold digit in *; lia). rewrite Sg.
  unfold bytes in *. rewrite T. rewrite (proj2 (Z.ltb_lt n (2 ^ 64))) by lia. reflexivity.
Qed.

(** [peek c n] shows the [c]-th cell, counted from 1 in the order of popping, of the
    [n]-th stack, counted from 0 at the top of the stack stack; [peek c] that of the
    top stack.  A cell that is not there is 0, as when it is popped. *)
Theorem C95_cell_partial : forall F d sel r c n k s, Ip s sel = Some r ->
  0 < c < 2 ^ 64 -> nth_error (ss_list (r_ss r)) n = Some k -> Z.of_nat n < 2 ^ 64 ->
  let shown := Ok ((d, sel, false), printed (dec (pop_n (Z.to_nat (c - 1)) k) ++ [10]) s) in
  command_run F d sel CPeek {| is_rest := 32 :: dec c ++ 32 :: dec (Z.of_nat n); is_fail := false |} s = shown /\
  (n = O -> command_run F d sel CPeek {| is_rest := 32 :: dec c; is_fail := false |} s = shown).
Proof.
  intros F d sel r c n k s I Hc K Hn shown.
  assert (L : (n < length (ss_list (r_ss r)))%nat) by (apply nth_error_Some; congruence).
  assert (G : stk_get c k = pop_n (Z.to_nat (c - 1)) k) by (rewrite <- get_pop_n; f_equal; lia).
  assert (Go : forall rest m, read_num rest = Some (Z.of_nat n, m) ->
    (match read_num rest with
     | Some (n, _) => if n <? Z.of_nat (ss_size (r_ss r)) then
         k <- lift (ss_at (r_ss r) (Z.to_nat n)) ;; out (dec (stk_get c k) ++ [10]) ;;; ret (d, sel, false) else fail BadOob
     | None => fail BadUnmodelled end) s = shown).
  { intros rest m ->. rewrite (proj2 (Z.ltb_lt _ _)) by (unfold ss_size; lia). rewrite Nat2Z.id.
    assert (A : ss_at (r_ss r) n = Ok k) by (unfold ss_at; now rewrite K).
    rewrite (run_bind _ _ _ _ _ (run_lift _ _ s A)), (run_bind _ _ _ _ _ (out_run _ s)), G. reflexivity. }
  split.
  - cbn [command_run is_rest]. rewrite (read_num_dec c) by (try lia; reflexivity).
    rewrite (run_bind _ _ _ _ _ (find_ip _ _ _ I)), (proj2 (Z.eqb_neq c 0)) by lia.
    refine (Go (32 :: dec (Z.of_nat n)) [] _). rewrite <- (app_nil_r (dec _)). apply read_num_dec; [lia|exact Logic.I].
  - intros ->. cbn [command_run is_rest]. rewrite <- (app_nil_r (dec c)), (read_num_dec c) by (try lia; exact Logic.I).
    rewrite (run_bind _ _ _ _ _ (find_ip _ _ _ I)), (proj2 (Z.eqb_neq c 0)) by lia.
    exact (Go [] [] eq_refl).
Qed.

(** A stack that is not there is read all the same: the behaviour is undefined for
    every such number. *)
Theorem C95_refuted : forall F d sel r c n s, Ip s sel = Some r ->
  0 < c < 2 ^ 64 -> Z.of_nat (length (ss_list (r_ss r))) <= n < 2 ^ 64 ->
  command_run F d sel CPeek {| is_rest := 32 :: dec c ++ 32 :: dec n; is_fail := false |} s = Bad BadOob.
Proof.
  intros F d sel r c n s I Hc Hn. cbn [command_run is_rest]. rewrite (read_num_dec c) by (try lia; reflexivity).
  rewrite (run_bind _ _ _ _ _ (find_ip _ _ _ I)), (proj2 (Z.eqb_neq c 0)) by lia.
  rewrite <- (app_nil_r (dec n)), read_num_dec by (try lia; exact Logic.I).
  rewrite (proj2 (Z.ltb_ge _ _)) by (unfold ss_size; lia). reflexivity.
Qed.

(** ** C96 list and get show Funge-space *)

(** The IP of thread [t] stands at [p]. *)
Definition standing (s : st) (p : vec) (t : Z * thread) : bool :=
  match th_runner (snd t) with
  | Some q => match Ip s q with Some x => veqb (r_pos x) p | None => false end
  | None => false
  end.
(** Every IP the debugger has seen still exists. *)
Definition all_alive (d : dbg) (s : st) : Prop :=
  Forall (fun t => exists q x, th_runner (snd t) = Some q /\ Ip s q = Some x) (d_threads d).
(** The character in a cell, with a highlight for: a listed IP, a breakpoint, a
    watchpoint, the centre, the selected IP. *)
Definition shown (d : dbg) (f : field) (s : st) (center here p : vec) : bytes :=
  let marks := esc (existsb (standing s p) (d_threads d)) "[43;1m" ++
    esc (set_contains p (d_break d)) "[41;1m" ++ esc (set_contains p (d_watch d)) "[34;1m" ++
    esc (veqb p center) "[4m" ++ esc (veqb p here) "[42;1m" in
  marks ++ [to_u8 (f_get f p)] ++ match marks with [] => [] | _ => 27 :: lit "[0m" end.
(** The point that differs from the centre at most in two dimensions. *)
Definition point (center : vec) (dx dy : nat) (x y : Z) : vec := vset (vset center dx x) dy y.
(** The rectangle of cells, row by row. *)
Definition screen (d : dbg) (f : field) (s : st) (center here : vec) (dx dy : nat) (a b : Z) : bytes :=
  concat (map (fun y =>
    concat (map (fun x => shown d f s center here (point center dx dy x y))
                (zrange (Z.to_nat (2 * a + 1)) (vget center dx - a))) ++ [10])
    (zrange (Z.to_nat (2 * b + 1)) (vget center dy - b))).

Lemma any_ip_run s0 : forall l p s, (forall q, Ip s q = Ip s0 q) ->
  Forall (fun t => exists q x, th_runner (snd t) = Some q /\ Ip s0 q = Some x) l ->
  any_ip p l s = Ok (existsb (standing s0 p) l, s).
Proof.
  induction l as [|[i t] l IH]; intros p s Q H; cbn [any_ip existsb]; [reflexivity|].
  inversion H as [|? ? (q & x & E & Iq) H']; subst. cbn [snd] in E. unfold standing at 1. cbn [snd]. rewrite E, Iq.
  rewrite (run_bind _ _ s x s); [|apply find_ip; now rewrite Q].
  destruct (veqb (r_pos x) p); cbn [orb]; [reflexivity|]. now apply IH.
Qed.
Lemma veqb_same a p q : Same_vec p q -> veqb a p = veqb a q.
Proof.
  intros S. destruct (veqb a p) eqn:E, (veqb a q) eqn:E'; try reflexivity; exfalso.
  - rewrite (proj2 (veqb_spec a q)) in E'; [discriminate|]. intros i. rewrite <- S. now apply veqb_spec.
  - rewrite (proj2 (veqb_spec a p)) in E; [discriminate|]. intros i. rewrite S. now apply veqb_spec.
Qed.
Lemma vltb_same a b p q : Same_vec a p -> Same_vec b q -> vltb a b = vltb p q.
Proof.
  intros S1 S2. destruct (vltb a b) eqn:E, (vltb p q) eqn:E'; try reflexivity; exfalso.
  - rewrite (proj2 (vltb_spec p q)) in E'; [discriminate|]. apply vltb_spec in E. destruct E as (i & H1 & H2).
    exists i. rewrite <- S1, <- S2. split; [exact H1|]. intros j L. rewrite <- S1, <- S2. auto.
  - rewrite (proj2 (vltb_spec a b)) in E; [discriminate|]. apply vltb_spec in E'. destruct E' as (i & H1 & H2).
    exists i. rewrite S1, S2. split; [exact H1|]. intros j L. rewrite S1, S2. auto.
Qed.
Lemma contains_same p q l : Same_vec p q -> set_contains p l = set_contains q l.
Proof.
  intros S. unfold set_contains. apply existsb_ext. intros x.
  rewrite (vltb_same x p x q), (vltb_same p x q x) by (try exact S; intros i; reflexivity). reflexivity.
Qed.
Lemma shown_same d f s c h p q : Same_vec p q -> shown d f s c h p = shown d f s c h q.
Proof.
  intros S. unfold shown. rewrite (contains_same p q _ S), (contains_same p q _ S).
  rewrite (veqb_sym p c), (veqb_sym p h), (veqb_same c p q S), (veqb_same h p q S), (veqb_sym c q), (veqb_sym h q).
  rewrite (f_get_ext f p q) by exact S.
  rewrite (existsb_ext (standing s p) (standing s q)); [reflexivity|].
  intros [i t]. unfold standing. cbn [snd]. destruct (th_runner t) as [r|]; [|reflexivity]. destruct (Ip s r); [|reflexivity].
  now apply veqb_same.
Qed.

Lemma ip_printed o s q : Ip (printed o s) q = Ip s q.
Proof. reflexivity. Qed.
Lemma field_cell_run d n c h p s0 s : (exists o, s = printed o s0) -> all_alive d s0 ->
  field_cell d n c h p s = Ok (tt, printed (shown d (u_field (w_uni (s_w s0) n)) s0 c h p) s).
Proof.
  intros (o & ->) A. unfold field_cell.
  rewrite (run_bind (fget n p) _ _ (f_get (u_field (w_uni (s_w s0) n)) p) (printed o s0)) by reflexivity.
  rewrite (run_bind _ _ _ _ _ (any_ip_run s0 (d_threads d) p (printed o s0) (fun q => eq_refl) A)).
  rewrite out_run. reflexivity.
Qed.

(** [p] is the point with coordinates [x] and [y]. *)
Definition At (center : vec) (dx dy : nat) (x y : Z) (p : vec) : Prop := Same_vec p (point center dx dy x y).
Lemma at_get center dx dy x y p i : (dx < dy)%nat -> At center dx dy x y p ->
  vget p i = if Nat.eqb i dy then y else if Nat.eqb i dx then x else vget center i.
Proof. intros L A. rewrite A. unfold point. now rewrite !vget_vset. Qed.
Lemma vleb_at center dx dy x y x1 y1 p q : (dx < dy)%nat -> At center dx dy x y p -> At center dx dy x1 y1 q ->
  vleb p q = (y <? y1) || ((y =? y1) && (x <=? x1)).
Proof.
  intros L A B. apply Bool.eq_true_iff_eq. rewrite vleb_spec, orb_true_iff, andb_true_iff, Z.ltb_lt, Z.eqb_eq, Z.leb_le.
  pose proof (fun i => at_get _ _ _ _ _ _ i L A) as Ga. pose proof (fun i => at_get _ _ _ _ _ _ i L B) as Gb.
  split.
  - intros [(i & H1 & H2)|H].
    + rewrite Ga, Gb in H1. revert H1. destruct (Nat.eqb_spec i dy) as [E1|N1]; intros H1; [left; lia|].
      revert H1. destruct (Nat.eqb_spec i dx) as [E1|N2]; intros H1; [|lia]. right. subst i.
      specialize (H2 dy L). rewrite Ga, Gb, Nat.eqb_refl in H2. lia.
    + right. pose proof (H dy) as Hy. rewrite Ga, Gb, Nat.eqb_refl in Hy. pose proof (H dx) as Hx. rewrite Ga, Gb, Nat.eqb_refl in Hx.
      destruct (Nat.eqb_spec dx dy); lia.
  - intros [H|(H1 & H2)].
    + left. exists dy. rewrite Ga, Gb, Nat.eqb_refl. split; [lia|]. intros j Lj. rewrite Ga, Gb.
      destruct (Nat.eqb_spec j dy); [lia|]. destruct (Nat.eqb_spec j dx); [lia|reflexivity].
    + subst y1. destruct (Z.eq_dec x x1) as [->|Nx].
      * right. intros i. now rewrite Ga, Gb.
      * left. exists dx. rewrite Ga, Gb, Nat.eqb_refl. destruct (Nat.eqb_spec dx dy); [lia|]. split; [lia|].
        intros j Lj. rewrite Ga, Gb. destruct (Nat.eqb_spec j dy); [reflexivity|]. destruct (Nat.eqb_spec j dx); [lia|reflexivity].
Qed.
Lemma vgetZ_nat v n : vgetZ v (Z.of_nat n) = vget v n.
Proof. unfold vgetZ. rewrite (proj2 (Z.leb_le 0 _)) by lia. now rewrite Nat2Z.id. Qed.
Lemma vsetZ_nat v n x : Z.of_nat n < 2 ^ 32 -> vsetZ v (Z.of_nat n) x = Ok (vset v n x).
Proof.
  intros H. unfold vsetZ. rewrite (proj2 (Z.leb_le 0 _)), (proj2 (Z.ltb_lt _ _)) by lia. cbn [andb]. now rewrite Nat2Z.id.
Qed.

Section Screen.
  Variables (d : dbg) (n : nat) (s0 : st) (center here start stop dim : vec) (dx dy : nat) (x0 x1 y0 y1 : Z).
  Hypothesis (L : (dx < dy)%nat) (Ly : Z.of_nat dy < 2 ^ 32).
  Hypothesis (Dx : vget dim 0 = Z.of_nat dx) (Dy : vget dim 1 = Z.of_nat dy).
  Hypothesis (Start : At center dx dy x0 y0 start) (Stop : At center dx dy x1 y1 stop).
  Hypothesis (Bx : INT64_MIN <= x0 <= x1) (Bx1 : x1 < INT64_MAX) (By : INT64_MIN <= y0 <= y1) (By1 : y1 < INT64_MAX).
  Hypothesis A : all_alive d s0.
  Let sh x y := shown d (u_field (w_uni (s_w s0) n)) s0 center here (point center dx dy x y).

  Lemma cell_step x y p o : At center dx dy x y p -> x0 <= x <= x1 -> y0 <= y <= y1 ->
    exists p', field_step d n center here start stop dim p (printed o s0) =
      Ok (inl p', printed (o ++ sh x y ++ (if x <? x1 then [] else [10])) s0) /\
      At center dx dy (if x <? x1 then x + 1 else x0) (if x <? x1 then y else y + 1) p'.
  Proof.
    intros P Hx Hy. unfold field_step. rewrite (vleb_at _ _ _ _ _ _ _ _ _ L P Stop).
    assert (T : (y <? y1) || (y =? y1) && (x <=? x1) = true) by lia. rewrite T.
    rewrite (run_bind _ _ _ _ _ (field_cell_run d n center here p s0 (printed o s0) (ex_intro _ o eq_refl) A)).
    rewrite (shown_same _ _ _ _ _ p (point center dx dy x y) P). fold (sh x y). rewrite printed_app.
    rewrite Dx, Dy, !vgetZ_nat.
    assert (G : forall i, vget p i = if Nat.eqb i dy then y else if Nat.eqb i dx then x else vget center i) by (intros; now apply at_get).
    assert (Gx : vget p dx = x) by (rewrite G, Nat.eqb_refl; destruct (Nat.eqb_spec dx dy); lia).
    rewrite Gx.
    assert (A1 : add64 x 1 = Ok (x + 1)) by (apply chk64_ok; unfold in64; lia).
    rewrite (run_bind _ _ _ _ _ (run_lift _ _ _ A1)).
    rewrite (run_bind _ _ _ _ _ (run_lift _ _ _ (vsetZ_nat p dx (x + 1) ltac:(lia)))).
    rewrite !vgetZ_nat, !vget_vset, Nat.eqb_refl.
    assert (Ex : vget stop dx = x1) by (rewrite (at_get _ _ _ _ _ _ dx L Stop), Nat.eqb_refl; destruct (Nat.eqb_spec dx dy); lia).
    rewrite Ex. destruct (Z.ltb_spec x x1) as [Hl|Hl].
    - rewrite (proj2 (Z.ltb_ge x1 (x + 1))) by lia. eexists. split; [rewrite app_nil_r; reflexivity|].
      intros i. rewrite vget_vset, G. unfold point. rewrite !vget_vset.
      destruct (Nat.eqb_spec i dx) as [->|]; [|reflexivity]. destruct (Nat.eqb_spec dx dy); [lia|reflexivity].
    - rewrite (proj2 (Z.ltb_lt x1 (x + 1))) by lia.
      assert (Ey : (Nat.eqb dy dx) = false) by (apply Nat.eqb_neq; lia). rewrite Ey.
      assert (Gy : vget p dy = y) by (rewrite G, Nat.eqb_refl; reflexivity). rewrite Gy.
      assert (A2 : add64 y 1 = Ok (y + 1)) by (apply chk64_ok; unfold in64; lia).
      rewrite (run_bind _ _ _ _ _ (run_lift _ _ _ A2)).
      rewrite (run_bind _ _ _ _ _ (run_lift _ _ _ (vsetZ_nat _ dy (y + 1) Ly))).
      rewrite (run_bind _ _ _ _ _ (run_lift _ _ _ (vsetZ_nat _ dx _ ltac:(lia)))).
      rewrite (run_bind _ _ _ _ _ (out_run _ _)), printed_app, <- app_assoc. eexists. split; [reflexivity|].
      assert (Es : vget start dx = x0) by (rewrite (at_get _ _ _ _ _ _ dx L Start), Nat.eqb_refl; destruct (Nat.eqb_spec dx dy); lia).
      intros i. rewrite !vget_vset, Es, G. unfold point. rewrite !vget_vset.
      destruct (Nat.eqb_spec i dx) as [->|]; [destruct (Nat.eqb_spec dx dy); [lia|reflexivity]|].
      destruct (Nat.eqb_spec i dy); reflexivity.
  Qed.

  Lemma row_run : forall k F x y p o, At center dx dy x y p -> x0 <= x -> Z.of_nat k = x1 - x -> y0 <= y <= y1 ->
    (k + 1 < Pos.to_nat F)%nat ->
    exists p' F', loopM F (field_step d n center here start stop dim) p (printed o s0) =
      loopM F' (field_step d n center here start stop dim) p' (printed (o ++ concat (map (fun x => sh x y) (zrange (S k) x)) ++ [10]) s0) /\
      At center dx dy x0 (y + 1) p' /\ Pos.to_nat F = (Pos.to_nat F' + k + 1)%nat.
  Proof.
    induction k as [|k IH]; intros F x y p o P Hx Hk Hy Hf.
    - destruct (cell_step x y p o P ltac:(lia) Hy) as (p' & E & P'). assert (Nx : x <? x1 = false) by lia. rewrite Nx in E, P'.
      exists p', (Pos.pred F). rewrite (loopM_inl F _ _ _ _ _ ltac:(lia) E). cbn [zrange map concat]. rewrite app_nil_r.
      split; [reflexivity|]. split; [exact P'|]. lia.
    - destruct (cell_step x y p o P ltac:(lia) Hy) as (p' & E & P'). assert (Nx : x <? x1 = true) by lia. rewrite Nx in E, P'.
      rewrite (loopM_inl F _ _ _ _ _ ltac:(lia) E), app_nil_r.
      destruct (IH (Pos.pred F) (x + 1) y p' (o ++ sh x y) P' ltac:(lia) ltac:(lia) Hy ltac:(lia)) as (p2 & F2 & E2 & P2 & HF).
      exists p2, F2. rewrite E2. cbn [zrange map concat]. rewrite <- !app_assoc. split; [reflexivity|]. split; [exact P2|lia].
  Qed.

  Lemma rows_run : forall k F y p o, At center dx dy x0 y p -> y0 <= y -> Z.of_nat k = y1 + 1 - y ->
    (k * Z.to_nat (x1 - x0 + 1) < Pos.to_nat F)%nat ->
    loopM F (field_step d n center here start stop dim) p (printed o s0) =
      Ok (tt, printed (o ++ concat (map (fun y => concat (map (fun x => sh x y) (zrange (Z.to_nat (x1 - x0 + 1)) x0)) ++ [10]) (zrange k y))) s0).
  Proof.
    induction k as [|k IH]; intros F y p o P Hy Hk Hf.
    - apply loopM_inr. unfold field_step. rewrite (vleb_at _ _ _ _ _ _ _ _ _ L P Stop).
      assert (T : (y <? y1) || (y =? y1) && (x0 <=? x1) = false) by lia. rewrite T. cbn [zrange map concat]. now rewrite app_nil_r.
    - assert (W : Z.to_nat (x1 - x0 + 1) = S (Z.to_nat (x1 - x0))) by lia.
      rewrite Nat.mul_succ_l in Hf. pose proof (Nat.le_0_l (k * Z.to_nat (x1 - x0 + 1))) as Pk.
      destruct (row_run (Z.to_nat (x1 - x0)) F x0 y p o P ltac:(lia) ltac:(lia) ltac:(lia) ltac:(lia)) as (p' & F' & E & P' & HF).
      rewrite E, (IH F' (y + 1) p' _ P' ltac:(lia) ltac:(lia) ltac:(lia)). rewrite W. cbn [zrange map concat]. rewrite <- !app_assoc. reflexivity.
  Qed.
End Screen.

(** A half-width and half-height in the dimensions [dx] and [dy], nothing else. *)
Definition extent (size : vec) (dx dy : nat) (a b : Z) : Prop := Same_vec size (vset (vset [] dx a) dy b).
Definition roomy (center : vec) (i : nat) (a : Z) : Prop := INT64_MIN <= vget center i - a /\ vget center i + a < INT64_MAX.

Lemma print_field_run F d n center size dim here s dx dy a b :
  (dx < dy)%nat -> Z.of_nat dy < 2 ^ 32 -> vget dim 0 = Z.of_nat dx -> vget dim 1 = Z.of_nat dy ->
  extent size dx dy a b -> 0 <= a -> 0 <= b -> roomy center dx a -> roomy center dy b ->
  (forall i, in64 (vget center i)) -> all_alive d s -> (2 * a + 1) * (2 * b + 1) < Z.pos F ->
  print_field F d n center size dim here s = Ok (tt, printed (screen d (u_field (w_uni (s_w s) n)) s center here dx dy a b) s).
Proof.
  intros L Ly Dx Dy Ex Ha Hb Rx Ry Wf A HF. unfold print_field.
  assert (Sz : forall i, vget size i = if Nat.eqb i dy then b else if Nat.eqb i dx then a else 0).
  { intros i. rewrite Ex, !vget_vset. now rewrite vget_out by (cbn; lia). }
  unfold roomy in *.
  destruct (vsub_defined center size) as (start & E1).
  { intros i. rewrite Sz. specialize (Wf i). unfold in64 in *. destruct (Nat.eqb_spec i dy) as [->|]; [lia|].
    destruct (Nat.eqb_spec i dx) as [->|]; lia. }
  destruct (vadd_defined center size) as (stop & E2).
  { intros i. rewrite Sz. specialize (Wf i). unfold in64 in *. destruct (Nat.eqb_spec i dy) as [->|]; [lia|].
    destruct (Nat.eqb_spec i dx) as [->|]; lia. }
  rewrite (run_bind _ _ _ _ _ (run_lift _ _ _ E1)), (run_bind _ _ _ _ _ (run_lift _ _ _ E2)).
  assert (St : At center dx dy (vget center dx - a) (vget center dy - b) start).
  { intros i. rewrite (vsub_get _ _ _ E1), Sz. unfold point. rewrite !vget_vset. destruct (Nat.eqb_spec i dy) as [->|]; [reflexivity|].
    destruct (Nat.eqb_spec i dx) as [->|]; [reflexivity|lia]. }
  assert (Sp : At center dx dy (vget center dx + a) (vget center dy + b) stop).
  { intros i. rewrite (vadd_get _ _ _ E2), Sz. unfold point. rewrite !vget_vset. destruct (Nat.eqb_spec i dy) as [->|]; [reflexivity|].
    destruct (Nat.eqb_spec i dx) as [->|]; [reflexivity|lia]. }
  rewrite <- (printed_nil s) at 1.
  rewrite (rows_run d n s center here start stop dim dx dy (vget center dx - a) (vget center dx + a) (vget center dy - b) (vget center dy + b)
    L Ly Dx Dy St Sp ltac:(lia) ltac:(lia) ltac:(lia) ltac:(lia) A (Z.to_nat (2 * b + 1)) F (vget center dy - b) start [] St ltac:(lia) ltac:(lia)).
  - cbn [app]. unfold screen. replace (vget center dx + a - (vget center dx - a) + 1) with (2 * a + 1) by lia. reflexivity.
  - replace (vget center dx + a - (vget center dx - a) + 1) with (2 * a + 1) by lia. nia.
Qed.

Lemma vread_typed_some v tail F : coords v F ->
  exists r, vread F (typed v tail) = Ok (r, {| is_rest := tail; is_fail := false |}) /\ Same_vec r v /\ r <> [].
Proof.
  intros C. destruct (vread_typed v tail F C) as (r & E & G). exists r. split; [exact E|]. split; [exact G|].
  intros ->. revert E. unfold vread, typed. rewrite extract_space. unfold vprint. cbn [app].
  change (extract {| is_rest := 40 :: (vprint_loop v ++ [41]) ++ tail; is_fail := false |} 0)
    with (40, {| is_rest := (vprint_loop v ++ [41]) ++ tail; is_fail := false |}). cbn [is_fail Z.eqb Pos.eqb].
  destruct (extract _ 40) as [c2 is2]. destruct (loop _ _ _) as [x|]; cbn [bind]; [|discriminate].
  destruct (if vr_neg x then _ else _) as [y|]; cbn [bind]; [|discriminate]. intros [= E _]. revert E.
  assert (N : forall l, l <> [] -> normalize l <> []).
  { intros l. unfold normalize. generalize (length l) at 1. intros k. revert l. induction k as [|k IH]; intros l Hl; cbn [normalize_loop]; [exact Hl|].
    destruct ((1 <? Z.of_nat (length l)) && (last l 0 =? 0)) eqn:T; [|exact Hl]. apply IH. apply andb_true_iff in T. destruct T as (T & _).
    apply Z.ltb_lt in T. destruct l as [|u [|w l]]; cbn in T; try lia. cbn [removelast]. destruct l; discriminate. }
  apply N. unfold vset. apply N. unfold VectorModel.pad. destruct (vr_vec x) as [|u l]; cbn; [destruct (vr_d x); discriminate|destruct (vr_d x); discriminate].
Qed.

(** list with a size and dimensions, in ascending order, prints the rectangle around
    the selected IP. *)
Theorem C96_list_partial : forall F d sel r size dim tail s dx dy a b, Ip s sel = Some r ->
  coords size F -> coords dim F -> vget dim 0 = Z.of_nat dx -> vget dim 1 = Z.of_nat dy ->
  (dx < dy)%nat -> Z.of_nat dy < 2 ^ 32 -> extent size dx dy a b -> 0 <= a -> 0 <= b ->
  (forall i, in64 (vget (r_pos r) i)) -> roomy (r_pos r) dx a -> roomy (r_pos r) dy b ->
  (2 * a + 1) * (2 * b + 1) < Z.pos F -> all_alive d s ->
  command_run F d sel CList (typed size (32 :: vprint dim ++ tail)) s =
  Ok ((d, sel, false), printed (screen d (u_field (w_uni (s_w s) (r_uni r))) s (r_pos r) (r_pos r) dx dy a b) s).
Proof.
  intros F d sel r size dim tail s dx dy a b I Cs Cd Dx Dy L Ly Ex Ha Hb Wf Rx Ry HF A.
  destruct (vread_typed_some size (32 :: vprint dim ++ tail) F Cs) as (v1 & E1 & S1 & N1).
  destruct (vread_typed_some dim tail F Cd) as (v2 & E2 & S2 & N2).
  cbn [command_run]. rewrite (run_bind _ _ _ _ _ (find_ip _ _ _ I)), (run_bind _ _ _ _ _ (run_lift _ _ _ E1)). cbn [fst snd].
  change {| is_rest := 32 :: vprint dim ++ tail; is_fail := false |} with (typed dim tail).
  rewrite (run_bind _ _ _ _ _ (run_lift _ _ _ E2)). cbn [fst snd].
  replace (or_vec v1 [3; 3]) with v1 by (now destruct v1). replace (or_vec v2 [0; 1]) with v2 by (now destruct v2).
  rewrite (run_bind _ _ s tt _ (print_field_run F d (r_uni r) (r_pos r) v1 v2 (r_pos r) s dx dy a b L Ly
    ltac:(now rewrite S2) ltac:(now rewrite S2) ltac:(intros i; rewrite S1; apply Ex) Ha Hb Rx Ry Wf A HF)). reflexivity.
Qed.
(** get likewise, around the typed centre. *)
Theorem C96_get_partial : forall F d sel r center size dim tail s dx dy a b, Ip s sel = Some r ->
  coords center F -> coords size F -> coords dim F -> vget dim 0 = Z.of_nat dx -> vget dim 1 = Z.of_nat dy ->
  (dx < dy)%nat -> Z.of_nat dy < 2 ^ 32 -> extent size dx dy a b -> 0 <= a -> 0 <= b ->
  (forall i, in64 (vget center i)) -> roomy center dx a -> roomy center dy b ->
  (2 * a + 1) * (2 * b + 1) < Z.pos F -> all_alive d s ->
  exists c, Same_vec c center /\
  command_run F d sel CGet (typed center (32 :: vprint size ++ 32 :: vprint dim ++ tail)) s =
  Ok ((d, sel, false), printed (screen d (u_field (w_uni (s_w s) (r_uni r))) s c (r_pos r) dx dy a b) s).
Proof.
  intros F d sel r center size dim tail s dx dy a b I Cc Cs Cd Dx Dy L Ly Ex Ha Hb Wf Rx Ry HF A.
  destruct (vread_typed_some center (32 :: vprint size ++ 32 :: vprint dim ++ tail) F Cc) as (c & E0 & S0 & N0).
  destruct (vread_typed_some size (32 :: vprint dim ++ tail) F Cs) as (v1 & E1 & S1 & N1).
  destruct (vread_typed_some dim tail F Cd) as (v2 & E2 & S2 & N2). exists c. split; [exact S0|].
  cbn [command_run]. rewrite (run_bind _ _ _ _ _ (find_ip _ _ _ I)), (run_bind _ _ _ _ _ (run_lift _ _ _ E0)). cbn [fst snd].
  change {| is_rest := 32 :: vprint size ++ 32 :: vprint dim ++ tail; is_fail := false |} with (typed size (32 :: vprint dim ++ tail)).
  rewrite (run_bind _ _ _ _ _ (run_lift _ _ _ E1)). cbn [fst snd].
  change {| is_rest := 32 :: vprint dim ++ tail; is_fail := false |} with (typed dim tail).
  rewrite (run_bind _ _ _ _ _ (run_lift _ _ _ E2)). cbn [fst snd].
  replace (or_vec c (r_pos r)) with c by (now destruct c).
  replace (or_vec v1 [3; 3]) with v1 by (now destruct v1). replace (or_vec v2 [0; 1]) with v2 by (now destruct v2).
  unfold roomy in *. rewrite <- !S0 in Rx, Ry.
  rewrite (run_bind _ _ s tt _ (print_field_run F d (r_uni r) c v1 v2 (r_pos r) s dx dy a b L Ly
    ltac:(now rewrite S2) ltac:(now rewrite S2) ltac:(intros i; rewrite S1; apply Ex) Ha Hb Rx Ry
    ltac:(intros i; rewrite S0; apply Wf) A HF)). reflexivity.
Qed.

(** The arguments are not optional: at the end of the line an uninitialised character
    is read. *)
Lemma vread_end F is : is_fail is = false -> skipws (is_rest is) = [] -> vread F is = Bad BadOob.
Proof. intros N E. unfold vread, extract. rewrite N, E. reflexivity. Qed.
Theorem C96_refuted : forall F d sel r is size s, Ip s sel = Some r ->
  (is_fail is = false -> skipws (is_rest is) = [] ->
   command_run F d sel CList is s = Bad BadOob /\ command_run F d sel CGet is s = Bad BadOob) /\
  (coords size F -> command_run F d sel CList (typed size []) s = Bad BadOob).
Proof.
  intros F d sel r is size s I. split.
  - intros N E. pose proof (vread_end F is N E) as V. cbn [command_run].
    rewrite !(run_bind _ _ _ _ _ (find_ip _ _ _ I)). split; apply run_bind_bad; unfold lift; now rewrite V.
  - intros C. destruct (vread_typed size [] F C) as (v & E & _). cbn [command_run].
    rewrite !(run_bind _ _ _ _ _ (find_ip _ _ _ I)), (run_bind _ _ _ _ _ (run_lift _ _ _ E)). reflexivity.
Qed.

(** A size that reaches into a dimension above the two shown is never finished. *)
Lemma field_never F d n center here start stop dim dx dy k p s :
  vget dim 0 = Z.of_nat dx -> vget dim 1 = Z.of_nat dy -> (dx < k)%nat -> (dy < k)%nat ->
  vget p k < vget stop k -> (forall j, (k < j)%nat -> vget p j = vget stop j) ->
  forall x, loopM F (field_step d n center here start stop dim) p s <> Ok x.
Proof.
  intros Dx Dy Lx Ly Hk Hj [[] s'] E.
  refine (loopM_post vec unit F (field_step d n center here start stop dim)
    (fun p _ => vget p k < vget stop k /\ forall j, (k < j)%nat -> vget p j = vget stop j) (fun _ _ => False) _ _ p s tt s' (conj Hk Hj) E).
  - clear - Dx Dy Lx Ly. intros p s p' s' (Hk & Hj). unfold field_step. destruct (vleb p stop); [|discriminate].
    unfold mbind at 1. destruct (field_cell _ _ _ _ _ _) as [[[] s1]|]; [|discriminate].
    rewrite Dx, Dy. unfold vsetZ. unfold lift at 1, mbind at 1. destruct (add64 _ _) as [x|]; [|discriminate].
    unfold lift at 1, mbind at 1. destruct (_ && _); [|discriminate]. rewrite Nat2Z.id.
    assert (K : forall v i y, (i < k)%nat -> vget v k < vget stop k /\ (forall j, (k < j)%nat -> vget v j = vget stop j) ->
      vget (vset v i y) k < vget stop k /\ (forall j, (k < j)%nat -> vget (vset v i y) j = vget stop j)).
    { intros v i y Hi (A & B). split; [|intros j Lj]; rewrite vget_vset.
      - destruct (Nat.eqb_spec k i); [lia|exact A].
      - destruct (Nat.eqb_spec j i); [lia|auto]. }
    destruct (_ <? _).
    + unfold lift at 1, mbind at 1. destruct (add64 _ _) as [y|]; [|discriminate].
      unfold lift at 1, mbind at 1. destruct (_ && _); [|discriminate]. rewrite Nat2Z.id.
      unfold lift at 1, mbind at 1. cbv iota.
      unfold mbind, out, ret. intros [= <- _]. apply K; [exact Lx|]. apply K; [exact Ly|]. apply K; [exact Lx|]. now split.
    + intros [= <- _]. apply K; [exact Lx|]. now split.
  - clear - Dx Dy Lx Ly. intros p s [] s' (Hk & Hj). unfold field_step.
    assert (V : vleb p stop = true) by (apply vleb_spec; left; now exists k). rewrite V.
    unfold mbind at 1. destruct (field_cell _ _ _ _ _ _) as [[[] s1]|]; [|discriminate].
    rewrite Dx, Dy. unfold vsetZ. unfold lift at 1, mbind at 1. destruct (add64 _ _) as [x|]; [|discriminate].
    unfold lift at 1, mbind at 1. destruct (_ && _); [|discriminate].
    destruct (_ <? _).
    + unfold lift at 1, mbind at 1. destruct (add64 _ _) as [y|]; [|discriminate].
      unfold lift at 1, mbind at 1. destruct (_ && _); [|discriminate].
      unfold lift at 1, mbind at 1. cbv iota. discriminate.
    + discriminate.
Qed.
Theorem C96_deep_refuted : forall F d sel r size dim tail s dx dy k, Ip s sel = Some r ->
  coords size F -> coords dim F -> vget dim 0 = Z.of_nat dx -> vget dim 1 = Z.of_nat dy ->
  (dx < k)%nat -> (dy < k)%nat -> 0 < vget size k -> (forall j, (k < j)%nat -> vget size j = 0) ->
  forall x, command_run F d sel CList (typed size (32 :: vprint dim ++ tail)) s <> Ok x.
Proof.
  intros F d sel r size dim tail s dx dy k I Cs Cd Dx Dy Lx Ly Hk Hj x.
  destruct (vread_typed_some size (32 :: vprint dim ++ tail) F Cs) as (v1 & E1 & S1 & N1).
  destruct (vread_typed_some dim tail F Cd) as (v2 & E2 & S2 & N2).
  cbn [command_run]. rewrite (run_bind _ _ _ _ _ (find_ip _ _ _ I)), (run_bind _ _ _ _ _ (run_lift _ _ _ E1)). cbn [fst snd].
  change {| is_rest := 32 :: vprint dim ++ tail; is_fail := false |} with (typed dim tail).
  rewrite (run_bind _ _ _ _ _ (run_lift _ _ _ E2)). cbn [fst snd].
  replace (or_vec v1 [3; 3]) with v1 by (now destruct v1). replace (or_vec v2 [0; 1]) with v2 by (now destruct v2).
  unfold mbind at 1. unfold print_field. unfold lift at 1, mbind at 1. destruct (vsub (r_pos r) v1) as [start|] eqn:V1; [|discriminate].
  unfold lift at 1, mbind at 1. destruct (vadd (r_pos r) v1) as [stop|] eqn:V2; [|discriminate].
  destruct (loopM _ _ _ _) as [y|] eqn:E; [|discriminate]. exfalso. revert E.
  apply (field_never F d (r_uni r) (r_pos r) (r_pos r) start stop v2 dx dy k); try (now rewrite S2); try assumption.
  - rewrite (vsub_get _ _ _ V1), (vadd_get _ _ _ V2), S1. lia.
  - intros j L. rewrite (vsub_get _ _ _ V1), (vadd_get _ _ _ V2), S1, (Hj j L). lia.
Qed.

(** Once a listed IP is gone, list and get use it although it is deleted. *)
Lemma any_ip_freed s p : forall l, existsb (standing s p) l = false ->
  Forall (fun t => th_runner (snd t) <> None) l ->
  (exists t q, In t l /\ th_runner (snd t) = Some q /\ Ip s q = None) -> any_ip p l s = Bad BadFreed.
Proof.
  induction l as [|[i t] l IH]; intros N A (t' & q & H & Hr & Hg); [destruct H|]. cbn [any_ip].
  cbn [existsb] in N. apply orb_false_iff in N. destruct N as (N1 & N2). inversion A as [|? ? A1 A2]; subst. cbn [snd] in A1.
  unfold standing in N1. cbn [snd] in N1. destruct (th_runner t) as [q1|] eqn:Et; [|congruence].
  destruct (Ip s q1) as [x|] eqn:Ei.
  - rewrite (run_bind _ _ _ _ _ (find_ip _ _ _ Ei)), N1. apply IH; auto. exists t', q. split; [|auto].
    destruct H as [<-|H]; [|exact H]. cbn [snd] in Hr. congruence.
  - apply run_bind_bad. unfold find_runner. unfold Ip in Ei. destruct (q1 =? r_id (s_r s)); [discriminate|]. now rewrite Ei.
Qed.
Theorem C96_ended_refuted : forall F d sel r size dim tail s, Ip s sel = Some r ->
  coords size F -> coords dim F -> (forall i, 0 <= vget size i) ->
  (forall i, in64 (vget (r_pos r) i - vget size i)) -> (forall i, in64 (vget (r_pos r) i + vget size i)) ->
  Forall (fun t => th_runner (snd t) <> None) (d_threads d) ->
  (exists t q, In t (d_threads d) /\ th_runner (snd t) = Some q /\ Ip s q = None) ->
  (forall t q x, In t (d_threads d) -> th_runner (snd t) = Some q -> Ip s q = Some x ->
     exists i, vget (r_pos x) i <> vget (r_pos r) i - vget size i) ->
  command_run F d sel CList (typed size (32 :: vprint dim ++ tail)) s = Bad BadFreed.
Proof.
  intros F d sel r size dim tail s I Cs Cd Sz W1 W2 A G N.
  destruct (vread_typed_some size (32 :: vprint dim ++ tail) F Cs) as (v1 & E1 & S1 & N1).
  destruct (vread_typed_some dim tail F Cd) as (v2 & E2 & S2 & N2).
  cbn [command_run]. rewrite (run_bind _ _ _ _ _ (find_ip _ _ _ I)), (run_bind _ _ _ _ _ (run_lift _ _ _ E1)). cbn [fst snd].
  change {| is_rest := 32 :: vprint dim ++ tail; is_fail := false |} with (typed dim tail).
  rewrite (run_bind _ _ _ _ _ (run_lift _ _ _ E2)). cbn [fst snd].
  replace (or_vec v1 [3; 3]) with v1 by (now destruct v1). replace (or_vec v2 [0; 1]) with v2 by (now destruct v2).
  apply run_bind_bad. unfold print_field.
  destruct (vsub_defined (r_pos r) v1) as (start & V1); [intros i; rewrite S1; apply W1|].
  destruct (vadd_defined (r_pos r) v1) as (stop & V2); [intros i; rewrite S1; apply W2|].
  rewrite (run_bind _ _ _ _ _ (run_lift _ _ _ V1)), (run_bind _ _ _ _ _ (run_lift _ _ _ V2)).
  apply loopM_err. unfold field_step.
  assert (V : vleb start stop = true).
  { destruct (vleb start stop) eqn:V; [reflexivity|]. exfalso.
    rewrite (proj2 (vleb_spec start stop)) in V; [discriminate|].
    destruct (vbefore_total start stop) as [[T|(i & T & _)]|T]; [now left| |now right].
    exfalso. rewrite (vsub_get _ _ _ V1), (vadd_get _ _ _ V2), S1 in T. specialize (Sz i). lia. }
  rewrite V. apply run_bind_bad. unfold field_cell.
  rewrite (run_bind (fget (r_uni r) start) _ s (f_get (u_field (w_uni (s_w s) (r_uni r))) start) s) by reflexivity.
  apply run_bind_bad. apply any_ip_freed; [|exact A|exact G].
  destruct (existsb _ _) eqn:Ex; [|reflexivity]. exfalso. apply existsb_exists in Ex. destruct Ex as (t & Ht & St).
  unfold standing in St. destruct (th_runner (snd t)) as [q|] eqn:Eq; [|discriminate]. destruct (Ip s q) as [x|] eqn:Ei; [|discriminate].
  destruct (N t q x Ht Eq Ei) as (i & Hi). apply Hi. pose proof (proj1 (veqb_spec _ _) St i) as P.
  rewrite P, (vsub_get _ _ _ V1), S1. reflexivity.
Qed.

(** universe lists every universe, marking the one of the selected IP. *)
Lemma uni_lines_run cur : forall l s, uni_lines cur l s =
  Ok (tt, printed (concat (map (fun x => (if streq cur x then [42; 32] else [32; 32]) ++ x ++ [10]) l)) s).
Proof.
  induction l as [|x l IH]; intros s; cbn [uni_lines map concat]; [now rewrite printed_nil|].
  rewrite (run_bind _ _ _ _ _ (out_run _ s)), IH, printed_app, <- !app_assoc. reflexivity.
Qed.
Theorem C96_universe : forall F d sel r is s, Ip s sel = Some r -> skipws (is_rest is) = [] ->
  let name n := c_name (u_cfg (w_uni (s_w s) n)) in
  command_run F d sel CUniverse is s =
  Ok ((d, sel, false), printed (concat (map (fun n =>
    (if streq (name (r_uni r)) (name n) then lit "* " else lit "  ") ++ name n ++ [10]) (seq 0 (w_nuni (s_w s))))) s).
Proof.
  intros F d sel r is s I E name. cbn [command_run]. rewrite (run_bind _ _ _ _ _ (find_ip _ _ _ I)).
  rewrite (run_bind getW _ s (s_w s) s) by reflexivity.
  assert (Wd : fst (word (is_rest is)) = []) by (unfold word; rewrite E; reflexivity). rewrite Wd.
  rewrite (run_bind (ret sel) _ s sel s) by reflexivity.
  rewrite (run_bind _ _ _ _ _ (uni_lines_run _ _ s)), map_map. reflexivity.
Qed.

(** *** Examples *)

Definition d3 : dbg := addBreakpoint [2] (dgo dbg_new 0 0).
Definition here2 : st := at_ip 0 2 (dstart []).
Lemma ip_here : Ip here2 0 = Some (s_r here2).
Proof. assert (R : r_id (s_r here2) = 0) by (vm_compute; reflexivity). unfold Ip. rewrite R. reflexivity. Qed.
Lemma alive1 : all_alive d3 here2.
Proof.
  assert (E : map (fun t => th_runner (snd t)) (d_threads d3) = [Some 0]) by (vm_compute; reflexivity).
  unfold all_alive. destruct (d_threads d3) as [|t [|]]; [discriminate| |discriminate]. injection E as E.
  constructor; [|constructor]. exists 0, (s_r here2). split; [exact E|exact ip_here].
Qed.
Ltac small_coords := split; [repeat (apply Forall_cons; [split; vm_compute; congruence|]); apply Forall_nil|vm_compute; reflexivity].
Example C94_ex : Ip here2 0 = Some (s_r here2) /\ coords [1; 0; -5] 100 /\
  (r_pos (s_r here2), r_delta (s_r here2)) = ([2], [1]) /\
  match command_run 100 d3 0 CSetpos (typed [1; 0; -5] [10]) here2 with
  | Ok (_, s') => (r_pos (s_r s'), r_delta (s_r s')) | Bad _ => ([], []) end = ([1; 0; -5], [1]).
Proof.
  split; [exact ip_here|]. split; [small_coords|]. split; vm_compute; reflexivity.
Qed.
Example C94_quit_ex : waiting (s_w here2) 0 /\ forall id, waiting (s_w here2) id -> Ip here2 id <> None.
Proof.
  assert (N : w_nuni (s_w here2) = 1%nat) by (vm_compute; reflexivity).
  assert (K : queue (s_w here2) 0 = [0]) by (vm_compute; reflexivity).
  split; [exists 0%nat; rewrite N, K; split; [lia|now left]|].
  intros id (n & L & Q). rewrite N in L. destruct n; [|lia].
  rewrite K in Q. destruct Q as [<-|[]]. rewrite ip_here. discriminate.
Qed.
(** A program whose first character is not an instruction. *)
Definition trapping (debugging : bool) : st :=
  let c := set_c_dims 2 (set_c_std STD_98 cfg_default) in
  the dummy (start (if debugging then set_debug c else c) [200; 64] (lit "run" ++ [10])).
Example C94_trap_ex : exists d1 s1 i s2,
  dbg_tick 100 dbg_new (trapping true) = Ok (d1, s1) /\ ipGet s1 = Ok (i, s1) /\
  execute 100 5 i s1 = Ok (EUnimp, s2) /\ testmode MODE_DEBUG (w_uni (s_w s2) (r_uni (s_r s2))) = true.
Proof.
  assert (Q : match dbg_tick 100 dbg_new (trapping true) with Ok (_, s1) =>
        match execute 100 5 (f_get (u_field (w_uni (s_w s1) (r_uni (s_r s1)))) (r_pos (s_r s1))) s1 with
        | Ok (EUnimp, s2) => testmode MODE_DEBUG (w_uni (s_w s2) (r_uni (s_r s2))) | _ => false end | _ => false end = true)
        by (vm_compute; reflexivity).
  destruct (dbg_tick 100 dbg_new (trapping true)) as [[d1 s1]|]; [|discriminate].
  exists d1, s1, (f_get (u_field (w_uni (s_w s1) (r_uni (s_r s1)))) (r_pos (s_r s1))).
  destruct (execute _ _ _ s1) as [[e s2]|]; [|discriminate]. destruct e; try discriminate.
  exists s2. split; [reflexivity|]. split; [reflexivity|]. split; [reflexivity|exact Q].
Qed.
Example C94_off_ex : testmode MODE_DEBUG (w_uni (s_w (trapping false)) (r_uni (s_r (trapping false)))) = false /\
  match tick_step 100 5 tt (trapping false) with Ok (inr _, s') => r_delta (s_r s') | _ => [] end = [-1].
Proof. split; vm_compute; reflexivity. Qed.
(** Two stacks, the top one a queue. *)
Definition deep : st :=
  {| s_w := s_w here2;
     s_r := set_r_ss {| ss_sel := 0; ss_list := [{| s_mode := 2; s_list := [7; 8; 9]; s_ops := 0 |}; {| s_mode := 0; s_list := [-1; 40]; s_ops := 3 |}] |} (s_r here2) |}.
Lemma ip_deep : Ip deep 0 = Some (s_r deep).
Proof. assert (R : r_id (s_r deep) = 0) by (vm_compute; reflexivity). unfold Ip. rewrite R. reflexivity. Qed.
Example C95_ex : Ip deep 0 = Some (s_r deep) /\
  concat (map stack_line (ss_list (r_ss (s_r deep)))) = lit "[0] 9 8 7 " ++ [10] ++ lit "[0] 40 -1 " ++ [10] /\
  match command_run 100 d3 0 CPeek {| is_rest := lit " 2 1"; is_fail := false |} deep with
  | Ok (_, s') => skipn (length (w_out (s_w deep))) (w_out (s_w s')) | Bad _ => [] end = lit "40" ++ [10].
Proof. split; [exact ip_deep|]. split; vm_compute; reflexivity. Qed.
Example C96_ex : Ip here2 0 = Some (s_r here2) /\ coords [1; 1] 100 /\ coords [0; 1] 100 /\
  extent [1; 1] 0 1 1 1 /\ roomy (r_pos (s_r here2)) 0 1 /\ roomy (r_pos (s_r here2)) 1 1 /\ all_alive d3 here2 /\
  screen d3 (u_field (w_uni (s_w here2) (r_uni (s_r here2)))) here2 (r_pos (s_r here2)) (r_pos (s_r here2)) 0 1 1 1 =
    lit "   " ++ [10] ++ lit "2" ++ (27 :: lit "[43;1m") ++ (27 :: lit "[41;1m") ++ (27 :: lit "[4m") ++ (27 :: lit "[42;1m") ++
    lit "+" ++ (27 :: lit "[0m") ++ lit "@" ++ [10] ++ lit "   " ++ [10] /\
  (forall i, in64 (vget (r_pos (s_r here2)) i)).
Proof.
  assert (P : r_pos (s_r here2) = [2]) by (vm_compute; reflexivity).
  split; [exact ip_here|]. split; [small_coords|]. split; [small_coords|].
  split; [intros [|[|i]]; reflexivity|]. rewrite P. split; [split; vm_compute; congruence|]. split; [split; vm_compute; congruence|].
  split; [exact alive1|]. split; [vm_compute; reflexivity|].
  intros [|i]; [split; vm_compute; congruence|]. rewrite vget_out by (cbn; lia). split; vm_compute; congruence.
Qed.
(** An IP that is gone. *)
Definition d_gone : dbg := dgo d3 1 0.
Example C96_ended_ex : Forall (fun t => th_runner (snd t) <> None) (d_threads d_gone) /\
  (exists t q, In t (d_threads d_gone) /\ th_runner (snd t) = Some q /\ Ip here2 q = None).
Proof.
  assert (E : map (fun t => th_runner (snd t)) (d_threads d_gone) = [Some 0; Some 1]) by (vm_compute; reflexivity).
  destruct (d_threads d_gone) as [|t [|t' [|]]]; try discriminate. injection E as E1 E2.
  split; [constructor; [congruence|constructor; [congruence|constructor]]|].
  exists t', 1. split; [right; now left|]. split; [exact E2|].
  assert (R : (1 =? r_id (s_r here2)) = false) by (vm_compute; reflexivity). unfold Ip. rewrite R. vm_compute. reflexivity.
Qed.
Print Assumptions C94_setpos.
Print Assumptions C94_setdelta.
Print Assumptions C94_quit.
Print Assumptions C94_trap.
Print Assumptions C94_off.
Print Assumptions C95_all.
Print Assumptions C95_cell_partial.
Print Assumptions C95_refuted.
Print Assumptions C96_list_partial.
Print Assumptions C96_get_partial.
Print Assumptions C96_refuted.
Print Assumptions C96_deep_refuted.
Print Assumptions C96_ended_refuted.
Print Assumptions C96_universe.
