(** * Invariants of native threading. *)

From Coq Require Import List Bool Arith Lia.
From Verif Require Import NativeModel.
Import ListNotations.

Lemma who_eqb_spec a b : reflect (a = b) (who_eqb a b).
Proof.
  destruct a as [| |r], b as [| |q]; cbn [who_eqb]; try (constructor; congruence).
  destruct (Nat.eqb_spec r q); constructor; congruence.
Qed.

Lemma who_eqb_refl a : who_eqb a a = true.
Proof. destruct (who_eqb_spec a a); congruence. Qed.

Definition pcM (p : npc) : bool := match p with NAdd1 _ | NAdd2 _ | NKill1 | NKill2 | NW1 | NWU => true | _ => false end.
Definition phM (p : nphase) : bool := match p with NLoop | NPop _ | NUnl => true | _ => false end.
Definition adding (p : npc) (r : nat) : Prop := match p with NAdd0 q | NAdd1 q | NAdd2 q => q = r | _ => False end.
Definition joining (p : nphase) (r : nat) : Prop := match p with NJoin q | NBack q | NPop q => q = r | _ => False end.
Definition joined (p : nphase) (r : nat) : Prop := match p with NBack q | NPop q => q = r | _ => False end.

Ltac ncases H :=
  unfold nfire, nustep, nstep, nlock in H;
  repeat match type of H with
  | None = Some _ => discriminate H
  | Some _ = Some _ => injection H as H
  | context [match ?x with _ => _ end] =>
      match x with context [match _ with _ => _ end] => fail 1 | _ => idtac end;
      let E := fresh "E" in destruct x eqn:E
  end; try discriminate H; try (injection H as H).
Ltac nfields := cbn [n_run n_threads n_value n_mutex n_phase n_pc n_born n_alive n_asleep nset_run nset_threads
  nset_value nset_mutex nset_phase nset_pc nset_born nset_alive nset_asleep n_running] in *.


Lemma nmay_true w y : nmay w y = true -> n_pc y w = NIdle /\ w <> WU /\ forall r, w = WI r -> n_alive y r = true.
Proof. unfold nmay. destruct (n_pc y w), w; intros H; try discriminate H; repeat split; try discriminate; intros q Q; congruence. Qed.
Ltac nmays :=
  try match goal with E : nmay _ _ && negb _ = true |- _ => let B := fresh "Hb" in apply andb_true_iff in E; destruct E as [E B]; apply negb_true_iff in B end;
  try match goal with E : nmay _ _ = true |- _ => let H1 := fresh "Hi" in let H2 := fresh "Hn" in let H3 := fresh "Ha" in apply nmay_true in E; destruct E as (H1 & H2 & H3) end.
Record NLocks (y : nst) : Prop := {
  nl_pc : forall w, pcM (n_pc y w) = true -> n_mutex y = Some w;
  nl_ph : phM (n_phase y) = true -> n_mutex y = Some WU;
  nl_wu : n_pc y WU = NIdle }.
Lemma nlocks_init : NLocks ninit.
Proof. split; cbn; auto; discriminate. Qed.
Ltac nwho := repeat match goal with
    | |- context [who_eqb ?a ?a] => rewrite (who_eqb_refl a)
    | |- context [?a =? ?a] => rewrite (Nat.eqb_refl a)
    | |- context [who_eqb ?a ?b] => destruct (who_eqb_spec a b); [subst|]
    | |- context [?a =? ?b] => destruct (Nat.eqb_spec a b); [subst|]
    end; nfields.
Ltac nknown := repeat match goal with
    | E : n_pc ?y ?w = _, K : context [n_pc ?y ?w] |- _ => rewrite E in K
    | E : n_pc ?y ?w = _ |- context [n_pc ?y ?w] => rewrite E
    | E : n_phase ?y = _, K : context [n_phase ?y] |- _ => rewrite E in K
    | E : n_phase ?y = _ |- context [n_phase ?y] => rewrite E
    end.
(** What the acting thread holds. *)
Ltac nholders L :=
  try match goal with E : n_pc ?y ?w = _ |- _ => let Hm := fresh "Hm" in
    pose proof (nl_pc y L w) as Hm; rewrite E in Hm; cbn [pcM] in Hm; specialize (Hm eq_refl) end;
  try match goal with E : n_phase ?y = _ |- _ => let Hm := fresh "Hm" in
    pose proof (nl_ph y L) as Hm; rewrite E in Hm; cbn [phM] in Hm; specialize (Hm eq_refl) end.
Lemma nlocks_step x y y' : NLocks y -> nfire x y = Some y' -> NLocks y'.
Proof.
  intros L H. pose proof L as [Il Ip Iu].
  destruct x as [w|w r|w| |r|]; ncases H; subst y'; subst; nmays; nholders L;
    (split; [intros ww; pose proof (Il ww) as J|pose proof Ip as J|]); nfields; auto.
  all: nwho; auto; try congruence; cbn [pcM phM] in *; try discriminate; auto.
  all: try (intros Q; specialize (J Q); congruence).
  all: intros Q; specialize (J Q); assert (ww = WU) by congruence; subst ww; rewrite Iu in Q; discriminate.
Qed.
Record NInv (y : nst) : Prop := {
  ni_front : forall r, joining (n_phase y) r -> exists q, n_threads y = r :: q;
  ni_dead : forall r, joined (n_phase y) r -> n_alive y r = false;
  ni_live : forall r, n_alive y r = true -> In r (n_threads y) \/ exists w, n_pc y w = NAdd2 r;
  ni_born : forall r, In r (n_threads y) -> n_born y r = true;
  ni_add : forall w r, adding (n_pc y w) r -> n_born y r = true /\ ~ In r (n_threads y);
  ni_one : forall w w' r, adding (n_pc y w) r -> adding (n_pc y w') r -> w = w';
  ni_ip : forall r, n_pc y (WI r) <> NIdle -> n_alive y r = true;
  ni_wait : n_pc y WM = NWU -> n_running y = false }.

Lemma joined_joining p r : joined p r -> joining p r.
Proof. destruct p; cbn; tauto. Qed.
Lemma ninv_init : NInv ninit.
Proof. split; cbn; try tauto; try discriminate; auto; congruence. Qed.
Lemma ninv_step x y y' : NLocks y -> NInv y -> nfire x y = Some y' -> NInv y'.
Proof.
  intros L [If Id Iv Ib Ia Io Ii Iw] H. pose proof L as [Il Ip Iu].
  destruct x as [w|w r|w| |r|]; ncases H; subst y'; subst; nmays; nholders L;
  (split; [intros rr; pose proof (If rr) as J|intros rr; pose proof (Id rr) as J|intros rr; pose proof (Iv rr) as J
    |intros rr; pose proof (Ib rr) as J|intros ww rr; pose proof (Ia ww rr) as J|intros w1 w2 rr; pose proof (Io w1 w2 rr) as J|intros rr; pose proof (Ii rr) as J|pose proof Iw as J]);
  unfold n_running in *; nfields; auto.
  all: lazymatch goal with
    | |- _ -> _ \/ (exists w, _) => idtac
    | _ => nwho; auto; try congruence; nknown; cbn [adding joining joined] in *; auto; try congruence; try tauto
    end.
  all: repeat match goal with E : n_threads _ = _ |- context [n_threads _] => rewrite E end; auto.
  all: try (intros _; first [apply J; discriminate | now apply Ha]).
  all: try match goal with Hb : n_born ?y ?r = false |- _ =>
    assert (B1 : ~ In r (n_threads y)) by (intros Q; pose proof (Ib r Q); congruence);
    assert (B2 : forall w, ~ adding (n_pc y w) r) by (intros w' Q; destruct (Ia w' r Q); congruence) end.
  all: try (intros _; split; [reflexivity|exact B1]).
  all: try (intros <- Q; exfalso; exact (B2 _ Q)).
  all: try (intros Q <-; exfalso; exact (B2 _ Q)).
  all: try match goal with e : WI _ = WI _ |- _ -> n_alive _ _ = true => injection e as ->; intros _; apply Ii; match goal with E : n_pc _ _ = _ |- _ => rewrite E end; discriminate end.
  (* the IP being added is not yet in the queue *)
  all: try match goal with E : n_pc ?y ?w = ?p |- _ =>
    match p with NAdd1 ?r => idtac | NAdd2 ?r => idtac end;
    match p with NAdd1 ?r => destruct (Ia w r ltac:(rewrite E; reflexivity)) as [A1 A2] | NAdd2 ?r => destruct (Ia w r ltac:(rewrite E; reflexivity)) as [A1 A2] end end.
  all: try (intros Q; exfalso; apply A2; destruct (If _ ltac:(eapply joined_joining, Q)) as [q ->]; now left).
  all: try match goal with |- _ -> _ \/ (exists w, (if who_eqb w ?t then NAdd2 ?r else _) = NAdd2 ?rr) =>
    destruct (Nat.eqb_spec rr r); [subst; intros _; right; exists t; now rewrite who_eqb_refl|] end.
  all: try match goal with |- (if ?b then false else _) = true -> _ => destruct b; [discriminate|exact J] end.
  all: try match goal with |- n_alive _ ?rr = true -> In ?rr (n_threads ?y ++ [?r]) \/ (exists w, (if who_eqb w ?t then _ else _) = _) =>
    intros Q; destruct (J Q) as [Q1|[w' Q1]];
    [left; apply in_or_app; now left|
     destruct (who_eqb_spec w' t); [left; apply in_or_app; right; left; subst; congruence|right; exists w'; destruct (who_eqb_spec w' t); [contradiction|exact Q1]]] end.
  all: try match goal with |- n_alive _ _ = true -> _ \/ (exists w, (if who_eqb w ?t then ?p else _) = _) =>
    intros Q; destruct (J Q) as [Q1|[w' Q1]]; [now left|right; exists w'; destruct (who_eqb_spec w' t); [subst; congruence|exact Q1]] end.
  all: try (intros Q; apply in_app_or in Q; destruct Q as [Q|[<-|[]]]; [now apply J|exact A1]).
  all: try match goal with E : n_pc ?y ?t = NAdd2 ?r |- adding (n_pc ?y ?ww) ?rr -> _ => intros Q; destruct (J Q) as [Q1 Q2]; split; [exact Q1|];
      intros Q3; apply in_app_or in Q3; destruct Q3 as [Q3|[<-|[]]]; [now apply Q2|];
      match goal with N : ww <> t |- _ => apply N; apply (Io ww t r Q); rewrite E; reflexivity end end.
  all: try (intros Q; destruct (J Q) as [q ->]; eexists; reflexivity).
  all: try (intros <-; eauto; fail).
  - intros Q. destruct (J Q) as [Q1|Q1]; [|now right]. left. destruct (If r eq_refl) as [q Eq]. rewrite Eq in *. cbn [tl].
    destruct Q1 as [<-|Q1]; [|exact Q1]. pose proof (Id r eq_refl). congruence.
  - intros Q. apply J. destruct (n_threads y); [exact Q|now right].
  - intros Q. destruct (J Q) as [Q1 Q2]. split; [exact Q1|]. intros X. apply Q2. destruct (n_threads y); [exact X|now right].
  - intros Q. pose proof (Il WM) as K. rewrite Q in K. specialize (K eq_refl). congruence.
  - intros Q. pose proof (Il WM) as K. rewrite Q in K. specialize (K eq_refl). congruence.
  - intros Q. pose proof (Il WM) as K. rewrite Q in K. specialize (K eq_refl). congruence.
Qed.

Lemma nreach_ind : forall (P : nst -> Prop), P ninit ->
  (forall x y y', NLocks y -> P y -> nfire x y = Some y' -> P y') -> forall y, nreachable y -> NLocks y /\ P y.
Proof.
  intros P H0 HS y [ls E].
  assert (G : forall ls y0 y1, NLocks y0 -> P y0 -> nfires ls y0 = Some y1 -> NLocks y1 /\ P y1).
  { clear ls E y. induction ls as [|x ls IH]; intros y0 y1 L Py E; cbn [nfires] in *; [injection E as <-; auto|].
    destruct (nfire x y0) as [y2|] eqn:E2; [|discriminate].
    apply (IH y2); [eapply nlocks_step; eauto|eapply HS; eauto|exact E]. }
  eapply G; [exact nlocks_init|exact H0|exact E].
Qed.
Lemma nreach_inv y : nreachable y -> NLocks y /\ NInv y.
Proof. apply nreach_ind; [exact ninv_init|]. intros. eapply ninv_step; eauto. Qed.

(** No IP is left, and the main thread sleeps: nobody is there to wake it. *)
Definition Stuck (y : nst) : Prop :=
  n_pc y WM = NWS /\ n_asleep y = true /\ (forall r, n_alive y r = false) /\ (forall r, n_pc y (WI r) = NIdle).
Lemma stuck_step x y y' : Stuck y -> x <> NSpurious -> nfire x y = Some y' -> Stuck y'.
Proof.
  intros (S1 & S2 & S3 & S4) N H. unfold Stuck.
  destruct x as [w|w r|w| |r|]; ncases H; subst y'; subst; nmays; nfields; auto.
  all: try (rewrite S4 in *; discriminate).
  all: try congruence.
  all: exfalso; match goal with w : who |- _ => destruct w as [| |q]; [congruence|congruence|]; pose proof (Ha q eq_refl) as X; rewrite S3 in X; discriminate
    | _ => pose proof (Ha _ eq_refl) as X; rewrite S3 in X; discriminate end.
Qed.
