(** * Without transfers every IP is in one place: no IP is used after its deletion. *)

From Coq Require Import List Bool Arith Lia.
From Verif Require Import ThreadModel ThreadProofs.
Import ListNotations.

(** Steps that move no IP from one universe to another. *)
Definition stays (x : label) : bool := match x with Begin _ (OMove _ _) => false | _ => true end.
Definition reachable_without (keep : label -> bool) (y : sys) : Prop :=
  exists ls, forallb keep ls = true /\ fires ls init = Some y.

Lemma without_ind keep : forall (P : sys -> Prop), P init ->
  (forall x y y', Locks y -> P y -> keep x = true -> fire x y = Some y' -> P y') -> forall y, reachable_without keep y -> P y.
Proof.
  intros P H0 HS y (ls & K & E).
  assert (G : forall ls y0 y1, Locks y0 -> P y0 -> forallb keep ls = true -> fires ls y0 = Some y1 -> P y1).
  { clear ls E y K. induction ls as [|x ls IH]; intros y0 y1 L Py K E; cbn [fires forallb] in *; [congruence|].
    apply andb_true_iff in K. destruct K as [K1 K2].
    destruct (fire x y0) as [y2|] eqn:E2; [|discriminate].
    apply (IH y2); auto; [eapply locks_step; eauto|eapply HS; eauto]. }
  eapply G; [exact locks_init|exact H0|exact K|exact E].
Qed.

(** The IP a universe thread handles, still at the front of the queue / taken out of it. *)
Definition handled (p : uphase) (r : nat) : Prop :=
  match p with UPick r' | UTest r' | UTick r' | UBack r' | UPop r' => r' = r | _ => False end.
Definition pending (p : cpc) (n r : nat) : Prop :=
  match p with Add0 n' r' | Add1 n' r' => n' = n /\ r' = r | _ => False end.

Record Owned (y : sys) : Prop := {
  ow_queue : forall n r, In r (u_runners (y_uni y n)) -> y_born y r = true /\ y_home y r = n /\ y_freed y r = false;
  ow_nodup : forall n, NoDup (u_runners (y_uni y n));
  ow_front : forall n r, handled (u_phase (y_uni y n)) r -> exists q, u_runners (y_uni y n) = r :: q;
  ow_place : forall n r, u_phase (y_uni y n) = UPlace r ->
     y_born y r = true /\ y_home y r = n /\ y_freed y r = false /\ ~ In r (u_runners (y_uni y n));
  ow_add : forall t n r, pending (y_pc y t) n r ->
     y_born y r = true /\ y_home y r = n /\ y_freed y r = false /\ ~ In r (u_runners (y_uni y n)) /\
     u_phase (y_uni y n) <> UPlace r;
  ow_one : forall t t' n n' r, pending (y_pc y t) n r -> pending (y_pc y t') n' r -> t = t';
  ow_freed : forall r, y_freed y r = true -> y_born y r = true;
  ow_good : y_bad y = false }.

Lemma stop_all_good : forall l y, (forall r, In r l -> y_freed y r = false) -> y_bad y = false -> y_bad (stop_all l y) = false.
Proof.
  induction l as [|r l IH]; intros y H B; cbn [stop_all]; [exact B|].
  apply IH; cbn [set_stopped use y_bad y_freed]; [intros; apply H; now right|]. rewrite B, (H r) by now left. reflexivity.
Qed.

Ltac wh := unfold updt, upd in *; repeat (match goal with
    | H : context [?a =? ?b] |- _ => destruct (Nat.eqb_spec a b); [subst|]
    | |- context [?a =? ?b] => destruct (Nat.eqb_spec a b); [subst|]
    | H : context [tid_eqb ?a ?b] |- _ => destruct (tid_eqb_spec a b); [subst|]
    | |- context [tid_eqb ?a ?b] => destruct (tid_eqb_spec a b); [subst|]
    end; fields); cbn [pending handled] in *; try tauto; try congruence.

Lemma nodup_snoc (l : list nat) r : NoDup l -> ~ In r l -> NoDup (l ++ [r]).
Proof.
  induction l as [|a l IH]; intros H N; cbn [app]; [constructor; auto; constructor|].
  inversion H; subst. constructor.
  - intros X. apply in_app_or in X. destruct X as [X|[<-|[]]]; [contradiction|]. apply N. now left.
  - apply IH; [assumption|]. intros X. apply N. now right.
Qed.
Lemma owned_init : Owned init.
Proof. split; cbn; try tauto; try discriminate; auto. intros. constructor. Qed.

Lemma owned_step x y y' : Locks y -> Owned y -> stays x = true -> fire x y = Some y' -> Owned y'.
Proof.
  intros L I K H. destruct I as [Iq In_ If Ip Ia Io Ifr Ig].
  destruct x as [t|t o|m|[m|k]]; step_cases H; try discriminate K; subst y';
   (split; [intros nn rr; pose proof (Iq nn rr) as J | intros nn; pose proof (In_ nn) as J | intros nn rr; pose proof (If nn rr) as J | intros nn rr; pose proof (Ip nn rr) as J | intros tt' nn rr; pose proof (Ia tt' nn rr) as J | intros t1 t2 n1 n2 rr; pose proof (Io t1 t2 n1 n2 rr) as J | intros rr; pose proof (Ifr rr) as J | ]);
   casing; try exact J; try exact Ig.
  all: wh.
  all: known; cbn [pending handled] in *; try exact J; try tauto; try congruence.
  all: try (intros Q; destruct (J Q) as (J1 & J2 & J3 & J4 & _); repeat split; auto; discriminate).
  (* the IP in hand is alive *)
  all: try match goal with
    | E : u_phase (y_uni ?y ?n) = UPlace ?r |- _ => destruct (Ip n r E) as (P1 & P2 & P3 & P4)
    | E : u_phase (y_uni ?y ?n) = _ |- _ =>
        match type of E with
        | _ = UTest ?r => idtac | _ = UTick ?r => idtac | _ = UPop ?r => idtac
        end;
        destruct (If n _ ltac:(rewrite E; cbn [handled]; reflexivity)) as [q Hq];
        match type of Hq with _ = ?r :: _ =>
          destruct (Iq n r ltac:(rewrite Hq; now left)) as (P1 & P2 & P3) end
    end.
  all: try (rewrite Ig, P3; reflexivity).
  (* the IP being added *)
  all: try match goal with
    | E : y_pc ?y ?t = Add1 ?n ?r |- _ => destruct (Ia t n r ltac:(rewrite E; cbn [pending]; auto)) as (P1 & P2 & P3 & P4 & P5)
    end.
  (* a new IP *)
  all: try match goal with
    | E : y_born ?y ?r = false |- _ =>
        assert (B1 : forall n, ~ In r (u_runners (y_uni y n))) by (intros n' Q; destruct (Iq n' r Q); congruence);
        assert (B2 : forall n, u_phase (y_uni y n) <> UPlace r) by (intros n' Q; destruct (Ip n' r Q); congruence);
        assert (B3 : forall t n, ~ pending (y_pc y t) n r) by (intros t' n' Q; destruct (Ia t' n' r Q); congruence);
        assert (B4 : y_freed y r = false) by (destruct (y_freed y r) eqn:Q; [pose proof (Ifr r Q); congruence|reflexivity])
    end.
  all: try (intros Q; exfalso; first [now apply (B1 _ Q) | now apply (B2 _ Q) | now apply (B3 _ _ Q)]).
  all: try (intros [Q1 Q2]; subst; first [repeat split; auto; fail | exfalso; congruence]).
  all: try (intros [Q1 Q2] Q3; subst; exfalso; now apply (B3 _ _ Q3)).
  all: try (intros Q3 [Q1 Q2]; subst; exfalso; now apply (B3 _ _ Q3)).
  all: try (intros Q; rewrite Hq in *; cbn [tl] in *).
  - intros <-. rewrite E2. now exists l.
  - apply Iq. rewrite Hq. now right.
  - rewrite Hq in *. cbn [tl]. now inversion J.
  - injection Q as <-. repeat split; auto. specialize (In_ n). rewrite Hq in In_. now inversion In_.
  - destruct (Ia tt' n rr Q) as (A1 & A2 & A3 & A4 & _). rewrite Hq in A4. repeat split; auto.
    + intros X. apply A4. now right.
    + intros X. injection X as <-. apply A4. now left.
  - intros Q. exfalso. now apply P4.
  - intros Q. exfalso. destruct (Iq nn r Q) as (_ & A2 & _). rewrite A2 in *. now apply P4.
  - intros Q. exfalso. destruct (Ip nn r Q) as (_ & A2 & _). congruence.
  - intros Q. exfalso. destruct (Ia tt' nn r Q) as (_ & A2 & _ & _ & A5). rewrite A2 in *. now apply A5.
  - auto.
  - intros Q. apply in_app_or in Q. destruct Q as [Q|[<-|[]]]; [now apply Iq|auto].
  - now apply nodup_snoc.
  - intros Q. destruct (Ia tt' _ rr Q) as (A1 & A2 & A3 & A4 & A5). repeat split; auto; [|discriminate].
    intros X. apply in_app_or in X. destruct X as [X|[<-|[]]]; [now apply A4|]. now apply A5.
  - auto.
  - intros Q. apply in_app_or in Q. destruct Q as [Q|[<-|[]]]; [now apply Iq|auto].
  - intros Q. destruct (Iq nn r Q) as (A1 & A2 & A3). repeat split; auto; congruence.
  - now apply nodup_snoc.
  - intros Q. destruct (If n rr Q) as [q ->]. now exists (q ++ [r]).
  - intros Q. now destruct (P5 Q).
  - intros Q. destruct (Ip n rr Q) as (A1 & A2 & A3 & A4). repeat split; auto.
    intros X. apply in_app_or in X. destruct X as [X|[<-|[]]]; [now apply A4|]. now apply P5.
  - intros Q. destruct (Ip nn r Q) as (A1 & A2 & A3 & A4). repeat split; auto; congruence.
  - intros Q. exfalso. match goal with N : tt' <> ?t |- _ => apply N; apply (Io tt' t n n r Q) end. rewrite E. cbn [pending]. auto.
  - intros Q. destruct (Ia tt' nn r Q) as (A1 & A2 & A3 & A4 & A5). repeat split; auto; congruence.
  - intros Q. destruct (Ia tt' n rr Q) as (A1 & A2 & A3 & A4 & A5). repeat split; auto.
    intros X. apply in_app_or in X. destruct X as [X|[<-|[]]]; [now apply A4|congruence].
  - apply stop_all_good; [|exact Ig]. intros r Q. now destruct (Iq n r Q) as (_ & _ & A).
Qed.
Lemma reach_owned y : reachable_without stays y -> Owned y.
Proof. intros Hr. eapply without_ind; [exact owned_init| |exact Hr]. intros. eapply owned_step; eauto. Qed.

(** ** Waiting for all universes when IPs are only added by their own universe *)

(** The IP a universe thread handles is at the front of its queue (with or without transfers). *)
Lemma reach_front : forall y, reachable y -> forall n r, handled (u_phase (y_uni y n)) r ->
  exists q, u_runners (y_uni y n) = r :: q.
Proof.
  apply (reach_ind (fun y => forall n r, handled (u_phase (y_uni y n)) r -> exists q, u_runners (y_uni y n) = r :: q)); [cbn; tauto|].
  intros x y y' _ I H nn rr. pose proof (I nn rr) as J.
  destruct x as [t|t o|m|[m|k]]; step_cases H; subst y'; casing; try exact J.
  all: unfold upd in *; repeat match goal with
    | |- context [?a =? ?b] => destruct (Nat.eqb_spec a b); [subst; fields|]
    end; fields; known; cbn [handled] in *; try exact J; try tauto.
  - intros <-. rewrite E2. eauto.
  - intros Q. destruct (J Q) as [q ->]. now exists (q ++ [r]).
Qed.

(** IPs are added only by the thread of the universe they are added to. *)
Definition local (x : label) : bool :=
  match x with
  | Begin _ (OMove _ _) => false
  | Begin t (OAdd n _) => tid_eqb t (U n)
  | _ => true
  end.
Definition Local (y : sys) : Prop := forall t n r, pending (y_pc y t) n r -> t = U n.
Lemma local_step x y y' : Local y -> local x = true -> fire x y = Some y' -> Local y'.
Proof.
  intros I K H tt' nn rr. pose proof (I tt' nn rr) as J.
  destruct x as [t|t o|m|[m|k]]; step_cases H; try discriminate K; subst y'; casing; try exact J.
  all: unfold updt; repeat match goal with
    | |- context [tid_eqb ?a ?b] => destruct (tid_eqb_spec a b); [subst; fields|]
    end; known; cbn [pending] in *; try exact J; try tauto; try discriminate.
  intros [-> ->]. cbn [local tid_eqb] in K. apply Nat.eqb_eq in K. congruence.
Qed.

(** Universe [n] was killed, or it has no IP and will get none. *)
Definition Quiet (n : nat) (y : sys) : Prop :=
  u_run (y_uni y n) = false \/ (u_runners (y_uni y n) = [] /\ forall r, u_phase (y_uni y n) <> UPlace r).
Lemma quiet_stops n y : Quiet n y -> is_running (y_uni y n) = false.
Proof. intros [E|[E _]]; unfold is_running; rewrite E; [reflexivity|apply andb_false_r]. Qed.
Lemma quiet_step n x y y' : reachable y -> Local y -> local x = true -> Quiet n y -> fire x y = Some y' -> Quiet n y'.
Proof.
  intros Re Lo K Q H. unfold Quiet in *.
  assert (A : forall r, u_runners (y_uni y n) = [] -> ~ handled (u_phase (y_uni y n)) r).
  { intros r E Hh. destruct (reach_front y Re n r Hh) as [q Eq]. congruence. }
  destruct x as [t|t o|m|[m|k]]; step_cases H; try discriminate K; subst y'; casing; try exact Q.
  all: unfold upd in *; repeat match goal with
    | |- context [?a =? ?b] => destruct (Nat.eqb_spec a b); [subst; fields|]
    end; fields; try exact Q; auto.
  all: destruct Q as [Q|[Q1 Q2]]; [left; congruence|].
  all: try (right; split; [first [exact Q1 | rewrite Q1; reflexivity]|intros rr X; first [discriminate X | now apply (Q2 rr) | match type of X with (if ?b then _ else _) = _ => destruct b; discriminate X end]]).
  all: try (exfalso; eapply Q2; eassumption).
  all: try (exfalso; match goal with E : u_phase (y_uni _ _) = UPop ?r |- _ => apply (A r Q1); rewrite E; reflexivity end).
  all: match goal with E : y_pc _ ?t = Add1 ?n ?r |- _ =>
    exfalso; assert (t = U n) by (apply (Lo t n r); rewrite E; cbn; auto); subst;
    destruct (lk_idle _ (reach_locks _ Re) n) as [r' Er]; [rewrite E; discriminate|];
    apply (A r' Q1); rewrite Er; reflexivity end.
Qed.

(** What a thread that waits for all universes has established. *)
Definition scan_ok (p : cpc) (y : sys) : Prop :=
  match p with
  | Wait0 n (KScan rest _ all) | Wait1 n (KScan rest _ all) | WaitS n (KScan rest _ all) =>
      forall m, In m all -> m = n \/ In m rest \/ Quiet m y
  | WaitU _ (KScan rest _ all) | Scan (KScan rest _ all) => forall m, In m all -> In m rest \/ Quiet m y
  | _ => True
  end.
Lemma scan_ok_mono p y y' : (forall n, Quiet n y -> Quiet n y') -> scan_ok p y -> scan_ok p y'.
Proof.
  intros M H. destruct p; cbn [scan_ok] in *; auto; destruct k; auto; intros m Hm; specialize (H m Hm); intuition.
Qed.
Lemma scan_step x y y' : reachable y -> Local y -> local x = true -> (forall t, scan_ok (y_pc y t) y) ->
  fire x y = Some y' -> forall t, scan_ok (y_pc y' t) y'.
Proof.
  intros Re Lo K I H tt'.
  assert (M : forall n, Quiet n y -> Quiet n y') by (intros n Q; eapply quiet_step; eauto).
  generalize y' at 2 as Y, M. intros Y M'. clear M.
  pose proof (scan_ok_mono _ _ _ M' (I tt')) as J. pose proof (reach_locks _ Re) as L.
  destruct x as [t|t o|m|[m|k]]; step_cases H; try discriminate K; subst y'; casing; try exact J;
    unfold updt; match goal with |- context [tid_eqb ?a ?b] => destruct (tid_eqb_spec a b); [subst tt'|exact J] end;
    known; cbn [scan_ok] in *; auto.
  - destruct k as [|rest b all]; [exact Logic.I|]. intros m Hm. destruct (J m Hm) as [->|[Q|Q]]; auto. right. apply M'.
    unfold is_running in E0. unfold Quiet. destruct (u_run (y_uni y n)); [|now left]. right.
    split; [destruct (u_runners (y_uni y n)); [reflexivity|discriminate]|].
    intros r Ep. pose proof (has_m n t y L) as Hm1. rewrite E in Hm1. cbn [holdsM] in Hm1. rewrite Nat.eqb_refl in Hm1. specialize (Hm1 eq_refl).
    pose proof (uhas_m n y L) as Hm2. rewrite Ep in Hm2. specialize (Hm2 eq_refl).
    assert (t = U n) by congruence. subst t. destruct (lk_idle _ L n) as [r' Er]; [rewrite E; discriminate|congruence].
  - intros m Hm. destruct (J m Hm) as [[->|Q]|Q]; auto.
Qed.
Definition no_scan (p : cpc) : bool :=
  match p with Wait0 _ (KScan _ _ _) | Wait1 _ (KScan _ _ _) | WaitS _ (KScan _ _ _) | WaitU _ (KScan _ _ _) | Scan (KScan _ _ _) => false | _ => true end.
Lemma scans_run : forall ls y0 y1, reachable y0 -> Local y0 -> (forall t, scan_ok (y_pc y0 t) y0) ->
  forallb local ls = true -> fires ls y0 = Some y1 -> reachable y1 /\ Local y1 /\ forall t, scan_ok (y_pc y1 t) y1.
Proof.
  induction ls as [|x ls IH]; intros y0 y1 Re Lo Sc K E; cbn [fires forallb] in *.
  - injection E as <-. auto.
  - apply andb_true_iff in K. destruct K as [K1 K2]. destruct (fire x y0) as [y2|] eqn:E2; [|discriminate].
    apply (IH y2); auto.
    + destruct Re as [l0 R0]. exists (l0 ++ [x]). revert R0. generalize init. clear - E2.
      induction l0 as [|a l0 IH]; intros i R; cbn [fires app] in *.
      * injection R as ->. now rewrite E2.
      * destruct (fire a i); [now apply IH|discriminate].
    + eapply local_step; eauto.
    + intros t. eapply scan_step; eauto.
Qed.
