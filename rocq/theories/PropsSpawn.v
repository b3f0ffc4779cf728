(** * C35, C67: spawning an IP. *)

From Coq Require Import ZArith List Bool Lia.
From Verif Require Import Base BaseProofs VectorModel VectorProofs StackModel StackProofs FieldModel
  World IpModel LoadModel FingModel CoreModel UniModel IpProofs ExecProofs FlowProofs States
  PropsStack PropsFlow PropsJump PropsBlocks Effects SchedProofs PropsSched.
Import ListNotations.
Open Scope Z_scope.

Lemma fp_load_total fl n r : fl n = false -> exists b r', fp_load fl n r = Ok (b, r').
Proof.
  intros H. unfold fp_load. destruct (assoc n (r_avail r)); [eauto|]. rewrite H.
  destruct (fp_letters n); eauto.
Qed.
Lemma fp_loads_total fl l : forall r, (forall n, In n l -> fl n = false) -> exists r', fp_loads fl l r = Ok r'.
Proof.
  induction l as [|n l IH]; intros r H; cbn [fp_loads]; [eauto|].
  destruct (fp_load_total fl n r (H n (or_introl eq_refl))) as (b & r1 & ->). cbn [bind snd].
  apply IH. intros m Hm. apply H. now right.
Qed.
Lemma strats_total fl fings l : forall r, (forall n, In n fings -> fl n = false) ->
  exists r', strats_construct fl fings l r = Ok r'.
Proof.
  induction l as [|x l IH]; intros r H; cbn [strats_construct]; [eauto|].
  assert (X : exists r1, strat_construct fl fings x r = Ok r1).
  { destruct x; cbn [strat_construct]; eauto. destruct (fp_loads_total fl fings r H) as (r1 & ->). cbn [bind]. eauto. }
  destruct X as (r1 & ->). cbn [bind]. auto.
Qed.

(** No fingerprint loaded by the IP comes from a FungeLib file. *)
Definition no_funge_lib (s : st) : Prop := forall n, In n (r_loaded (s_r s)) -> w_fl (s_w s) n = false.

(** [s'] is [s] with the one new IP [r'], which has the next unused ID, waiting at
    the end of the universe's queue. *)
Definition Spawned (s s' : st) (r' : runner) : Prop :=
  let id := w_nrun (s_w s) in let n := r_uni (s_r s) in
  s_r s' = s_r s /\ r_id r' = id /\
  w_run (s_w s') id = Some r' /\ (forall i, i <> id -> w_run (s_w s') i = w_run (s_w s) i) /\
  w_uni (s_w s') n = set_u_queue (queue (s_w s) n ++ [id]) (w_uni (s_w s) n) /\
  (forall m, m <> n -> w_uni (s_w s') m = w_uni (s_w s) m) /\
  s_w s' = set_w_nrun (id + 1) (set_w_run (w_run (s_w s')) (set_w_uni (w_uni (s_w s')) (s_w s))).

Theorem C35_thread : forall F D s d p d',
  Normal s 116 -> c_conc (my_cfg s) = true -> r_stopped (s_r s) = false -> no_funge_lib s ->
  vwf (r_delta (s_r s)) -> vrev (r_delta (s_r s)) = Ok d -> next_of (facing s d) = Ok (p, d') ->
  exists s' r', execute F (S D) 116 s = Ok (ENone, s') /\ Spawned s s' r' /\
    (forall i, vget d i = - vget (r_delta (s_r s)) i) /\
    r_pos r' = p /\ r_delta r' = d' /\ r_storage r' = r_storage (s_r s) /\
    r_stopped r' = false /\ r_uni r' = r_uni (s_r s) /\ r_parent r' = Some (r_id (s_r s)).
Proof.
  intros F D s d p d' HN HC St FL W Ev En. rewrite (execute_normal F D _ s _ _ HN eq_refl). cbn [run_meth].
  set (n := r_uni (s_r s)).
  destruct (runner_clone (w_fl (s_w s)) (w_nrun (s_w s)) (w_uni (s_w s) n) (s_r s)) as [r1|e] eqn:Ec.
  2:{ exfalso. unfold runner_clone in Ec.
      match type of Ec with context [strats_construct ?f ?l ?k ?b] =>
        destruct (strats_total f l k b FL) as (rr & Er) end.
      rewrite Er in Ec. cbn [bind] in Ec.
      destruct (same_place_strats _ _ _ _ _ Er) as (P1 & P2 & P3 & P4 & P5).
      cbn in P1, P2, P4. rewrite P1, P2, P4, Ev, St in Ec. cbn [bind] in Ec.
      unfold next_of, facing in En. cbn [s_r s_w set_r_delta r_uni r_pos r_delta] in En.
      unfold dims_of in En. cbn [s_r s_w set_r_delta r_uni r_pos r_delta] in En. fold n in En. rewrite En in Ec.
      discriminate. }
  destruct (clone_fields _ _ _ _ _ Ec) as (A1 & A2 & A3 & A4 & A5 & A6 & A7 & _ & _ & d0 & A8 & A9).
  rewrite Ev in A8. inversion A8; subst d0. clear A8. rewrite St in A9.
  unfold next_of, facing in En. cbn [s_r s_w set_r_delta r_uni r_pos r_delta] in En.
  unfold dims_of in En. cbn [s_r s_w set_r_delta r_uni r_pos r_delta] in En. fold n in En. rewrite En in A9.
  assert (A10 : p = r_pos r1 /\ d' = r_delta r1) by (inversion A9; auto). destruct A10 as (-> & ->). clear A9 En.
  set (w' := add_runner n r1 (set_w_nrun (w_nrun (s_w s) + 1) (s_w s))).
  set (r' := run_setmode (c_mode (u_cfg (w_uni (s_w s) n))) r1).
  exists {| s_w := w'; s_r := s_r s |}, r'. split.
  { unfold getC, cloneRunner, getR, getU, getW, lift, ret, ok, modW, mbind. unfold my_cfg in HC. fold n in HC |- *.
    rewrite HC. unfold n in Ec. rewrite Ec. reflexivity. }
  split.
  { unfold Spawned. fold n. cbn [s_w s_r]. unfold w', add_runner. split; [reflexivity|].
    split; [exact A1|]. rewrite A1. cbn [upd_uni w_run set_w_uni].
    split; [apply upd_run_same|]. split; [intros; now rewrite upd_run_other|].
    split. { rewrite upd_uni_same. unfold queue. reflexivity. }
    split; [intros; now rewrite upd_uni_other|]. reflexivity. }
  split. { intros i. now apply (vrev_get (r_delta (s_r s)) d). }
  cbn. rewrite A5, A2. repeat split; auto.
Qed.

(** The next unused ID is indeed not that of an existing IP. *)
Theorem C35_fresh : forall F D data c input fs rnd w0 sched w,
  boot F data c (world0 input fs rnd) = Ok w0 -> uni_run F D sched w0 = Ok w ->
  w_run w (w_nrun w) = None.
Proof.
  intros F D data c input fs rnd w0 sched w B E.
  assert (I : Ids w).
  { eapply run_ids; [exact E|]. apply boot_single in B. apply B. }
  destruct (w_run w (w_nrun w)) as [r|] eqn:R; [|reflexivity].
  destruct (I _ _ R). lia.
Qed.

(** With concurrency disabled nothing changes and the instruction fails, so that the
    IP reflects (C30). *)
Theorem C35_disabled : forall F D s,
  Normal s 116 -> c_conc (my_cfg s) = false -> execute F (S D) 116 s = Ok (ENotAvail, s).
Proof.
  intros F D s HN HC. rewrite (execute_normal F D _ s _ _ HN eq_refl). cbn [run_meth].
  unfold getC, mbind, getU, ret. unfold my_cfg in HC. rewrite HC. reflexivity.
Qed.

(** The child is ticked before its parent's next tick: it is queued just before it. *)
Theorem C35_scheduled : forall F D n w id q r J p d pc dc pp dp,
  let s := {| s_w := w; s_r := r |} in
  queue w n = id :: q -> w_run w id = Some r -> r_id r = id -> r_uni r = n -> id <> w_nrun w ->
  Reaches (fun c => c = 32 \/ c = 9) s J 116 p -> Ticking s J -> (length J < Pos.to_nat F)%nat ->
  let s0 := moved s p (r_delta r) in
  Normal s0 116 -> c_conc (my_cfg s0) = true -> no_funge_lib s0 ->
  vwf (r_delta r) -> vrev (r_delta r) = Ok d -> next_of (facing s0 d) = Ok (pc, dc) ->
  next_of s0 = Ok (pp, dp) ->
  exists w' child, uni_step F (S D) n w = Ok w' /\
    queue w' n = q ++ [w_nrun w] ++ [id] /\
    w_run w' (w_nrun w) = Some child /\ r_pos child = pc /\ r_delta child = dc /\
    r_storage child = r_storage r /\ r_stopped child = false /\
    w_run w' id = Some (set_r_delta dp (set_r_pos pp r)) /\
    (forall i, i <> id -> i <> w_nrun w -> w_run w' i = w_run w i).
Proof.
  intros F D n w id q r J p d pc dc pp dp s Q R Hid Hu Nid HR HT L s0 HN HC FL W Ev En Ep.
  assert (St : r_stopped r = false) by apply HT.
  destruct (C35_thread F D s0 d pc dc HN HC St FL W Ev En)
    as (s1 & child & E & (SR & Cid & Cr & Co & Cu & Cm & Cf) & _ & C1 & C2 & C3 & C4 & C5 & C6).
  set (s2 := moved s1 pp dp).
  assert (En1 : next_of s1 = Ok (pp, dp)).
  { unfold next_of, dims_of in Ep |- *. rewrite SR, Cu. exact Ep. }
  assert (T : tick F (S D) s = Ok (tt, s2)).
  { apply (C66_tick F D s J 116 p s1 s2 HR HT L E). apply ipNext_run; auto. rewrite SR. exact St. }
  assert (X2 : s_w s2 = s_w s1 /\ s_r s2 = set_r_delta dp (set_r_pos pp r)).
  { split; [reflexivity|]. unfold s2, moved. cbn [s_r]. rewrite SR. reflexivity. }
  destruct X2 as (W2 & R2).
  change (s_w s0) with w in *. change (r_uni (s_r s0)) with (r_uni r) in *. rewrite Hu in Cu, Cm.
  change (r_storage (s_r s0)) with (r_storage r) in *.
  assert (RU : r_uni (s_r s2) = n /\ r_stopped (s_r s2) = false) by (rewrite R2; cbn; auto).
  destruct RU as (RU & RS).
  assert (Q2 : u_queue (w_uni (s_w s2) n) = id :: q ++ [w_nrun w]).
  { rewrite W2, Cu. cbn [u_queue set_u_queue]. rewrite Q. reflexivity. }
  eexists. exists child. split.
  { unfold uni_step. change (u_queue (w_uni w n)) with (queue w n). rewrite Q, R, St. unfold as_runner. rewrite R.
    change {| s_w := w; s_r := r |} with s. rewrite T. cbn [bind].
    match goal with |- context [w_run ?x id] => replace (w_run x id) with (Some (s_r s2)) by (symmetry; apply (upd_run_same id (Some (s_r s2)) (s_w s2))) end.
    rewrite RU, Nat.eqb_refl, RS. reflexivity. }
  unfold queue. rewrite upd_uni_same. cbn [u_queue set_u_queue]. rewrite upd_uni_same. cbn [u_queue set_u_queue].
  cbn [upd_run set_w_run w_uni]. rewrite Q2. cbn [tl]. rewrite <- app_assoc. split; [reflexivity|].
  assert (WR : forall i f g x, w_run (upd_uni n f (upd_uni n g (upd_run id x (s_w s2)))) i = w_run (upd_run id x (s_w s2)) i) by reflexivity.
  rewrite !WR. rewrite upd_run_same. rewrite upd_run_other by auto. rewrite W2.
  split; [exact Cr|]. split; [exact C1|]. split; [exact C2|]. split; [exact C3|]. split; [exact C4|].
  split; [now rewrite R2|]. intros i Ni Nn. rewrite WR, upd_run_other by auto. rewrite W2. now apply Co.
Qed.

(** Program [55t@]: the child starts on the second 5 and moves west. *)
Definition ex_spawn_w : world :=
  the dummy_w (w <-- boot 1000 [53; 53; 116; 64] (set_c_dims 2 (set_c_std STD_98 cfg_default))
                       (world0 [] (fun _ => None) (fun _ => 0)) ;;
               uni_run 100 2 (repeat 0%nat 2) w).
Definition ex_spawn_r : runner :=
  match w_run ex_spawn_w 0 with Some r => r | None => s_r dummy end.
Definition ex_spawn : st := {| s_w := ex_spawn_w; s_r := ex_spawn_r |}.
Example C35_ex_hyp :
  queue ex_spawn_w 0 = [0] /\ w_run ex_spawn_w 0 = Some ex_spawn_r /\ r_id ex_spawn_r = 0 /\ r_uni ex_spawn_r = 0%nat /\
  w_nrun ex_spawn_w = 1 /\ Reaches (fun c => c = 32 \/ c = 9) ex_spawn [] 116 (mkvec [2]) /\ Ticking ex_spawn [] /\
  Normal ex_spawn 116 /\ c_conc (my_cfg ex_spawn) = true /\ no_funge_lib ex_spawn /\ vwf (r_delta ex_spawn_r) /\
  vrev (r_delta ex_spawn_r) = Ok (mkvec [-1]) /\
  next_of (facing ex_spawn (mkvec [-1])) = Ok (mkvec [1], mkvec [-1]) /\
  next_of ex_spawn = Ok (mkvec [3], mkvec [1]).
Proof.
  split; [vm_compute; reflexivity|]. split; [vm_compute; reflexivity|].
  split; [vm_compute; reflexivity|]. split; [vm_compute; reflexivity|]. split; [vm_compute; reflexivity|].
  split.
  { split; [constructor|]. exists []. split; [vm_compute; reflexivity|].
    replace (r_pos (s_r ex_spawn)) with (mkvec [2]) by (vm_compute; reflexivity). constructor. }
  split; [vm_compute; repeat split; intros []|]. split; [vm_compute; repeat split|].
  split; [vm_compute; reflexivity|].
  split. { intros n Hn. exfalso. vm_compute in Hn. exact Hn. }
  split; [left; vm_compute; auto|]. split; [vm_compute; reflexivity|]. split; vm_compute; reflexivity.
Qed.
Example C35_ex :
  match uni_step 100 2 0 ex_spawn_w with
  | Ok w => queue w 0 = [1; 0] /\
      match w_run w 1 with Some c => (r_pos c, r_delta c) = (mkvec [1], mkvec [-1]) | None => False end
  | _ => False end.
Proof. vm_compute. auto. Qed.
Print Assumptions C35_thread.
Print Assumptions C35_fresh.
Print Assumptions C35_disabled.
Print Assumptions C35_scheduled.

(** ** C67: the child's stacks *)

(** The contents of the stacks of an IP, the selected one first. *)
Definition stacks (r : runner) : list (list Z) := map s_list (ss_list (r_ss r)).

Lemma fold_copy l : forall acc, map s_list (fold_left (fun acc x => stk_copy x :: acc) l acc) =
  rev (map s_list l) ++ map s_list acc.
Proof.
  induction l as [|x l IH]; intros acc; cbn [fold_left map rev]; [reflexivity|].
  rewrite IH. cbn [map]. rewrite <- app_assoc. reflexivity.
Qed.
Lemma setmode_lists m x : map s_list (ss_list (ss_setmode m x)) = map s_list (ss_list x).
Proof. unfold ss_setmode. cbn [ss_list]. rewrite map_map. reflexivity. Qed.

(** What the child of [t] gets: copies of the parent's stacks, in reverse order. *)
Theorem C67_reversed : forall F D s s', Normal s 116 -> c_conc (my_cfg s) = true ->
  execute F (S D) 116 s = Ok (ENone, s') ->
  exists r', w_run (s_w s') (w_nrun (s_w s)) = Some r' /\
    stacks r' = rev (stacks (s_r s)) /\ ss_sel (r_ss r') = ss_sel (r_ss (s_r s)) /\
    stacks (s_r s') = stacks (s_r s).
Proof.
  intros F D s s' HN HC E. rewrite (execute_normal F D _ s _ _ HN eq_refl) in E. cbn [run_meth] in E.
  unfold getC, cloneRunner, getR, getU, getW, lift, ret, ok, modW, mbind in E. unfold my_cfg in HC. rewrite HC in E.
  destruct (runner_clone (w_fl (s_w s)) (w_nrun (s_w s)) (w_uni (s_w s) (r_uni (s_r s))) (s_r s)) as [r1|e] eqn:Ec; [|discriminate].
  assert (X : s' = {| s_w := add_runner (r_uni (s_r s)) r1 (set_w_nrun (w_nrun (s_w s) + 1) (s_w s)); s_r := s_r s |}) by (inversion E; reflexivity).
  clear E. subst s'. cbn [s_w s_r].
  destruct (clone_fields _ _ _ _ _ Ec) as (A1 & _ & _ & _ & _ & _ & A7 & _).
  eexists. split; [unfold add_runner; cbn [w_run upd_uni set_w_uni]; rewrite A1; apply upd_run_same|].
  split; [|split; [|reflexivity]].
  - unfold stacks. cbn [run_setmode set_r_ss r_ss]. rewrite setmode_lists, A7, setmode_lists. unfold ss_copy. cbn [ss_list].
    rewrite fold_copy. apply app_nil_r.
  - cbn [run_setmode set_r_ss r_ss]. rewrite A7. reflexivity.
Qed.
(** With one stack this is a copy. *)
Theorem C67_partial : forall F D s s' l, Normal s 116 -> c_conc (my_cfg s) = true -> stacks (s_r s) = [l] ->
  execute F (S D) 116 s = Ok (ENone, s') ->
  exists r', w_run (s_w s') (w_nrun (s_w s)) = Some r' /\ stacks r' = [l] /\ stacks (s_r s') = [l].
Proof.
  intros F D s s' l HN HC L E. destruct (C67_reversed F D s s' HN HC E) as (r' & R & X & _ & Y).
  exists r'. rewrite X, Y, L. auto.
Qed.
Example C67_ex : Normal ex_spawn 116 /\ stacks (s_r ex_spawn) = [[5; 5]].
Proof. split; vm_compute; repeat split. Qed.
(** With several stacks it is not: program [8721{t@] gives the parent the stacks 2
    over (0) 7 8 and the child the latter on top. *)
Theorem C67_refuted : exists F D s s' r',
  Normal s 116 /\ c_conc (my_cfg s) = true /\ execute F D 116 s = Ok (ENone, s') /\
  w_run (s_w s') (w_nrun (s_w s)) = Some r' /\ stacks r' <> stacks (s_r s).
Proof.
  set (w := the dummy_w (w <-- boot 1000 [56; 55; 50; 49; 123; 116; 64] (set_c_dims 2 (set_c_std STD_98 cfg_default))
                       (world0 [] (fun _ => None) (fun _ => 0)) ;;
               uni_run 100 2 (repeat 0%nat 5) w)).
  set (s := {| s_w := w; s_r := match w_run w 0 with Some r => r | None => s_r dummy end |}).
  set (s' := match execute 100 2 116 s with Ok (_, x) => x | Bad _ => s end).
  exists 100%positive, 2%nat, s, s', (match w_run (s_w s') 1 with Some r => r | None => s_r dummy end).
  split; [vm_compute; repeat split|]. split; [vm_compute; reflexivity|]. split; [vm_compute; reflexivity|].
  split; [vm_compute; reflexivity|]. vm_compute. discriminate.
Qed.
Print Assumptions C67_reversed.
Print Assumptions C67_partial.
Print Assumptions C67_refuted.
