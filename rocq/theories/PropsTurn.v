(** * Property C29: direction instructions.  See PropsStack.v for the
    vocabulary; a direction is compared through its coordinates [vget d i]. *)

From Coq Require Import ZArith List Bool Lia.
From Verif Require Import Base BaseProofs VectorModel VectorProofs StackModel StackProofs
  FieldModel FieldProofs World IpModel LoadModel FingModel CoreModel UniModel ExecProofs States
  PropsStack PropsIO.
Import ListNotations.
Open Scope Z_scope.

(** [s'] is [s] with delta [d]; the only other thing that may differ is the
    direction the FISH fingerprint remembers. *)
Definition Only_delta (s s' : st) (d : vec) : Prop :=
  exists fish, s' = {| s_w := s_w s; s_r := set_r_fish fish (set_r_delta d (s_r s)) |}.
(** ... and with another stack. *)
Definition Delta_and_stack (s s' : st) (d : vec) (l' : list Z) : Prop :=
  exists s1, Only_stack s s1 l' /\ Only_delta s1 s' d.

(** MODE's HOVER flag (which makes direction instructions add) is off. *)
Definition NoHover (s : st) : Prop := testmode MODE_HOVER (w_uni (s_w s) (r_uni (s_r s))) = false.
Definition NoSwitch (s : st) : Prop := testmode MODE_SWITCH (w_uni (s_w s) (r_uni (s_r s))) = false.

(** Unit vectors: [e axis sign]. *)
Definition unit_vec (axis : nat) (sign : Z) (i : nat) : Z := if Nat.eqb i axis then sign else 0.

Lemma observe_is d r : exists fish, observe_delta d r = set_r_fish fish r.
Proof.
  exists (r_fish (observe_delta d r)). unfold observe_delta.
  destruct r as [? ? ? ? ? ? ? ? ? ? ? ? ? ? ? ? ? ? ? ? ? [[a b]|]]; cbn [r_fish]; [|reflexivity].
  destruct (negb (vget d 0 =? 0) && (vget d 1 =? 0)); reflexivity.
Qed.
Lemma setdelta_plain s v : NoHover s ->
  exists s', ipSetDelta v s = Ok (tt, s') /\ Only_delta s s' v.
Proof.
  intros H. rewrite (ipSetDelta_run v s H). eexists. split; [reflexivity|].
  destruct (observe_is v (set_r_delta v (s_r s))) as (fish & E). exists fish. now rewrite E.
Qed.
Lemma nohover_only s s' l : Only_stack s s' l -> NoHover s -> NoHover s'.
Proof.
  intros C H. unfold NoHover. rewrite (Only_stack_w _ _ _ C), (Only_stack_r _ _ _ C). exact H.
Qed.

(** < > ^ v h l.  With -finverthl (option of 3-D programs) h and l are
    exchanged. *)
Definition dir_of (inverthl : bool) (c : Z) (i : nat) : Z :=
  if c =? 60 then unit_vec 0 (-1) i
  else if c =? 62 then unit_vec 0 1 i
  else if c =? 94 then unit_vec 1 (-1) i
  else if c =? 118 then unit_vec 1 1 i
  else if c =? 104 then unit_vec 2 (if inverthl then -1 else 1) i
  else unit_vec 2 (if inverthl then 1 else -1) i.
Theorem C29_set : forall F D c s,
  In c [60; 62; 94; 118; 104; 108] -> Normal s c -> NoHover s ->
  exists s' d, execute F (S D) c s = Ok (ENone, s') /\ Only_delta s s' d /\
    forall i, vget d i = dir_of (c_inverthl (u_cfg (w_uni (s_w s) (r_uni (s_r s))))) c i.
Proof.
  intros F D c s Hc HN HH.
  repeat (destruct Hc as [<-|Hc]); [ | | | | | |contradiction];
    rewrite (execute_normal F D _ s _ _ HN eq_refl); cbn [run_meth]; unfold dir_of; cbn [Z.eqb Pos.eqb].
  - destruct (setdelta_plain s VWEST HH) as (s' & E & C). rewrite (run_bind _ _ _ _ _ E).
    exists s', VWEST. split; [reflexivity|]. split; [exact C|]. intros [|[|i]]; reflexivity.
  - destruct (setdelta_plain s VEAST HH) as (s' & E & C). rewrite (run_bind _ _ _ _ _ E).
    exists s', VEAST. split; [reflexivity|]. split; [exact C|]. intros [|[|i]]; reflexivity.
  - destruct (setdelta_plain s VNORTH HH) as (s' & E & C). rewrite (run_bind _ _ _ _ _ E).
    exists s', VNORTH. split; [reflexivity|]. split; [exact C|]. intros [|[|[|i]]]; reflexivity.
  - destruct (setdelta_plain s VSOUTH HH) as (s' & E & C). rewrite (run_bind _ _ _ _ _ E).
    exists s', VSOUTH. split; [reflexivity|]. split; [exact C|]. intros [|[|[|i]]]; reflexivity.
  - rewrite (run_bind getC _ s (u_cfg (w_uni (s_w s) (r_uni (s_r s)))) s) by reflexivity.
    destruct (setdelta_plain s (if c_inverthl (u_cfg (w_uni (s_w s) (r_uni (s_r s)))) then VLOW else VHIGH) HH)
      as (s' & E & C). rewrite (run_bind _ _ _ _ _ E).
    eexists _, _. split; [reflexivity|]. split; [exact C|].
    destruct (c_inverthl _); intros [|[|[|[|i]]]]; reflexivity.
  - rewrite (run_bind getC _ s (u_cfg (w_uni (s_w s) (r_uni (s_r s)))) s) by reflexivity.
    destruct (setdelta_plain s (if c_inverthl (u_cfg (w_uni (s_w s) (r_uni (s_r s)))) then VHIGH else VLOW) HH)
      as (s' & E & C). rewrite (run_bind _ _ _ _ _ E).
    eexists _, _. split; [reflexivity|]. split; [exact C|].
    destruct (c_inverthl _); intros [|[|[|[|i]]]]; reflexivity.
Qed.

(** x: the popped vector. *)
Theorem C29_absolute : forall F D s l,
  Normal s 120 -> NoHover s -> Holds s l ->
  exists s' d, execute F (S D) 120 s = Ok (ENone, s') /\
    Delta_and_stack s s' d (skipn (dims_of s) l) /\
    forall i, vget d i = vec_of (dims_of s) l i.
Proof.
  intros F D s l HN HH H. rewrite (execute_normal F D _ s _ _ HN eq_refl). cbn [run_meth].
  destruct (popVec_plain s l H) as (s1 & v & E1 & C1 & G & _). rewrite (run_bind _ _ _ _ _ E1).
  destruct (setdelta_plain s1 v (nohover_only _ _ _ C1 HH)) as (s2 & E2 & C2).
  rewrite (run_bind _ _ _ _ _ E2). exists s2, v. split; [reflexivity|]. split; auto. exists s1. auto.
Qed.

(** r: every coordinate negated; undefined exactly when that overflows. *)
Theorem C29_reflect : forall F D s,
  Normal s 114 -> vwf (r_delta (s_r s)) ->
  ((forall i, in64 (- vget (r_delta (s_r s)) i)) ->
   exists s' d, execute F (S D) 114 s = Ok (ENone, s') /\ Only_delta s s' d /\
     forall i, vget d i = - vget (r_delta (s_r s)) i) /\
  (~ (forall i, in64 (- vget (r_delta (s_r s)) i)) -> execute F (S D) 114 s = Bad BadOverflow).
Proof.
  intros F D s HN W. rewrite (execute_normal F D _ s _ _ HN eq_refl). cbn [run_meth].
  unfold ipReflect, ipTurn. split; intros H.
  - destruct (vrev_ok _ W H) as (d & E & _ & _ & G).
    exists {| s_w := s_w s; s_r := set_r_delta d (s_r s) |}, d.
    split; [unfold mbind, getR; rewrite E; reflexivity|]. split; [|exact G].
    exists (r_fish (s_r s)). reflexivity.
  - unfold mbind, getR. destruct (vrev (r_delta (s_r s))) as [d|e] eqn:E.
    + exfalso. apply H. intros i. destruct (vrev_get _ _ W E) as (_ & _ & G).
      eapply vrev_loop_inv; [exact E|reflexivity|exact W|lia].
    + cbn [lift]. now rewrite (vrev_bad _ _ E).
Qed.

(** [ turns left, ] right (y points down). *)
Definition turned_left (v : nat -> Z) (i : nat) : Z :=
  match i with 0%nat => v 1%nat | 1%nat => - v 0%nat | _ => v i end.
Definition turned_right (v : nat -> Z) (i : nat) : Z :=
  match i with 0%nat => - v 1%nat | 1%nat => v 0%nat | _ => v i end.

Lemma left_plain s : in64 (- vget (r_delta (s_r s)) 0) ->
  exists s' d, ipLeft s = Ok (tt, s') /\ Only_delta s s' d /\
    forall i, vget d i = turned_left (vget (r_delta (s_r s))) i.
Proof.
  intros H. destruct (vleft_ok _ H) as (d & E). destruct (vleft_get _ _ E) as (_ & _ & G).
  exists {| s_w := s_w s; s_r := set_r_delta d (s_r s) |}, d.
  split; [unfold ipLeft, ipTurn, mbind, getR; rewrite E; reflexivity|]. split; [|exact G].
  exists (r_fish (s_r s)). reflexivity.
Qed.
Lemma right_plain s : in64 (- vget (r_delta (s_r s)) 1) ->
  exists s' d, ipRight s = Ok (tt, s') /\ Only_delta s s' d /\
    forall i, vget d i = turned_right (vget (r_delta (s_r s))) i.
Proof.
  intros H. destruct (vright_ok _ H) as (d & E). destruct (vright_get _ _ E) as (_ & _ & G).
  exists {| s_w := s_w s; s_r := set_r_delta d (s_r s) |}, d.
  split; [unfold ipRight, ipTurn, mbind, getR; rewrite E; reflexivity|]. split; [|exact G].
  exists (r_fish (s_r s)). reflexivity.
Qed.
Lemma switch_off i s : NoSwitch s -> switchPut i s = Ok (tt, s).
Proof. intros H. unfold switchPut, isMode, mbind, getU, ret. rewrite H. reflexivity. Qed.

Theorem C29_turn : forall F D s,
  NoSwitch s ->
  (Normal s 91 -> in64 (- vget (r_delta (s_r s)) 0) ->
   exists s' d, execute F (S D) 91 s = Ok (ENone, s') /\ Only_delta s s' d /\
     forall i, vget d i = turned_left (vget (r_delta (s_r s))) i) /\
  (Normal s 93 -> in64 (- vget (r_delta (s_r s)) 1) ->
   exists s' d, execute F (S D) 93 s = Ok (ENone, s') /\ Only_delta s s' d /\
     forall i, vget d i = turned_right (vget (r_delta (s_r s))) i).
Proof.
  intros F D s HS. split; intros HN H; rewrite (execute_normal F D _ s _ _ HN eq_refl); cbn [run_meth].
  - destruct (left_plain s H) as (s' & d & E & C & G). rewrite (run_bind _ _ _ _ _ E).
    rewrite (run_bind _ _ _ _ _ (switch_off 93 s' ltac:(destruct C as (fish & ->); exact HS))).
    exists s', d. split; [reflexivity|]. auto.
  - destruct (right_plain s H) as (s' & d & E & C & G). rewrite (run_bind _ _ _ _ _ E).
    rewrite (run_bind _ _ _ _ _ (switch_off 91 s' ltac:(destruct C as (fish & ->); exact HS))).
    exists s', d. split; [reflexivity|]. auto.
Qed.
Theorem C29_turns_inverse : forall v i,
  turned_right (turned_left v) i = v i /\ turned_left (turned_right v) i = v i.
Proof.
  intros v [|[|i]]; cbn [turned_left turned_right]; split; auto; lia.
Qed.
(** Four left turns make a full turn; two make a reflection of the plane. *)
Theorem C29_turn_order : forall v i,
  turned_left (turned_left v) i = (if Nat.ltb i 2 then - v i else v i) /\
  turned_left (turned_left (turned_left (turned_left v))) i = v i.
Proof. intros v [|[|i]]; cbn [turned_left Nat.ltb Nat.leb]; split; auto; lia. Qed.

(** _ | m: 0 goes east/south/high, anything else west/north/low. *)
Theorem C29_if : forall F D c s l,
  In c [95; 124; 109] -> Normal s c -> NoHover s -> Holds s l ->
  exists s' d, execute F (S D) c s = Ok (ENone, s') /\ Delta_and_stack s s' d (tl l) /\
    forall i, vget d i =
      if c =? 109 then unit_vec 2 (if hd 0 l =? 0 then 1 else -1) i
      else unit_vec (if c =? 95 then 0 else 1) (if hd 0 l =? 0 then 1 else -1) i.
Proof.
  intros F D c s l Hc HN HH H.
  assert (Q : forall a b, exists s', ifDelta a b s = Ok (ENone, s') /\
             Delta_and_stack s s' (if hd 0 l =? 0 then a else b) (tl l)).
  { intros a b. unfold ifDelta. xpop.
    destruct (setdelta_plain s0 (if hd 0 l =? 0 then a else b) (nohover_only _ _ _ C HH)) as (s2 & E2 & C2).
    rewrite (run_bind _ _ _ _ _ E2). exists s2. split; [reflexivity|]. exists s0. auto. }
  repeat (destruct Hc as [<-|Hc]); [ | | |contradiction];
    rewrite (execute_normal F D _ s _ _ HN eq_refl); cbn [run_meth]; cbn [Z.eqb Pos.eqb].
  - destruct (Q VEAST VWEST) as (s' & E & C). exists s'. eexists. split; [exact E|]. split; [exact C|].
    destruct (hd 0 l =? 0); intros [|[|i]]; reflexivity.
  - destruct (Q VSOUTH VNORTH) as (s' & E & C). exists s'. eexists. split; [exact E|]. split; [exact C|].
    destruct (hd 0 l =? 0); intros [|[|[|i]]]; reflexivity.
  - destruct (Q VHIGH VLOW) as (s' & E & C). exists s'. eexists. split; [exact E|]. split; [exact C|].
    destruct (hd 0 l =? 0); intros [|[|[|[|i]]]]; reflexivity.
Qed.

(** w: [b] on top, [a] below: left if a < b, right if a > b, else straight on. *)
Theorem C29_compare : forall F D s l,
  Normal s 119 -> Holds s l ->
  let b := hd 0 l in let a := hd 0 (tl l) in let v := vget (r_delta (s_r s)) in
  in64 (- v 0%nat) -> in64 (- v 1%nat) ->
  exists s' d, execute F (S D) 119 s = Ok (ENone, s') /\ Delta_and_stack s s' d (tl (tl l)) /\
    forall i, vget d i = if a <? b then turned_left v i else if a >? b then turned_right v i else v i.
Proof.
  intros F D s l HN H b a v H0 H1. rewrite (execute_normal F D _ s _ _ HN eq_refl). cbn [run_meth].
  xpop. xpop. fold a b. pose proof (Only_stack_trans _ _ _ _ _ C C0) as C2.
  assert (X : r_delta (s_r s1) = r_delta (s_r s)) by (rewrite (Only_stack_r _ _ _ C2); reflexivity).
  destruct (a <? b); [|destruct (a >? b)].
  - destruct (left_plain s1) as (s' & d & E' & C' & G); [now rewrite X|].
    rewrite (run_bind _ _ _ _ _ E'). exists s', d. split; [reflexivity|].
    split; [exists s1; auto|]. intros i. rewrite G, X. reflexivity.
  - destruct (right_plain s1) as (s' & d & E' & C' & G); [now rewrite X|].
    rewrite (run_bind _ _ _ _ _ E'). exists s', d. split; [reflexivity|].
    split; [exists s1; auto|]. intros i. rewrite G, X. reflexivity.
  - exists s1, (r_delta (s_r s)). split; [reflexivity|]. split; [|reflexivity].
    exists s1. split; auto. exists (r_fish (s_r s1)). destruct s1 as [w r]. cbn [s_w s_r] in *.
    rewrite <- X. now destruct r.
Qed.

(** ?: for every random choice one of the [2*d] unit vectors; each is possible. *)
Theorem C29_away : forall F D s,
  Normal s 63 -> NoHover s -> (1 <= dims_of s)%nat -> Z.of_nat (dims_of s) < 2 ^ 30 ->
  exists s' d axis sign, execute F (S D) 63 s = Ok (ENone, s') /\
    (axis < dims_of s)%nat /\ (sign = 1 \/ sign = -1) /\
    (forall i, vget d i = unit_vec axis sign i) /\
    (exists fish, s' = {| s_w := set_w_nrnd (S (w_nrnd (s_w s))) (s_w s);
                          s_r := set_r_fish fish (set_r_delta d (s_r s)) |}) /\
    w_rnd (s_w s) (w_nrnd (s_w s)) mod (2 * Z.of_nat (dims_of s)) =
      2 * Z.of_nat axis + (if sign =? 1 then 0 else 1).
Proof.
  intros F D s HN HH D1 D2. rewrite (execute_normal F D _ s _ _ HN eq_refl). cbn [run_meth].
  rewrite (run_bind getC _ s (u_cfg (w_uni (s_w s) (r_uni (s_r s)))) s) by reflexivity.
  fold (dims_of s). set (n := Z.of_nat (dims_of s)) in *.
  set (s1 := {| s_w := set_w_nrnd (S (w_nrnd (s_w s))) (s_w s); s_r := s_r s |}).
  set (k := w_rnd (s_w s) (w_nrnd (s_w s)) mod (2 * n)).
  assert (K : 0 <= k < 2 * n) by (apply Z.mod_pos_bound; lia).
  assert (U : uniform 0 (n * 2 - 1) s = Ok (k, s1)).
  { unfold uniform, mbind, rnd. rewrite to_i32_id by (change (2 ^ 30) with 1073741824 in *; lia).
    change (to_i32 0) with 0. destruct (Z.ltb_spec (n * 2 - 1) 0); [lia|].
    unfold ret. fold s1. do 2 f_equal. rewrite Z.add_0_l. unfold k. f_equal. lia. }
  rewrite (run_bind _ _ _ _ _ U).
  assert (HH1 : NoHover s1) by exact HH.
  destruct (setdelta_plain s1 (axis_dir k) HH1) as (s2 & E2 & (fish & C2)).
  rewrite (run_bind _ _ _ _ _ E2).
  exists s2, (axis_dir k), (Z.to_nat (k / 2)), (if Z.odd k then -1 else 1).
  split; [reflexivity|]. split; [|split; [|split; [|split]]].
  - apply Nat2Z.inj_lt. rewrite Z2Nat.id by (apply Z.div_pos; lia). fold n.
    apply Z.div_lt_upper_bound; lia.
  - destruct (Z.odd k); auto.
  - intros i. unfold axis_dir, unit_vec. rewrite <- Z.div2_div, Z.div2_spec, Z.bit0_odd.
    rewrite vget_vset. destruct (Nat.eqb i (Z.to_nat (Z.shiftr k 1))); auto.
  - exists fish. exact C2.
  - rewrite Z2Nat.id by (apply Z.div_pos; lia). rewrite <- Z.div2_div.
    pose proof (Z.div2_odd k) as DO. destruct (Z.odd k); cbn [Z.b2z Z.eqb Pos.eqb] in *; lia.
Qed.

Example C29_ex_hyp : let s := ex98 [7; 3] in
  Forall (Normal s) [60; 62; 94; 118; 120; 114; 91; 93; 95; 124; 119; 63] /\
  NoHover s /\ NoSwitch s /\ Holds s [7; 3] /\ vwf (r_delta (s_r s)) /\ dims_of s = 2%nat /\
  Normal (start98 3 [64] []) 104 /\ Normal (start98 3 [64] []) 108 /\ Normal (start98 3 [64] []) 109.
Proof.
  split; [repeat (apply Forall_cons; [vm_compute; repeat split|]); apply Forall_nil|].
  split; [reflexivity|]. split; [reflexivity|].
  split; [apply holds_with_list; vm_compute; [reflexivity|discriminate]|].
  split; [left; vm_compute; lia|]. vm_compute. repeat split.
Qed.
Definition delta_after {A} (x : res (A * st)) : res vec :=
  match x with Ok (_, s) => Ok (r_delta (s_r s)) | Bad e => Bad e end.
Example C29_ex :
  delta_after (execute 1 1 91 (ex98 [])) = Ok [0; -1] /\
  delta_after (execute 1 1 93 (ex98 [])) = Ok [0; 1] /\
  delta_after (execute 1 1 120 (ex98 [5; -3; 9])) = Ok [-3; 5] /\
  delta_after (execute 1 1 119 (ex98 [5; -3])) = Ok [0; -1] /\
  delta_after (execute 1 1 124 (ex98 [5])) = Ok [0; -1] /\
  delta_after (execute 1 1 114 (ex98 [])) = Ok [-1].
Proof. vm_compute. repeat split. Qed.
Print Assumptions C29_set.
Print Assumptions C29_absolute.
Print Assumptions C29_reflect.
Print Assumptions C29_turn.
Print Assumptions C29_turns_inverse.
Print Assumptions C29_turn_order.
Print Assumptions C29_if.
Print Assumptions C29_compare.
Print Assumptions C29_away.
