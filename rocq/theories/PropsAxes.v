(** * Properties C97-C100: orthogonal easement, N-dimensional directions, the timer and
    instruction swapping (ORTH, NFUN, HRTI, FING). *)

From Coq Require Import String ZArith List Bool Lia.
From Verif Require Import Base BaseProofs VectorModel VectorProofs TextModel TextProofs
  StackModel StackProofs FieldModel FieldProofs World IpModel LoadModel FingModel CoreModel
  UniModel ExecProofs FlowProofs States PropsStack PropsBlocks Effects SchedProofs PropsIO PropsTurn PropsLoad
  PropsFing PropsStrn PropsMath PropsSpace.
Import ListNotations.
Open Scope Z_scope.
Local Notation length := List.length.

(** ** C97 ORTH *)

(** The point (x, y), all other coordinates 0: no storage offset. *)
Definition Plane (x y : Z) (q : vec) : Prop :=
  vget q 0 = x /\ vget q 1 = y /\ forall i, (2 <= i)%nat -> vget q i = 0.
Lemma plane_vec x y : Plane x y (mkvec [x; y]).
Proof.
  unfold Plane. rewrite !vget_mkvec. split; [reflexivity|]. split; [reflexivity|]. intros i L. rewrite vget_mkvec.
  apply nth_overflow. cbn. lia.
Qed.
Lemma plane_same x y p q : Plane x y p -> Plane x y q -> same p q.
Proof.
  intros (A & B & C) (A' & B' & C') i. destruct i as [|[|i]]; [congruence|congruence|].
  rewrite C, C' by lia. reflexivity.
Qed.

Theorem C97_get : forall F D s fld x y l q, Letter s FP_ORTH fld 71 -> Holds s (x :: y :: l) -> Plane x y q ->
  exists s', execute F (S D) 71 s = Ok (ENone, s') /\ Only_stack s s' (f_get (field_of s fld) q :: l).
Proof.
  intros F D s fld x y l q L H P. rewrite (execute_letter F D _ _ _ _ L).
  change (fp_exec F FP_ORTH fld 71) with (orth_exec fld 71). unfold orth_exec. cbn [Z.eqb Pos.eqb].
  xpop. xpop. cbn [hd tl] in *.
  assert (G : fget fld (mkvec [x; y]) s1 = Ok (f_get (field_of s fld) q, s1)).
  { unfold fget. unfold field_of. rewrite <- (Only_stack_w _ _ _ C), <- (Only_stack_w _ _ _ C0).
    rewrite (f_get_ext _ q (mkvec [x; y])) by exact (plane_same _ _ _ _ P (plane_vec x y)). reflexivity. }
  rewrite (run_bind _ _ _ _ _ G). xpush. exists s2. split; [reflexivity|os_finish].
Qed.
Theorem C97_put : forall F D s fld x y v l, Letter s FP_ORTH fld 80 -> Holds s (x :: y :: v :: l) ->
  exists s' f', execute F (S D) 80 s = Ok (ENone, s') /\ Space_and_stack s s' fld f' l /\
    (forall q, Plane x y q -> f_get f' q = cellval (f_char (field_of s fld)) v) /\
    (forall q, ~ Plane x y q -> f_get f' q = f_get (field_of s fld) q).
Proof.
  intros F D s fld x y v l L H. rewrite (execute_letter F D _ _ _ _ L).
  change (fp_exec F FP_ORTH fld 80) with (orth_exec fld 80). unfold orth_exec. cbn [Z.eqb Pos.eqb].
  xpop. xpop. xpop. cbn [hd tl] in *. destruct (sas_put s2 fld (mkvec [x; y]) v l H2) as (s' & E' & S').
  rewrite (run_bind _ _ _ _ _ E').
  assert (O : Only_stack s s2 l) by os_finish.
  assert (Ff : field_of s2 fld = field_of s fld) by (unfold field_of; now rewrite (Only_stack_w _ _ _ O)).
  rewrite Ff in S'. exists s', (f_put (mkvec [x; y]) v (field_of s fld)). split; [reflexivity|].
  split; [exact (sas_trans _ _ _ _ _ _ _ _ (sas_stack s s2 fld l O) S')|]. split.
  - intros q P. apply f_get_put_same. exact (plane_same _ _ _ _ (plane_vec x y) P).
  - intros q N. apply f_get_put_other. intros S. apply N.
    destruct (plane_vec x y) as (A & B & C'). split; [now rewrite <- S|]. split; [now rewrite <- S|]. intros i Hi. rewrite <- S. auto.
Qed.

(** V and W set one component of the delta. *)
Theorem C97_delta : forall F D s c axis x l, In (c, axis) [(86, 0%nat); (87, 1%nat)] ->
  Ready s FP_ORTH c (x :: l) -> NoHover s ->
  exists s' d, execute F (S D) c s = Ok (ENone, s') /\ Delta_and_stack s s' d l /\
    forall i, vget d i = if Nat.eqb i axis then x else vget (r_delta (s_r s)) i.
Proof.
  intros F D s c axis x l I ((fld & L) & H) NH. rewrite (execute_letter F D _ _ _ _ L).
  change (fp_exec F FP_ORTH fld c) with (orth_exec fld c).
  destruct I as [[= <- <-]|[[= <- <-]|[]]]; unfold orth_exec; cbn [Z.eqb Pos.eqb]; xpop; cbn [hd tl] in *.
  - rewrite (run_bind getDelta _ s0 (r_delta (s_r s0)) s0) by reflexivity.
    destruct (setdelta_plain s0 (vset (r_delta (s_r s0)) 0 x) (nohover_only _ _ _ C NH)) as (s' & E' & D').
    rewrite (run_bind _ _ _ _ _ E'). exists s', (vset (r_delta (s_r s0)) 0 x). split; [reflexivity|].
    split; [exists s0; auto|]. intros i. rewrite vget_vset. now rewrite (Only_stack_r _ _ _ C).
  - rewrite (run_bind getDelta _ s0 (r_delta (s_r s0)) s0) by reflexivity.
    destruct (setdelta_plain s0 (vset (r_delta (s_r s0)) 1 x) (nohover_only _ _ _ C NH)) as (s' & E' & D').
    rewrite (run_bind _ _ _ _ _ E'). exists s', (vset (r_delta (s_r s0)) 1 x). split; [reflexivity|].
    split; [exists s0; auto|]. intros i. rewrite vget_vset. now rewrite (Only_stack_r _ _ _ C).
Qed.
(** X and Y set one coordinate of the IP. *)
Definition Position_and_stack (s s' : st) (p : vec) (l' : list Z) : Prop :=
  exists s1, Only_stack s s1 l' /\ s' = {| s_w := s_w s1; s_r := set_r_pos p (s_r s1) |}.
Theorem C97_position : forall F D s c axis x l, In (c, axis) [(88, 0%nat); (89, 1%nat)] ->
  Ready s FP_ORTH c (x :: l) ->
  exists s' p, execute F (S D) c s = Ok (ENone, s') /\ Position_and_stack s s' p l /\
    forall i, vget p i = if Nat.eqb i axis then x else vget (r_pos (s_r s)) i.
Proof.
  intros F D s c axis x l I ((fld & L) & H). rewrite (execute_letter F D _ _ _ _ L).
  change (fp_exec F FP_ORTH fld c) with (orth_exec fld c).
  destruct I as [[= <- <-]|[[= <- <-]|[]]]; unfold orth_exec; cbn [Z.eqb Pos.eqb]; xpop; cbn [hd tl] in *.
  - exists {| s_w := s_w s0; s_r := set_r_pos (vset (r_pos (s_r s0)) 0 x) (s_r s0) |}, (vset (r_pos (s_r s0)) 0 x).
    split; [reflexivity|]. split; [exists s0; auto|]. intros i. rewrite vget_vset. now rewrite (Only_stack_r _ _ _ C).
  - exists {| s_w := s_w s0; s_r := set_r_pos (vset (r_pos (s_r s0)) 1 x) (s_r s0) |}, (vset (r_pos (s_r s0)) 1 x).
    split; [reflexivity|]. split; [exists s0; auto|]. intros i. rewrite vget_vset. now rewrite (Only_stack_r _ _ _ C).
Qed.
(** Z skips the next cell exactly if it pops 0. *)
Theorem C97_skip : forall F D s z l, Ready s FP_ORTH 90 (z :: l) ->
  (z <> 0 -> exists s', execute F (S D) 90 s = Ok (ENone, s') /\ Only_stack s s' l) /\
  (forall p d, z = 0 -> r_stopped (s_r s) = false -> next_of s = Ok (p, d) ->
     exists s1, execute F (S D) 90 s = Ok (ENone, moved s1 p d) /\ Only_stack s s1 l).
Proof.
  intros F D s z l ((fld & L) & H). rewrite (execute_letter F D _ _ _ _ L).
  change (fp_exec F FP_ORTH fld 90) with (orth_exec fld 90). unfold orth_exec. cbn [Z.eqb Pos.eqb].
  xpop. cbn [hd tl] in *. split.
  - intros Nz. rewrite (proj2 (Z.eqb_neq z 0) Nz). exists s0. split; [reflexivity|exact C].
  - intros p d -> St Nx. cbn [Z.eqb]. exists s0. split; [|exact C].
    rewrite (run_bind ipNext _ s0 tt (moved s0 p d)); [reflexivity|]. apply ipNext_run.
    + now rewrite (Only_stack_r _ _ _ C).
    + unfold next_of in *. rewrite (Only_stack_w _ _ _ C), (Only_stack_r _ _ _ C). exact Nx.
Qed.
(** S prints a string and a new line. *)
Theorem C97_print : forall F D s b l, Ready s FP_ORTH 83 (b ++ 0 :: l) -> char_str b ->
  exists s', execute F (S D) 83 s = Ok (ENone, s') /\
    World_and_stack s s' (set_w_out (w_out (s_w s) ++ map to_u8 b ++ [10]) (s_w s)) l.
Proof.
  intros F D s b l ((fld & L) & H) Ch. rewrite (execute_letter F D _ _ _ _ L).
  change (fp_exec F FP_ORTH fld 83) with (orth_exec fld 83). unfold orth_exec. cbn [Z.eqb Pos.eqb].
  destruct (popString_plain s b l Ch H) as (s0 & E0 & O). rewrite (run_bind _ _ _ _ _ E0).
  exists {| s_w := set_w_out (w_out (s_w s0) ++ map to_u8 b ++ [10]) (s_w s0); s_r := s_r s0 |}. split; [reflexivity|].
  split; [cbn [s_w]; now rewrite (Only_stack_w _ _ _ O)|]. exists s0. auto.
Qed.

Definition orth_at (l : list Z) : st := loaded [FP_ORTH] l.
Example C97_ex :
  Letter (orth_at [2; 0; 77; 5]) FP_ORTH 0 71 /\ Letter (orth_at [2; 0; 77; 5]) FP_ORTH 0 80 /\ Holds (orth_at [2; 0; 77; 5]) [2; 0; 77; 5] /\
  Plane 2 0 [2] /\ f_get (field_of (orth_at [2; 0; 77; 5]) 0) [2] = 64 /\ NoHover (orth_at [2; 0; 77; 5]) /\
  Ready (orth_at [0; 9]) FP_ORTH 90 [0; 9] /\ Ready (orth_at [7; 9]) FP_ORTH 86 [7; 9] /\ Ready (orth_at [7; 9]) FP_ORTH 89 [7; 9] /\
  match next_of (orth_at [0; 9]) with Ok (p, d) => vget p 0 =? 1 | Bad _ => false end = true /\
  Ready (orth_at [72; 105; 0; 9]) FP_ORTH 83 ([72; 105] ++ 0 :: [9]) /\ char_str [72; 105].
Proof.
  split; [apply letterb_ok; vm_compute; reflexivity|]. split; [apply letterb_ok; vm_compute; reflexivity|].
  split; [apply holds_with_list; vm_compute; [reflexivity|discriminate]|].
  split; [split; [reflexivity|split; [reflexivity|intros i L; apply vget_out; cbn; lia]]|].
  split; [vm_compute; reflexivity|]. split; [vm_compute; reflexivity|].
  unfold orth_at. split; [demo|]. split; [demo|]. split; [demo|]. split; [vm_compute; reflexivity|]. split; [demo|].
  repeat (apply Forall_cons; [split; [split; vm_compute; congruence|discriminate]|]). apply Forall_nil.
Qed.
Print Assumptions C97_get.
Print Assumptions C97_put.
Print Assumptions C97_delta.
Print Assumptions C97_position.
Print Assumptions C97_skip.
Print Assumptions C97_print.

(** ** C98 NFUN *)

(** [s'] is [s] with delta [d], stack [l] and [n] dimensions in the IP's universe. *)
Definition Dims_delta_stack (s s' : st) (n : nat) (d : vec) (l : list Z) : Prop :=
  let me := r_uni (s_r s) in
  w_uni (s_w s') me = set_u_cfg (set_c_dims n (u_cfg (w_uni (s_w s) me))) (w_uni (s_w s) me) /\
  (forall k, k <> me -> w_uni (s_w s') k = w_uni (s_w s) k) /\
  s_w s' = set_w_uni (w_uni (s_w s')) (s_w s) /\
  exists s1, Delta_and_stack s s1 d l /\ s_r s' = s_r s1.

Lemma nfun_go_run s s0 v dim l : Only_stack s s0 l -> NoHover s ->
  exists s', nfun_go v dim s0 = Ok (ENone, s') /\ Dims_delta_stack s s' (Nat.max (dims_of s) dim) v l.
Proof.
  intros O NH. unfold nfun_go.
  destruct (setdelta_plain s0 v (nohover_only _ _ _ O NH)) as (s1 & E1 & D1). rewrite (run_bind _ _ _ _ _ E1).
  assert (W1 : s_w s1 = s_w s).
  { destruct D1 as (fish & ->). cbn [s_w]. exact (Only_stack_w _ _ _ O). }
  assert (U1 : r_uni (s_r s1) = r_uni (s_r s)).
  { destruct D1 as (fish & ->). cbn [s_r set_r_fish set_r_delta r_uni]. now rewrite (Only_stack_r _ _ _ O). }
  eexists. split; [reflexivity|].
  unfold Dims_delta_stack. cbn [s_w s_r]. rewrite U1, W1. split; [|split; [|split]].
  - rewrite upd_uni_same. unfold dims_of.
    destruct (Nat.ltb_spec (c_dims (u_cfg (w_uni (s_w s) (r_uni (s_r s))))) dim).
    + rewrite Nat.max_r by lia. reflexivity.
    + rewrite Nat.max_l by lia. destruct (w_uni (s_w s) (r_uni (s_r s))) as [cfg ? ? ? ?]. now destruct cfg.
  - intros k K. now rewrite upd_uni_other by congruence.
  - reflexivity.
  - exists s1. split; [exists s0; auto|reflexivity].
Qed.

(** The directions: dimension and sign. *)
Definition nfun_dir (inverthl : bool) (c : Z) : option (nat * Z) :=
  if c =? 65 then Some (3%nat, -1) else if c =? 86 then Some (3%nat, 1)
  else if c =? 76 then Some (4%nat, if inverthl then 1 else -1)
  else if c =? 72 then Some (4%nat, if inverthl then -1 else 1)
  else if c =? 67 then Some (5%nat, -1) else if c =? 68 then Some (5%nat, 1) else None.
Definition inverthl_of (s : st) : bool := c_inverthl (u_cfg (w_uni (s_w s) (r_uni (s_r s)))).
Lemma unit_mkvec axis x i : vget (mkvec (repeat 0 axis ++ [x])) i = unit_vec axis x i.
Proof.
  rewrite vget_mkvec. unfold unit_vec. destruct (Nat.eqb_spec i axis) as [->|N].
  - rewrite app_nth2; rewrite repeat_length; [|lia]. now rewrite Nat.sub_diag.
  - destruct (Nat.lt_ge_cases i axis).
    + rewrite app_nth1 by (rewrite repeat_length; lia). now rewrite nth_repeat.
    + apply nth_overflow. rewrite app_length, repeat_length. cbn. lia.
Qed.

(** A V L H C D: the IP flies along the fourth, fifth or sixth dimension, and the
    universe has at least that many dimensions. *)
Theorem C98_fixed : forall F D s c axis sign l, nfun_dir (inverthl_of s) c = Some (axis, sign) ->
  Ready s FP_NFUN c l -> NoHover s ->
  exists s' d, execute F (S D) c s = Ok (ENone, s') /\
    Dims_delta_stack s s' (Nat.max (dims_of s) (S axis)) d l /\ forall i, vget d i = unit_vec axis sign i.
Proof.
  intros F D s c axis sign l T ((fld & L) & H) NH. rewrite (execute_letter F D _ _ _ _ L).
  change (fp_exec F FP_NFUN fld c) with (nfun_exec c). pose proof (Only_stack_refl s l H) as O.
  assert (X : nfun_exec c s = nfun_go (mkvec (repeat 0 axis ++ [sign])) (S axis) s).
  { unfold nfun_dir in T. unfold nfun_exec.
    destruct (c =? 65); [injection T as <- <-; reflexivity|].
    destruct (Z.eqb_spec c 86) as [->|N86]; [injection T as <- <-; reflexivity|].
    destruct (Z.eqb_spec c 76) as [->|N76].
    { injection T as <- <-. cbn [Z.eqb Pos.eqb]. unfold nfun_inv. rewrite (run_bind getC _ s _ s eq_refl).
      change (c_inverthl (u_cfg (w_uni (s_w s) (r_uni (s_r s))))) with (inverthl_of s). now destruct (inverthl_of s). }
    destruct (Z.eqb_spec c 72) as [->|N72].
    { injection T as <- <-. cbn [Z.eqb Pos.eqb]. unfold nfun_inv. rewrite (run_bind getC _ s _ s eq_refl).
      change (c_inverthl (u_cfg (w_uni (s_w s) (r_uni (s_r s))))) with (inverthl_of s). now destruct (inverthl_of s). }
    destruct (Z.eqb_spec c 67) as [->|N67]; [injection T as <- <-; reflexivity|].
    destruct (Z.eqb_spec c 68) as [->|N68]; [injection T as <- <-; reflexivity|discriminate]. }
  rewrite X. destruct (nfun_go_run s s (mkvec (repeat 0 axis ++ [sign])) (S axis) l O NH) as (s' & E & P).
  exists s', (mkvec (repeat 0 axis ++ [sign])). split; [exact E|]. split; [exact P|]. intros i. apply unit_mkvec.
Qed.
(** I M R: forward if 0 is popped, backward otherwise. *)
Theorem C98_if : forall F D s c axis x l, In (c, axis) [(73, 3%nat); (77, 4%nat); (82, 5%nat)] ->
  Ready s FP_NFUN c (x :: l) -> NoHover s ->
  exists s' d, execute F (S D) c s = Ok (ENone, s') /\
    Dims_delta_stack s s' (Nat.max (dims_of s) (S axis)) d l /\
    forall i, vget d i = unit_vec axis (if x =? 0 then 1 else -1) i.
Proof.
  intros F D s c axis x l T ((fld & L) & H) NH. rewrite (execute_letter F D _ _ _ _ L).
  change (fp_exec F FP_NFUN fld c) with (nfun_exec c).
  assert (X : nfun_exec c s = nfun_if axis s).
  { destruct T as [[= <- <-]|[[= <- <-]|[[= <- <-]|[]]]]; reflexivity. }
  rewrite X. unfold nfun_if. xpop. cbn [hd tl] in *.
  destruct (nfun_go_run s s0 (mkvec (repeat 0 axis ++ [if x =? 0 then 1 else -1])) (S axis) l C NH) as (s' & E' & P).
  exists s', (mkvec (repeat 0 axis ++ [if x =? 0 then 1 else -1])). split; [exact E'|]. split; [exact P|]. intros i. apply unit_mkvec.
Qed.
(** X Y Z: the dimension is popped.  The direction is right, but the universe is
    given one dimension too few. *)
Definition axis_args (c : Z) (l : list Z) : option (Z * Z * list Z) :=
  match l with
  | n :: x :: t => if c =? 88 then Some (n, if x =? 0 then 1 else -1, t)
                   else if c =? 89 then Some (n, -1, x :: t) else if c =? 90 then Some (n, 1, x :: t) else None
  | _ => None
  end.
Theorem C98_axis_partial : forall F D s c l n sign t, axis_args c l = Some (n, sign, t) -> 0 <= n < 2 ^ 32 ->
  Ready s FP_NFUN c l -> NoHover s ->
  exists s' d, execute F (S D) c s = Ok (ENone, s') /\
    Dims_delta_stack s s' (Nat.max (dims_of s) (Z.to_nat n)) d t /\ forall i, vget d i = unit_vec (Z.to_nat n) sign i.
Proof.
  intros F D s c l n sign t T Hn ((fld & L) & H) NH. rewrite (execute_letter F D _ _ _ _ L).
  change (fp_exec F FP_NFUN fld c) with (nfun_exec c).
  assert (K : forall s0, Only_stack s s0 t -> exists s' d, nfun_axis n sign s0 = Ok (ENone, s') /\
    Dims_delta_stack s s' (Nat.max (dims_of s) (Z.to_nat n)) d t /\ forall i, vget d i = unit_vec (Z.to_nat n) sign i).
  { intros s0 O. unfold nfun_axis.
    assert (V : vsetZ [] n sign = Ok (vset [] (Z.to_nat n) sign)).
    { unfold vsetZ. rewrite (proj2 (Z.leb_le 0 n)), (proj2 (Z.ltb_lt n (2 ^ 32))) by lia. reflexivity. }
    rewrite (run_bind _ _ _ _ _ (run_lift _ _ s0 V)).
    destruct (nfun_go_run s s0 (vset [] (Z.to_nat n) sign) (Z.to_nat n) t O NH) as (s' & E & P).
    exists s', (vset [] (Z.to_nat n) sign). split; [exact E|]. split; [exact P|]. intros i. rewrite vget_vset.
    unfold unit_vec. destruct (Nat.eqb i (Z.to_nat n)); [reflexivity|]. apply vget_out. cbn. lia. }
  unfold axis_args in T. destruct l as [|n0 [|x l]]; try discriminate.
  destruct (Z.eqb_spec c 88) as [->|N88].
  { injection T as -> <- ->. change (nfun_exec 88) with (n <- popS ;; x <- popS ;; nfun_axis n (if x =? 0 then 1 else -1)).
    xpop. xpop. cbn [hd tl] in *. apply K. os_finish. }
  destruct (Z.eqb_spec c 89) as [->|N89].
  { injection T as -> <- <-. change (nfun_exec 89) with (n <- popS ;; nfun_axis n (-1)). xpop. cbn [hd tl] in *. apply K. exact C. }
  destruct (Z.eqb_spec c 90) as [->|N90]; [|discriminate].
  injection T as -> <- <-. change (nfun_exec 90) with (n <- popS ;; nfun_axis n 1). xpop. cbn [hd tl] in *. apply K. exact C.
Qed.
(** So the IP flies along a dimension the universe does not have, whenever that
    dimension is new. *)
Theorem C98_axis_refuted : forall F D s c l n sign t, axis_args c l = Some (n, sign, t) ->
  Z.of_nat (dims_of s) <= n < 2 ^ 32 -> Ready s FP_NFUN c l -> NoHover s ->
  exists s', execute F (S D) c s = Ok (ENone, s') /\ vget (r_delta (s_r s')) (Z.to_nat n) <> 0 /\
    (dims_of s' <= Z.to_nat n)%nat.
Proof.
  intros F D s c l n sign t T Hn R NH. destruct (C98_axis_partial F D s c l n sign t T ltac:(lia) R NH) as (s' & d & E & P & V).
  exists s'. split; [exact E|]. destruct P as (U & _ & _ & s1 & (s2 & O2 & fish & D1) & R1).
  assert (Rd : r_delta (s_r s') = d) by (rewrite R1, D1; reflexivity).
  assert (Ru : r_uni (s_r s') = r_uni (s_r s)) by (rewrite R1, D1; cbn [s_r set_r_fish set_r_delta r_uni]; now rewrite (Only_stack_r _ _ _ O2)).
  split.
  - rewrite Rd, V. unfold unit_vec. rewrite Nat.eqb_refl. unfold axis_args in T.
    destruct l as [|? [|x ?]]; try discriminate. destruct (c =? 88); [destruct (x =? 0); injection T as _ <- _; lia|].
    destruct (c =? 89); [injection T as _ <- _; lia|]. destruct (c =? 90); [injection T as _ <- _; lia|discriminate].
  - unfold dims_of at 1. rewrite Ru, U. cbn [u_cfg set_u_cfg c_dims set_c_dims]. lia.
Qed.
(** B is among the instructions of NFUN but is not implemented. *)
Theorem C98_B_refuted : forall F D s l, Ready s FP_NFUN 66 l -> execute F (S D) 66 s = Ok (EUnimp, s).
Proof. intros F D s l ((fld & L) & H). rewrite (execute_letter F D _ _ _ _ L). reflexivity. Qed.

Example C98_ex : Ready (loaded [FP_NFUN] [7; 1; 3]) FP_NFUN 72 [7; 1; 3] /\ nfun_dir (inverthl_of (loaded [FP_NFUN] [7; 1; 3])) 72 = Some (4%nat, 1) /\
  dims_of (loaded [FP_NFUN] [7; 1; 3]) = 2%nat /\ NoHover (loaded [FP_NFUN] [7; 1; 3]) /\
  Ready (loaded [FP_NFUN] [7; 1; 3]) FP_NFUN 73 [7; 1; 3] /\ Ready (loaded [FP_NFUN] [7; 1; 3]) FP_NFUN 88 [7; 1; 3] /\
  axis_args 88 [7; 1; 3] = Some (7, -1, [3]) /\ Ready (loaded [FP_NFUN] [7; 1; 3]) FP_NFUN 66 [7; 1; 3].
Proof.
  split; [demo|]. split; [vm_compute; reflexivity|]. split; [vm_compute; reflexivity|]. split; [vm_compute; reflexivity|].
  split; [demo|]. split; [demo|]. split; [reflexivity|demo].
Qed.
Print Assumptions C98_fixed.
Print Assumptions C98_if.
Print Assumptions C98_axis_partial.
Print Assumptions C98_axis_refuted.
Print Assumptions C98_B_refuted.

(** ** C99 HRTI *)

(** The next reading of the clock, in nanoseconds, and the world after it. *)
Definition reading (w : world) : Z := w_clock w (w_nclock w).
Definition read_on (w : world) : world := set_w_nclock (S (w_nclock w)) w.

(** M remembers the time, E forgets it, nothing else changes. *)
Theorem C99_mark : forall F D s l, 
  (Ready s FP_HRTI 77 l -> execute F (S D) 77 s =
     Ok (ENone, {| s_w := read_on (s_w s); s_r := set_r_mark (reading (s_w s)) (s_r s) |})) /\
  (Ready s FP_HRTI 69 l -> execute F (S D) 69 s = Ok (ENone, {| s_w := s_w s; s_r := set_r_mark 0 (s_r s) |})).
Proof.
  intros F D s l. split; intros ((fld & L) & H); rewrite (execute_letter F D _ _ _ _ L); reflexivity.
Qed.
(** T pushes the whole microseconds since the mark. *)
Theorem C99_elapsed : forall F D s l, Ready s FP_HRTI 84 l -> r_mark (s_r s) <> 0 ->
  let t := reading (s_w s) - r_mark (s_r s) in
  0 <= t <= INT64_MAX ->
  exists s' x, execute F (S D) 84 s = Ok (ENone, s') /\ World_and_stack s s' (read_on (s_w s)) (x :: l) /\
    1000 * x <= t < 1000 * (x + 1).
Proof.
  intros F D s l ((fld & L) & H) M t Ht. rewrite (execute_letter F D _ _ _ _ L).
  change (fp_exec F FP_HRTI fld 84) with (hrti_exec 84). unfold hrti_exec. cbn [Z.eqb Pos.eqb].
  rewrite (run_bind getR _ s (s_r s) s) by reflexivity. rewrite (proj2 (Z.eqb_neq _ _) M).
  rewrite (run_bind clock _ s (reading (s_w s)) {| s_w := read_on (s_w s); s_r := s_r s |}) by reflexivity.
  assert (E : sub64 (reading (s_w s)) (r_mark (s_r s)) = Ok t) by (apply chk64_ok; unfold in64, INT64_MIN in *; fold t; lia).
  rewrite (run_bind _ _ _ _ _ (run_lift _ _ _ E)).
  assert (H1 : Holds {| s_w := read_on (s_w s); s_r := s_r s |} l) by exact H.
  destruct (pushS_plain _ _ (Z.quot t 1000) H1) as (s' & E' & O). rewrite (run_bind _ _ _ _ _ E').
  exists s', (Z.quot t 1000). split; [reflexivity|]. split.
  - split; [exact (Only_stack_w _ _ _ O)|].
    exact (only_stack_r s _ s' _ O eq_refl).
  - rewrite Z.quot_div_nonneg by lia. pose proof (Z.div_mod t 1000). pose proof (Z.mod_pos_bound t 1000). lia.
Qed.
(** Without a mark T fails and changes nothing. *)
Theorem C99_unmarked : forall F D s l, Ready s FP_HRTI 84 l -> r_mark (s_r s) = 0 ->
  execute F (S D) 84 s = Ok (EUnspec, s).
Proof.
  intros F D s l ((fld & L) & H) M. rewrite (execute_letter F D _ _ _ _ L).
  change (fp_exec F FP_HRTI fld 84) with (hrti_exec 84). unfold hrti_exec. cbn [Z.eqb Pos.eqb].
  rewrite (run_bind getR _ s (s_r s) s) by reflexivity. rewrite M. reflexivity.
Qed.
(** S pushes the microseconds since the last full second, G the granularity. *)
Theorem C99_second : forall F D s l, Ready s FP_HRTI 83 l -> 0 <= reading (s_w s) ->
  exists s' x q, execute F (S D) 83 s = Ok (ENone, s') /\ World_and_stack s s' (read_on (s_w s)) (x :: l) /\
    0 <= x < 1000000 /\ 0 <= reading (s_w s) - (q * 1000000 + x) * 1000 < 1000.
Proof.
  intros F D s l ((fld & L) & H) Ht. rewrite (execute_letter F D _ _ _ _ L).
  change (fp_exec F FP_HRTI fld 83) with (hrti_exec 83). unfold hrti_exec. cbn [Z.eqb Pos.eqb].
  rewrite (run_bind clock _ s (reading (s_w s)) {| s_w := read_on (s_w s); s_r := s_r s |}) by reflexivity.
  set (x := Z.rem (Z.quot (reading (s_w s)) 1000) 1000000).
  assert (H1 : Holds {| s_w := read_on (s_w s); s_r := s_r s |} l) by exact H.
  destruct (pushS_plain _ _ x H1) as (s' & E' & O). rewrite (run_bind _ _ _ _ _ E').
  exists s', x, (Z.quot (reading (s_w s)) 1000 / 1000000). split; [reflexivity|]. split.
  - split; [exact (Only_stack_w _ _ _ O)|].
    exact (only_stack_r s _ s' _ O eq_refl).
  - unfold x. rewrite Z.quot_div_nonneg by lia. pose proof (Z.div_pos (reading (s_w s)) 1000 Ht).
    rewrite Z.rem_mod_nonneg by lia.
    pose proof (Z.div_mod (reading (s_w s)) 1000). pose proof (Z.mod_pos_bound (reading (s_w s)) 1000).
    pose proof (Z.div_mod (reading (s_w s) / 1000) 1000000). pose proof (Z.mod_pos_bound (reading (s_w s) / 1000) 1000000). lia.
Qed.
Theorem C99_granularity : forall F D s l, Ready s FP_HRTI 71 l ->
  exists s', execute F (S D) 71 s = Ok (ENone, s') /\ Only_stack s s' (1 :: l).
Proof.
  intros F D s l ((fld & L) & H). rewrite (execute_letter F D _ _ _ _ L).
  change (fp_exec F FP_HRTI fld 71) with (pushS 1 ;;; ok). xpush. exists s0. split; [reflexivity|exact C].
Qed.
Definition marked (l : list Z) : st :=
  {| s_w := set_w_clock (fun n => 1000000 * Z.of_nat n + 5123999) (s_w (loaded [FP_HRTI] l));
     s_r := set_r_mark 5000000 (s_r (loaded [FP_HRTI] l)) |}.
Example C99_ex : Ready (marked [5]) FP_HRTI 84 [5] /\ r_mark (s_r (marked [5])) = 5000000 /\ reading (s_w (marked [5])) = 5123999 /\
  Ready (loaded [FP_HRTI] [5]) FP_HRTI 84 [5] /\ r_mark (s_r (loaded [FP_HRTI] [5])) = 0 /\ Ready (loaded [FP_HRTI] [5]) FP_HRTI 77 [5].
Proof.
  split.
  { split; [exists 0%nat; apply letterb_ok; vm_compute; reflexivity|].
    assert (X : Holds (loaded [FP_HRTI] [5]) [5]) by (apply holds_with_list; vm_compute; [reflexivity|discriminate]).
    unfold Holds, mySS, marked in *. cbn [s_r set_r_mark r_ss]. exact X. }
  split; [vm_compute; reflexivity|]. split; [vm_compute; reflexivity|]. split; [demo|]. split; [vm_compute; reflexivity|demo].
Qed.
Print Assumptions C99_mark.
Print Assumptions C99_elapsed.
Print Assumptions C99_unmarked.
Print Assumptions C99_second.
Print Assumptions C99_granularity.

(** ** C100 FING *)

(** The letter a cell names: 0..25 or A..Z. *)
Definition letter_named (a : Z) : option Z :=
  if (0 <=? a) && (a <=? 25) then Some (a + 65) else if (65 <=? a) && (a <=? 90) then Some a else None.
(** The meanings of each character, the current one first: [r_sem].  [s'] is [s] with
    meanings [t] and stack [l]. *)
Definition Meanings_and_stack (s s' : st) (t : Z -> list sem) (l : list Z) : Prop :=
  exists s1 u, Only_stack s s1 l /\ s' = {| s_w := s_w s1; s_r := set_r_sem u (s_r s1) |} /\ forall c, u c = t c.
Notation meanings s := (r_sem (s_r s)).
(** The current meaning; a character without one reflects. *)
Definition current (m : list sem) : sem := match m with x :: _ => x | [] => {| sm_act := AReflect; sm_move := false |} end.

Lemma named_letter a x : letter_named a = Some x -> fing_letter a = x /\ is_letter x = true.
Proof.
  unfold letter_named, fing_letter, is_letter. destruct ((0 <=? a) && (a <=? 25)) eqn:E.
  - intros [= <-]. split; [reflexivity|]. apply andb_true_iff in E. lia.
  - destruct ((65 <=? a) && (a <=? 90)) eqn:E'; [|discriminate]. intros [= <-]. auto.
Qed.
Lemma unnamed_letter a : letter_named a = None -> is_letter (fing_letter a) = false.
Proof.
  unfold letter_named, fing_letter, is_letter. destruct ((0 <=? a) && (a <=? 25)); [discriminate|].
  now destruct ((65 <=? a) && (a <=? 90)).
Qed.
Lemma modSem_run f s : modSem f s = Ok (tt, {| s_w := s_w s; s_r := set_r_sem (f (meanings s)) (s_r s) |}).
Proof. reflexivity. Qed.
Lemma only_sem s s' l : Only_stack s s' l -> meanings s' = meanings s.
Proof. intros O. now rewrite (Only_stack_r _ _ _ O). Qed.
Lemma current_top c t : or_reflect (sem_top c t) = current (t c).
Proof. unfold sem_top. now destruct (t c). Qed.

(** Y takes away the current meaning of a letter. *)
Theorem C100_drop : forall F D s a x l, Ready s FP_FING 89 (a :: l) -> letter_named a = Some x ->
  exists s', execute F (S D) 89 s = Ok (ENone, s') /\
    Meanings_and_stack s s' (fun c => if c =? x then tl (meanings s x) else meanings s c) l.
Proof.
  intros F D s a x l ((fld & L) & H) N. rewrite (execute_letter F D _ _ _ _ L).
  change (fp_exec F FP_FING fld 89) with (fing_exec 89). unfold fing_exec. cbn [Z.eqb Pos.eqb]. xpop. cbn [hd tl] in *.
  destruct (named_letter a x N) as (-> & ->). rewrite (run_bind _ _ _ _ _ (modSem_run _ _)).
  eexists. split; [reflexivity|]. exists s0. eexists. split; [exact C|]. split; [reflexivity|].
  intros c. unfold sem_pop. now rewrite (only_sem _ _ _ C).
Qed.
(** Z gives one letter the current meaning of another, on top of its own. *)
Theorem C100_copy : forall F D s a b x y l, Ready s FP_FING 90 (a :: b :: l) -> letter_named a = Some x -> letter_named b = Some y ->
  exists s', execute F (S D) 90 s = Ok (ENone, s') /\
    Meanings_and_stack s s' (fun c => if c =? x then current (meanings s y) :: meanings s x else meanings s c) l.
Proof.
  intros F D s a b x y l ((fld & L) & H) N N'. rewrite (execute_letter F D _ _ _ _ L).
  change (fp_exec F FP_FING fld 90) with (fing_exec 90). unfold fing_exec. cbn [Z.eqb Pos.eqb]. xpop. cbn [hd tl] in *.
  destruct (named_letter a x N) as (-> & ->). cbn [negb]. xpop. cbn [hd tl] in *.
  destruct (named_letter b y N') as (-> & ->).
  rewrite (run_bind getR _ s1 (s_r s1) s1) by reflexivity. rewrite (run_bind _ _ _ _ _ (modSem_run _ _)).
  assert (O : Only_stack s s1 l) by os_finish.
  eexists. split; [reflexivity|]. exists s1. eexists. split; [exact O|]. split; [reflexivity|].
  intros c. unfold sem_push. rewrite (only_sem _ _ _ O), current_top. reflexivity.
Qed.
(** X exchanges the current meanings of two letters. *)
Theorem C100_swap : forall F D s a b x y l, Ready s FP_FING 88 (a :: b :: l) -> letter_named a = Some x -> letter_named b = Some y ->
  exists s', execute F (S D) 88 s = Ok (ENone, s') /\
    (x <> y -> Meanings_and_stack s s' (fun c =>
       if c =? x then current (meanings s y) :: tl (meanings s x)
       else if c =? y then current (meanings s x) :: tl (meanings s y) else meanings s c) l) /\
    (x = y -> Meanings_and_stack s s' (fun c =>
       if c =? x then current (meanings s x) :: current (tl (meanings s x)) :: tl (tl (meanings s x)) else meanings s c) l).
Proof.
  intros F D s a b x y l ((fld & L) & H) N N'. rewrite (execute_letter F D _ _ _ _ L).
  change (fp_exec F FP_FING fld 88) with (fing_exec 88). unfold fing_exec. cbn [Z.eqb Pos.eqb]. xpop. cbn [hd tl] in *.
  destruct (named_letter a x N) as (-> & ->). cbn [negb]. xpop. cbn [hd tl] in *.
  destruct (named_letter b y N') as (-> & ->).
  rewrite (run_bind getR _ s1 (s_r s1) s1) by reflexivity. rewrite (run_bind _ _ _ _ _ (modSem_run _ s1)).
  set (s2 := {| s_w := s_w s1; s_r := set_r_sem (sem_pop x (meanings s1)) (s_r s1) |}).
  rewrite (run_bind getR _ s2 (s_r s2) s2) by reflexivity.
  rewrite (run_bind _ _ _ _ _ (modSem_run _ s2)), (run_bind _ _ _ _ _ (modSem_run _ _)), (run_bind _ _ _ _ _ (modSem_run _ _)).
  assert (O : Only_stack s s1 l) by os_finish. pose proof (only_sem _ _ _ O) as Me.
  eexists. split; [reflexivity|].
  rewrite !current_top. cbn [s_r s_w s2 set_r_sem r_sem].
  split; intros Exy; exists s1; eexists; (split; [exact O|]); (split; [reflexivity|]); intros c; cbn [r_sem set_r_sem]; rewrite Me.
  - unfold sem_push, sem_pop.
    assert (Nxy : (x =? y) = false) by (now apply Z.eqb_neq). assert (Nyx : (y =? x) = false) by (apply Z.eqb_neq; congruence).
    rewrite Nxy, Nyx, !Z.eqb_refl. destruct (Z.eqb_spec c y) as [->|Ncy].
    + rewrite Nyx. reflexivity.
    + destruct (Z.eqb_spec c x) as [->|]; reflexivity.
  - subst y. unfold sem_push, sem_pop. rewrite !Z.eqb_refl. destruct (Z.eqb_spec c x) as [->|]; reflexivity.
Qed.
(** Exchanging twice restores every meaning. *)
Theorem C100_swap_twice : forall F D s a b x y l s1 s2,
  letter_named a = Some x -> letter_named b = Some y -> x <> y -> meanings s x <> [] -> meanings s y <> [] ->
  Ready s FP_FING 88 (a :: b :: l) -> execute F (S D) 88 s = Ok (ENone, s1) ->
  forall l1, Ready s1 FP_FING 88 (a :: b :: l1) -> execute F (S D) 88 s1 = Ok (ENone, s2) ->
  forall c, meanings s2 c = meanings s c.
Proof.
  intros F D s a b x y l s1 s2 N N' Nxy Mx My R E l1 R1 E1 c.
  destruct (C100_swap F D s a b x y l R N N') as (t1 & X1 & P1 & _). rewrite E in X1. injection X1 as <-.
  destruct (C100_swap F D s1 a b x y l1 R1 N N') as (t2 & X2 & P2 & _). rewrite E1 in X2. injection X2 as <-.
  destruct (P1 Nxy) as (u1 & m1 & O1 & -> & M1). destruct (P2 Nxy) as (u2 & m2 & O2 & -> & M2).
  cbn [s_r set_r_sem r_sem] in *. rewrite M2.
  assert (Nyx : (y =? x) = false) by (apply Z.eqb_neq; congruence).
  rewrite !M1, !Z.eqb_refl, Nyx.
  destruct (Z.eqb_spec c x) as [->|Ncx]; [cbn [current tl]; now destruct (meanings s x)|].
  destruct (Z.eqb_spec c y) as [->|Ncy]; [cbn [current tl]; now destruct (meanings s y)|]. reflexivity.
Qed.
(** Anything that is not a letter fails, and no meaning changes. *)
Theorem C100_invalid : forall F D s c a b l, In c [88; 89; 90] -> Ready s FP_FING c (a :: b :: l) ->
  (letter_named a = None -> exists s', execute F (S D) c s = Ok (EUnspec, s') /\ Only_stack s s' (b :: l)) /\
  (letter_named a <> None -> letter_named b = None -> c <> 89 ->
   exists s', execute F (S D) c s = Ok (EUnspec, s') /\ Only_stack s s' l).
Proof.
  intros F D s c a b l I ((fld & L) & H). rewrite (execute_letter F D _ _ _ _ L).
  change (fp_exec F FP_FING fld c) with (fing_exec c). split.
  - intros N. pose proof (unnamed_letter a N) as U.
    destruct I as [<-|[<-|[<-|[]]]]; unfold fing_exec; cbn [Z.eqb Pos.eqb]; xpop; cbn [hd tl] in *; rewrite U; cbn [negb];
      exists s0; (split; [reflexivity|exact C]).
  - intros Na N Nc. pose proof (unnamed_letter b N) as U. destruct (letter_named a) as [x|] eqn:Ea; [|congruence].
    destruct (named_letter a x Ea) as (E1 & E2).
    destruct I as [<-|[<-|[<-|[]]]]; [|congruence|]; unfold fing_exec; cbn [Z.eqb Pos.eqb]; xpop; cbn [hd tl] in *;
      rewrite E1, E2; cbn [negb]; xpop; cbn [hd tl] in *; rewrite U; exists s1; (split; [reflexivity|os_finish]).
Qed.
(** What a letter does is its current meaning: after Z it does what the other one
    does. *)
Theorem C100_copied_letter : forall F D s a b x y l s' fp fld,
  Ready s FP_FING 90 (a :: b :: l) -> letter_named a = Some x -> letter_named b = Some y -> y <> x ->
  Letter s fp fld y -> execute F (S D) 90 s = Ok (ENone, s') ->
  forall F' D', execute F' (S D') x s' = fp_exec F' fp fld y s'.
Proof.
  intros F D s a b x y l s' fp fld R N N' Nyx (NS & ND & mv & T) E F' D'.
  destruct (C100_copy F D s a b x y l R N N') as (t & X & s1 & u & O & Et & M). rewrite E in X. injection X as <-.
  subst s'. cbn [execute]. unfold mbind at 1. unfold getR at 1. cbn [s_r set_r_sem r_string].
  rewrite (Only_stack_r _ _ _ O). cbn [set_r_ss r_string]. rewrite NS.
  unfold exec_normal. unfold mbind at 1. unfold getR at 1. cbn [s_r set_r_sem r_sem].
  unfold sem_top. rewrite M, Z.eqb_refl. cbn [hd_error].
  unfold sem_top in T. destruct (meanings s y) as [|z t]; [discriminate|]. injection T as ->. cbn [current].
  unfold isMode. unfold mbind at 1. unfold mbind at 1. unfold getU at 1. unfold ret at 1. cbn [s_w s_r set_r_sem r_uni set_r_ss].
  rewrite (Only_stack_w _ _ _ O), ND. reflexivity.
Qed.
Example C100_ex : Ready (loaded [FP_FING] [0; 89; 5]) FP_FING 90 [0; 89; 5] /\ Ready (loaded [FP_FING] [88; 25; 5]) FP_FING 88 [88; 25; 5] /\
  letter_named 0 = Some 65 /\ letter_named 25 = Some 90 /\ letter_named 89 = Some 89 /\ letter_named 26 = None /\
  Letter (loaded [FP_FING] [0; 89; 5]) FP_FING 0 89 /\
  match meanings (loaded [FP_FING] [88; 25; 5]) 88, meanings (loaded [FP_FING] [88; 25; 5]) 90 with _ :: _, _ :: _ => true | _, _ => false end = true.
Proof.
  split; [demo|]. split; [demo|]. repeat (split; [reflexivity|]). split; [apply letterb_ok; vm_compute; reflexivity|vm_compute; reflexivity].
Qed.
Print Assumptions C100_drop.
Print Assumptions C100_copy.
Print Assumptions C100_swap.
Print Assumptions C100_swap_twice.
Print Assumptions C100_invalid.
Print Assumptions C100_copied_letter.
