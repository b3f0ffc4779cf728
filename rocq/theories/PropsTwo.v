(** * Property C134: a whole program with two IPs.  The first instruction splits
    the IP; the parent then runs eastwards and the child, around the edge of the
    program, westwards. *)

From Coq Require Import ZArith Lia String List Bool.
From Verif Require Import Base BaseProofs VectorModel VectorProofs TextModel TextProofs
  StackModel StackProofs FieldModel FieldProofs World IpModel IpProofs LoadModel FingModel CoreModel
  UniModel OptModel ExecProofs States FlowProofs PropsStack PropsIO Effects PropsTurn PropsFlow PropsFileIO PropsWhole.
Import ListNotations.
Open Scope Z_scope.

(** ** The specification *)

(** A thread prints the values of some expressions (those of C130) one after the
    other; its code is that of each expression followed by a full stop. *)
Definition lines (es : list expr) : bytes := flat_map (fun e => code e ++ [46]) es.
(** The program: split, the parent's code and its end; then, written backwards, the
    child's code and its end. *)
Definition two (a b : list expr) : bytes := 116 :: lines a ++ [64] ++ rev (lines b ++ [64]).

(** What a thread prints at each of its instructions: nothing while it computes, then
    the value in decimal and a blank. *)
Inductive Shows : list expr -> list bytes -> Prop :=
| Shows_none : Shows [] []
| Shows_one e es t ts : decimal (value e) t -> Shows es ts ->
    Shows (e :: es) (repeat [] (length (code e)) ++ (t ++ [32]) :: ts).
(** Taking turns, the first thread first, until one has ended. *)
Fixpoint turns (a b : list bytes) : list bytes :=
  match a, b with
  | x :: a', y :: b' => x :: y :: turns a' b'
  | [], _ => b
  | _, [] => a
  end.

(** ** The bounds of a program of one row *)

Lemma row_put_shape l : forall x f, 0 <= x ->
  (f_maxs f = [] /\ f_mins f = [] \/ exists m, f_maxs f = [m] /\ f_mins f = [0] /\ 0 <= m < x) ->
  (f_maxs (row_put x l f) = [] /\ f_mins (row_put x l f) = [] \/
   exists m, f_maxs (row_put x l f) = [m] /\ f_mins (row_put x l f) = [0] /\ 0 <= m < x + Z.of_nat (length l)).
Proof.
  induction l as [|c l IH]; intros x f Hx H; cbn [row_put length].
  - destruct H as [H|(m & A & B & C)]; [now left|right; exists m; repeat split; auto; lia].
  - replace (x + Z.of_nat (S (length l))) with (x + 1 + Z.of_nat (length l)) by lia. apply IH; [lia|].
    destruct (Z.eqb_spec c 32) as [|NC].
    + destruct H as [H|(m & A & B & C)]; [now left|right; exists m; repeat split; auto; lia].
    + right. unfold f_put. destruct (Z.eqb_spec c 32); [contradiction|]. cbn [f_maxs f_mins].
      destruct H as [(A & B)|(m & A & B & C)]; rewrite A, B; unfold grow;
        cbn [vsize length Nat.sub repeat app mapi Nat.ltb Nat.leb andb]; change (vget [x] 0) with x.
      * exists x. destruct (Z.ltb_spec 0 x), (Z.ltb_spec x 0); try lia; repeat split; try lia; repeat f_equal; lia.
      * exists (Z.max m x). destruct (Z.ltb_spec m x), (Z.ltb_spec x 0); try lia; repeat split; try lia; repeat f_equal; lia.
Qed.
Lemma row_outside l x : x < 0 \/ Z.of_nat (length l) <= x -> l <> [] -> in_field 2 (prog_field l) [x] = false.
Proof.
  intros Hx Hl. destruct (in_field 2 (prog_field l) [x]) eqn:E; [|reflexivity]. exfalso.
  apply in_field_spec in E. specialize (E 0%nat ltac:(lia)). change (vget [x] 0) with x in E.
  assert (LL : (0 < length l)%nat) by (destruct l; [contradiction|cbn; lia]).
  unfold f_min, f_max in E.
  destruct (row_put_shape l 0 (field_empty 2 false) ltac:(lia) (or_introl (conj eq_refl eq_refl))) as [(A & B)|(m & A & B & C)];
    unfold prog_field in E; rewrite A, B in E; cbn [length Nat.ltb Nat.leb nth] in E; lia.
Qed.

Lemma row_walk l k : l <> [] -> last l 32 <> 32 -> Z.of_nat (length l) <= 2147483647 ->
  forall x, 0 <= x -> x + Z.of_nat k = Z.of_nat (length l) -> forall j,
  loopNr (walk_step 2 (prog_field l) [1]) (k + S j) [x] = Ok [Z.of_nat (length l)].
Proof.
  intros HN HL HB. induction k as [|k IH]; intros x Hx E j; cbn [Nat.add]; rewrite loopNr_unfold; unfold walk_step at 1.
  - rewrite row_outside by (auto; lia). replace x with (Z.of_nat (length l)) by lia. reflexivity.
  - rewrite in_row_inside by (auto; unfold In_row; lia).
    rewrite vadd1 by (unfold in64, INT64_MIN, INT64_MAX; lia). cbn [bind]. apply IH; lia.
Qed.
(** West of the first cell comes the last. *)
Lemma row_wrap l : l <> [] -> last l 32 <> 32 -> Z.of_nat (length l) <= 2147483647 ->
  Next (prog_field l) 0 (-1) (Z.of_nat (length l) - 1).
Proof.
  intros HN HL HB. unfold Next, ip_next. rewrite vadd1 by (unfold in64, INT64_MIN, INT64_MAX; lia). cbn [bind].
  unfold lahey_wrap. rewrite row_outside by (auto; lia).
  change (vrev [-1]) with (Ok [1]). cbn [bind]. rewrite vadd1 by (unfold in64, INT64_MIN, INT64_MAX; lia). cbn [bind].
  rewrite loop_loopNr.
  assert (B : (length l < Pos.to_nat BIG)%nat).
  { apply Nat2Z.inj_lt. rewrite positive_nat_Z. change (Z.pos BIG) with (2 ^ 66). lia. }
  replace (Pos.to_nat BIG) with (length l + S (Pos.to_nat BIG - length l - 1))%nat by lia.
  rewrite (row_walk l (length l)) by (auto; lia). cbn [bind].
  change (vrev [1]) with (Ok [-1]). cbn [bind]. rewrite vadd1 by (unfold in64, INT64_MIN, INT64_MAX; lia). reflexivity.
Qed.

(** ** One IP among others *)

Record Ip (x dx : Z) (l : list Z) (r : runner) : Prop := {
  I_uni : r_uni r = 0%nat;
  I_stopped : r_stopped r = false;
  I_sem : r_sem r = r_sem r98;
  I_pos : r_pos r = [x];
  I_delta : r_delta r = [dx];
  I_string : r_string r = false;
  I_stack : exists k, ss_top (r_ss r) = Ok k /\ plain k /\ s_list k = l }.
Record Wd (f : field) (o : bytes) (w : world) : Prop := {
  W_cfg : exists nm ar en, u_cfg (w_uni w 0) = set_c_dims 2 (set_c_name nm (set_c_args ar (set_c_env en c98)));
  W_field : u_field (w_uni w 0) = f;
  W_exit : u_exit (w_uni w 0) = 0;
  W_out : w_out w = o }.
Definition waiting (w : world) : list Z := u_queue (w_uni w 0).

Lemma ip_normal x dx l f o r w c : Ip x dx l r -> Wd f o w -> sem_top c (r_sem r98) = std_sem c ->
  Normal {| s_w := w; s_r := r |} c.
Proof.
  intros H HW E. destruct H, HW. split; [assumption|]. cbn [s_w s_r]. rewrite I_uni0. unfold testmode. destruct W_cfg0 as (nm & ar & en & W_cfg0). rewrite W_cfg0.
  split; [reflexivity|]. now rewrite I_sem0.
Qed.
Lemma ip_stack x dx l l' r w s1 : Ip x dx l r -> Only_stack {| s_w := w; s_r := r |} s1 l' ->
  Ip x dx l' (s_r s1) /\ s_w s1 = w.
Proof.
  intros H C. split; [|exact (Only_stack_w _ _ _ C)].
  assert (HS : Holds {| s_w := w; s_r := r |} l) by (destruct H; assumption).
  pose proof (Only_stack_holds _ _ _ _ HS C) as K. pose proof (Only_stack_r _ _ _ C) as R. cbn [s_r] in R.
  destruct H. unfold Holds, mySS in K. constructor; rewrite ?R; cbn; auto.
Qed.

Inductive Instr : Z -> list Z -> list Z -> bytes -> Prop :=
| In_num n l : 0 <= n <= 15 -> Instr (if n <? 10 then 48 + n else 87 + n) l (n :: l) []
| In_not a l : Instr 33 (a :: l) ((if a =? 0 then 1 else 0) :: l) []
| In_bin op a b l : In op [43; 45; 42; 47; 37; 96] -> in64 a -> in64 b -> ~ undefined op b a ->
    Instr op (a :: b :: l) (arith op b a :: l) []
| In_out a l : Instr 46 (a :: l) l (dec (to_i32 a) ++ [32]).

Lemma out_nothing w : set_w_out (w_out w ++ []) w = w.
Proof. rewrite app_nil_r. destruct w. reflexivity. Qed.

Lemma instr_run F D c l l' t x dx f o r w : Instr c l l' t -> Ip x dx l r -> Wd f o w ->
  exists s1, execute F (S D) c {| s_w := w; s_r := r |} = Ok (ENone, s1) /\
    Ip x dx l' (s_r s1) /\ s_w s1 = set_w_out (w_out w ++ t) w.
Proof.
  intros HI H HW. set (s := {| s_w := w; s_r := r |}).
  assert (HS : Holds s l) by (destruct H; assumption).
  destruct HI as [n l Hn|a l|op a b l Ho A B U|a l].
  - destruct (pushS_plain s l n HS) as (s1 & E & C). destruct (ip_stack _ _ _ _ _ _ _ H C) as (H1 & W1).
    exists s1. rewrite out_nothing. split; [|auto].
    assert (Q : n = 0 \/ n = 1 \/ n = 2 \/ n = 3 \/ n = 4 \/ n = 5 \/ n = 6 \/ n = 7 \/ n = 8 \/ n = 9 \/ n = 10 \/
      n = 11 \/ n = 12 \/ n = 13 \/ n = 14 \/ n = 15) by lia.
    repeat (destruct Q as [->|Q]); try subst n;
      match goal with |- execute _ _ ?c _ = _ => let c' := eval cbn in c in change c with c' end;
      erewrite execute_normal; try (eapply ip_normal; [exact H|exact HW|reflexivity]); try reflexivity;
      cbn [run_meth]; rewrite (run_bind _ _ _ _ _ E); reflexivity.
  - destruct (C19_not F D s _ (ip_normal _ _ _ _ _ _ _ 33 H HW eq_refl) HS) as (s1 & E & C).
    destruct (ip_stack _ _ _ _ _ _ _ H C) as (H1 & W1). exists s1. rewrite out_nothing. auto.
  - assert (N : Normal s op).
    { repeat (destruct Ho as [<-|Ho]); [ | | | | | |contradiction]; (eapply ip_normal; [exact H|exact HW|reflexivity]). }
    destruct (C19_arith F D op s _ Ho N HS A B) as (Q & _). destruct (Q U) as (s1 & E & C).
    destruct (ip_stack _ _ _ _ _ _ _ H C) as (H1 & W1). exists s1. rewrite out_nothing. auto.
  - destruct (numout_run F D s _ (ip_normal _ _ _ _ _ _ _ 46 H HW eq_refl) HS) as (s1 & E & (W1 & s2 & C & R)).
    cbn [hd tl] in *. destruct (ip_stack _ _ _ _ _ _ _ H C) as (H1 & _).
    exists s1. split; [exact E|]. split; [rewrite R; exact H1|exact W1].
Qed.

Lemma ip_step F D id q w r x dx l l' t f o c x' :
  waiting w = id :: q -> w_run w id = Some r -> Ip x dx l r -> Wd f o w ->
  f_get f [x] = c -> Instr c l l' t -> Next f x dx x' ->
  exists w' r', run_step F (S D) 0 w = Ok (inl w') /\ Wd f (o ++ t) w' /\ waiting w' = q ++ [id] /\
    w_run w' id = Some r' /\ Ip x' dx l' r' /\ (forall j, j <> id -> w_run w' j = w_run w j).
Proof.
  intros Q R H HW C HI HX. destruct (instr_run F D c l l' t x dx f o r w HI H HW) as (s1 & E & H1 & W1).
  set (s := {| s_w := w; s_r := r |}) in *.
  assert (T : tick F (S D) s = Ok (tt, moved s1 [x'] [dx])).
  { apply loopM_inr. rewrite (tick_step_exec F (S D) s c ENone s1).
    - unfold mbind, ret. rewrite (ipNext_run s1 [x'] [dx]); [reflexivity|destruct H1; assumption|].
      unfold next_of. destruct H1, HW. destruct W_cfg0 as (nm & ar & en & W_cfg0). rewrite W1. cbn. rewrite I_uni0, I_pos0, I_delta0, W_field0, W_cfg0. exact HX.
    - destruct H, HW. unfold no_debug. cbn [s_w s_r s]. rewrite I_uni0. unfold testmode. destruct W_cfg0 as (nm & ar & en & W_cfg0). rewrite W_cfg0. reflexivity.
    - destruct H, HW. unfold space. cbn [s_w s_r s]. rewrite I_uni0, W_field0, I_pos0. exact C.
    - exact E. }
  unfold waiting in *. unfold run_step, uni_step. rewrite Q, R.
  pose proof (I_stopped _ _ _ _ H) as ST. rewrite ST. unfold as_runner. rewrite R. fold s. rewrite T. cbn [bind].
  pose proof (I_uni _ _ _ _ H1) as U1. pose proof (I_stopped _ _ _ _ H1) as ST1.
  cbn [w_run upd_uni upd_run set_w_uni set_w_run s_r s_w moved]. rewrite Z.eqb_refl. cbn [r_uni r_stopped set_r_delta set_r_pos].
  rewrite U1, ST1. cbn [Nat.eqb].
  eexists. eexists. split; [reflexivity|].
  split.
  { destruct HW. constructor; cbn; rewrite ?W1; cbn; auto. now rewrite W_out0. }
  split. { cbn. rewrite W1. cbn. rewrite Q. reflexivity. }
  split. { cbn. rewrite Z.eqb_refl. reflexivity. }
  split. { destruct H1. constructor; cbn; auto. }
  intros j Hj. cbn. rewrite W1. destruct (Z.eqb_spec j id); [contradiction|]. reflexivity.
Qed.
Lemma ip_end F D id q w r x dx l f o :
  waiting w = id :: q -> w_run w id = Some r -> Ip x dx l r -> Wd f o w -> f_get f [x] = 64 ->
  exists w', run_step F (S D) 0 w = Ok (inl w') /\ Wd f o w' /\ waiting w' = q /\
    (forall j, j <> id -> w_run w' j = w_run w j).
Proof.
  intros Q R H HW C. set (s := {| s_w := w; s_r := r |}).
  set (s1 := {| s_w := w; s_r := set_r_stopped true r |}).
  assert (T : tick F (S D) s = Ok (tt, s1)).
  { apply loopM_inr. rewrite (tick_step_exec F (S D) s 64 ENone s1).
    - unfold mbind, ret. rewrite ipNext_stopped by reflexivity. reflexivity.
    - destruct H, HW. unfold no_debug. cbn [s_w s_r s]. rewrite I_uni0. unfold testmode. destruct W_cfg0 as (nm & ar & en & W_cfg0). rewrite W_cfg0. reflexivity.
    - destruct H, HW. unfold space. cbn [s_w s_r s]. rewrite I_uni0, W_field0, I_pos0. exact C.
    - rewrite (execute_normal F D _ s _ _ (ip_normal _ _ _ _ _ _ _ 64 H HW eq_refl) eq_refl). reflexivity. }
  unfold waiting in *. unfold run_step, uni_step. rewrite Q, R.
  pose proof (I_stopped _ _ _ _ H) as ST. rewrite ST. unfold as_runner. rewrite R. fold s. rewrite T. cbn [bind].
  pose proof (I_uni _ _ _ _ H) as U.
  cbn [w_run upd_uni upd_run set_w_uni set_w_run s_r s_w s1]. rewrite Z.eqb_refl. cbn [r_uni r_stopped set_r_stopped].
  rewrite U. cbn [Nat.eqb]. eexists. split; [reflexivity|].
  split. { destruct HW. constructor; cbn; auto. }
  split. { cbn. rewrite Q. reflexivity. }
  intros j Hj. cbn. destruct (Z.eqb_spec j id); [contradiction|]. reflexivity.
Qed.

(** ** Threads *)

(** The cells from [x] in direction [dx] are the instructions [cs] and then @. *)
Fixpoint Lies (f : field) (x dx : Z) (cs : bytes) : Prop :=
  match cs with
  | [] => f_get f [x] = 64
  | c :: cs' => f_get f [x] = c /\ Next f x dx (x + dx) /\ Lies f (x + dx) dx cs'
  end.
(** Running [cs] on the stack [l] prints the texts [ts], one for each instruction. *)
Inductive Path : bytes -> list Z -> list bytes -> Prop :=
| P_none l : Path [] l []
| P_one c cs l l1 t ts : Instr c l l1 t -> Path cs l1 ts -> Path (c :: cs) l (t :: ts).

Lemma alone F D cs : forall l ts f x dx id w r o, Path cs l ts -> Lies f x dx cs ->
  waiting w = [id] -> w_run w id = Some r -> Ip x dx l r -> Wd f o w ->
  exists w', Goes F (S D) (length cs + 1) w w' /\ waiting w' = [] /\ Wd f (o ++ concat ts) w'.
Proof.
  induction cs as [|c cs IH]; intros l ts f x dx id w r o HP HL Q R H HW; inversion HP; subst.
  - destruct (ip_end F D id [] w r x dx l f o Q R H HW HL) as (w' & E & HW' & Q' & _).
    exists w'. split; [now apply goes_one|]. split; [exact Q'|]. cbn [concat]. now rewrite app_nil_r.
  - cbn [Lies] in HL. destruct HL as (C & HX & HL).
    match goal with HI : Instr c l ?l1 ?t |- _ =>
      destruct (ip_step F D id [] w r x dx l l1 t f o c (x + dx) Q R H HW C HI HX) as (w1 & r1 & E & HW1 & Q1 & R1 & H1 & _) end.
    match goal with HQ : Path cs ?l1 ?ts0 |- _ =>
      destruct (IH l1 ts0 f (x + dx) dx id w1 r1 _ HQ HL Q1 R1 H1 HW1) as (w2 & G2 & Q2 & HW2) end.
    exists w2. split; [econstructor; [exact E|exact G2]|]. split; [exact Q2|]. cbn [concat]. rewrite app_assoc. exact HW2.
Qed.
Lemma both F D ca : forall cb la lb ta tb f xa da xb db ia ib w ra rb o,
  Path ca la ta -> Path cb lb tb -> Lies f xa da ca -> Lies f xb db cb -> ia <> ib ->
  waiting w = [ia; ib] -> w_run w ia = Some ra -> w_run w ib = Some rb ->
  Ip xa da la ra -> Ip xb db lb rb -> Wd f o w ->
  exists w', Goes F (S D) (length ca + length cb + 2) w w' /\ waiting w' = [] /\ Wd f (o ++ concat (turns ta tb)) w'.
Proof.
  induction ca as [|c ca IH]; intros cb la lb ta tb f xa da xb db ia ib w ra rb o PA PB LA LB ND Q RA RB HA HB HW.
  - inversion PA; subst.
    destruct (ip_end F D ia [ib] w ra xa da la f o Q RA HA HW LA) as (w1 & E & HW1 & Q1 & K).
    destruct (alone F D cb lb tb f xb db ib w1 rb o PB LB Q1) as (w2 & G2 & Q2 & HW2); auto.
    { rewrite K; auto. }
    exists w2. split; [|split; [exact Q2|destruct tb; exact HW2]]. cbn [length Nat.add].
    replace (length cb + 2)%nat with (S (length cb + 1)) by lia. econstructor; [exact E|exact G2].
  - inversion PA as [|? ? ? l1 t ts HI PA1]; subst. cbn [Lies] in LA. destruct LA as (C & HX & LA).
    destruct (ip_step F D ia [ib] w ra xa da la l1 t f o c (xa + da) Q RA HA HW C HI HX) as (w1 & r1 & E & HW1 & Q1 & R1 & H1 & K).
    cbn [app] in Q1. assert (RB1 : w_run w1 ib = Some rb) by (rewrite K; auto).
    destruct cb as [|d cb].
    + inversion PB; subst. cbn [Lies] in LB.
      destruct (ip_end F D ib [ia] w1 rb xb db lb f _ Q1 RB1 HB HW1 LB) as (w2 & E2 & HW2 & Q2 & K2).
      assert (R3 : w_run w2 ia = Some r1) by (rewrite K2; auto).
      destruct (alone F D ca l1 ts f (xa + da) da ia w2 r1 _ PA1 LA Q2 R3 H1 HW2) as (w3 & G3 & Q3 & HW3).
      exists w3. split.
      * cbn [length]. replace (S (length ca) + 0 + 2)%nat with (S (S (length ca + 1))) by lia.
        econstructor; [exact E|]. econstructor; [exact E2|exact G3].
      * split; [exact Q3|]. cbn [turns concat]. rewrite app_assoc. exact HW3.
    + inversion PB as [|? ? ? l2 u us HJ PB1]; subst. cbn [Lies] in LB. destruct LB as (C2 & HX2 & LB).
      destruct (ip_step F D ib [ia] w1 rb xb db lb l2 u f _ d (xb + db) Q1 RB1 HB HW1 C2 HJ HX2) as (w2 & r2 & E2 & HW2 & Q2 & R2 & H2 & K2).
      cbn [app] in Q2.
      assert (R3 : w_run w2 ia = Some r1) by (rewrite K2; auto).
      destruct (IH cb l1 l2 ts us f (xa + da) da (xb + db) db ia ib w2 r1 r2 _ PA1 PB1 LA LB ND Q2 R3 R2 H1 H2 HW2) as (w3 & G3 & Q3 & HW3).
      exists w3. split.
      * cbn [length]. replace (S (length ca) + S (length cb) + 2)%nat with (S (S (length ca + length cb + 2))) by lia.
        econstructor; [exact E|]. econstructor; [exact E2|exact G3].
      * split; [exact Q3|]. cbn [turns concat]. rewrite <- !app_assoc in HW3. exact HW3.
Qed.

(** ** The code of a thread *)

Lemma code_path e : Written e -> Defined e -> forall cs l ts, Path cs (value e :: l) ts ->
  Path (code e ++ cs) l (repeat [] (length (code e)) ++ ts).
Proof.
  induction e as [n|a IH|op a IHa b IHb]; cbn [Written Defined value code]; intros HW HD cs l ts HP.
  - cbn [app length repeat]. econstructor; [|exact HP]. now constructor.
  - rewrite <- app_assoc, app_length, repeat_app, <- app_assoc. apply (IH HW HD). cbn [app length repeat].
    econstructor; [|exact HP]. constructor.
  - destruct HW as (Ho & WA & WB). destruct HD as (DA & DB & U).
    rewrite <- !app_assoc, !app_length, !repeat_app, <- !app_assoc. apply (IHa WA DA). apply (IHb WB DB).
    cbn [app length repeat]. econstructor; [|exact HP].
    constructor; [exact Ho|now apply value_in64|now apply value_in64|exact U].
Qed.
Lemma lines_path es : Forall Written es -> Forall Defined es -> Forall (fun e => -2147483648 <= value e <= 2147483647) es ->
  exists ts, Shows es ts /\ Path (lines es) [] ts.
Proof.
  induction 1 as [|e es HW _ IH]; intros HD HV; [exists []; split; constructor|].
  inversion HD; inversion HV; subst. destruct IH as (ts & S & P); auto.
  eexists. split; [constructor; [apply dec_decimal|exact S]|].
  unfold lines in *. cbn [flat_map]. rewrite <- app_assoc. apply code_path; auto. cbn [app].
  econstructor; [|exact P]. rewrite <- (to_i32_id (value e)) at 2 by lia. constructor.
Qed.
Lemma lines_plain es : Forall Written es -> Forall plain_char (lines es).
Proof.
  induction 1 as [|e es HW _ IH]; [constructor|]. unfold lines in *. cbn [flat_map].
  apply Forall_app. split; [|exact IH]. apply Forall_app. split; [now apply code_plain|].
  constructor; [unfold plain_char; lia|constructor].
Qed.

Lemma lies_east p cs : last p 32 <> 32 -> Z.of_nat (length p) <= 2147483647 -> forall pre suf, p = pre ++ cs ++ 64 :: suf ->
  Lies (prog_field p) (Z.of_nat (length pre)) 1 cs.
Proof.
  intros HL HB. induction cs as [|c cs IH]; intros pre suf E; cbn [Lies].
  - apply row_cell with (suf := suf). exact E.
  - split; [apply row_cell with (suf := cs ++ 64 :: suf); exact E|].
    assert (K : (length p = length pre + S (length cs) + S (length suf))%nat) by (rewrite E, !app_length; cbn [length]; lia).
    split.
    + apply next_row; [intros ->; cbn in K; lia|exact HL|unfold In_row; lia|unfold in64, INT64_MIN, INT64_MAX; lia].
    + replace (Z.of_nat (length pre) + 1) with (Z.of_nat (length (pre ++ [c]))) by (rewrite app_length; cbn [length]; lia).
      apply IH with (suf := suf). rewrite E, <- app_assoc. reflexivity.
Qed.
Lemma lies_west p cs : last p 32 <> 32 -> Z.of_nat (length p) <= 2147483647 -> forall pre suf, p = pre ++ 64 :: rev cs ++ suf ->
  Lies (prog_field p) (Z.of_nat (length pre) + Z.of_nat (length cs)) (-1) cs.
Proof.
  intros HL HB. induction cs as [|c cs IH]; intros pre suf E; cbn [Lies length].
  - rewrite Z.add_0_r. apply row_cell with (suf := suf). exact E.
  - assert (K : (length p = length pre + S (S (length cs)) + length suf)%nat).
    { rewrite E, !app_length. cbn [length]. rewrite app_length, rev_length. cbn [length]. lia. }
    split.
    { replace (Z.of_nat (length pre) + Z.of_nat (S (length cs))) with (Z.of_nat (length (pre ++ 64 :: rev cs)))
        by (rewrite app_length; cbn [length]; rewrite rev_length; lia).
      apply row_cell with (suf := suf). rewrite E. cbn [rev]. rewrite <- !app_assoc. reflexivity. }
    split.
    { apply next_row; [intros ->; cbn in K; lia|exact HL|unfold In_row; lia|unfold in64, INT64_MIN, INT64_MAX; lia]. }
    replace (Z.of_nat (length pre) + Z.of_nat (S (length cs)) + -1) with (Z.of_nat (length pre) + Z.of_nat (length cs)) by lia.
    apply IH with (suf := [c] ++ suf). rewrite E. cbn [rev]. rewrite <- !app_assoc. reflexivity.
Qed.

(** ** The beginning *)

Definition p98 : runner := run_setmode 0 r98.
Definition k98 : runner :=
  match strats_construct (fun _ => false) (r_loaded p98) (r_strats p98)
          (set_r_parent (Some (r_id p98)) (set_r_stopped (r_stopped p98) (set_r_storage (r_storage p98)
             (set_r_delta (r_delta p98) (set_r_pos (r_pos p98) (runner_blank 1 (r_uni p98) (ss_copy (r_ss p98)) (r_strats p98))))))) with
  | Ok r => r
  | Bad _ => runner_blank 0 0 ss_new []
  end.
Lemma k98_made : strats_construct (fun _ => false) (r_loaded p98) (r_strats p98)
    (set_r_parent (Some (r_id p98)) (set_r_stopped (r_stopped p98) (set_r_storage (r_storage p98)
       (set_r_delta (r_delta p98) (set_r_pos (r_pos p98) (runner_blank 1 (r_uni p98) (ss_copy (r_ss p98)) (r_strats p98))))))) = Ok k98.
Proof.
  unfold k98. destruct (strats_construct _ _ _ _) as [r|e] eqn:E; [reflexivity|].
  exfalso. revert E. vm_compute. discriminate.
Qed.
Lemma k98_facts : r_id k98 = 1 /\ r_uni k98 = 0%nat /\ r_stopped k98 = false /\ r_sem k98 = r_sem r98 /\
  r_pos k98 = [0] /\ r_delta k98 = [1] /\ r_string k98 = false /\
  exists k, ss_top (ss_setmode 0 (ss_setmode 0 (r_ss k98))) = Ok k /\ plain k /\ s_list k = [].
Proof.
  do 7 (split; [vm_compute; reflexivity|]).
  destruct (ss_top (ss_setmode 0 (ss_setmode 0 (r_ss k98)))) as [k|e] eqn:T; [|exfalso; revert T; vm_compute; discriminate].
  exists k. split; [reflexivity|]. revert T. vm_compute. intros T; inversion T. repeat split; reflexivity.
Qed.
Lemma p98_facts : Ip 0 1 [] p98 /\ r_id p98 = 0.
Proof.
  split; [|vm_compute; reflexivity]. constructor; try (vm_compute; reflexivity).
  destruct (ss_top (r_ss p98)) as [k|e] eqn:T; [|exfalso; revert T; vm_compute; discriminate].
  exists k. split; [reflexivity|]. revert T. vm_compute. intros T; inversion T. repeat split; reflexivity.
Qed.

Lemma clones u x : (exists nm ar en, u_cfg u = set_c_dims 2 (set_c_name nm (set_c_args ar (set_c_env en c98)))) -> Next (u_field u) 0 (-1) x ->
  runner_clone (fun _ => false) 1 u p98 = Ok (run_setmode 0 (set_r_delta [-1] (set_r_pos [x] k98))).
Proof.
  intros (nm & ar & en & C) N. destruct k98_facts as (_ & _ & ST & _ & PO & DE & _).
  unfold runner_clone. rewrite k98_made. cbn [bind]. rewrite DE, ST, PO, C.
  change (vrev [1]) with (Ok [-1]). cbn [bind].
  change (c_torus (set_c_dims 2 (set_c_name nm (set_c_args ar (set_c_env en c98))))) with false.
  change (c_dims (set_c_dims 2 (set_c_name nm (set_c_args ar (set_c_env en c98))))) with 2%nat.
  rewrite N. reflexivity.
Qed.

Lemma added k w x : (r_id k = 1 /\ r_uni k = 0%nat /\ r_stopped k = false /\ r_sem k = r_sem r98 /\
    r_pos k = [0] /\ r_delta k = [1] /\ r_string k = false /\
    exists k0, ss_top (ss_setmode 0 (ss_setmode 0 (r_ss k))) = Ok k0 /\ plain k0 /\ s_list k0 = []) ->
  (exists nm ar en, u_cfg (w_uni w 0) = set_c_dims 2 (set_c_name nm (set_c_args ar (set_c_env en c98)))) ->
  let w' := add_runner 0 (run_setmode 0 (set_r_delta [-1] (set_r_pos [x] k))) w in
  waiting w' = waiting w ++ [1] /\ (forall f o, Wd f o w -> Wd f o w') /\
  (forall j, j <> 1 -> w_run w' j = w_run w j) /\ exists r, w_run w' 1 = Some r /\ Ip x (-1) [] r.
Proof.
  intros (ID & U & ST & SM & PO & DE & SG & K) (nm & ar & en & C) w'. unfold w', add_runner, waiting. rewrite C.
  change (c_mode (set_c_dims 2 (set_c_name nm (set_c_args ar (set_c_env en c98))))) with 0. unfold run_setmode. cbn [r_id set_r_ss set_r_delta set_r_pos]. rewrite ID.
  split; [rewrite uni_updated; reflexivity|].
  split. { intros f o HW. destruct HW. constructor; rewrite ?uni_updated; cbn; auto. }
  split. { intros j Hj. cbn. destruct (Z.eqb_spec j 1); [contradiction|reflexivity]. }
  eexists. split; [cbn; reflexivity|]. constructor; cbn; auto.
Qed.

Lemma begins r l nm ar en input w : (Ip 0 1 [] (run_setmode 0 r) /\ r_id r = 0) ->
  w_uni w 0 = {| u_cfg := set_c_dims 2 (set_c_name nm (set_c_args ar (set_c_env en c98))); u_field := prog_field l;
                 u_queue := []; u_running := true; u_exit := 0 |} -> w_in w = input -> w_out w = [] -> 
  let w' := add_runner 0 r w in
  Wd (prog_field l) [] w' /\ waiting w' = [0] /\ w_run w' 0 = Some (run_setmode 0 r).
Proof.
  intros (HI & ID) WU WI WO w'. unfold w', add_runner, waiting. rewrite ID, WU.
  change (c_mode (u_cfg {| u_cfg := set_c_dims 2 (set_c_name nm (set_c_args ar (set_c_env en c98))); u_field := prog_field l;
                 u_queue := []; u_running := true; u_exit := 0 |})) with 0.
  split. { constructor; rewrite ?uni_updated; cbn; rewrite ?WU; auto. exists nm, ar, en. reflexivity. }
  split. { rewrite uni_updated. cbn. rewrite WU. reflexivity. }
  reflexivity.
Qed.
Lemma r98_id : r_id r98 = 0.
Proof. vm_compute. reflexivity. Qed.

Lemma boots_two F l input : Forall plain_char l -> Z.of_nat (length l) <= INT64_MAX ->
  exists w, boot F l c98 (world0 input (fun _ => None) (fun _ => 0)) = Ok w /\
    Wd (prog_field l) [] w /\ waiting w = [0] /\ w_run w 0 = Some p98 /\ w_nrun w = 1 /\ w_fl w = (fun _ => false).
Proof.
  intros HP HL. destruct (parse_row l 2 0 [0] 0 (field_empty 2 false) HP) as (z & E & Hz);
    [unfold in64, INT64_MIN, INT64_MAX; lia|lia|exists 0; split; [reflexivity|unfold in64, INT64_MIN, INT64_MAX; lia]|].
  unfold boot, multi_create_file.
  assert (L : loop (name_step (c_name c98) (world0 input (fun _ => None) (fun _ => 0))) F (c_name c98) = Ok []).
  { rewrite loop_loopNr. replace (Pos.to_nat F) with (S (Pos.to_nat F - 1)) by lia. rewrite loopNr_unfold. reflexivity. }
  rewrite L. cbn [bind]. unfold f_parse. change (mkvec [0]) with [0]. change (c_dims c98) with 2%nat.
  change (c_char c98) with false. change (f_dims (field_empty 2 false)) with 2%nat.
  change (f_parse [0] l false (field_empty 2 false)) with
    (r <-- parse_loop false 2 [0] l [0] [0] 0 (field_empty 2 false) ;;
     d <-- vsub (fst r) [0] ;; Ok (d, f_fixdims (snd r))).
  rewrite E. cbn [bind fst snd]. fold (prog_field l).
  assert (V : exists d, vsub [z] [0] = Ok d).
  { unfold vsub. cbn [vsize length Nat.max forN]. unfold sub64. change (vget [z] 0) with z.
    change (vget [0] 0) with 0. rewrite Z.sub_0_r, chk64_ok by exact Hz. cbn [bind]. eauto. }
  destruct V as (d & V). rewrite V. cbn [bind snd].
  replace (f_fixdims (prog_field l)) with (prog_field l)
    by (unfold f_fixdims, prog_field; rewrite row_put_dims; reflexivity).
  unfold create_runner. change (w_nuni (world0 input (fun _ => None) (fun _ => 0))) with 0%nat.
  match goal with |- context [runner_new _ _ _ ?u _ _] =>
    change u with {| u_cfg := set_c_dims 2 (set_c_name [] c98); u_field := prog_field l;
                     u_queue := []; u_running := true; u_exit := 0 |} end.
  match goal with |- context [runner_new ?fl ?id _ _ _ _] =>
    change fl with (fun _ : Z => false); change id with 0 end.
  change (mkvec [1]) with [1]. rewrite r98_new. cbn [bind]. eexists. split; [reflexivity|].
  match goal with |- context [add_runner 0 r98 ?w] =>
    destruct (begins r98 l [] [] [] input w (conj (proj1 p98_facts) r98_id) eq_refl eq_refl eq_refl) as (A & B & C) end.
  split; [exact A|]. split; [exact B|]. split; [exact C|]. split; reflexivity.
Qed.

(** The split. *)
Lemma splits F D p f w x : (Ip 0 1 [] p) -> 
  (forall u, (exists nm ar en, u_cfg u = set_c_dims 2 (set_c_name nm (set_c_args ar (set_c_env en c98)))) -> u_field u = f ->
     exists k, runner_clone (fun _ => false) 1 u p = Ok (run_setmode 0 (set_r_delta [-1] (set_r_pos [x] k))) /\
       r_id k = 1 /\ r_uni k = 0%nat /\ r_stopped k = false /\ r_sem k = r_sem r98 /\
       r_pos k = [0] /\ r_delta k = [1] /\ r_string k = false /\
       exists k0, ss_top (ss_setmode 0 (ss_setmode 0 (r_ss k))) = Ok k0 /\ plain k0 /\ s_list k0 = []) ->
  Wd f [] w -> waiting w = [0] -> w_run w 0 = Some p -> w_nrun w = 1 -> w_fl w = (fun _ => false) ->
  f_get f [0] = 116 -> Next f 0 1 1 ->
  exists w' r0 r1, run_step F (S D) 0 w = Ok (inl w') /\ Wd f [] w' /\ waiting w' = [1; 0] /\
    w_run w' 0 = Some r0 /\ Ip 1 1 [] r0 /\ w_run w' 1 = Some r1 /\ Ip x (-1) [] r1.
Proof.
  intros H HC HW Q R NR FL C HX.
  destruct (HC (w_uni w 0) (W_cfg _ _ _ HW) (W_field _ _ _ HW)) as (k & EC & KF). clear HC.
  set (w1 := set_w_nrun (w_nrun w + 1) w).
  assert (C1 : exists nm ar en, u_cfg (w_uni w1 0) = set_c_dims 2 (set_c_name nm (set_c_args ar (set_c_env en c98)))) by exact (W_cfg _ _ _ HW).
  destruct (added k w1 x KF C1) as (A1 & A2 & A3 & r1 & A4 & A5).
  set (w2 := add_runner 0 (run_setmode 0 (set_r_delta [-1] (set_r_pos [x] k))) w1) in *.
  assert (HW2 : Wd f [] w2) by (apply A2; destruct HW; constructor; assumption).
  set (s := {| s_w := w; s_r := p |}). set (s1 := {| s_w := w2; s_r := p |}).
  assert (E : execute F (S D) 116 s = Ok (ENone, s1)).
  { rewrite (execute_normal F D _ s _ _ (ip_normal _ _ _ _ _ _ _ 116 H HW eq_refl) eq_refl). cbn [run_meth].
    unfold getC, cloneRunner, getR, getU, getW, lift, ret, ok, modW, mbind. cbn [s_w s_r s].
    pose proof (I_uni _ _ _ _ H) as U. destruct (W_cfg _ _ _ HW) as (nm & ar & en & CF). rewrite U, CF.
    change (c_conc (set_c_dims 2 (set_c_name nm (set_c_args ar (set_c_env en c98))))) with true. cbv beta iota. unfold s. cbn [s_w s_r]. rewrite U, FL, NR, EC.
    unfold s1, w2, w1. reflexivity. }
  assert (T : tick F (S D) s = Ok (tt, moved s1 [1] [1])).
  { apply loopM_inr. rewrite (tick_step_exec F (S D) s 116 ENone s1).
    - unfold mbind, ret. rewrite (ipNext_run s1 [1] [1]); [reflexivity|destruct H; assumption|].
      unfold next_of. destruct H, HW2. destruct W_cfg0 as (nm & ar & en & W_cfg0). cbn [s_w s_r s1]. rewrite I_uni0, I_pos0, I_delta0, W_field0, W_cfg0. exact HX.
    - destruct H, HW. unfold no_debug. cbn [s_w s_r s]. rewrite I_uni0. unfold testmode. destruct W_cfg0 as (nm & ar & en & W_cfg0). rewrite W_cfg0. reflexivity.
    - destruct H, HW. unfold space. cbn [s_w s_r s]. rewrite I_uni0, W_field0, I_pos0. exact C.
    - exact E. }
  assert (Q2 : waiting w2 = [0; 1]) by (rewrite A1; unfold waiting in *; cbn; now rewrite Q).
  clearbody w2. unfold waiting in *. unfold run_step, uni_step. rewrite Q, R.
  pose proof (I_stopped _ _ _ _ H) as ST. rewrite ST. unfold as_runner. rewrite R. fold s. rewrite T. cbn [bind].
  pose proof (I_uni _ _ _ _ H) as U.
  cbn [w_run upd_uni upd_run set_w_uni set_w_run s_r s_w moved s1]. rewrite Z.eqb_refl. cbn [r_uni r_stopped set_r_delta set_r_pos].
  rewrite U, ST. cbn [Nat.eqb].
  eexists. eexists. exists r1. split; [reflexivity|].
  split. { destruct HW2. constructor; cbn; auto. }
  split. { cbn. rewrite Q2. reflexivity. }
  split. { cbn. reflexivity. }
  split. { destruct H. constructor; cbn; auto. }
  split. { cbn. exact A4. }
  exact A5.
Qed.

Lemma two_runs a b :
  Forall Written (a ++ b) -> Forall Defined (a ++ b) ->
  Forall (fun e => -2147483648 <= value e <= 2147483647) (a ++ b) ->
  Z.of_nat (length (two a b)) <= 2147483647 ->
  Forall plain_char (two a b) /\ exists ta tb, Shows a ta /\ Shows b tb /\
    forall F D w, Z.of_nat (length (two a b)) + 1 <= Z.pos F ->
      Wd (prog_field (two a b)) [] w -> waiting w = [0] -> w_run w 0 = Some p98 -> w_nrun w = 1 -> w_fl w = (fun _ => false) ->
      Prints F (S D) w (concat (turns tb ta)).
Proof.
  intros HW HD HV HL.
  apply Forall_app in HW, HD, HV. destruct HW as (WA & WB), HD as (DA & DB), HV as (VA & VB).
  destruct (lines_path a WA DA VA) as (ta & SA & PA). destruct (lines_path b WB DB VB) as (tb & SB & PB).
  split.
  { unfold two. constructor; [unfold plain_char; lia|]. apply Forall_app. split; [now apply lines_plain|].
    constructor; [unfold plain_char; lia|]. apply Forall_rev, Forall_app. split; [now apply lines_plain|].
    constructor; [unfold plain_char; lia|constructor]. }
  exists ta, tb. split; [exact SA|]. split; [exact SB|]. intros F D w HF HWd Q R NR FL.
  set (p := two a b) in *.
  assert (LN : last p 32 <> 32).
  { unfold p, two. rewrite app_comm_cons, app_assoc. destruct (lines b ++ [64]) as [|c t] eqn:E; [destruct (lines b); discriminate E|].
    cbn [rev]. rewrite app_assoc, last_last.
    assert (Q0 : c <> 32); [|exact Q0].
    assert (X : forall e, Written e -> exists c t, code e = c :: t /\ c <> 32).
    { induction e as [n|x IH|op x IHx y IHy]; cbn [Written code]; intros K.
      - eexists _, []. split; [reflexivity|]. destruct (Z.ltb_spec n 10); lia.
      - destruct (IH K) as (c0 & t0 & -> & N0). cbn [app]. eauto.
      - destruct K as (_ & K & _). destruct (IHx K) as (c0 & t0 & -> & N0). cbn [app]. eauto. }
    destruct b as [|e b']; [cbn in E; inversion E; lia|]. inversion WB as [|? ? We _]; subst.
    unfold lines in E. cbn [flat_map] in E. destruct (X e We) as (c0 & t0 & E0 & N0). rewrite E0 in E. cbn [app] in E. inversion E; subst. exact N0. }
  assert (NE : p <> []) by discriminate.
  assert (LP : (length p = 3 + length (lines a) + length (lines b))%nat).
  { unfold p, two. cbn [length]. rewrite !app_length, rev_length, app_length. cbn [length]. lia. }
  destruct (splits F D p98 (prog_field p) w (Z.of_nat (length p) - 1) (proj1 p98_facts)) as (w1 & r0 & r1 & E1 & HW1 & Q1 & R0 & H0 & R1 & H1); auto.
  { intros u C Fd. exists k98. split; [|exact k98_facts]. apply clones; [exact C|]. rewrite Fd. now apply row_wrap. }
  { apply (row_cell p [] 116 (lines a ++ [64] ++ rev (lines b ++ [64]))). reflexivity. }
  { apply (next_row p 0 1); [exact NE|exact LN|unfold In_row; lia|unfold in64, INT64_MIN, INT64_MAX; lia]. }
  destruct (both F D (lines b) (lines a) [] [] tb ta (prog_field p) (Z.of_nat (length p) - 1) (-1) 1 1 1 0 w1 r1 r0 [] PB PA)
    as (w2 & G2 & Q2 & HW2); auto.
  { replace (Z.of_nat (length p) - 1) with (Z.of_nat (length (116 :: lines a ++ [64])) + Z.of_nat (length (lines b)))
      by (cbn [length]; rewrite app_length; cbn [length]; lia).
    apply (lies_west p (lines b) LN HL (116 :: lines a ++ [64]) []). unfold p, two. rewrite rev_app_distr, app_nil_r.
    cbn [rev app]. rewrite <- !app_assoc. reflexivity. }
  { apply (lies_east p (lines a) LN HL [116] (rev (lines b ++ [64]))). reflexivity. }
  { discriminate. }
  exists w2. split; [|split; [exact (W_out _ _ _ HW2)|exact (W_exit _ _ _ HW2)]]. unfold run_universe. rewrite loop_loopNr.
  replace (Pos.to_nat F) with (1 + (length (lines b) + length (lines a) + 2) + S (Pos.to_nat F - (length p + 1)))%nat by lia.
  rewrite (goes_loop _ _ _ _ _ _ (goes_trans _ _ _ _ _ _ _ (goes_one _ _ _ _ E1) G2)), loopNr_unfold.
  unfold run_step at 1. unfold waiting in Q2. now rewrite Q2.
Qed.
(** ** The theorem *)

Theorem C134_two : forall a b input,
  Forall Written (a ++ b) -> Forall Defined (a ++ b) ->
  Forall (fun e => -2147483648 <= value e <= 2147483647) (a ++ b) ->
  Z.of_nat (length (two a b)) <= 2147483647 ->
  exists ta tb, Shows a ta /\ Shows b tb /\
    forall F D, Z.of_nat (length (two a b)) + 1 <= Z.pos F ->
      run_program F (S D) c98 (two a b) input = Ok (concat (turns tb ta), 0).
Proof.
  intros a b input HW HD HV HL. destruct (two_runs a b HW HD HV HL) as (P & ta & tb & SA & SB & R).
  exists ta, tb. split; [exact SA|]. split; [exact SB|]. intros F D HF.
  destruct (boots_two F (two a b) input P) as (w & EB & HWd & Q & R0 & NR & FL); [unfold INT64_MAX; lia|].
  destruct (R F D w HF HWd Q R0 NR FL) as (w' & E & O & X).
  unfold run_program. rewrite EB. cbn [bind]. rewrite E. cbn [bind]. now rewrite O, X.
Qed.

(** The parent computes 1 and 6*7, the child 2+3 and then 8: the child's first result
    needs three instructions, the parent's only one. *)
Definition C134_a : list expr := [Num 1; Bin 42 (Num 6) (Num 7)].
Definition C134_b : list expr := [Bin 43 (Num 2) (Num 3); Num 8].
Example C134_ex : Forall Written (C134_a ++ C134_b) /\ Forall Defined (C134_a ++ C134_b) /\
  Forall (fun e => -2147483648 <= value e <= 2147483647) (C134_a ++ C134_b) /\
  two C134_a C134_b = lit "t1.67*.@@.8.+32" /\
  run_program 100 1 c98 (lit "t1.67*.@@.8.+32") [] = Ok (lit "1 5 8 42 ", 0).
Proof.
  split; [repeat constructor; cbn; auto; lia|].
  split.
  { assert (U : forall op x y z, In op [43; 42] -> arith op x y = z -> in64 z -> ~ undefined op x y).
    { intros op x y z Ho <- Hz [(_ & K)|(K & _)]; [tauto|]. destruct Ho as [<-|[<-|[]]]; intuition discriminate. }
    unfold C134_a, C134_b. cbn [app]. constructor; [exact I|]. constructor; [|constructor; [|constructor; [exact I|constructor]]];
    cbn [Defined value]; (split; [exact I|]; split; [exact I|]).
    - apply (U 42 6 7 42); [cbn; auto|reflexivity|vm_compute; split; discriminate].
    - apply (U 43 2 3 5); [cbn; auto|reflexivity|vm_compute; split; discriminate]. }
  split; [repeat constructor; vm_compute; discriminate|]. split; vm_compute; reflexivity.
Qed.
(** With equally long code the child is first in each round. *)
Example C134_tie : run_program 100 1 c98 (two [Num 1; Num 2] [Num 3; Num 4]) [] = Ok (lit "3 1 4 2 ", 0).
Proof. vm_compute. reflexivity. Qed.
Print Assumptions C134_two.
