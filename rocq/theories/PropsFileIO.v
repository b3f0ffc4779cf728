(** * Properties C127 and C128: characters in and out, commands, and files read and
    written by a program.  See PropsStack.v and PropsIO.v for the vocabulary. *)

From Coq Require Import ZArith List Bool Lia.
From Verif Require Import Base BaseProofs VectorModel VectorProofs TextModel TextProofs
  StackModel StackProofs FieldModel FieldProofs DumpProofs BinaryProofs World IpModel LoadModel FingModel CoreModel
  UniModel ExecProofs States PropsData PropsStack PropsIO Effects PropsPerl.
Import ListNotations.
Open Scope Z_scope.

(** ** C127 Characters in and out, and commands *)

Lemma was s s1 s' w l : Only_stack s s1 l -> s_w s' = w -> s_r s' = s_r s1 -> World_and_stack s s' w l.
Proof. intros O E R. split; [exact E|]. exists s1. auto. Qed.
(** Changing the world commutes with changing the stack. *)
Lemma only_world s s1 w l : Only_stack {| s_w := w; s_r := s_r s |} s1 l -> World_and_stack s s1 w l.
Proof.
  intros C. split; [exact (Only_stack_w _ _ _ C)|].
  destruct C as (k & k' & A & B & C & ->).
  exists (setSS (ss_set (mySS s) (ss_sel (mySS s)) k') s). split; [|reflexivity].
  exists k, k'. auto.
Qed.
Lemma was_holds s s' w l l' : Holds s l -> World_and_stack s s' w l' -> Holds s' l'.
Proof.
  intros H (_ & s1 & O & R). pose proof (Only_stack_holds _ _ _ _ H O) as (k & K).
  exists k. unfold mySS in *. rewrite R. exact K.
Qed.

Lemma was_trans s s1 s2 w1 w2 l1 l2 :
  World_and_stack s s1 w1 l1 -> World_and_stack s1 s2 w2 l2 -> World_and_stack s s2 w2 l2.
Proof.
  intros (W1 & o1 & O1 & R1) (W2 & o2 & O2 & R2). split; [exact W2|].
  exists {| s_w := s_w s; s_r := s_r o2 |}. split; [|exact R2].
  apply (Only_stack_trans s o1 _ l1); [exact O1|].
  pose proof (Only_stack_w _ _ _ O1) as Wo.
  destruct O2 as (k & k' & T & M & L & ->). exists k, k'. unfold mySS in *. rewrite <- R1.
  split; [exact T|]. split; [exact M|]. split; [exact L|].
  destruct o1 as [wo ro]. cbn [s_w s_r] in *. subst wo ro. reflexivity.
Qed.

(** Meanings and modes are kept if the universes are. *)
Lemma was_normal s s' w l c : World_and_stack s s' w l -> w_uni w = w_uni (s_w s) -> Normal s c -> Normal s' c.
Proof.
  intros (W & o & O & R) U. unfold Normal. rewrite W, R, (Only_stack_r _ _ _ O), U. auto.
Qed.

(** [,] writes the byte the popped value ends in. *)
Theorem C127_out : forall F D s x l, Normal s 44 -> Holds s (x :: l) ->
  exists s', execute F (S D) 44 s = Ok (ENone, s') /\
    World_and_stack s s' (set_w_out (w_out (s_w s) ++ [x mod 256]) (s_w s)) l.
Proof.
  intros F D s x l HN H. rewrite (execute_normal F D _ s _ _ HN eq_refl). cbn [run_meth].
  xpop. cbn [hd tl] in *. unfold out, modW. eexists. split; [reflexivity|].
  eapply was; [exact C| |reflexivity]. cbn [s_w]. rewrite (Only_stack_w _ _ _ C). f_equal. f_equal.
  destruct (Z.eqb_spec x 10); [subst; reflexivity|reflexivity].
Qed.

(** [~] takes one byte of the input, except that a carriage return is dropped and
    the byte after it is taken. *)
Theorem C127_in : forall F D s c rest l, Normal s 126 -> Holds s l -> c <> 13 -> w_in (s_w s) = c :: rest ->
  exists s', execute F (S D) 126 s = Ok (ENone, s') /\
    World_and_stack s s' (set_w_in rest (s_w s)) (c :: l).
Proof.
  intros F D s c rest l HN H N I. rewrite (execute_normal F D _ s _ _ HN eq_refl). cbn [run_meth].
  unfold charIn. unfold mbind at 1, getchar at 1. rewrite I.
  destruct (Z.eqb_spec c 13); [contradiction|].
  set (s1 := {| s_w := set_w_in rest (s_w s); s_r := s_r s |}).
  destruct (pushS_plain s1 l c H) as (s2 & E2 & C2). rewrite (run_bind _ _ _ _ _ E2).
  exists s2. split; [reflexivity|]. apply only_world. exact C2.
Qed.
Theorem C127_in_return : forall F D s c rest l, Normal s 126 -> Holds s l -> w_in (s_w s) = 13 :: c :: rest ->
  exists s', execute F (S D) 126 s = Ok (ENone, s') /\
    World_and_stack s s' (set_w_in rest (s_w s)) (c :: l).
Proof.
  intros F D s c rest l HN H I. rewrite (execute_normal F D _ s _ _ HN eq_refl). cbn [run_meth].
  unfold charIn. unfold mbind at 1, getchar at 1. rewrite I. cbn [Z.eqb Pos.eqb].
  unfold mbind at 1, getchar at 1. cbn [s_w s_r set_w_in w_in].
  set (s1 := {| s_w := set_w_in rest (s_w s); s_r := s_r s |}).
  destruct (pushS_plain s1 l c H) as (s2 & E2 & C2).
  change (match (pushS c ;;; ok) s1 with Ok x => Ok x | Bad b => Bad b end) with ((pushS c ;;; ok) s1).
  rewrite (run_bind _ _ _ _ _ E2).
  exists s2. split; [reflexivity|]. apply only_world. exact C2.
Qed.
(** At the end of the input it fails, so that the IP reflects (C30). *)
Theorem C127_end : forall F D s, Normal s 126 -> w_in (s_w s) = [] ->
  execute F (S D) 126 s = Ok (EUnspec, s).
Proof.
  intros F D s HN I. rewrite (execute_normal F D _ s _ _ HN eq_refl). cbn [run_meth].
  unfold charIn. unfold mbind at 1, getchar at 1. rewrite I. reflexivity.
Qed.

(** Reading and writing in turn. *)
Fixpoint echo (F : positive) (D : nat) (n : nat) : M unit :=
  match n with
  | O => ret tt
  | S k => e <- execute F D 126 ;; f <- execute F D 44 ;;
           match e, f with ENone, ENone => echo F D k | _, _ => fail BadUnmodelled end
  end.
(** Text without carriage returns is copied exactly, whatever its length. *)
Theorem C127_echo : forall F D t s l, Normal s 126 -> Normal s 44 -> Holds s l ->
  Forall (fun c => 0 <= c < 256 /\ c <> 13) t -> w_in (s_w s) = t ->
  exists s', echo F (S D) (length t) s = Ok (tt, s') /\
    World_and_stack s s' (set_w_out (w_out (s_w s) ++ t) (set_w_in [] (s_w s))) l.
Proof.
  intros F D t. induction t as [|c t IH]; intros s l N1 N2 H A I.
  - exists s. split; [reflexivity|]. eapply was; [apply Only_stack_refl; exact H| |reflexivity].
    rewrite app_nil_r, <- I. destruct (s_w s); reflexivity.
  - inversion A as [|? ? (Rc & Nc) A']; subst. cbn [length echo].
    destruct (C127_in F D s c t l N1 H Nc I) as (s1 & E1 & W1). rewrite (run_bind _ _ _ _ _ E1).
    pose proof (was_holds _ _ _ _ _ H W1) as H1.
    destruct (C127_out F D s1 c l (was_normal _ _ _ _ _ W1 eq_refl N2) H1) as (s2 & E2 & W2).
    rewrite (run_bind _ _ _ _ _ E2). pose proof (was_holds _ _ _ _ _ H1 W2) as H2.
    assert (WN : forall d, Normal s d -> Normal s2 d).
    { intros d N. eapply was_normal; [exact W2|reflexivity|]. eapply was_normal; [exact W1|reflexivity|exact N]. }
    destruct (IH s2 l (WN _ N1) (WN _ N2) H2 A') as (s3 & E3 & W3).
    { rewrite (proj1 W2), (proj1 W1). reflexivity. }
    exists s3. split; [exact E3|].
    assert (WE : set_w_out (w_out (s_w s) ++ c :: t) (set_w_in [] (s_w s)) =
                 set_w_out (w_out (s_w s2) ++ t) (set_w_in [] (s_w s2))).
    { rewrite (proj1 W2), (proj1 W1). cbn. rewrite Z.mod_small by lia. now rewrite <- app_assoc. }
    rewrite WE. eapply was_trans; [exact W1|]. eapply was_trans; [exact W2|exact W3].
Qed.

(** Not so with carriage returns: a lone one is lost. *)
Theorem C127_return_refuted : forall F D s l, Normal s 126 -> Normal s 44 -> Holds s l ->
  w_in (s_w s) = [13; 65] ->
  exists s', echo F (S D) 1 s = Ok (tt, s') /\ w_out (s_w s') = w_out (s_w s) ++ [65] /\ w_in (s_w s') = [].
Proof.
  intros F D s l N1 N2 H I. cbn [echo].
  destruct (C127_in_return F D s 65 [] l N1 H I) as (s1 & E1 & W1). rewrite (run_bind _ _ _ _ _ E1).
  pose proof (was_holds _ _ _ _ _ H W1) as H1.
  destruct (C127_out F D s1 65 l (was_normal _ _ _ _ _ W1 eq_refl N2) H1) as (s2 & E2 & W2).
  rewrite (run_bind _ _ _ _ _ E2). exists s2. split; [reflexivity|].
  rewrite (proj1 W2), (proj1 W1). split; reflexivity.
Qed.

(** [=] with permission runs the text on the stack once, as it is, and pushes what
    system() returned, as 32 bits. *)
Theorem C127_execute : forall F D s b l, Normal s 61 -> Holds s (b ++ 0 :: l) -> char_str b ->
  c_exec (my_cfg s) = true ->
  exists s', execute F (S D) 61 s = Ok (ENone, s') /\
    World_and_stack s s' (set_w_nsys (S (w_nsys (s_w s))) (logged (EvSystem b) (s_w s)))
      (to_i32 (w_sys (s_w s) (w_nsys (s_w s))) :: l).
Proof.
  intros F D s b l HN H HC P. rewrite (execute_normal F D _ s _ _ HN eq_refl). cbn [run_meth].
  unfold getC. unfold mbind at 1. unfold mbind at 1, getU at 1. unfold ret at 1. fold (my_cfg s). rewrite P.
  destruct (popString_plain s b l HC H) as (s1 & E1 & O1). rewrite (run_bind _ _ _ _ _ E1).
  pose proof (Only_stack_holds _ _ _ _ H O1) as H1. pose proof (Only_stack_w _ _ _ O1) as W1.
  unfold system, log, modW. unfold mbind at 1. unfold mbind at 1. cbn [s_w s_r].
  set (s2 := {| s_w := _; s_r := s_r s1 |}).
  match goal with |- context [pushS ?x] => set (v := x) end.
  destruct (pushS_plain s2 l v H1) as (s3 & E3 & O3).
  exists s3. split; [exact (run_bind _ _ _ _ _ E3)|].
  assert (CB : cstr b = b) by (apply cstr_all; intros I0; apply (proj1 (Forall_forall _ _) HC 0 I0); reflexivity).
  eapply was_trans; [eapply was; [exact O1|reflexivity|reflexivity]|].
  subst v s2. cbn in *. rewrite W1, CB in *. apply only_world. exact O3.
Qed.

(** ** C128 Files *)

(** The Funge-space the IP works on, and the one of a state whose space was replaced. *)
Definition my_space (s : st) : field := u_field (w_uni (s_w s) (r_fld (s_r s))).
Definition with_space (n : nat) (f : field) (w : world) : world := upd_uni n (set_u_field f) w.
(** The vector on the stack counts from the storage offset. *)
Definition place (s : st) (x y : Z) : vec := xy (r_storage (s_r s)) x y.
(** The file system with the file [b] (re)written. *)
Definition with_file (b data : bytes) (w : world) : world :=
  set_w_fs (fun p => if bytes_eqb p b then Some data else w_fs w p) w.
(** The place is inside the space with room for a text of [n] columns and [m] rows. *)
Definition Room (s : st) (x y n m : Z) : Prop :=
  vec64 (place s x y) /\ vget (place s x y) 0 + n <= INT64_MAX /\ vget (place s x y) 1 + m <= INT64_MAX.

Lemma row_from_ext f s t y n : same s t -> forall x, row_from f s y x n = row_from f t y x n.
Proof.
  intros H. induction n as [|n IH]; intros x; cbn [row_from]; [reflexivity|].
  rewrite IH. f_equal. apply f_get_ext. intros i. unfold xy. rewrite !vget_vset, !H.
  destruct (Nat.eqb i 1), (Nat.eqb i 0); auto.
Qed.
Lemma rows_text_ext f s t w h : same s t -> forall y, rows_text f s w y h = rows_text f t w y h.
Proof.
  intros H. induction h as [|h IH]; intros y; cbn [rows_text]; [reflexivity|].
  rewrite IH. unfold row. now rewrite (row_from_ext f s t y w H).
Qed.
Lemma rows_all_ext f s t w h : same s t -> forall y, rows_all f s w y h = rows_all f t w y h.
Proof.
  intros H. induction h as [|h IH]; intros y; cbn [rows_all]; [reflexivity|].
  rewrite IH. unfold row. now rewrite (row_from_ext f s t y w H).
Qed.

Lemma popVec2 s x y l : dims_of s = 2%nat -> Holds s (y :: x :: l) ->
  exists s' v, popVec s = Ok (v, s') /\ Only_stack s s' l /\
    vget v 0 = x /\ vget v 1 = y /\ (forall i, (2 <= i)%nat -> vget v i = 0).
Proof.
  intros D H. destruct (popVec_plain s _ H) as (s' & v & E & O & G & _). rewrite D in *.
  exists s', v. split; [exact E|]. split; [exact O|]. rewrite !G. split; [reflexivity|]. split; [reflexivity|].
  intros i Hi. rewrite G. unfold vec_of. destruct (Nat.ltb_spec i 2); [lia|reflexivity].
Qed.
Lemma Only_stack_dims s s' l : Only_stack s s' l -> dims_of s' = dims_of s.
Proof. intros O. unfold dims_of. rewrite (Only_stack_w _ _ _ O), (Only_stack_r _ _ _ O). reflexivity. Qed.
Lemma Only_stack_storage s s' l : Only_stack s s' l -> r_storage (s_r s') = r_storage (s_r s).
Proof. intros O. rewrite (Only_stack_r _ _ _ O). reflexivity. Qed.
Lemma at_storage s x y v : vec64 (place s x y) -> vget v 0 = x -> vget v 1 = y -> (forall i, (2 <= i)%nat -> vget v i = 0) ->
  exists p, vadd v (r_storage (s_r s)) = Ok p /\ same p (place s x y).
Proof.
  intros I X Y Z0.
  assert (SM : forall i, vget v i + vget (r_storage (s_r s)) i = vget (place s x y) i).
  { intros i. unfold place, xy. rewrite !vget_vset.
    destruct i as [|[|i]]; cbn [Nat.eqb]; [rewrite X; lia|rewrite Y; lia|rewrite Z0 by lia; lia]. }
  destruct (vadd_defined v (r_storage (s_r s))) as (p & E).
  { intros i. rewrite SM. apply I. }
  exists p. split; [exact E|]. intros i. now rewrite (vadd_get _ _ _ E), SM.
Qed.

Lemma o_run : forall F D s b flags x y w h l,
  Normal s 111 -> dims_of s = 2%nat -> c_fs (my_cfg s) = true -> char_str b ->
  Holds s (b ++ 0 :: flags :: y :: x :: h :: w :: l) -> w_wr (s_w s) b = true -> vec64 (place s x y) ->
  exists va vb, same va (place s x y) /\ vget vb 0 = w /\ vget vb 1 = h /\
    (forall i, (2 <= i)%nat -> vget vb i = 0) /\
    forall data, f_dump F va vb (negb (Z.odd flags)) (my_space s) = Ok data ->
    exists s', execute F (S D) 111 s = Ok (ENone, s') /\
      World_and_stack s s' (with_file b data (logged (EvWrite b data) (s_w s))) l.
Proof.
  intros F D s b flags x y w h l HN DI P HC H WR R.
  rewrite (execute_normal F D _ s _ _ HN eq_refl). cbn [run_meth].
  unfold fileOut, getC. unfold mbind at 1. unfold mbind at 1, getU at 1. unfold ret at 1. fold (my_cfg s). rewrite P.
  destruct (popString_plain s b _ HC H) as (s1 & E1 & O1). rewrite (run_bind _ _ _ _ _ E1).
  pose proof (Only_stack_holds _ _ _ _ H O1) as H1.
  destruct (popS_plain s1 _ H1) as (s2 & E2 & O2'). rewrite (run_bind _ _ _ _ _ E2). cbn [hd tl] in *.
  pose proof (Only_stack_trans _ _ _ _ _ O1 O2') as O2. clear O2'.
  pose proof (Only_stack_holds _ _ _ _ H O2) as H2.
  destruct (popVec2 s2 x y _ (eq_trans (Only_stack_dims _ _ _ O2) DI) H2) as (s3 & v & E3 & O3' & X & Y & Z0).
  rewrite (run_bind _ _ _ _ _ E3).
  pose proof (Only_stack_trans _ _ _ _ _ O2 O3') as O3. clear O3'.
  pose proof (Only_stack_holds _ _ _ _ H O3) as H3.
  destruct (at_storage s x y v R X Y Z0) as (va & Ea & Sa).
  assert (GS : getStorage s3 = Ok (r_storage (s_r s), s3)).
  { unfold getStorage, mbind, getR, ret. now rewrite (Only_stack_storage _ _ _ O3). }
  rewrite (run_bind _ _ _ _ _ GS).
  assert (LV : lift (vadd v (r_storage (s_r s))) s3 = Ok (va, s3)) by (unfold lift; now rewrite Ea).
  rewrite (run_bind _ _ _ _ _ LV).
  destruct (popVec2 s3 w h _ (eq_trans (Only_stack_dims _ _ _ O3) DI) H3)
    as (s4 & vb & E4 & O4' & BX & BY & BZ).
  rewrite (run_bind _ _ _ _ _ E4).
  pose proof (Only_stack_trans _ _ _ _ _ O3 O4') as O4. clear O4'.
  pose proof (Only_stack_w _ _ _ O4) as W4. pose proof (Only_stack_r _ _ _ O4) as RR4.
  assert (GW : getW s4 = Ok (s_w s, s4)) by (unfold getW; now rewrite W4).
  exists va, vb. split; [exact Sa|]. split; [exact BX|]. split; [exact BY|]. split; [exact BZ|]. intros data DU.
  rewrite (run_bind _ _ _ _ _ GW). rewrite WR.
  assert (GR : getR s4 = Ok (s_r s4, s4)) by reflexivity. rewrite (run_bind _ _ _ _ _ GR).
  assert (FE : u_field (w_uni (s_w s) (r_fld (s_r s4))) = my_space s) by (rewrite RR4; reflexivity). rewrite FE.
  rewrite DU. unfold lift at 1. unfold mbind at 1.
  unfold log, modW. unfold mbind at 1. unfold mbind at 1. cbn [s_w s_r].
  eexists. split; [reflexivity|]. eapply was; [exact O4| |reflexivity]. cbn [s_w]. rewrite W4. reflexivity.
Qed.
(** [o] with an odd flags cell writes the [w] by [h] region whose corner the vector names:
    row by row, without trailing blanks, each row ended by a newline.  The other files and
    everything else stay as they are. *)
Theorem C128_o : forall F D s b flags x y (w h : nat) l,
  Normal s 111 -> dims_of s = 2%nat -> c_fs (my_cfg s) = true -> char_str b ->
  Holds s (b ++ 0 :: flags :: y :: x :: Z.of_nat h :: Z.of_nat w :: l) ->
  Z.odd flags = true -> w_wr (s_w s) b = true -> (0 < w)%nat -> (0 < h)%nat ->
  Room s x y (Z.of_nat w) (Z.of_nat h) -> Z.of_nat w * Z.of_nat h <= Z.pos F ->
  exists s', execute F (S D) 111 s = Ok (ENone, s') /\
    let data := rows_text (my_space s) (place s x y) w 0 h in
    World_and_stack s s' (with_file b data (logged (EvWrite b data) (s_w s))) l.
Proof.
  intros F D s b flags x y w h l HN DI P HC H FL WR Hw Hh (R & R0 & R1) HF.
  destruct (o_run F D s b flags x y _ _ l HN DI P HC H WR R) as (va & vb & Sa & BX & BY & BZ & K).
  rewrite FL in K. apply K. rewrite <- (rows_text_ext (my_space s) va (place s x y) w h Sa).
  apply f_dump_rows; auto; try (rewrite Sa; assumption). intros i. rewrite Sa. apply R.
Qed.
(** With an even flags cell every cell is written, the newlines too. *)
Theorem C128_o_binary : forall F D s b flags x y (w h : nat) l,
  Normal s 111 -> dims_of s = 2%nat -> c_fs (my_cfg s) = true -> char_str b ->
  Holds s (b ++ 0 :: flags :: y :: x :: Z.of_nat h :: Z.of_nat w :: l) ->
  Z.odd flags = false -> w_wr (s_w s) b = true -> (0 < w)%nat -> (0 < h)%nat ->
  Room s x y (Z.of_nat w) (Z.of_nat h) -> Z.of_nat w * Z.of_nat h <= Z.pos F ->
  exists s', execute F (S D) 111 s = Ok (ENone, s') /\
    let data := rows_all (my_space s) (place s x y) w 0 h in
    World_and_stack s s' (with_file b data (logged (EvWrite b data) (s_w s))) l.
Proof.
  intros F D s b flags x y w h l HN DI P HC H FL WR Hw Hh (R & R0 & R1) HF.
  destruct (o_run F D s b flags x y _ _ l HN DI P HC H WR R) as (va & vb & Sa & BX & BY & BZ & K).
  rewrite FL in K. apply K. rewrite <- (rows_all_ext (my_space s) va (place s x y) w h Sa).
  apply f_dump_all; auto; try (rewrite Sa; assumption). intros i. rewrite Sa. apply R.
Qed.

Lemma i_run : forall F D s b data flags x y l,
  Normal s 105 -> dims_of s = 2%nat -> c_fs (my_cfg s) = true -> char_str b ->
  Holds s (b ++ 0 :: flags :: y :: x :: l) -> w_fs (s_w s) b = Some data -> vec64 (place s x y) ->
  exists va, same va (place s x y) /\
    forall d f', f_parse va data (Z.odd flags) (my_space s) = Ok (d, f') ->
    exists s', execute F (S D) 105 s = Ok (ENone, s') /\
      World_and_stack s s' (with_space (r_fld (s_r s)) f' (logged (EvRead b) (s_w s)))
        (vget (place s x y) 1 :: vget (place s x y) 0 :: vget d 1 :: vget d 0 :: l).
Proof.
  intros F D s b data flags x y l HN DI P HC H FS R.
  rewrite (execute_normal F D _ s _ _ HN eq_refl). cbn [run_meth].
  unfold fileIn, getC. unfold mbind at 1. unfold mbind at 1, getU at 1. unfold ret at 1. fold (my_cfg s). rewrite P.
  destruct (popString_plain s b _ HC H) as (s1 & E1 & O1). rewrite (run_bind _ _ _ _ _ E1).
  pose proof (Only_stack_holds _ _ _ _ H O1) as H1.
  destruct (popS_plain s1 _ H1) as (s2 & E2 & O2'). rewrite (run_bind _ _ _ _ _ E2). cbn [hd tl] in *.
  pose proof (Only_stack_trans _ _ _ _ _ O1 O2') as O2. clear O2'.
  pose proof (Only_stack_holds _ _ _ _ H O2) as H2.
  destruct (popVec2 s2 x y _ (eq_trans (Only_stack_dims _ _ _ O2) DI) H2) as (s3 & v & E3 & O3' & X & Y & Z0).
  rewrite (run_bind _ _ _ _ _ E3).
  pose proof (Only_stack_trans _ _ _ _ _ O2 O3') as O3. clear O3'.
  pose proof (Only_stack_holds _ _ _ _ H O3) as H3.
  destruct (at_storage s x y v R X Y Z0) as (va & Ea & Sa).
  assert (GS : getStorage s3 = Ok (r_storage (s_r s), s3)).
  { unfold getStorage, mbind, getR, ret. now rewrite (Only_stack_storage _ _ _ O3). }
  rewrite (run_bind _ _ _ _ _ GS).
  assert (LV : lift (vadd v (r_storage (s_r s))) s3 = Ok (va, s3)) by (unfold lift; now rewrite Ea).
  rewrite (run_bind _ _ _ _ _ LV).
  pose proof (Only_stack_w _ _ _ O3) as W3. pose proof (Only_stack_r _ _ _ O3) as RR3.
  assert (GW : getW s3 = Ok (s_w s, s3)) by (unfold getW; now rewrite W3).
  exists va. split; [exact Sa|]. intros d f' PE.
  rewrite (run_bind _ _ _ _ _ GW). rewrite FS.
  unfold log, modW. unfold mbind at 1. cbn [s_w s_r].
  set (s4 := {| s_w := _; s_r := s_r s3 |}).
  assert (GR : getR s4 = Ok (s_r s3, s4)) by reflexivity. rewrite (run_bind _ _ _ _ _ GR).
  assert (FE : u_field (w_uni (s_w s) (r_fld (s_r s3))) = my_space s) by (rewrite RR3; reflexivity). rewrite FE.
  assert (LP : lift (f_parse va data (Z.odd flags) (my_space s)) s4 = Ok ((d, f'), s4)) by (unfold lift; now rewrite PE).
  rewrite (run_bind _ _ _ _ _ LP). cbn [fst snd].
  set (s5 := {| s_w := upd_uni (r_fld (s_r s3)) (set_u_field f') (s_w s4); s_r := s_r s3 |}).
  erewrite (run_bind _ _ s4 tt s5) by reflexivity.
  assert (W5 : World_and_stack s s5 (with_space (r_fld (s_r s)) f' (logged (EvRead b) (s_w s))) l).
  { eapply was; [exact O3| |reflexivity]. subst s5 s4. cbn [s_w s_r]. rewrite W3, RR3. reflexivity. }
  pose proof (was_holds _ _ _ _ _ H W5) as H5.
  assert (D5 : dims_of s5 = 2%nat).
  { unfold dims_of. rewrite (proj1 W5). change (s_r s5) with (s_r s3). rewrite RR3. cbn [r_uni set_r_ss].
    unfold with_space, upd_uni, logged. cbn [w_uni set_w_uni set_w_log].
    destruct (Nat.eqb_spec (r_uni (s_r s)) (r_fld (s_r s))) as [EE|]; [|exact DI].
    rewrite <- EE. exact DI. }
  destruct (pushVec_plain s5 l d H5) as (s6 & E6 & O6). rewrite (run_bind _ _ _ _ _ E6).
  pose proof (Only_stack_holds _ _ _ _ H5 O6) as H6.
  destruct (pushVec_plain s6 _ va H6) as (s7 & E7 & O7). rewrite (run_bind _ _ _ _ _ E7).
  rewrite (Only_stack_dims _ _ _ O6), D5 in O7. cbn in O7. rewrite !Sa in O7.
  exists s7. split; [reflexivity|].
  eapply was_trans; [exact W5|]. eapply was; [eapply Only_stack_trans; [exact O6|exact O7]| |reflexivity].
  rewrite (Only_stack_w _ _ _ O7), (Only_stack_w _ _ _ O6). exact (proj1 W5).
Qed.

(** [i] with an even flags cell puts the file's characters, line by line, at the named
    place; blanks are transparent.  Pushed are the size (the last line is not counted),
    then the corner, storage offset included. *)
Theorem C128_i : forall F D s b data flags x y l,
  Normal s 105 -> dims_of s = 2%nat -> c_fs (my_cfg s) = true -> char_str b ->
  Holds s (b ++ 0 :: flags :: y :: x :: l) -> Z.odd flags = false ->
  w_fs (s_w s) b = Some data -> textual data -> Z.of_nat (length data) <= INT64_MAX ->
  Room s x y (Z.of_nat (length data)) (Z.of_nat (length data)) ->
  exists f' s', execute F (S D) 105 s = Ok (ENone, s') /\
    World_and_stack s s' (with_space (r_fld (s_r s)) f' (logged (EvRead b) (s_w s)))
      (vget (place s x y) 1 :: vget (place s x y) 0 ::
       Z.of_nat (length (lines_of data)) - 1 :: widest (lines_of data) :: l) /\
    (forall i j c, nth_error (nth j (lines_of data) []) i = Some c -> c <> 32 ->
       f_get f' (xy (place s x y) (Z.of_nat i) (Z.of_nat j)) = cellval (f_char (my_space s)) c) /\
    (forall p, (forall i j c, nth_error (nth j (lines_of data) []) i = Some c ->
                  same p (xy (place s x y) (Z.of_nat i) (Z.of_nat j)) -> c = 32) ->
       f_get f' p = f_get (my_space s) p).
Proof.
  intros F D s b data flags x y l HN DI P HC H FL FS TX LN (R & R0 & R1).
  destruct (i_run F D s b data flags x y l HN DI P HC H FS R) as (va & Sa & KK). rewrite FL in KK.
  destruct (f_parse_text va data (my_space s) TX) as (d & f' & PE & PA & PB & D0 & D1 & _);
    try (intros; rewrite Sa; auto); auto.
  destruct (KK d f' PE) as (s' & E & W). rewrite D0, D1 in W.
  exists f', s'. split; [exact E|]. split; [exact W|]. split.
  - intros i j c N C. apply (PA i j); auto. 
    destruct (xy_at (place s x y) (Z.of_nat i) (Z.of_nat j)) as (A & B & C').
    split; [rewrite A, Sa; reflexivity|]. split; [rewrite B, Sa; reflexivity|].
    intros k K. now rewrite C', Sa.
  - intros p Q. apply PB. intros i j c A N. apply (Q i j c N).
    eapply at_xy_same; [|apply xy_at]. destruct A as (A & B & C'). unfold at_xy. rewrite A, B, !Sa.
    split; [reflexivity|]. split; [reflexivity|]. intros k K. now rewrite C', Sa.
Qed.

(** With an odd flags cell the bytes are put in one row, line ends included. *)
Theorem C128_i_binary : forall F D s b data flags x y l,
  Normal s 105 -> dims_of s = 2%nat -> c_fs (my_cfg s) = true -> char_str b ->
  Holds s (b ++ 0 :: flags :: y :: x :: l) -> Z.odd flags = true ->
  w_fs (s_w s) b = Some data -> Z.of_nat (length data) <= INT64_MAX -> Room s x y (Z.of_nat (length data)) 0 ->
  exists f' s', execute F (S D) 105 s = Ok (ENone, s') /\
    World_and_stack s s' (with_space (r_fld (s_r s)) f' (logged (EvRead b) (s_w s)))
      (vget (place s x y) 1 :: vget (place s x y) 0 :: 0 :: Z.of_nat (length data) :: l) /\
    (forall i c, nth_error data i = Some c -> c <> 32 ->
       f_get f' (xy (place s x y) (Z.of_nat i) 0) = cellval (f_char (my_space s)) c) /\
    (forall p, (forall i c, nth_error data i = Some c -> same p (xy (place s x y) (Z.of_nat i) 0) -> c = 32) ->
       f_get f' p = f_get (my_space s) p).
Proof.
  intros F D s b data flags x y l HN DI P HC H FL FS LN (R & R0 & R1).
  destruct (i_run F D s b data flags x y l HN DI P HC H FS R) as (va & Sa & KK). rewrite FL in KK.
  destruct (f_parse_binary va data (my_space s)) as (d & f' & PE & PA & PB & D0 & D1);
    try (intros; rewrite Sa; auto); auto.
  destruct (KK d f' PE) as (s' & E & W). rewrite D0, (D1 1%nat (le_n 1)) in W.
  exists f', s'. split; [exact E|]. split; [exact W|]. split.
  - intros i c N C. apply (PA i c); auto.
    destruct (xy_at (place s x y) (Z.of_nat i) 0) as (A & B & C').
    split; [rewrite A, Sa; reflexivity|]. split; [rewrite B, Sa; reflexivity|].
    intros k K. now rewrite C', Sa.
  - intros p Q. apply PB. intros i c N A. apply (Q i c N).
    eapply at_xy_same; [|apply xy_at]. destruct A as (A & B & C'). unfold at_xy. rewrite A, B, !Sa.
    split; [reflexivity|]. split; [reflexivity|]. intros k K. now rewrite C', Sa.
Qed.

(** A file that cannot be opened: the space is left alone and the IP is told. *)
Theorem C128_missing : forall F D s b flags x y l,
  Normal s 105 -> dims_of s = 2%nat -> c_fs (my_cfg s) = true -> char_str b ->
  Holds s (b ++ 0 :: flags :: y :: x :: l) -> w_fs (s_w s) b = None -> vec64 (place s x y) ->
  exists s', execute F (S D) 105 s = Ok (EUnspec, s') /\ Only_stack s s' l.
Proof.
  intros F D s b flags x y l HN DI P HC H FS R.
  rewrite (execute_normal F D _ s _ _ HN eq_refl). cbn [run_meth].
  unfold fileIn, getC. unfold mbind at 1. unfold mbind at 1, getU at 1. unfold ret at 1. fold (my_cfg s). rewrite P.
  destruct (popString_plain s b _ HC H) as (s1 & E1 & O1). rewrite (run_bind _ _ _ _ _ E1).
  pose proof (Only_stack_holds _ _ _ _ H O1) as H1.
  destruct (popS_plain s1 _ H1) as (s2 & E2 & O2'). rewrite (run_bind _ _ _ _ _ E2). cbn [hd tl] in *.
  pose proof (Only_stack_trans _ _ _ _ _ O1 O2') as O2. clear O2'.
  pose proof (Only_stack_holds _ _ _ _ H O2) as H2.
  destruct (popVec2 s2 x y _ (eq_trans (Only_stack_dims _ _ _ O2) DI) H2) as (s3 & v & E3 & O3' & X & Y & Z0).
  rewrite (run_bind _ _ _ _ _ E3).
  pose proof (Only_stack_trans _ _ _ _ _ O2 O3') as O3. clear O3'.
  destruct (at_storage s x y v R X Y Z0) as (va & Ea & Sa).
  assert (GS : getStorage s3 = Ok (r_storage (s_r s), s3)).
  { unfold getStorage, mbind, getR, ret. now rewrite (Only_stack_storage _ _ _ O3). }
  rewrite (run_bind _ _ _ _ _ GS).
  assert (LV : lift (vadd v (r_storage (s_r s))) s3 = Ok (va, s3)) by (unfold lift; now rewrite Ea).
  rewrite (run_bind _ _ _ _ _ LV).
  assert (GW : getW s3 = Ok (s_w s, s3)) by (unfold getW; now rewrite (Only_stack_w _ _ _ O3)).
  rewrite (run_bind _ _ _ _ _ GW). rewrite FS. exists s3. split; [reflexivity|exact O3].
Qed.

(** ** Out and in again *)

Lemma was_same s s' w l : World_and_stack s s' w l -> w_uni w = w_uni (s_w s) ->
  dims_of s' = dims_of s /\ my_cfg s' = my_cfg s /\ my_space s' = my_space s /\
  (forall x y, place s' x y = place s x y) /\ r_fld (s_r s') = r_fld (s_r s).
Proof.
  intros (W & o & O & R) U. unfold dims_of, my_cfg, my_space, place. rewrite W, R, (Only_stack_r _ _ _ O), U. auto.
Qed.
Lemma bytes_eqb_refl' b : bytes_eqb b b = true.
Proof. induction b as [|c b IH]; cbn [bytes_eqb]; [reflexivity|]. now rewrite Z.eqb_refl, IH. Qed.

(** [o] as text and then [i] as text copies the region: every cell of it appears at the
    new place if that was blank, and no other cell changes. *)
Theorem C128_copy : forall F D s b o i x y x' y' (w h : nat) l,
  Normal s 111 -> Normal s 105 -> dims_of s = 2%nat -> c_fs (my_cfg s) = true -> char_str b ->
  Holds s (b ++ 0 :: o :: y :: x :: Z.of_nat h :: Z.of_nat w :: b ++ 0 :: i :: y' :: x' :: l) ->
  Z.odd o = true -> Z.odd i = false -> w_wr (s_w s) b = true -> (0 < w)%nat -> (0 < h)%nat ->
  Room s x y (Z.of_nat w) (Z.of_nat h) -> Z.of_nat w * Z.of_nat h <= Z.pos F ->
  let n := Z.of_nat h * (Z.of_nat w + 1) in n <= INT64_MAX -> Room s x' y' n n ->
  (forall j k, 0 <= j < Z.of_nat w -> 0 <= k < Z.of_nat h ->
     texty (f_char (my_space s)) (f_get (my_space s) (xy (place s x y) j k)) /\
     f_get (my_space s) (xy (place s x' y') j k) = 32) ->
  exists s1 s2, execute F (S D) 111 s = Ok (ENone, s1) /\ execute F (S D) 105 s1 = Ok (ENone, s2) /\
    (forall j k, 0 <= j < Z.of_nat w -> 0 <= k < Z.of_nat h ->
       f_get (my_space s2) (xy (place s x' y') j k) = f_get (my_space s) (xy (place s x y) j k)) /\
    (forall p, (forall j k, 0 <= j < Z.of_nat w -> 0 <= k < Z.of_nat h -> ~ same p (xy (place s x' y') j k)) ->
       f_get (my_space s2) p = f_get (my_space s) p).
Proof.
  intros F D s b o i x y x' y' w h l N1 N2 DI P HC H OO OI WR Hw Hh RM HF n Hn RM' HB.
  destruct (C128_o F D s b o x y w h _ N1 DI P HC H OO WR Hw Hh RM HF) as (s1 & E1 & W1). cbv zeta in W1.
  set (data := rows_text _ _ _ _ _) in *.
  pose proof (was_holds _ _ _ _ _ H W1) as H1.
  destruct (was_same _ _ _ _ W1 eq_refl) as (D1 & C1 & S1 & P1 & L1).
  pose proof (was_normal _ _ _ _ _ W1 eq_refl N2) as N2'.
  assert (FS : w_fs (s_w s1) b = Some data).
  { rewrite (proj1 W1). unfold with_file. cbn [w_fs set_w_fs]. now rewrite bytes_eqb_refl'. }
  destruct RM as (R & R0 & R1). destruct RM' as (R' & R0' & R1').
  rewrite <- (P1 x' y') in R'. rewrite <- D1 in DI. rewrite <- C1 in P.
  destruct (i_run F D s1 b data i x' y' l N2' DI P HC H1 FS R') as (va & Sa & K).
  rewrite OI, S1 in K.
  assert (XE : forall j k, same (xy va j k) (xy (place s x' y') j k)).
  { intros j k m. rewrite <- P1. unfold xy. rewrite !vget_vset, !Sa. destruct (Nat.eqb m 1), (Nat.eqb m 0); auto. }
  destruct (dump_parse (my_space s) (place s x y) (mkvec [Z.of_nat w; Z.of_nat h]) w h F (my_space s) va)
    as (text & d & g & DU & PA & G1 & G2); auto.
  - rewrite vget_mkvec. reflexivity.
  - rewrite vget_mkvec. reflexivity.
  - intros m Hm. rewrite vget_mkvec. apply nth_overflow. exact Hm.
  - intros m. rewrite Sa. apply R'.
  - rewrite Sa, P1. exact R0'.
  - rewrite Sa, P1. exact R1'.
  - intros j k Hj Hk. rewrite (f_get_ext _ _ _ (XE j k)). apply HB; assumption.
  - assert (TE : text = data).
    { assert (Ok text = Ok data); [|congruence]. rewrite <- DU. apply f_dump_rows; auto.
      - rewrite vget_mkvec. reflexivity.
      - rewrite vget_mkvec. reflexivity.
      - intros m Hm. rewrite vget_mkvec. apply nth_overflow. exact Hm. }
    rewrite TE in PA. destruct (K d g PA) as (s2 & E2 & W2).
    exists s1, s2. split; [exact E1|]. split; [exact E2|].
    assert (SP : my_space s2 = g).
    { unfold my_space. destruct W2 as (W2 & o2 & O2 & RR). rewrite W2, RR, (Only_stack_r _ _ _ O2).
      unfold with_space, upd_uni. cbn [r_fld set_r_ss w_uni set_w_uni]. now rewrite Nat.eqb_refl. }
    rewrite SP. split.
    + intros j k Hj Hk. rewrite <- (G1 j k Hj Hk). apply f_get_ext. intros m. symmetry. apply XE.
    + intros p Q. apply G2. intros j k Hj Hk SM. apply (Q j k Hj Hk). intros m. now rewrite SM, XE.
Qed.

(** Not as bytes: binary [o] ends each row with a newline, so binary [i] of a row of [w] cells
    puts a newline on the cell after it, whatever was there. *)
Theorem C128_binary_refuted : forall F D s b o i x y x' y' (w : nat) l,
  Normal s 111 -> Normal s 105 -> dims_of s = 2%nat -> c_fs (my_cfg s) = true -> char_str b ->
  Holds s (b ++ 0 :: o :: y :: x :: 1 :: Z.of_nat w :: b ++ 0 :: i :: y' :: x' :: l) ->
  Z.odd o = false -> Z.odd i = true -> w_wr (s_w s) b = true -> (0 < w)%nat ->
  Room s x y (Z.of_nat w) 1 -> Z.of_nat w <= Z.pos F -> Room s x' y' (Z.of_nat w + 1) 0 ->
  Z.of_nat w + 1 <= INT64_MAX ->
  exists s1 s2, execute F (S D) 111 s = Ok (ENone, s1) /\ execute F (S D) 105 s1 = Ok (ENone, s2) /\
    f_get (my_space s2) (xy (place s x' y') (Z.of_nat w) 0) = 10.
Proof.
  intros F D s b o i x y x' y' w l N1 N2 DI P HC H OO OI WR Hw RM HF RM' LN.
  destruct (C128_o_binary F D s b o x y w 1 _ N1 DI P HC H OO WR Hw) as (s1 & E1 & W1); auto; try lia.
  cbv zeta in W1. cbn [rows_all] in W1. rewrite app_nil_r in W1.
  set (data := map to_u8 _ ++ [10]) in *.
  assert (LD : length data = S w).
  { unfold data. rewrite app_length, map_length. unfold row. rewrite row_from_len. cbn [length]. lia. }
  pose proof (was_holds _ _ _ _ _ H W1) as H1.
  destruct (was_same _ _ _ _ W1 eq_refl) as (D1 & C1 & S1 & P1 & L1).
  pose proof (was_normal _ _ _ _ _ W1 eq_refl N2) as N2'.
  assert (FS : w_fs (s_w s1) b = Some data).
  { rewrite (proj1 W1). unfold with_file. cbn [w_fs set_w_fs]. now rewrite bytes_eqb_refl'. }
  rewrite <- D1 in DI. rewrite <- C1 in P.
  destruct (C128_i_binary F D s1 b data i x' y' l N2' DI P HC H1 OI FS) as (f' & s2 & E2 & W2 & A & _).
  { rewrite LD. lia. }
  { destruct RM' as (R & R0 & R1). unfold Room. rewrite P1, LD. split; [exact R|].
    split; [replace (Z.of_nat (S w)) with (Z.of_nat w + 1) by lia; exact R0|exact R1]. }
  exists s1, s2. split; [exact E1|]. split; [exact E2|].
  assert (SP : my_space s2 = f').
  { unfold my_space. destruct W2 as (W2 & o2 & O2 & RR). rewrite W2, RR, (Only_stack_r _ _ _ O2).
    unfold with_space, upd_uni. cbn [r_fld set_r_ss w_uni set_w_uni]. now rewrite Nat.eqb_refl. }
  rewrite SP, <- P1. rewrite (A w 10).
  - unfold cellval. destruct (f_char _); reflexivity.
  - unfold data. rewrite nth_error_app2; rewrite map_length; unfold row; rewrite row_from_len; [|lia].
    now rewrite Nat.sub_diag.
  - discriminate.
Qed.

(** [i] pushes the corner with the storage offset added in, and [o] adds it again: the pushed
    vector names the loaded text only if the offset is zero. *)
Theorem C128_offset_refuted : forall F D s b data flags x y l,
  Normal s 105 -> dims_of s = 2%nat -> c_fs (my_cfg s) = true -> char_str b ->
  Holds s (b ++ 0 :: flags :: y :: x :: l) -> Z.odd flags = false ->
  w_fs (s_w s) b = Some data -> textual data -> Z.of_nat (length data) <= INT64_MAX ->
  Room s x y (Z.of_nat (length data)) (Z.of_nat (length data)) ->
  vget (r_storage (s_r s)) 0 <> 0 ->
  exists s' X Y l', execute F (S D) 105 s = Ok (ENone, s') /\ Holds s' (Y :: X :: l') /\
    ~ same (place s' X Y) (place s x y).
Proof.
  intros F D s b data flags x y l HN DI P HC H FL FS TX LN RM NZ.
  destruct (C128_i F D s b data flags x y l HN DI P HC H FL FS TX LN RM) as (f' & s' & E & W & _).
  exists s'. do 3 eexists. split; [exact E|]. split; [exact (was_holds _ _ _ _ _ H W)|].
  intros SM. specialize (SM 0%nat). destruct W as (_ & o & O & R).
  unfold place in SM. rewrite R, (Only_stack_storage _ _ _ O) in SM. unfold xy in SM. rewrite !vget_vset in SM.
  cbn [Nat.eqb] in SM. lia.
Qed.

Lemma space_same s s' n f w0 l : World_and_stack s s' (with_space n f w0) l -> w_uni w0 = w_uni (s_w s) ->
  dims_of s' = dims_of s /\ my_cfg s' = my_cfg s /\ (forall c, Normal s c -> Normal s' c) /\
  (forall x y, place s' x y = place s x y) /\ (n = r_fld (s_r s) -> my_space s' = f).
Proof.
  intros (W & o & O & R) U. unfold dims_of, my_cfg, my_space, place, Normal.
  rewrite W, R, (Only_stack_r _ _ _ O). unfold with_space, upd_uni.
  cbn [w_uni set_w_uni r_uni set_r_ss r_fld r_storage r_string r_sem]. rewrite U.
  split; [|split; [|split; [|split]]].
  - destruct (Nat.eqb_spec (r_uni (s_r s)) n) as [<-|]; reflexivity.
  - destruct (Nat.eqb_spec (r_uni (s_r s)) n) as [<-|]; reflexivity.
  - intros c (A & B & C). split; [exact A|]. split; [|exact C].
    destruct (Nat.eqb_spec (r_uni (s_r s)) n) as [<-|]; exact B.
  - reflexivity.
  - intros ->. now rewrite Nat.eqb_refl.
Qed.
Lemma lines_of_one l : Forall (fun c => c <> 10 /\ c <> 13) l -> lines_of l = [l].
Proof.
  induction l as [|c l IH]; intros A; [reflexivity|]. inversion A as [|? ? (A1 & A2) A']; subst.
  cbn [lines_of]. destruct (Z.eqb_spec c 10); [contradiction|]. destruct (Z.eqb_spec c 13); [contradiction|].
  now rewrite (IH A').
Qed.

(** The size [i] pushes does not count a last line without a newline: writing the region it
    describes back truncates a file of one such line to its first character. *)
Theorem C128_lastline_refuted : forall F D s b c t x y l,
  Normal s 105 -> Normal s 111 -> dims_of s = 2%nat -> c_fs (my_cfg s) = true -> char_str b ->
  Holds s (b ++ 0 :: 0 :: y :: x :: l) -> w_fs (s_w s) b = Some (c :: t) -> w_wr (s_w s) b = true ->
  Forall (fun d => 0 <= d < 256 /\ d <> 10 /\ d <> 11 /\ d <> 12 /\ d <> 13) (c :: t) -> t <> [] -> c <> 32 ->
  let n := Z.of_nat (length (c :: t)) in n <= INT64_MAX -> Room s x y n n ->
  (forall i, vget (r_storage (s_r s)) i = 0) ->
  exists s1, execute F (S D) 105 s = Ok (ENone, s1) /\ Holds s1 (y :: x :: 0 :: n :: l) /\
    forall s2, Only_stack s1 s2 (b ++ 0 :: 1 :: y :: x :: 0 :: n :: l) ->
    exists s3, execute F (S D) 111 s2 = Ok (ENone, s3) /\ Holds s3 l /\ w_fs (s_w s3) b = Some [c].
Proof.
  intros F D s b c t x y l N1 N2 DI P HC H FS WR A T NC n LN RM Z0.
  assert (L1 : lines_of (c :: t) = [c :: t]).
  { apply lines_of_one. eapply Forall_impl; [|exact A]. cbn. intros; tauto. }
  destruct (C128_i F D s b (c :: t) 0 x y l N1 DI P HC H eq_refl FS) as (f' & s1 & E1 & W1 & G & _); auto.
  { eapply Forall_impl; [|exact A]. cbn. intros; tauto. }
  rewrite L1 in W1. pose proof (was_holds _ _ _ _ _ H W1) as H1.
  assert (P0 : vget (place s x y) 0 = x).
  { unfold place, xy. rewrite !vget_vset. cbn [Nat.eqb]. rewrite Z0. lia. }
  assert (P1 : vget (place s x y) 1 = y).
  { unfold place, xy. rewrite !vget_vset. cbn [Nat.eqb]. rewrite Z0. lia. }
  rewrite P0, P1 in H1. assert (WD : widest [c :: t] = n).
  { unfold widest, fold_right. rewrite Z.max_l by lia. reflexivity. }
  rewrite WD in H1. change (Z.of_nat (length [c :: t]) - 1) with 0 in H1.
  exists s1. split; [exact E1|]. split; [exact H1|]. intros s2 O2.
  pose proof (Only_stack_holds _ _ _ _ H1 O2) as H2.
  assert (W2 : World_and_stack s s2 (with_space (r_fld (s_r s)) f' (logged (EvRead b) (s_w s)))
                 (b ++ 0 :: 1 :: y :: x :: 0 :: n :: l)).
  { eapply was_trans; [exact W1|]. eapply was; [exact O2| |reflexivity].
    rewrite (Only_stack_w _ _ _ O2). exact (proj1 W1). }
  destruct (space_same _ _ _ _ _ _ W2 eq_refl) as (D2 & C2 & NN & PP & SP). specialize (SP eq_refl).
  rewrite <- D2 in DI. rewrite <- C2 in P.
  destruct RM as (R & R0 & R1). rewrite <- PP in R.
  destruct (o_run F D s2 b 1 x y n 0 l (NN _ N2) DI P HC H2) as (va & vb & Sa & BX & BY & BZ & K); auto.
  { rewrite (proj1 W2). exact WR. }
  assert (CV : to_u8 (cellval (f_char (my_space s)) c) = c).
  { inversion A as [|? ? (B & _) _]; subst. unfold cellval. destruct (f_char _); [rewrite to_u8_i8|];
      unfold to_u8; change (2 ^ 8) with 256; apply Z.mod_small; exact B. }
  assert (CL : f_get (my_space s2) va = cellval (f_char (my_space s)) c).
  { rewrite SP, <- (G 0%nat 0%nat c).
    - apply f_get_ext. intros m. rewrite Sa, PP. unfold xy. rewrite !vget_vset.
      destruct m as [|[|m]]; cbn [Nat.eqb]; lia.
    - rewrite L1. reflexivity.
    - exact NC. }
  destruct (K [c]) as (s3 & E3 & W3).
  { cbn [Z.odd negb]. rewrite (dump_1d (my_space s2) va vb F).
    - rewrite CL, CV. destruct (Z.eqb_spec (cellval (f_char (my_space s)) c) 32) as [Q|]; [|reflexivity].
      exfalso. apply NC. rewrite <- CV, Q. reflexivity.
    - intros i Hi. destruct i as [|[|i]]; [lia|exact BY|apply BZ; lia].
    - rewrite BX. unfold n. destruct t; [contradiction|]. cbn [length]. lia.
    - intros m. rewrite Sa. apply R.
    - rewrite Sa, PP, BX. exact R0. }
  exists s3. split; [exact E3|]. split; [exact (was_holds _ _ _ _ _ H2 W3)|].
  rewrite (proj1 W3). unfold with_file. cbn [w_fs set_w_fs]. now rewrite bytes_eqb_refl'.
Qed.

(** ** Concrete cases *)

(** A program AB/C with [data] in the file f, standard input [input], and [l] on the stack. *)
Definition fio (input data : bytes) (l : list Z) : st :=
  let s := start98 2 [65; 66; 10; 67] input in
  with_list l {| s_w := set_w_fs (fun p => if bytes_eqb p [102] then Some data else None) (s_w s); s_r := s_r s |}.
Lemma fio_holds input data l : Holds (fio input data l) l.
Proof. apply holds_with_list; [reflexivity|vm_compute; discriminate]. Qed.
Lemma fio_normal input data l c : In c [44; 126; 61; 111; 105] -> Normal (fio input data l) c.
Proof. intros [<-|[<-|[<-|[<-|[<-|[]]]]]]; (split; [reflexivity|split; reflexivity]). Qed.
Lemma fio_room input data l x y n m : 0 <= x <= 1000 -> 0 <= y <= 1000 -> n <= 1000 -> m <= 1000 ->
  Room (fio input data l) x y n m.
Proof.
  intros X Y N M. unfold Room, place. change (r_storage (s_r (fio input data l))) with ([0] : vec).
  assert (G0 : vget (xy [0] x y) 0 = x) by (unfold xy; rewrite !vget_vset; reflexivity).
  assert (G1 : vget (xy [0] x y) 1 = y) by (unfold xy; rewrite !vget_vset; reflexivity).
  rewrite G0, G1. unfold INT64_MAX. split; [|lia]. intros i. unfold in64, INT64_MIN, INT64_MAX.
  destruct i as [|[|i]]; [rewrite G0; lia|rewrite G1; lia|].
  unfold xy. rewrite !vget_vset. cbn [Nat.eqb]. unfold vget. cbn. destruct i; lia.
Qed.

Example C127_ex :
  (forall c, In c [44; 126; 61; 111; 105] -> Normal (fio [72; 10; 33] [] [7]) c) /\ Holds (fio [72; 10; 33] [] [7]) [7] /\
  w_in (s_w (fio [72; 10; 33] [] [7])) = [72; 10; 33] /\ c_exec (my_cfg (fio [] [] [])) = true /\
  match echo 100 5 3 (fio [72; 10; 33] [] [7]) with
  | Ok (_, s') => w_out (s_w s') = [72; 10; 33] /\ stack_of s' = [7]
  | Bad _ => False
  end /\
  match echo 100 5 1 (fio [13; 65] [] [7]) with
  | Ok (_, s') => w_out (s_w s') = [65]
  | Bad _ => False
  end /\
  match execute 100 5 61 (fio [] [] [108; 115; 0; 7]) with
  | Ok (_, s') => w_log (s_w s') = [EvSystem [108; 115]] /\ stack_of s' = [0; 7]
  | Bad _ => False
  end.
Proof.
  split; [intros c; apply fio_normal|]. split; [apply fio_holds|]. vm_compute. repeat split.
Qed.

(** Copying AB/C from (0,0) to (5,7) through the file f. *)
Definition fio_copy : list Z := [102] ++ 0 :: 1 :: 0 :: 0 :: 2 :: 2 :: [102] ++ 0 :: 0 :: 7 :: 5 :: [9].
Example C128_ex :
  let s := fio [] [120] fio_copy in
  Normal s 111 /\ Normal s 105 /\ dims_of s = 2%nat /\ c_fs (my_cfg s) = true /\ char_str [102] /\
  Holds s fio_copy /\ w_wr (s_w s) [102] = true /\ Room s 0 0 2 2 /\ Room s 5 7 6 6 /\
  (forall j k, 0 <= j < 2 -> 0 <= k < 2 ->
     texty (f_char (my_space s)) (f_get (my_space s) (xy (place s 0 0) j k)) /\
     f_get (my_space s) (xy (place s 5 7) j k) = 32) /\
  match execute 100 5 111 s with
  | Ok (_, s1) => w_fs (s_w s1) [102] = Some [65; 66; 10; 67; 10] /\
      match execute 100 5 105 s1 with
      | Ok (_, s2) => map (f_get (my_space s2)) [mkvec [5; 7]; mkvec [6; 7]; mkvec [5; 8]; mkvec [6; 8]] = [65; 66; 67; 32] /\
                      stack_of s2 = [7; 5; 2; 2; 9]
      | Bad _ => False
      end
  | Bad _ => False
  end.
Proof.
  cbv zeta. split; [apply fio_normal; cbn; tauto|]. split; [apply fio_normal; cbn; tauto|].
  split; [reflexivity|]. split; [reflexivity|]. split; [constructor; [lia|constructor]|].
  split; [apply fio_holds|]. split; [reflexivity|]. split; [apply fio_room; lia|]. split; [apply fio_room; lia|].
  split.
  { intros j k Hj Hk. assert (J : j = 0 \/ j = 1) by lia. assert (K : k = 0 \/ k = 1) by lia.
    destruct J as [->| ->], K as [->| ->]; vm_compute; repeat split; discriminate. }
  vm_compute. repeat split.
Qed.
(** A file of one line, no newline at its end: xyz becomes x. *)
Example C128_lastline_ex :
  let s := fio [] [120; 121; 122] ([102] ++ 0 :: 0 :: 7 :: 5 :: [9]) in
  w_fs (s_w s) [102] = Some [120; 121; 122] /\ w_wr (s_w s) [102] = true /\ Room s 5 7 3 3 /\
  (forall i, vget (r_storage (s_r s)) i = 0) /\
  match execute 100 5 105 s with
  | Ok (_, s1) => stack_of s1 = [7; 5; 0; 3; 9] /\
      match execute 100 5 111 (with_list ([102] ++ 0 :: 1 :: stack_of s1) s1) with
      | Ok (_, s2) => w_fs (s_w s2) [102] = Some [120]
      | Bad _ => False
      end
  | Bad _ => False
  end.
Proof.
  cbv zeta. split; [reflexivity|]. split; [reflexivity|]. split; [apply fio_room; lia|].
  split; [intros i; destruct i; reflexivity|]. vm_compute. repeat split.
Qed.
(** Binary input of five bytes, two of them line ends; a missing file; a file opened when
    the storage offset is not zero. *)
Example C128_binary_ex :
  let s := fio [] [120; 10; 121; 13; 122] ([102] ++ 0 :: 1 :: 7 :: 5 :: [9]) in
  Room s 5 7 5 0 /\
  match execute 100 5 105 s with
  | Ok (_, s1) => map (f_get (my_space s1)) [mkvec [5; 7]; mkvec [6; 7]; mkvec [8; 7]; mkvec [9; 7]] = [120; 10; 13; 122] /\
                  stack_of s1 = [7; 5; 0; 5; 9]
  | Bad _ => False
  end /\
  match execute 100 5 105 (fio [] [] ([103] ++ 0 :: 0 :: 7 :: 5 :: [9])) with
  | Ok (e, s1) => e = EUnspec /\ stack_of s1 = [9]
  | Bad _ => False
  end /\
  let t := {| s_w := s_w s; s_r := set_r_storage [2; 0] (s_r s) |} in
  match execute 100 5 105 t with
  | Ok (_, s1) => stack_of s1 = [7; 7; 0; 5; 9]
  | Bad _ => False
  end.
Proof. cbv zeta. split; [apply fio_room; lia|]. vm_compute. repeat split. Qed.

Print Assumptions C127_out.
Print Assumptions C127_in.
Print Assumptions C127_in_return.
Print Assumptions C127_end.
Print Assumptions C127_echo.
Print Assumptions C127_return_refuted.
Print Assumptions C127_execute.
Print Assumptions C128_o.
Print Assumptions C128_o_binary.
Print Assumptions C128_i.
Print Assumptions C128_i_binary.
Print Assumptions C128_missing.
Print Assumptions C128_copy.
Print Assumptions C128_binary_refuted.
Print Assumptions C128_offset_refuted.
Print Assumptions C128_lastline_refuted.
