(** * Property C125: loading fingerprints from files. *)

From Coq Require Import String ZArith List Bool Lia.
From Verif Require Import Base BaseProofs VectorModel VectorProofs RangeModel RangeProofs TextModel TextProofs
  StackModel StackProofs FieldModel FieldProofs World IpModel LoadModel FingModel CoreModel
  UniModel IpProofs ExecProofs FlowProofs States PropsStack PropsTurn PropsBlocks Effects SchedProofs PropsIO
  CopyProofs PropsCopy PropsSched PropsFing PropsMvrs PropsMath PropsLoad OptModel PropsOpt FileModel LibModel LibTexts
  LibRun PropsLib LibLoadModel.
Import ListNotations.
Open Scope Z_scope.

(** ** Specification *)

(** Bytes of a path in plain ASCII. *)
Definition ascii (b : bytes) : Prop := Forall (fun x => 0 < x < 128) b.
(** The place of the file of fingerprint [name], the executable being in [dir]. *)
Definition place (dir name : bytes) : bytes := dir ++ lit "/../fing/" ++ name ++ lit ".fl".
(** The universe of a library whose text parses to [f]: Funge-98, all permissions,
    the dynamic fingerprint. *)
Definition library (name : bytes) (f : field) : universe :=
  {| u_cfg := set_c_dims (f_size f) (set_c_name name
                (set_c_fings [FP_DYN] (set_c_std STD_98 cfg_default)));
     u_field := f; u_queue := []; u_running := true; u_exit := 0 |}.
(** [w'] is [w] with one more universe, [u]. *)
Definition one_more (w w' : world) (u : universe) : Prop :=
  w' = set_w_nuni (S (w_nuni w)) (upd_uni (w_nuni w) (fun _ => u) w).
(** How often the file defines instruction [i]. *)
Definition times (f : field) (i : Z) : nat := count_occ Z.eq_dec (f_planes f) i.
(** The meaning: instruction [i] of the library in universe [u]. *)
Definition calls (n : Z) (u : nat) (i : Z) : sem := {| sm_act := AFing n u i; sm_move := false |}.
(** The IP can execute [(] or [)] with the name of a fingerprint on the stack. *)
Definition Asks (s : st) (c : Z) (name : list Z) (l : list Z) : Prop :=
  Normal s c /\ Holds s (Z.of_nat (length name) :: name ++ l) /\ c_fing (my_cfg s) = true /\
  testmode MODE_SWITCH (w_uni (s_w s) (r_uni (s_r s))) = false /\ no_debug s.
(** Everything about the IP but its stacks and its fingerprints. *)
Definition same_ip (r r' : runner) : Prop :=
  r' = set_r_ss (r_ss r') (set_r_avail (r_avail r') (set_r_loaded (r_loaded r') (set_r_sem (r_sem r') r))).

(** ** Lemmas *)

Lemma lib_open_named F path data f w :
  field_load FmtFl data 0 false = Ok f -> (2 <= F)%positive -> ~ (Taken w path /\ Taken w (dot1 path)) ->
  exists name w', lib_open F path data false w = Ok (f_planes f, w') /\ one_more w w' (library name f) /\
    ~ Taken w name /\ ((~ Taken w path /\ name = path) \/ (Taken w path /\ name = dot1 path)).
Proof.
  intros EL HF N. destruct (name_loop_runs F path w HF N) as (name & E & T & O).
  unfold lib_open, multi_create_fmt. change (c_name (lib_cfg path false)) with path. rewrite E. cbn [bind].
  change (c_dims (lib_cfg path false)) with 0%nat. change (c_char (lib_cfg path false)) with false. rewrite EL. cbn [bind].
  exists name. eexists. split; [cbn; rewrite Nat.eqb_refl; reflexivity|]. split; [reflexivity|]. auto.
Qed.
Lemma lib_open_stuck F path data d w : Taken w path -> Taken w (dot1 path) ->
  lib_open F path data d w = Bad BadFuel.
Proof.
  intros T1 T2. unfold lib_open, multi_create_fmt.
  replace (c_name (lib_cfg path d)) with path by (destruct d; reflexivity).
  pose proof (C40_stuck F (set_c_name path cfg_default) w) as K. unfold multi_create in K.
  change (c_name (set_c_name path cfg_default)) with path in K. specialize (K T1 T2).
  destruct (loop (name_step path w) F path) as [x|b]; cbn [bind] in *; [discriminate|congruence].
Qed.

Lemma lib_pushes n u letters : forall t i,
  lib_activate n u letters t i = repeat (calls n u i) (count_occ Z.eq_dec letters i) ++ t i.
Proof.
  unfold lib_activate, sem_pushes. induction letters as [|c letters IH]; intros t i; [reflexivity|].
  cbn [map fold_left fst snd count_occ]. rewrite IH. unfold sem_push. destruct (Z.eqb_spec i c) as [->|N].
  - destruct (Z.eq_dec c c); [|contradiction]. fold (calls n u c). set (k := count_occ _ _ _). clearbody k.
    cbn [repeat]. induction k as [|k IHk]; [reflexivity|]. cbn [repeat app]. now rewrite IHk.
  - destruct (Z.eq_dec c i); [congruence|]. reflexivity.
Qed.
Lemma lib_pops letters : forall t i,
  fold_left (fun t c => sem_pop c t) letters t i = skipn (count_occ Z.eq_dec letters i) (t i).
Proof.
  induction letters as [|c letters IH]; intros t i; [reflexivity|]. cbn [fold_left count_occ]. rewrite IH.
  unfold sem_pop. destruct (Z.eqb_spec i c) as [->|N].
  - destruct (Z.eq_dec c c); [|contradiction]. destruct (t c); cbn [tl skipn]; [now rewrite skipn_nil|reflexivity].
  - destruct (Z.eq_dec c i); [congruence|]. reflexivity.
Qed.

Lemma execute_file_base dir canon F D s c m mv : Normal s c -> std_sem c = Some {| sm_act := ABase m; sm_move := mv |} ->
  execute_file dir canon F (S D) c s =
  match m with
  | MLoad => load_file dir canon F s
  | MUnload => unload_file s
  | MThread => (c <- getC ;; if c_conc c then clone_file dir canon F ;;; ok else reterr ENotAvail) s
  | m => run_meth F (execute_file dir canon F D) m s
  end.
Proof.
  intros (NS & ND & T) E. cbn [execute_file].
  unfold mbind at 1. unfold getR at 1. rewrite NS, T, E.
  unfold isMode. unfold mbind at 1. unfold mbind at 1. unfold getU at 1. unfold ret at 1. rewrite ND.
  cbn [andb sm_act]. destruct m; reflexivity.
Qed.

(** From the popped name to the loading itself, and from there to the end. *)
Lemma load_file_run dir canon F D s name l : Asks s 40 name l ->
  exists x, Holds {| s_w := s_w s; s_r := set_r_ss x (s_r s) |} l /\
    forall w' r', load_any dir canon F (number name) {| s_w := s_w s; s_r := set_r_ss x (s_r s) |} =
                    Ok (true, {| s_w := w'; s_r := r' |}) ->
      r_ss r' = x -> r_uni r' = r_uni (s_r s) -> w_uni w' (r_uni (s_r s)) = w_uni (s_w s) (r_uni (s_r s)) ->
      exists s', execute_file dir canon F (S D) 40 s = Ok (ENone, s') /\
        Holds s' (1 :: to_i64 (number name) :: l) /\ s_w s' = w' /\ s_r s' = set_r_ss (mySS s') r'.
Proof.
  intros (HN & H & CF & NS & ND). rewrite (execute_file_base dir canon F D _ _ _ _ HN eq_refl).
  unfold load_file. unfold getC, mbind at 1, mbind at 1, getU, ret at 1. unfold my_cfg in CF. rewrite CF.
  unfold mbind at 1. xpop. cbn [hd tl] in *. rewrite to_nat_len.
  destruct (popFing_name name 0 s0 l H0) as (s1 & E1 & C1). rewrite (run_bind _ _ _ _ _ E1). fold (number name).
  pose proof (Only_stack_trans _ _ _ _ _ C C1) as C2. clear C C1 E E1.
  assert (H1 : Holds s1 l) by exact (Only_stack_holds s s1 _ _ H C2). clear H0 s0.
  pose proof (Only_stack_w _ _ _ C2) as W1. pose proof (Only_stack_r _ _ _ C2) as R1.
  assert (Q : s1 = {| s_w := s_w s; s_r := set_r_ss (mySS s1) (s_r s) |}) by (destruct s1; cbn in *; congruence).
  exists (mySS s1). rewrite <- Q. split; [exact H1|].
  intros w' r' EL X1 X2 X3. rewrite (run_bind _ _ _ _ _ EL). cbn beta iota.
  set (s2 := {| s_w := w'; s_r := r' |}).
  assert (H2 : Holds s2 l). { destruct H1 as (k & T & P & L). exists k. unfold mySS in *. cbn [s2 s_r]. rewrite X1. auto. }
  xpush. xpush. unfold ok, ret at 1.
  assert (K : Only_stack s2 s3 (1 :: to_i64 (number name) :: l)) by exact (Only_stack_trans _ _ _ _ _ C C0).
  exists s3. pose proof (Only_stack_w _ _ _ K) as K1. pose proof (Only_stack_r _ _ _ K) as K2.
  split; [|split; [|split]].
  - unfold switchPut, isMode. unfold mbind at 1. unfold mbind at 1. unfold mbind at 1, getU, ret at 1.
    replace (testmode MODE_SWITCH (w_uni (s_w s3) (r_uni (s_r s3)))) with false; [reflexivity|].
    symmetry. rewrite <- NS. rewrite K1, K2. cbn [s2 s_w s_r]. change (r_uni (set_r_ss (mySS s3) r')) with (r_uni r').
    rewrite X2, X3. reflexivity.
  - assumption.
  - exact K1.
  - exact K2.
Qed.

Lemma one_more_old w w' u k : one_more w w' u -> (k < w_nuni w)%nat -> w_uni w' k = w_uni w k.
Proof. intros -> L. cbn. destruct (Nat.eqb_spec k (w_nuni w)); [lia|reflexivity]. Qed.
Lemma one_more_new w w' u : one_more w w' u -> w_uni w' (w_nuni w) = u.
Proof. intros ->. cbn. now rewrite Nat.eqb_refl. Qed.

(** [(] with a name whose file is at [path]. *)
Lemma loads_from dir canon F D s name l data f path :
  Asks s 40 name l -> (r_uni (s_r s) < w_nuni (s_w s))%nat ->
  os_path dir (number name) = path -> w_fs (s_w s) path = Some data -> field_load FmtFl data 0 false = Ok f ->
  assoc (number name) (r_avail (s_r s)) = None ->
  (2 <= F)%positive -> ~ (Taken (s_w s) (canon path) /\ Taken (s_w s) (dot1 (canon path))) ->
  let u := w_nuni (s_w s) in
  exists s' uname, execute_file dir canon F (S D) 40 s = Ok (ENone, s') /\
    Holds s' (1 :: to_i64 (number name) :: l) /\
    one_more (s_w s) (s_w s') (library uname f) /\ ~ Taken (s_w s) uname /\
    (forall i, meaning s' i = repeat (calls (number name) u i) (times f i) ++ meaning s i) /\
    r_avail (s_r s') = r_avail (s_r s) ++ [(number name, u)] /\
    r_loaded (s_r s') = r_loaded (s_r s) ++ [number name] /\ same_ip (s_r s) (s_r s').
Proof.
  intros A U EP EF EL NA HF NT u. destruct (load_file_run dir canon F D s name l A) as (x & Hx & K).
  destruct A as (_ & _ & _ & _ & ND).
  destruct (lib_open_named F (canon path) data f (s_w s) EL HF NT) as (uname & w' & EO & OM & T & _).
  edestruct K as (s' & E & H' & W & R).
  - unfold load_any. cbn [s_w s_r]. change (r_avail (set_r_ss x (s_r s))) with (r_avail (s_r s)). rewrite NA, EP, EF.
    change (r_uni (set_r_ss x (s_r s))) with (r_uni (s_r s)). unfold no_debug in ND. rewrite ND, EO. reflexivity.
  - reflexivity.
  - reflexivity.
  - exact (one_more_old _ _ _ _ OM U).
  - exists s', uname. split; [exact E|]. split; [exact H'|]. rewrite W. split; [exact OM|]. split; [exact T|].
    split; [intros i; unfold meaning; rewrite R; exact (lib_pushes _ _ _ _ _)|].
    split; [rewrite R; reflexivity|]. split; [rewrite R; reflexivity|].
    unfold same_ip. rewrite R. reflexivity.
Qed.

(** ** Where the file is *)

Lemma cstr_no0 b : Forall (fun x => x <> 0) b -> cstr b = b.
Proof.
  induction b as [|c b IH]; intros H; [reflexivity|]. inversion H; subst. cbn [cstr].
  destruct (Z.eqb_spec c 0); [contradiction|]. now rewrite IH.
Qed.
Lemma ascii_no0 b : ascii b -> Forall (fun x => x <> 0) b.
Proof. apply Forall_impl. intros. lia. Qed.
Lemma ascii_chars b : ascii b -> map to_i8 b = b.
Proof.
  induction b as [|c b IH]; intros H; [reflexivity|]. inversion H; subst. cbn [map]. rewrite IH by assumption.
  now rewrite to_i8_id by lia.
Qed.
Lemma ascii_name b : ascii b -> is_name b.
Proof. apply Forall_impl. intros. lia. Qed.
Lemma os_path_place dir name : ascii name -> (length name <= 8)%nat -> nth 0 name 0 <> 47 ->
  ascii dir -> dir <> [] -> last dir 0 <> 47 -> os_path dir (number name) = place dir name.
Proof.
  intros HN L N0 HD D1 D2. unfold os_path. destruct (C45_load name (ascii_name _ HN) L) as (_ & E).
  rewrite (E dir D1 D2 N0). fold (place dir name).
  assert (A : ascii (place dir name)).
  { unfold place, ascii. rewrite !Forall_app. repeat split; auto; vm_compute; repeat constructor. }
  rewrite cstr_no0 by (now apply ascii_no0). now apply ascii_chars.
Qed.
Lemma os_path_abs dir name : ascii name -> (length name <= 8)%nat -> nth 0 name 0 = 47 ->
  os_path dir (number name) = name ++ lit ".fl".
Proof.
  intros HN L N0. unfold os_path, fl_path. destruct (C45_load name (ascii_name _ HN) L) as (E & _).
  rewrite E, (C45_file name (ascii_name _ HN) L). unfold path_join at 1.
  replace (nth 0 (name ++ lit ".fl") 0) with 47 by (destruct name; cbn in *; congruence).
  rewrite Z.eqb_refl. 
  assert (A : ascii (name ++ lit ".fl")).
  { unfold ascii. rewrite Forall_app. split; auto; vm_compute; repeat constructor. }
  rewrite cstr_no0 by (now apply ascii_no0). now apply ascii_chars.
Qed.

(** ** C125 *)

(** With a file [name].fl in the directory of the fingerprints, [(] opens it as a
    new universe and gives exactly the instructions the file defines a new meaning,
    whether or not there is a built-in fingerprint of that name.  Missing: the
    loading of the same file by more than two IPs, see below. *)
Theorem C125_load_partial : forall dir canon F D s name l data f,
  ascii name -> (length name <= 8)%nat -> nth 0 name 0 <> 47 ->
  ascii dir -> dir <> [] -> last dir 0 <> 47 ->
  Asks s 40 name l -> (r_uni (s_r s) < w_nuni (s_w s))%nat ->
  w_fs (s_w s) (place dir name) = Some data -> field_load FmtFl data 0 false = Ok f ->
  assoc (number name) (r_avail (s_r s)) = None ->
  (2 <= F)%positive ->
  ~ (Taken (s_w s) (canon (place dir name)) /\ Taken (s_w s) (dot1 (canon (place dir name)))) ->
  let u := w_nuni (s_w s) in
  exists s' uname, execute_file dir canon F (S D) 40 s = Ok (ENone, s') /\
    Holds s' (1 :: to_i64 (number name) :: l) /\
    one_more (s_w s) (s_w s') (library uname f) /\ ~ Taken (s_w s) uname /\
    (forall i, meaning s' i = repeat (calls (number name) u i) (times f i) ++ meaning s i) /\
    r_avail (s_r s') = r_avail (s_r s) ++ [(number name, u)] /\
    r_loaded (s_r s') = r_loaded (s_r s) ++ [number name] /\ same_ip (s_r s) (s_r s').
Proof.
  intros dir canon F D s name l data f HN L N0 HD D1 D2 A U EF EL NA HF NT.
  apply (loads_from dir canon F D s name l data f (place dir name)); auto. now apply os_path_place.
Qed.

(** Loading it once more does not open the file again. *)
Theorem C125_again : forall dir canon F D s name l u,
  Asks s 40 name l -> assoc (number name) (r_avail (s_r s)) = Some u -> is_library (s_w s) u = true ->
  exists s', execute_file dir canon F (S D) 40 s = Ok (ENone, s') /\ s_w s' = s_w s /\
    Holds s' (1 :: to_i64 (number name) :: l) /\
    (forall i, meaning s' i = repeat (calls (number name) u i) (times (u_field (w_uni (s_w s) u)) i) ++ meaning s i) /\
    r_avail (s_r s') = r_avail (s_r s) /\
    r_loaded (s_r s') = r_loaded (s_r s) ++ [number name] /\ same_ip (s_r s) (s_r s').
Proof.
  intros dir canon F D s name l u A NA IL. destruct (load_file_run dir canon F D s name l A) as (x & Hx & K).
  edestruct K as (s' & E & H' & W & R).
  - unfold load_any. cbn [s_w s_r]. change (r_avail (set_r_ss x (s_r s))) with (r_avail (s_r s)). rewrite NA, IL. reflexivity.
  - reflexivity.
  - reflexivity.
  - reflexivity.
  - exists s'. split; [exact E|]. split; [exact W|]. split; [exact H'|].
    split; [intros i; unfold meaning; rewrite R; exact (lib_pushes _ _ _ _ _)|].
    split; [rewrite R; reflexivity|]. split; [rewrite R; reflexivity|].
    unfold same_ip. rewrite R. reflexivity.
Qed.

(** [)] takes as many meanings away as the file gave. *)
Theorem C125_unload : forall dir canon F D s name l u,
  Asks s 41 name l -> assoc (number name) (r_avail (s_r s)) = Some u -> is_library (s_w s) u = true ->
  exists s', execute_file dir canon F (S D) 41 s = Ok (ENone, s') /\ s_w s' = s_w s /\ Holds s' l /\
    (forall i, meaning s' i = skipn (times (u_field (w_uni (s_w s) u)) i) (meaning s i)) /\
    r_avail (s_r s') = r_avail (s_r s) /\ same_ip (s_r s) (s_r s').
Proof.
  intros dir canon F D s name l u (HN & H & CF & NS & ND) NA IL.
  rewrite (execute_file_base dir canon F D _ _ _ _ HN eq_refl).
  unfold unload_file. unfold getC, mbind at 1, mbind at 1, getU, ret at 1. unfold my_cfg in CF. rewrite CF.
  unfold mbind at 1. xpop. cbn [hd tl] in *. rewrite to_nat_len.
  destruct (popFing_name name 0 s0 l H0) as (s1 & E1 & C1). rewrite (run_bind _ _ _ _ _ E1). fold (number name).
  pose proof (Only_stack_trans _ _ _ _ _ C C1) as C2. clear C C1 E E1.
  assert (H1 : Holds s1 l) by exact (Only_stack_holds s s1 _ _ H C2). clear H0 s0.
  pose proof (Only_stack_w _ _ _ C2) as W1. pose proof (Only_stack_r _ _ _ C2) as R1.
  assert (EU : unload_any (number name) s1 = Ok (true, {| s_w := s_w s;
    s_r := set_r_loaded (erase_last (number name) (r_loaded (s_r s)))
             (set_r_sem (fold_left (fun t c => sem_pop c t) (lib_letters (s_w s) u) (r_sem (s_r s))) (s_r s1)) |})).
  { unfold unload_any. rewrite W1, R1. change (r_avail (set_r_ss (mySS s1) (s_r s))) with (r_avail (s_r s)).
    rewrite NA, IL. reflexivity. }
  rewrite (run_bind _ _ _ _ _ EU). cbn beta iota. unfold ok, ret at 1.
  match type of EU with _ = Ok (_, ?x) => exists x end. clear EU. split; [|split; [reflexivity|split]].
  - unfold switchPut, isMode. unfold mbind at 1. unfold mbind at 1. unfold mbind at 1, getU, ret at 1. cbn [s_w s_r].
    match goal with |- context [testmode MODE_SWITCH (w_uni (s_w s) ?x)] => replace x with (r_uni (s_r s)) end.
    + rewrite NS. reflexivity.
    + rewrite R1. reflexivity.
  - destruct H1 as (k & T & P & L). exists k. auto.
  - cbn [s_r s_w]. split; [intros i; unfold meaning; exact (lib_pops _ _ _)|].
    split; [rewrite R1; reflexivity|]. unfold same_ip. rewrite R1. reflexivity.
Qed.

(** So [)] in any state [s2] in which the meanings, the known fingerprints and the
    file's universe are as [(] left them restores every meaning. *)
Theorem C125_restores : forall dir canon F D s name l data f s1 s2 l2 s3,
  ascii name -> (length name <= 8)%nat -> nth 0 name 0 <> 47 ->
  ascii dir -> dir <> [] -> last dir 0 <> 47 ->
  Asks s 40 name l -> (r_uni (s_r s) < w_nuni (s_w s))%nat ->
  w_fs (s_w s) (place dir name) = Some data -> field_load FmtFl data 0 false = Ok f ->
  assoc (number name) (r_avail (s_r s)) = None -> (2 <= F)%positive ->
  execute_file dir canon F (S D) 40 s = Ok (ENone, s1) ->
  ~ (Taken (s_w s) (canon (place dir name)) /\ Taken (s_w s) (dot1 (canon (place dir name)))) ->
  (forall i, meaning s2 i = meaning s1 i) -> r_avail (s_r s2) = r_avail (s_r s1) ->
  w_uni (s_w s2) (w_nuni (s_w s)) = w_uni (s_w s1) (w_nuni (s_w s)) -> Asks s2 41 name l2 ->
  execute_file dir canon F (S D) 41 s2 = Ok (ENone, s3) ->
  forall i, meaning s3 i = meaning s i.
Proof.
  intros dir canon F D s name l data f s1 s2 l2 s3 HN L N0 HD D1 D2 A U EF EL NA HF E1 NT M2 A2 W2 A3 E3 i.
  destruct (C125_load_partial dir canon F D s name l data f HN L N0 HD D1 D2 A U EF EL NA HF NT)
    as (s1' & un & E1' & _ & OM & _ & M1 & AV & _). rewrite E1 in E1'. injection E1' as <-.
  pose proof (one_more_new _ _ _ OM) as WU.
  assert (AS : assoc (number name) (r_avail (s_r s2)) = Some (w_nuni (s_w s))).
  { rewrite A2, AV, assoc_app, NA. cbn. now rewrite Z.eqb_refl. }
  assert (IL : is_library (s_w s2) (w_nuni (s_w s)) = true).
  { unfold is_library. rewrite W2, WU. reflexivity. }
  destruct (C125_unload dir canon F D s2 name l2 _ A3 AS IL) as (s3' & E3' & _ & _ & M3 & _).
  rewrite E3 in E3'. injection E3' as <-. rewrite M3, M2, M1, W2, WU. change (u_field (library un f)) with f.
  set (k := times f i). set (c := calls _ _ _). clearbody k. induction k as [|k IH]; [reflexivity|exact IH].
Qed.

(** Without a file of that name, and with no library of that name known, [(] does
    what C41 to C44 say about built-in fingerprints. *)
Theorem C125_builtin : forall dir canon F D s name l,
  Asks s 40 name l -> w_fs (s_w s) (os_path dir (number name)) = None ->
  w_fl (s_w s) (number name) = false ->
  match assoc (number name) (r_avail (s_r s)) with Some u => is_library (s_w s) u = false | None => True end ->
  execute_file dir canon F (S D) 40 s = execute F (S D) 40 s.
Proof.
  intros dir canon F D s name l (HN & H & CF & NS & ND) NF WF NL.
  rewrite (execute_file_base dir canon F D _ _ _ _ HN eq_refl), (execute_normal F D _ s _ _ HN eq_refl). cbn [run_meth].
  unfold load_file, load_. unfold my_cfg in CF.
  assert (GC : getC s = Ok (u_cfg (w_uni (s_w s) (r_uni (s_r s))), s)) by reflexivity.
  rewrite !(run_bind _ _ _ _ _ GC), CF. clear GC.
  assert (Q : forall (m1 m2 : M err) (k : err -> M err), m1 s = m2 s -> (e <- m1 ;; k e) s = (e <- m2 ;; k e) s).
  { intros m1 m2 k EQ. unfold mbind. now rewrite EQ. }
  apply Q. clear Q. xpop. cbn [hd tl] in *. rewrite to_nat_len.
  rewrite ?(run_bind _ _ _ _ _ E). rewrite ?to_nat_len.
  destruct (popFing_name name 0 s0 l H0) as (s1 & E1 & C1). rewrite !(run_bind _ _ _ _ _ E1). fold (number name).
  pose proof (Only_stack_trans _ _ _ _ _ C C1) as C2.
  pose proof (Only_stack_w _ _ _ C2) as W1. pose proof (Only_stack_r _ _ _ C2) as R1.
  unfold mbind, getR, getW, lift, modR, load_any, load_builtin. cbn [s_w s_r].
  assert (A1 : r_avail (s_r s1) = r_avail (s_r s)) by (rewrite R1; reflexivity).
  rewrite A1, W1, NF.
  assert (EQ : fp_load (fun _ => false) (number name) (s_r s1) = fp_load (w_fl (s_w s)) (number name) (s_r s1)).
  { unfold fp_load. rewrite WF. reflexivity. }
  destruct (assoc (number name) (r_avail (s_r s))) as [u|]; [rewrite NL|]; rewrite EQ;
    (destruct (fp_load (w_fl (s_w s)) (number name) (s_r s1)) as [[[] r']|b]; cbn [fst snd s_w s_r]; rewrite ?W1; reflexivity).
Qed.

(** The library is then ready for calls. *)
Lemma one_more_ready w w' uname f r : one_more w w' (library uname f) -> (3 <= f_size f)%nat ->
  (r_uni r < w_nuni w)%nat -> r_id r < w_nrun w -> w_fl w FP_DYN = false ->
  Ready_lib (w_nuni w) f (f_size f) {| s_w := w'; s_r := r |}.
Proof.
  intros OM H3 U N FL. pose proof (one_more_new _ _ _ OM) as WU. unfold Ready_lib. cbn [s_w s_r]. rewrite WU.
  rewrite OM. unfold Library. cbn. repeat split; auto. lia.
Qed.

(** Executing a character that means an instruction of a library runs it: what the
    library's instruction [c] computes when called ([Computes], proved for the
    libraries of the project in C110 to C115), the character computes. *)
Theorem C125_call : forall f c l l' o, Computes f c l l' o ->
  exists N, forall dir canon F D n u s, (N <= F)%positive ->
    r_string (s_r s) = false -> testmode MODE_DIVE (w_uni (s_w s) (r_uni (s_r s))) = false ->
    hd_error (meaning s c) = Some (calls n u c) -> Ready_lib u f 3 s -> Holding l s ->
    exists s', execute_file dir canon F (S D) c s = Ok (ENone, s') /\ Called s s' l' o /\
               Ready_lib u f 3 s' /\ Holding l' s'.
Proof.
  intros f c l l' o (N & HC). exists N. intros dir canon F D n u s HF ST DV M R H.
  destruct (HC F D u s HF R H) as (s' & E & K). exists s'. split; [|exact K].
  cbn [execute_file]. unfold mbind at 1. unfold getR at 1. rewrite ST. unfold sem_top. unfold meaning in M. rewrite M.
  unfold isMode. unfold mbind at 1. unfold mbind at 1. unfold getU at 1. unfold ret at 1. rewrite DV.
  cbn [andb sm_act calls]. unfold mbind at 1, getW at 1.
  destruct R as (_ & _ & _ & _ & FI & _). unfold is_library. rewrite FI. exact E.
Qed.

(** For example: when the file MODU.fl of the project is there, [(] with MODU on
    the stack makes R the remainder, in whatever state with the same meaning of R. *)
Theorem C125_modu : forall dir canon F D s l,
  ascii dir -> dir <> [] -> last dir 0 <> 47 -> Asks s 40 (lit "MODU") l ->
  (r_uni (s_r s) < w_nuni (s_w s))%nat -> r_id (s_r s) < w_nrun (s_w s) -> w_fl (s_w s) FP_DYN = false ->
  w_fs (s_w s) (place dir (lit "MODU")) = Some modu_fl ->
  assoc (number (lit "MODU")) (r_avail (s_r s)) = None -> (2 <= F)%positive ->
  ~ Taken (s_w s) (canon (place dir (lit "MODU"))) ->
  exists s1, execute_file dir canon F (S D) 40 s = Ok (ENone, s1) /\
    Ready_lib (w_nuni (s_w s)) modu_field 3 s1 /\
    hd_error (meaning s1 82) = Some (calls (number (lit "MODU")) (w_nuni (s_w s)) 82) /\
    forall a b t, in64 a -> in64 b -> ~ (a = INT64_MIN /\ b = -1) ->
      exists N, forall F2 D2 s2, (N <= F2)%positive ->
        r_string (s_r s2) = false -> testmode MODE_DIVE (w_uni (s_w s2) (r_uni (s_r s2))) = false ->
        meaning s2 82 = meaning s1 82 -> Ready_lib (w_nuni (s_w s)) modu_field 3 s2 -> Holding (b :: a :: t) s2 ->
        exists s3, execute_file dir canon F2 (S D2) 82 s2 = Ok (ENone, s3) /\
          Called s2 s3 ((if b =? 0 then 0 else Z.rem a b) :: t) [].
Proof.
  intros dir canon F D s l HD D1 D2 A U N FL EF NA HF NT.
  assert (EL : field_load FmtFl modu_fl 0 false = Ok modu_field) by (vm_compute; reflexivity).
  assert (AN : ascii (lit "MODU")) by (vm_compute; repeat constructor).
  destruct (C125_load_partial dir canon F D s (lit "MODU") l modu_fl modu_field AN
    ltac:(vm_compute; repeat constructor) ltac:(vm_compute; discriminate) HD D1 D2 A U EF EL NA HF ltac:(tauto))
    as (s1 & un & E1 & _ & OM & _ & M & _ & _ & SI).
  assert (MR : hd_error (meaning s1 82) = Some (calls (number (lit "MODU")) (w_nuni (s_w s)) 82)).
  { rewrite M. replace (times modu_field 82) with 1%nat by (vm_compute; reflexivity). reflexivity. }
  exists s1. split; [exact E1|]. split; [|split; [exact MR|]].
  - destruct s1 as [w1 r1]. cbn [s_w s_r] in *.
    apply (one_more_ready (s_w s) w1 un modu_field r1 OM); auto.
    + unfold same_ip in SI. rewrite SI. exact U.
    + unfold same_ip in SI. rewrite SI. exact N.
  - intros a b t Ra Rb X. destruct (C125_call _ _ _ _ _ (C110_R a b t Ra Rb X)) as (K & HK).
    exists K. intros F2 D3 s2 H2 ST DV M2 R2 HO.
    destruct (HK dir canon F2 D3 (number (lit "MODU")) _ s2 H2 ST DV ltac:(rewrite M2; exact MR) R2 HO) as (s3 & E3 & C3 & _).
    exists s3. auto.
Qed.

(** ** What is wrong with it *)

(** A name that starts with a slash opens a file anywhere, whether or not the
    program may use the file system. *)
Theorem C125_outside_refuted : forall dir canon F D s name l data f,
  ascii name -> (length name <= 8)%nat -> nth 0 name 0 = 47 -> c_fs (my_cfg s) = false ->
  Asks s 40 name l -> (r_uni (s_r s) < w_nuni (s_w s))%nat ->
  w_fs (s_w s) (name ++ lit ".fl") = Some data -> field_load FmtFl data 0 false = Ok f ->
  assoc (number name) (r_avail (s_r s)) = None -> (2 <= F)%positive ->
  ~ Taken (s_w s) (canon (name ++ lit ".fl")) ->
  exists s' uname, execute_file dir canon F (S D) 40 s = Ok (ENone, s') /\
    one_more (s_w s) (s_w s') (library uname f) /\
    forall i, meaning s' i = repeat (calls (number name) (w_nuni (s_w s)) i) (times f i) ++ meaning s i.
Proof.
  intros dir canon F D s name l data f HN L N0 _ A U EF EL NA HF NT.
  destruct (loads_from dir canon F D s name l data f (name ++ lit ".fl") A U (os_path_abs dir name HN L N0) EF EL NA HF
    ltac:(tauto)) as (s' & un & E & _ & OM & _ & M & _). eauto 6.
Qed.

(** Each IP that loads the file opens it again.  The second universe is named
    after the first; for a third IP [(] never ends. *)
Theorem C125_third_refuted : forall dir canon n s data,
  w_fs (s_w s) (os_path dir n) = Some data -> assoc n (r_avail (s_r s)) = None ->
  Taken (s_w s) (canon (os_path dir n)) -> Taken (s_w s) (dot1 (canon (os_path dir n))) ->
  forall F, load_any dir canon F n s = Bad BadFuel.
Proof.
  intros dir canon n s data EF NA T1 T2 F. unfold load_any. rewrite NA, EF, lib_open_stuck by assumption. reflexivity.
Qed.
(** And as an IP made by [t] loads the fingerprints of the one it was cloned from,
    [t] never ends either. *)
Theorem C125_threads_refuted : forall dir canon n rest s data dims,
  Normal s 116 -> c_conc (my_cfg s) = true -> r_strats (s_r s) = strats_of STD_98 dims -> (1 <= dims)%nat ->
  r_loaded (s_r s) = n :: rest -> w_fs (s_w s) (os_path dir n) = Some data ->
  Taken (s_w s) (canon (os_path dir n)) -> Taken (s_w s) (dot1 (canon (os_path dir n))) ->
  forall F D, execute_file dir canon F (S D) 116 s = Bad BadFuel.
Proof.
  intros dir canon n rest s data dims HN CC ST DM RL EF T1 T2 F D.
  rewrite (execute_file_base dir canon F D _ _ _ _ HN eq_refl).
  unfold getC, mbind at 1, mbind at 1, getU, ret at 1. unfold my_cfg in CC. rewrite CC. unfold mbind at 1.
  assert (X : clone_file dir canon F s = Bad BadFuel); [|now rewrite X].
  unfold clone_file. rewrite RL, ST.
  assert (Y : exists t, strats_of STD_98 dims = SU93 :: SU98 :: t).
  { destruct dims as [|k]; [lia|]. eexists. reflexivity. }
  destruct Y as (t & ->). cbn [strats_any].
  unfold mbind at 1, getR at 1. unfold mbind at 1, lift at 1. cbn [strat_construct]. unfold mbind at 1, modR at 1.
  unfold mbind at 1. cbn [loads_any]. unfold mbind at 1.
  rewrite (C125_third_refuted dir canon n _ data); auto.
Qed.

(** A program without permission to run commands and to use files, and two files. *)
Definition restricted : cfg :=
  set_c_exec false (set_c_fs false (set_c_dims 2 (set_c_std STD_98 cfg_default))).
Definition bin : bytes := lit "/opt/bin".
Definition shell_fl : bytes := lit "=A" ++ [10] ++ lit "0" ++ [34] ++ lit "sl" ++ [34] ++ lit "=@" ++ [10].
Definition files (p : bytes) : option bytes :=
  if bytes_eqb p (place bin (lit "MODU")) then Some modu_fl
  else if bytes_eqb p (lit "/tmp/x.fl") then Some shell_fl else None.
Definition with_files (fs : bytes -> option bytes) (s : st) : st :=
  {| s_w := set_w_fs fs (s_w s); s_r := s_r s |}.
Definition asking (name : string) (s : st) : st :=
  with_list (Z.of_nat (length (chars name)) :: chars name) s.
Definition restricted_st : st := with_files files (the dummy (start restricted [64] [])).
Definition same_path (p : bytes) : bytes := p.

(** A library may do what the program that loads it may not: here [=] is refused to
    the program, but instruction A of the file /tmp/x.fl runs a command. *)
Theorem C125_permission_refuted :
  c_exec (my_cfg restricted_st) = false /\ c_fs (my_cfg restricted_st) = false /\
  match execute_file bin same_path 100 3 61 (asking "ls" restricted_st) with
  | Ok (ENotAvail, s) => w_log (s_w s) = []
  | _ => False
  end /\
  match execute_file bin same_path 100 3 40 (asking "/tmp/x" restricted_st) with
  | Ok (ENone, s1) =>
      match execute_file bin same_path 100 3 65 s1 with
      | Ok (ENone, s2) => w_log (s_w s2) = [EvSystem (lit "ls")]
      | _ => False
      end
  | _ => False
  end.
Proof. vm_compute. repeat split; reflexivity. Qed.

(** A loaded library and [t] twice: the second [t] meets the hypotheses of
    [C125_threads_refuted]. *)
Definition threads_demo : option st :=
  match execute_file bin same_path 100 3 40 (asking "MODU" restricted_st) with
  | Ok (ENone, s1) =>
      match execute_file bin same_path 100 3 116 s1 with
      | Ok (ENone, s2) => Some s2
      | _ => None
      end
  | _ => None
  end.
Example C125_threads_ex : exists s2, threads_demo = Some s2 /\
  (forall F D, execute_file bin same_path F (S D) 116 s2 = Bad BadFuel).
Proof.
  assert (K : match threads_demo with
    | None => False
    | Some s => Normal s 116 /\ c_conc (my_cfg s) = true /\ r_strats (s_r s) = strats_of STD_98 2 /\
        r_loaded (s_r s) = [number (lit "MODU")] /\
        w_fs (s_w s) (os_path bin (number (lit "MODU"))) = Some modu_fl /\
        (2 < w_nuni (s_w s))%nat /\
        c_name (u_cfg (w_uni (s_w s) 1)) = place bin (lit "MODU") /\
        c_name (u_cfg (w_uni (s_w s) 2)) = dot1 (place bin (lit "MODU"))
    end) by (vm_compute; repeat split; repeat constructor).
  destruct threads_demo as [s|]; [|destruct K]. destruct K as (K1 & K2 & K3 & K4 & K5 & K6 & K7 & K8).
  assert (OP : os_path bin (number (lit "MODU")) = place bin (lit "MODU")) by (vm_compute; reflexivity).
  exists s. split; [reflexivity|]. apply (C125_threads_refuted bin same_path _ _ s modu_fl 2 K1 K2 K3 ltac:(lia) K4 K5).
  - exists 1%nat. split; [lia|]. rewrite K7, OP. reflexivity.
  - exists 2%nat. split; [lia|]. rewrite K8, OP. reflexivity.
Qed.
Example C125_ex : let s := asking "MODU" restricted_st in
  ascii bin /\ ascii (lit "MODU") /\ Asks s 40 (lit "MODU") [] /\ (r_uni (s_r s) < w_nuni (s_w s))%nat /\
  r_id (s_r s) < w_nrun (s_w s) /\ w_fl (s_w s) FP_DYN = false /\
  w_fs (s_w s) (place bin (lit "MODU")) = Some modu_fl /\
  assoc (number (lit "MODU")) (r_avail (s_r s)) = None /\
  ~ Taken (s_w s) (place bin (lit "MODU")) /\
  match execute_file bin same_path 5 3 40 s with
  | Ok (ENone, s1) =>
      f_planes (u_field (w_uni (s_w s1) 1)) = [77; 82; 85] /\ length (meaning s1 82) = 1%nat /\
      match execute_file bin same_path 100 3 82 (with_list [3; -7] s1) with
      | Ok (ENone, s2) => exists k, ss_top (mySS s2) = Ok k /\ s_list k = [-1]
      | _ => False
      end
  | _ => False
  end.
Proof.
  cbv zeta. split; [vm_compute; repeat constructor|]. split; [vm_compute; repeat constructor|].
  split.
  { split; [vm_compute; repeat split|]. split; [|vm_compute; repeat split].
    apply holds_with_list; [reflexivity|vm_compute; discriminate]. }
  split; [vm_compute; lia|]. split; [vm_compute; reflexivity|]. split; [vm_compute; reflexivity|].
  split; [vm_compute; reflexivity|]. split; [vm_compute; reflexivity|].
  split.
  { intros (n & L & X). assert (n = 0%nat) as -> by (change (n < 1)%nat in L; lia). vm_compute in X. discriminate X. }
  vm_compute. repeat split. eexists. split; reflexivity.
Qed.
(** With a 0 in the name the extension is lost too. *)
Example C125_outside_ex : forall dir,
  os_path dir (number (lit "/tmp/x")) = lit "/tmp/x.fl" /\
  os_path dir (number (lit "/etc/x" ++ [0])) = lit "/etc/x" /\
  os_path bin (number (lit "../a")) = lit "/opt/bin/../fing/../a.fl" /\
  files (lit "/tmp/x.fl") = Some shell_fl /\ nth 0 (lit "/tmp/x") 0 = 47.
Proof. intros dir. vm_compute. repeat split. Qed.

(** All other characters with a built-in meaning do what they do without files:
    core instructions other than [(], [)], [t] and [k], and built-in fingerprints. *)
Theorem C125_other : forall dir canon F D s c x,
  hd_error (meaning s c) = Some x ->
  match sm_act x with
  | ABase m => m <> MLoad /\ m <> MUnload /\ m <> MThread /\ m <> MIterate
  | AFing n u _ => is_library (s_w s) u = false
  | AReflect => True
  end ->
  execute_file dir canon F (S D) c s = execute F (S D) c s.
Proof.
  intros dir canon F D s c x M A. unfold meaning in M. cbn [execute_file execute].
  assert (GR : getR s = Ok (s_r s, s)) by reflexivity. rewrite !(run_bind _ _ _ _ _ GR).
  destruct (r_string (s_r s)); [reflexivity|]. unfold exec_normal. rewrite !(run_bind _ _ _ _ _ GR). unfold sem_top. rewrite M.
  assert (GD : isMode MODE_DIVE s = Ok (testmode MODE_DIVE (w_uni (s_w s) (r_uni (s_r s))), s)) by reflexivity.
  rewrite !(run_bind _ _ _ _ _ GD).
  destruct (testmode _ _ && negb (sm_move x)); [reflexivity|].
  destruct (sm_act x) as [m|n u c0|].
  - destruct A as (A1 & A2 & A3 & A4). destruct m; try contradiction; reflexivity.
  - unfold mbind, getW. rewrite A. reflexivity.
  - reflexivity.
Qed.
Example C125_other_ex : hd_error (meaning restricted_st 43) = Some (base MAdd) /\ MAdd <> MLoad.
Proof. split; [vm_compute; reflexivity|discriminate]. Qed.

Print Assumptions C125_load_partial.
Print Assumptions C125_again.
Print Assumptions C125_unload.
Print Assumptions C125_restores.
Print Assumptions C125_builtin.
Print Assumptions C125_call.
Print Assumptions C125_modu.
Print Assumptions C125_outside_refuted.
Print Assumptions C125_third_refuted.
Print Assumptions C125_threads_refuted.
Print Assumptions C125_permission_refuted.
Print Assumptions C125_other.
