(** * C45, C61, C62: the command line and the names of fingerprints. *)

From Coq Require Import ZArith String Ascii List Bool Lia.
From Verif Require Import Base BaseProofs VectorModel StackModel World CoreModel OptModel UniModel PropsLoad.
Import ListNotations.
Open Scope Z_scope.

(** ** Strings *)

Lemma streq_eq : forall a b, streq a b = true <-> a = b.
Proof.
  induction a as [|x a IH]; intros [|y b]; cbn [streq]; split; intros H; try discriminate; auto.
  - apply andb_prop in H. destruct H as [H1 H2]. apply Z.eqb_eq in H1. apply IH in H2. congruence.
  - injection H as <- <-. rewrite Z.eqb_refl. apply IH. reflexivity.
Qed.

Lemma starts_app : forall p a, starts p a = true <-> exists r, a = p ++ r.
Proof.
  induction p as [|x p IH]; intros a; cbn [starts].
  - split; [intros _; exists a; reflexivity | reflexivity].
  - destruct a as [|y a]; [split; [discriminate|intros [r E]; discriminate]|].
    rewrite andb_true_iff, Z.eqb_eq, IH. split.
    + intros [-> [r ->]]. exists r. reflexivity.
    + intros [r E]. injection E as <- ->. split; [reflexivity|]. exists r. reflexivity.
Qed.

(** ** The specification: what each option means *)

(** The options are the arguments before the first that does not begin with a
    dash; the file and the program's arguments follow. *)
Definition dash (a : bytes) : bool := match a with c :: _ => c =? 45 | [] => false end.
Fixpoint options (args : list bytes) : list bytes :=
  match args with a :: t => if dash a then a :: options t else [] | [] => [] end.
Fixpoint operands (args : list bytes) : list bytes :=
  match args with a :: t => if dash a then operands t else args | [] => [] end.

(** The last option that has something to say decides. *)
Definition latest {A} (says : bytes -> option A) (opts : list bytes) (default : A) : A :=
  fold_left (fun acc a => match says a with Some x => x | None => acc end) opts default.

(** A pair of switches. *)
Definition switch (on off : string) (a : bytes) : option bool :=
  if streq a (lit on) then Some true else if streq a (lit off) then Some false else None.

(** The value written after the first equals sign: the first non-empty piece
    between equals signs. *)
Fixpoint pieces (cur : bytes) (l : bytes) : list bytes :=
  match l with
  | [] => [cur]
  | c :: t => if c =? 61 then cur :: pieces [] t else pieces (cur ++ [c]) t
  end.
Definition value (a : bytes) : option bytes :=
  find (fun p => negb (streq p [])) (tl (pieces [] a)).

Fixpoint choose {A} (v : bytes) (rows : list (string * A)) : option A :=
  match rows with
  | [] => None
  | (n, x) :: t => if streq v (lit n) then Some x else choose v t
  end.

(** Option [name]=value with the values [rows]. *)
Definition valued {A} (name : string) (rows : list (string * A)) (a : bytes) : option A :=
  if starts (lit name) a
  then match value a with Some v => choose v rows | None => None end
  else None.

Record standard := { sd_dims : nat; sd_std : Z; sd_torus : bool; sd_str : strstyle; sd_char : bool }.
Definition standards : list (string * standard) :=
  [("une93"%string, Build_standard 1 93 true StrMultispace true);
   ("une98"%string, Build_standard 1 98 false StrSgml false);
   ("be93"%string, Build_standard 2 93 true StrMultispace true);
   ("be98"%string, Build_standard 2 98 false StrSgml false);
   ("tre98"%string, Build_standard 3 98 false StrSgml false);
   ("fish"%string, Build_standard 2 (-1) false StrMultispace false);
   ("sfish"%string, Build_standard 2 (-2) false StrMultispace false)].
Definition or_else {A} (f g : bytes -> option A) (a : bytes) : option A :=
  match f a with Some x => Some x | None => g a end.
Definition std_says {A} (get : standard -> A) (a : bytes) : option A :=
  option_map get (valued "-std=" standards a).
Definition topo_says := valued "-ftopo=" [("torus"%string, true); ("lahey"%string, false)].
Definition strings_says :=
  valued "-fstrings=" [("multispace"%string, StrMultispace); ("sgml"%string, StrSgml); ("c"%string, StrC)].
Definition cells_says := valued "-fcells=" [("char"%string, true); ("int"%string, false)].
Definition threads_says := valued "-fthreads=" [("native"%string, true); ("funge"%string, false)].
Definition isopt (name : string) (a : bytes) : bool := streq a (lit name).

(** The configuration the options ask for. *)
Record Asked (opts : list bytes) (c : cfg) : Prop := {
  ask_conc : c_conc c = latest (switch "-fconcurrent" "-fno-concurrent") opts true;
  ask_exec : c_exec c = latest (switch "-fexecute" "-fno-execute") opts true;
  ask_fs : c_fs c = latest (switch "-ffilesystem" "-fno-filesystem") opts true;
  ask_hl : c_inverthl c = existsb (isopt "-finvert-hl") opts;
  ask_debug : c_mode c = if existsb (isopt "-g") opts then 1024 else 0;
  ask_dims : c_dims c = latest (std_says sd_dims) opts 0%nat;
  ask_std : c_std c = latest (std_says sd_std) opts 0;
  ask_torus : c_torus c = latest (or_else (std_says sd_torus) topo_says) opts false;
  ask_str : c_str c = latest (or_else (std_says sd_str) strings_says) opts StrSgml;
  ask_char : c_char c = latest (or_else (std_says sd_char) cells_says) opts false;
  ask_native : c_native c = latest threads_says opts false;
  ask_fing : c_fing c = true;
  ask_name : c_name c = [] }.

(** ** The model's value is the specified one *)

Lemma tok_take_pieces : forall l cur,
  exists r, pieces cur l = (cur ++ fst (tok_take l)) :: r /\
    (forall x, hd_error (filter (fun p => negb (streq p [])) r) = x <->
               (match tok_skip (snd (tok_take l)) with
                | [] => None | q => Some (fst (tok_take q)) end) = x).
Proof.
  intros l. remember (length l) as n eqn:En. assert (Hn : (length l <= n)%nat) by lia. clear En.
  revert l Hn. induction n as [|n IH]; intros l Hn cur.
  - destruct l; [|cbn in Hn; lia]. exists []. cbn. rewrite app_nil_r. split; [reflexivity|]. intros x. tauto.
  - destruct l as [|c t].
    + exists []. cbn. rewrite app_nil_r. split; [reflexivity|]. intros x. tauto.
    + cbn [length] in Hn. cbn [pieces tok_take]. destruct (c =? 61) eqn:Ec.
      * exists (pieces [] t). split; [cbn [fst]; now rewrite app_nil_r|]. cbn [snd].
        assert (Ht : (length t <= n)%nat) by lia. clear Hn Ec.
        assert (G : hd_error (filter (fun p => negb (streq p [])) (pieces [] t)) =
                    match tok_skip t with [] => None | q => Some (fst (tok_take q)) end).
        { revert IH Ht. clear. intros IH Ht.
          destruct (IH t Ht []) as (r & Ep & Hr). rewrite Ep. cbn [app].
          destruct t as [|d t'].
          - cbn in *. injection Ep as <-. reflexivity.
          - cbn [tok_take tok_skip] in *. destruct (d =? 61) eqn:Ed.
            + cbn [fst snd] in *. cbn [filter streq negb].
              apply (proj2 (Hr _)). reflexivity.
            + destruct (tok_take t') as [u v] eqn:Et. cbn [fst filter streq negb hd_error].
              cbn [tok_take]. try rewrite Ed. try rewrite Et. reflexivity. }
        intros x. rewrite G. tauto.
      * assert (Ht : (length t <= n)%nat) by lia.
        destruct (IH t Ht (cur ++ [c])) as (r & Ep & Hr). exists r.
        destruct (tok_take t) as [u v]. cbn [fst snd] in *. split; [|exact Hr].
        rewrite Ep. now rewrite <- app_assoc.
Qed.

Lemma find_filter : forall A (f : A -> bool) l, find f l = hd_error (filter f l).
Proof. induction l as [|x l IH]; cbn; auto. destruct (f x); auto. Qed.

Lemma value_opt : forall a, dash a = true -> opt_value a = value a.
Proof.
  intros a D. unfold value, opt_value. rewrite find_filter.
  assert (E : tok_skip a = a).
  { destruct a as [|c t]; [discriminate|]. cbn in D. apply Z.eqb_eq in D. subst c. reflexivity. }
  rewrite E. destruct (tok_take_pieces a []) as (r & Ep & Hr). rewrite Ep. cbn [tl].
  symmetry. apply Hr. reflexivity.
Qed.

Lemma lookup_choose : forall A v (rows : list (string * A)), lookup v rows = choose v rows.
Proof. induction rows as [|[n x] t IH]; cbn [lookup choose]; [reflexivity|]. now rewrite IH. Qed.

(** ** One option *)

Definition pick {A} (says : bytes -> option A) (a : bytes) (x : A) : A :=
  match says a with Some y => y | None => x end.

Lemma with_value_value : forall A a (rows : list (string * A)) o,
  dash a = true -> with_value a rows = Ok o ->
  o = match value a with Some v => choose v rows | None => None end.
Proof.
  intros A a rows o D E. unfold with_value in E. rewrite (value_opt _ D) in E.
  destruct (value a); [|discriminate]. injection E as <-. apply lookup_choose.
Qed.

(** [opt_step] sets the settings the option names, and the fingerprint list. *)
Lemma std_value : forall v x, choose v std_table = Some x ->
  exists sd, choose v standards = Some sd /\ sd_dims sd = fst x /\ sd_std sd = snd x /\
    sd_torus sd = (snd x =? STD_93) /\
    sd_str sd = (if (snd x =? STD_98) then StrSgml else StrMultispace) /\
    sd_char sd = (snd x =? STD_93).
Proof.
  intros v x. unfold std_table, standards. cbn [choose].
  repeat match goal with
  | |- context [streq v ?b] => destruct (streq v b)
  end; intros E; try discriminate; injection E as <-; eexists; (split; [reflexivity|]);
  cbn [fst snd sd_dims sd_std sd_torus sd_str sd_char]; repeat split; reflexivity.
Qed.

Definition fing_says (a : bytes) : list Z :=
  if starts (lit "-l") a then [opt_number (skipn 2 a)] else [].

Ltac exact_opt H := apply streq_eq in H; subst.
Ltac prefix_opt H := let r := fresh "r" in apply starts_app in H; destruct H as [r ->].

Lemma opt_step_says : forall a c c', dash a = true -> opt_step a c = Ok (Some c') ->
  c_conc c' = pick (switch "-fconcurrent" "-fno-concurrent") a (c_conc c) /\
  c_exec c' = pick (switch "-fexecute" "-fno-execute") a (c_exec c) /\
  c_fs c' = pick (switch "-ffilesystem" "-fno-filesystem") a (c_fs c) /\
  c_inverthl c' = (c_inverthl c || isopt "-finvert-hl" a)%bool /\
  c_mode c' = (if isopt "-g" a then Z.lor (c_mode c) 1024 else c_mode c) /\
  c_dims c' = pick (std_says sd_dims) a (c_dims c) /\
  c_std c' = pick (std_says sd_std) a (c_std c) /\
  c_torus c' = pick (or_else (std_says sd_torus) topo_says) a (c_torus c) /\
  c_str c' = pick (or_else (std_says sd_str) strings_says) a (c_str c) /\
  c_char c' = pick (or_else (std_says sd_char) cells_says) a (c_char c) /\
  c_native c' = pick threads_says a (c_native c) /\
  c_fing c' = c_fing c /\ c_name c' = c_name c /\ c_args c' = c_args c /\ c_env c' = c_env c /\
  c_fings c' = c_fings c ++ fing_says a.
Proof.
  intros a c c' D E. unfold opt_step in E.
  unfold pick, or_else, std_says, topo_says, strings_says, cells_says, threads_says, valued, switch,
    isopt, fing_says.
  assert (NL : forall l : list Z, l ++ [] = l) by (intros; apply app_nil_r).
  destruct (starts (lit "-std=") a) eqn:H1.
  { pose proof (with_value_value _ a std_table) as W.
    destruct (with_value a std_table) as [o|]; cbn [bind] in E; [|discriminate].
    specialize (W o D eq_refl). destruct o as [x|]; cbn [option_map] in E; [|discriminate].
    injection E as <-. destruct (value a) as [v|]; [|discriminate].
    symmetry in W. pose proof W as W0. destruct (std_value _ _ W) as (sd & -> & Ed & Es & Et & Er & Ec).
    cbn [option_map]. rewrite Ed, Es, Et, Er, Ec. clear W Ed Es Et Er Ec sd D.
    prefix_opt H1. unfold set_standard.
    destruct (snd x =? STD_93) eqn:E3.
    - apply Z.eqb_eq in E3. rewrite E3.
      repeat split; try reflexivity; cbn; now rewrite ?NL, ?orb_false_r.
    - destruct (snd x =? STD_98) eqn:E8.
      + apply Z.eqb_eq in E8. rewrite E8. repeat split; try reflexivity; cbn; now rewrite ?NL, ?orb_false_r.
      + assert (Ef : (snd x =? STD_FISH) || (snd x =? STD_STARFISH) = true).
        { revert W0 E3 E8. unfold std_table. cbn [choose].
          repeat match goal with |- context [streq v ?b] => destruct (streq v b) end;
          intros W0; try discriminate; injection W0 as <-; cbn; intros; try discriminate; reflexivity. }
        rewrite Ef. repeat split; try reflexivity; cbn; now rewrite ?NL, ?orb_false_r. }
  destruct (streq a (lit "-fconcurrent")) eqn:H2.
  { exact_opt H2. injection E as <-. repeat split; try reflexivity; cbn; now rewrite ?NL, ?orb_false_r. }
  destruct (streq a (lit "-fexecute")) eqn:H3.
  { exact_opt H3. injection E as <-. repeat split; try reflexivity; cbn; now rewrite ?NL, ?orb_false_r. }
  destruct (streq a (lit "-ffilesystem")) eqn:H4.
  { exact_opt H4. injection E as <-. repeat split; try reflexivity; cbn; now rewrite ?NL, ?orb_false_r. }
  destruct (streq a (lit "-fno-concurrent")) eqn:H5.
  { exact_opt H5. injection E as <-. repeat split; try reflexivity; cbn; now rewrite ?NL, ?orb_false_r. }
  destruct (streq a (lit "-fno-execute")) eqn:H6.
  { exact_opt H6. injection E as <-. repeat split; try reflexivity; cbn; now rewrite ?NL, ?orb_false_r. }
  destruct (streq a (lit "-fno-filesystem")) eqn:H7.
  { exact_opt H7. injection E as <-. repeat split; try reflexivity; cbn; now rewrite ?NL, ?orb_false_r. }
  destruct (streq a (lit "-finvert-hl")) eqn:H8.
  { exact_opt H8. injection E as <-. repeat split; try reflexivity; cbn; now rewrite ?NL, ?orb_true_r. }
  destruct (starts (lit "-ftopo=") a) eqn:H9.
  { pose proof (with_value_value _ a topo_table) as W.
    destruct (with_value a topo_table) as [o|]; cbn [bind] in E; [|discriminate].
    specialize (W o D eq_refl). destruct o as [x|]; cbn [option_map] in E; [|discriminate].
    injection E as <-. destruct (value a) as [v|]; [|discriminate].
    unfold topo_table in W. rewrite <- W. clear W.
    prefix_opt H9. repeat split; try reflexivity; cbn; now rewrite ?NL, ?orb_false_r. }
  destruct (starts (lit "-fstrings=") a) eqn:H10.
  { pose proof (with_value_value _ a strings_table) as W.
    destruct (with_value a strings_table) as [o|]; cbn [bind] in E; [|discriminate].
    specialize (W o D eq_refl). destruct o as [x|]; cbn [option_map] in E; [|discriminate].
    injection E as <-. destruct (value a) as [v|]; [|discriminate].
    unfold strings_table in W. rewrite <- W. clear W.
    prefix_opt H10. repeat split; try reflexivity; cbn; now rewrite ?NL, ?orb_false_r. }
  destruct (starts (lit "-fcells=") a) eqn:H11.
  { pose proof (with_value_value _ a cells_table) as W.
    destruct (with_value a cells_table) as [o|]; cbn [bind] in E; [|discriminate].
    specialize (W o D eq_refl). destruct o as [x|]; cbn [option_map] in E; [|discriminate].
    injection E as <-. destruct (value a) as [v|]; [|discriminate].
    unfold cells_table in W. rewrite <- W. clear W.
    prefix_opt H11. repeat split; try reflexivity; cbn; now rewrite ?NL, ?orb_false_r. }
  destruct (starts (lit "-fthreads=") a) eqn:H12.
  { pose proof (with_value_value _ a threads_table) as W.
    destruct (with_value a threads_table) as [o|]; cbn [bind] in E; [|discriminate].
    specialize (W o D eq_refl). destruct o as [x|]; cbn [option_map] in E; [|discriminate].
    injection E as <-. destruct (value a) as [v|]; [|discriminate].
    unfold threads_table in W. rewrite <- W. clear W.
    prefix_opt H12. repeat split; try reflexivity; cbn; now rewrite ?NL, ?orb_false_r. }
  destruct (starts (lit "-l") a) eqn:H13.
  { prefix_opt H13. injection E as <-. repeat split; try reflexivity; cbn; now rewrite ?NL, ?orb_false_r. }
  destruct (streq a (lit "-g")) eqn:H14.
  { exact_opt H14. injection E as <-. repeat split; try reflexivity; cbn; now rewrite ?NL, ?orb_false_r. }
  injection E as <-. repeat split; try reflexivity; now rewrite ?NL, ?orb_false_r.
Qed.

(** ** Which options are refused *)

(** The five options with a value. *)
Definition takes_value (a : bytes) : option (bytes -> bool) :=
  let among l := fun v => existsb (fun n => streq v (lit n)) l in
  if starts (lit "-std=") a
  then Some (among ["une93"; "une98"; "be93"; "be98"; "tre98"; "fish"; "sfish"]%string)
  else if starts (lit "-ftopo=") a then Some (among ["torus"; "lahey"]%string)
  else if starts (lit "-fstrings=") a then Some (among ["multispace"; "sgml"; "c"]%string)
  else if starts (lit "-fcells=") a then Some (among ["char"; "int"]%string)
  else if starts (lit "-fthreads=") a then Some (among ["native"; "funge"]%string)
  else None.
(** The value is missing altogether. *)
Definition no_value (a : bytes) : bool :=
  match takes_value a, value a with Some _, None => true | _, _ => false end.
(** The value is none of those allowed. *)
Definition invalid (a : bytes) : bool :=
  match takes_value a, value a with Some ok, Some v => negb (ok v) | _, _ => false end.

Lemma with_value_cases : forall A a (rows : list (string * A)), dash a = true ->
  with_value a rows =
    match value a with
    | None => Bad BadNull
    | Some v => if existsb (fun n => streq v (lit n)) (map fst rows)
                then match choose v rows with Some x => Ok (Some x) | None => Bad BadNull end
                else Ok None
    end.
Proof.
  intros A a rows D. unfold with_value. rewrite (value_opt _ D). destruct (value a) as [v|]; auto.
  rewrite lookup_choose. induction rows as [|[n x] t IH]; cbn [choose map fst existsb]; auto.
  destruct (streq v (lit n)); auto.
Qed.

Lemma choose_some : forall A v (rows : list (string * A)),
  existsb (fun n => streq v (lit n)) (map fst rows) = true -> exists x, choose v rows = Some x.
Proof.
  induction rows as [|[n x] t IH]; cbn [choose map fst existsb]; [discriminate|].
  destruct (streq v (lit n)); [eauto|]. auto.
Qed.

Lemma opt_step_outcome : forall a c, dash a = true ->
  if no_value a then opt_step a c = Bad BadNull
  else if invalid a then opt_step a c = Ok None
  else exists c', opt_step a c = Ok (Some c').
Proof.
  intros a c D. unfold no_value, invalid, takes_value, opt_step.
  assert (K : forall A (rows : list (string * A)) l (f : A -> cfg),
    map fst rows = l ->
    if match value a with Some _ => false | None => true end
    then (v <-- with_value a rows ;; Ok (option_map f v)) = Bad BadNull
    else if match value a with Some v => negb (existsb (fun n => streq v (lit n)) l) | None => false end
    then (v <-- with_value a rows ;; Ok (option_map f v)) = Ok None
    else exists c', (v <-- with_value a rows ;; Ok (option_map f v)) = Ok (Some c')).
  { intros A rows l f <-. rewrite (with_value_cases _ _ _ D). destruct (value a) as [v|]; [|reflexivity].
    destruct (existsb _ (map fst rows)) eqn:Ex; cbn [negb].
    - destruct (choose_some _ _ _ Ex) as [x ->]. cbn [bind option_map]. eauto.
    - reflexivity. }
  destruct (starts (lit "-std=") a) eqn:H1; [apply K; reflexivity|].
  destruct (streq a (lit "-fconcurrent")) eqn:H2; [exact_opt H2; eexists; reflexivity|].
  destruct (streq a (lit "-fexecute")) eqn:H3; [exact_opt H3; eexists; reflexivity|].
  destruct (streq a (lit "-ffilesystem")) eqn:H4; [exact_opt H4; eexists; reflexivity|].
  destruct (streq a (lit "-fno-concurrent")) eqn:H5; [exact_opt H5; eexists; reflexivity|].
  destruct (streq a (lit "-fno-execute")) eqn:H6; [exact_opt H6; eexists; reflexivity|].
  destruct (streq a (lit "-fno-filesystem")) eqn:H7; [exact_opt H7; eexists; reflexivity|].
  destruct (streq a (lit "-finvert-hl")) eqn:H8; [exact_opt H8; eexists; reflexivity|].
  destruct (starts (lit "-ftopo=") a) eqn:H9; [apply K; reflexivity|].
  destruct (starts (lit "-fstrings=") a) eqn:H10; [apply K; reflexivity|].
  destruct (starts (lit "-fcells=") a) eqn:H11; [apply K; reflexivity|].
  destruct (starts (lit "-fthreads=") a) eqn:H12; [apply K; reflexivity|].
  destruct (starts (lit "-l") a) eqn:H13; [eexists; reflexivity|].
  destruct (streq a (lit "-g")) eqn:H14; eexists; reflexivity.
Qed.

(** ** The loop *)

Lemma opt_loop_S : forall a t c,
  opt_loop (a :: t) c =
  if dash a then r <-- opt_step a c ;; match r with None => Ok None | Some c' => opt_loop t c' end
  else Ok (Some (a :: t, c)).
Proof.
  intros [|x l] t c; [reflexivity|]. cbn [opt_loop dash].
  destruct (x =? 45) eqn:E; [apply Z.eqb_eq in E; subst x; reflexivity|].
  destruct x as [|p|p]; auto.
  repeat (destruct p as [p|p|]; auto); discriminate.
Qed.

Lemma opt_loop_asked : forall args c rest c', opt_loop args c = Ok (Some (rest, c')) ->
  rest = operands args /\
  c_conc c' = latest (switch "-fconcurrent" "-fno-concurrent") (options args) (c_conc c) /\
  c_exec c' = latest (switch "-fexecute" "-fno-execute") (options args) (c_exec c) /\
  c_fs c' = latest (switch "-ffilesystem" "-fno-filesystem") (options args) (c_fs c) /\
  c_inverthl c' = (c_inverthl c || existsb (isopt "-finvert-hl") (options args))%bool /\
  c_mode c' = (if existsb (isopt "-g") (options args) then Z.lor (c_mode c) 1024 else c_mode c) /\
  c_dims c' = latest (std_says sd_dims) (options args) (c_dims c) /\
  c_std c' = latest (std_says sd_std) (options args) (c_std c) /\
  c_torus c' = latest (or_else (std_says sd_torus) topo_says) (options args) (c_torus c) /\
  c_str c' = latest (or_else (std_says sd_str) strings_says) (options args) (c_str c) /\
  c_char c' = latest (or_else (std_says sd_char) cells_says) (options args) (c_char c) /\
  c_native c' = latest threads_says (options args) (c_native c) /\
  c_fing c' = c_fing c /\ c_name c' = c_name c /\ c_args c' = c_args c /\ c_env c' = c_env c /\
  c_fings c' = c_fings c ++ flat_map fing_says (options args).
Proof.
  induction args as [|a t IH]; intros c rest c' E.
  - cbn in E. injection E as <- <-. cbn. rewrite orb_false_r, app_nil_r. repeat split; reflexivity.
  - rewrite opt_loop_S in E. cbn [options operands]. destruct (dash a) eqn:D.
    + destruct (opt_step a c) as [[c1|]|] eqn:Es; cbn [bind] in E; try discriminate.
      destruct (opt_step_says _ _ _ D Es) as (A1 & A2 & A3 & A4 & A5 & A6 & A7 & A8 & A9 & A10 & A11 & A12 & A13 & A14 & A15 & A16).
      destruct (IH _ _ _ E) as (B0 & B1 & B2 & B3 & B4 & B5 & B6 & B7 & B8 & B9 & B10 & B11 & B12 & B13 & B14 & B15 & B16).
      unfold latest in *. cbn [fold_left existsb flat_map].
      rewrite B1, B2, B3, B4, B5, B6, B7, B8, B9, B10, B11, B12, B13, B14, B15, B16.
      rewrite A1, A2, A3, A4, A5, A6, A7, A8, A9, A10, A11, A12, A13, A14, A15, A16.
      rewrite orb_assoc, app_assoc. repeat split; auto.
      destruct (isopt "-g" a), (existsb (isopt "-g") (options t)); cbn [orb]; auto.
      rewrite <- Z.lor_assoc. reflexivity.
    + injection E as <- <-. cbn. rewrite orb_false_r, app_nil_r. repeat split; reflexivity.
Qed.

(** C61.  When the command line is accepted, every setting is the one its last
    option asks for, or the default; the file is the first operand. *)
Theorem C61_settings : forall args env path c,
  parse_args args env = Ok (Some (path, c)) ->
  Asked (options args) c /\
  (exists more, operands args = path :: more /\ path <> []) /\
  c_args c = operands args /\ c_env c = env /\
  c_fings c = map (fun a => opt_number (skipn 2 a)) (filter (starts (lit "-l")) (options args)).
Proof.
  intros args env path c E. unfold parse_args in E.
  destruct (opt_loop args cfg_default) as [[[rest c1]|]|] eqn:El; cbn [bind] in E; try discriminate.
  destruct (opt_loop_asked _ _ _ _ El) as (B0 & B1 & B2 & B3 & B4 & B5 & B6 & B7 & B8 & B9 & B10 & B11 & B12 & B13 & B14 & B15 & B16).
  subst rest. destruct (operands args) as [|[|x p] more] eqn:Eo; try discriminate.
  match type of E with Ok (Some (?p, ?x)) = Ok (Some (path, c)) =>
    assert (P : path = p) by congruence; assert (Q : c = x) by congruence end.
  clear E. subst path c.
  assert (Ff : forall l, flat_map fing_says l = map (fun a => opt_number (skipn 2 a)) (filter (starts (lit "-l")) l)).
  { induction l as [|a l IHl]; [reflexivity|]. cbn [flat_map filter]. unfold fing_says at 1.
    destruct (starts (lit "-l") a); cbn [app map]; congruence. }
  split; [|split; [|split; [|split]]].
  - constructor; cbn [c_conc c_exec c_fs c_inverthl c_mode c_dims c_std c_torus c_str c_char c_native c_fing c_name set_c_env set_c_args];
      rewrite ?B1, ?B2, ?B3, ?B4, ?B5, ?B6, ?B7, ?B8, ?B9, ?B10, ?B11, ?B12, ?B13; reflexivity.
  - exists more. split; [reflexivity|discriminate].
  - cbn [c_args set_c_env set_c_args]. rewrite B14. reflexivity.
  - cbn [c_env set_c_env set_c_args]. rewrite B15. reflexivity.
  - cbn [c_fings set_c_env set_c_args]. rewrite B16, Ff. reflexivity.
Qed.

(** C61.  As long as no option misses its value altogether, the command line is
    refused (EINVAL) exactly when an option's value is none of those allowed or no
    file is named; otherwise it is accepted. *)
Theorem C61_refused_partial : forall args env,
  existsb no_value (options args) = false ->
  if existsb invalid (options args) || streq (hd [] (operands args)) []
  then parse_args args env = Ok None
  else exists path c, parse_args args env = Ok (Some (path, c)).
Proof.
  intros args env N. unfold parse_args.
  assert (G : forall c, if existsb invalid (options args) then opt_loop args c = Ok None
              else exists c', opt_loop args c = Ok (Some (operands args, c'))).
  { revert N. induction args as [|a t IH]; intros N c; [cbn; eauto|].
    rewrite opt_loop_S. cbn [options operands] in *. destruct (dash a) eqn:D; [|cbn; eauto].
    cbn [existsb] in *. apply orb_false_elim in N. destruct N as [N1 N2].
    pose proof (opt_step_outcome a c D) as O. rewrite N1 in O.
    destruct (invalid a); [rewrite O; reflexivity|]. destruct O as [c1 ->]. cbn [orb bind].
    apply IH. exact N2. }
  specialize (G cfg_default). destruct (existsb invalid (options args)); cbn [orb].
  - rewrite G. reflexivity.
  - destruct G as [c' ->]. cbn [bind]. destruct (operands args) as [|[|x p] more]; cbn [hd streq]; eauto.
Qed.

(** Missing: the full property also asks for EINVAL when the value is empty.  The
    interpreter then compares a null pointer, whatever else is on the command
    line. *)
Theorem C61_refuted : forall env,
  parse_args [lit "-std="; lit "hello.b98"] env = Bad BadNull /\
  parse_args [lit "-fconcurrent"; lit "-ftopo=="; lit "hello.b98"] env = Bad BadNull.
Proof. intros env. split; reflexivity. Qed.

(** An unknown option is silently ignored. *)
Theorem C61_unknown : forall args1 args2 env a,
  dash a = true -> Forall (fun b => dash b = true) args1 ->
  takes_value a = None -> starts (lit "-l") a = false -> isopt "-g" a = false ->
  isopt "-finvert-hl" a = false ->
  switch "-fconcurrent" "-fno-concurrent" a = None ->
  switch "-fexecute" "-fno-execute" a = None ->
  switch "-ffilesystem" "-fno-filesystem" a = None ->
  parse_args (args1 ++ a :: args2) env = parse_args (args1 ++ args2) env.
Proof.
  intros args1 args2 env a D Da T L G H W1 W2 W3. unfold parse_args.
  assert (S : forall c, opt_step a c = Ok (Some c)).
  { intros c. unfold takes_value in T. unfold switch in W1, W2, W3. unfold isopt in G, H. unfold opt_step.
    destruct (starts (lit "-std=") a); [discriminate|].
    destruct (streq a (lit "-fconcurrent")); [discriminate|].
    destruct (streq a (lit "-fexecute")); [discriminate|].
    destruct (streq a (lit "-ffilesystem")); [discriminate|].
    destruct (streq a (lit "-fno-concurrent")); [discriminate|].
    destruct (streq a (lit "-fno-execute")); [discriminate|].
    destruct (streq a (lit "-fno-filesystem")); [discriminate|].
    rewrite H. destruct (starts (lit "-ftopo=") a); [discriminate|].
    destruct (starts (lit "-fstrings=") a); [discriminate|].
    destruct (starts (lit "-fcells=") a); [discriminate|].
    destruct (starts (lit "-fthreads=") a); [discriminate|].
    rewrite L, G. reflexivity. }
  f_equal. generalize cfg_default. clear - D Da S. induction args1 as [|b t IH]; intros c.
  - cbn [app]. rewrite opt_loop_S, D, S. reflexivity.
  - cbn [app]. rewrite !opt_loop_S. inversion Da as [|? ? Db Dt]; subst. rewrite Db.
    destruct (opt_step b c) as [[c1|]|]; cbn [bind]; auto.
Qed.

Definition C61_line : list bytes :=
  map lit ["-fno-execute"; "-std=be93"; "-fstrings=sgml"; "-bogus"; "-fexecute"; "-fno-concurrent";
           "-lFRTH"; "-g"; "hello.bf"; "-fexecute"]%string.
Example C61_ex :
  exists c, parse_args C61_line [lit "HOME=/"] = Ok (Some (lit "hello.bf", c)) /\
    c_exec c = true /\ c_conc c = false /\ c_fs c = true /\ c_str c = StrSgml /\ c_torus c = true /\
    c_std c = 93 /\ c_mode c = 1024 /\ length (c_args c) = 2%nat /\ length (c_fings c) = 1%nat.
Proof. eexists. split; [vm_compute; reflexivity|]. repeat split; vm_compute; reflexivity. Qed.
Example C61_refused_ex :
  existsb no_value (options (map lit ["-g"; "-std=be99"; "x"]%string)) = false /\
  parse_args (map lit ["-g"; "-std=be99"; "x"]%string) [] = Ok None /\
  parse_args (map lit ["-g"; "-std==be93=be98"; "x"]%string) [] <> Ok None.
Proof. split; [vm_compute; reflexivity|]. split; [vm_compute; reflexivity|]. vm_compute. discriminate. Qed.
Example C61_unknown_ex :
  dash (lit "-fno-concurent") = true /\ takes_value (lit "-fno-concurent") = None /\
  starts (lit "-l") (lit "-fno-concurent") = false /\
  switch "-fconcurrent" "-fno-concurrent" (lit "-fno-concurent") = None.
Proof. repeat split; vm_compute; reflexivity. Qed.
Print Assumptions C61_settings.
Print Assumptions C61_refused_partial.
Print Assumptions C61_refuted.
Print Assumptions C61_unknown.

(** ** C62: .bf files *)

(** An option list that leaves standard, topology, strings and cells alone. *)
Definition plain_options (opts : list bytes) : Prop :=
  forall a, In a opts -> std_says (fun x => x) a = None /\ topo_says a = None /\
                         strings_says a = None /\ cells_says a = None.

Lemma latest_none : forall A (says : bytes -> option A) opts d,
  (forall a, In a opts -> says a = None) -> latest says opts d = d.
Proof.
  unfold latest. induction opts as [|a t IH]; intros d H; cbn [fold_left]; auto.
  rewrite (H a (or_introl eq_refl)). apply IH. intros b I. apply H. now right.
Qed.

Lemma std_says_none : forall A (get : standard -> A) a, std_says (fun x => x) a = None -> std_says get a = None.
Proof. intros A get a H. unfold std_says in *. destruct (valued _ _ a); [discriminate|reflexivity]. Qed.

(** What the options leave to the file name. *)
Lemma plain_asked : forall opts c, Asked opts c -> plain_options opts ->
  c_dims c = 0%nat /\ c_std c = 0 /\ c_torus c = false /\ c_str c = StrSgml /\ c_char c = false.
Proof.
  intros opts c A P.
  assert (N : forall B (g : standard -> B) a, In a opts -> std_says g a = None).
  { intros B g a I. apply std_says_none. apply (P a I). }
  assert (O : forall B (f g : bytes -> option B) a, f a = None -> g a = None -> or_else f g a = None).
  { intros B f g a Hf Hg. unfold or_else. now rewrite Hf. }
  rewrite (ask_dims _ _ A), (ask_std _ _ A), (ask_torus _ _ A), (ask_str _ _ A), (ask_char _ _ A).
  rewrite !latest_none; auto; intros a I; try (apply N; exact I); apply O; try (apply N; exact I); apply (P a I).
Qed.

Lemma prepare_bf : forall path c, extension path = lit ".bf" -> (c_std c = 0 \/ c_std c = 93) ->
  prepare path c = PUniverse FmtBf (set_c_std STD_93 (set_c_name path c)).
Proof.
  intros path c X E. unfold prepare. rewrite X. cbv zeta.
  change (c_std (set_c_name path (if streq (lit ".bf") (lit ".beq") then set_c_fings (c_fings c ++ [1313232206]) c else c)))
    with (c_std c).
  destruct c as [a1 a2 a3 a4 a5 a6 a7 a8 a9 a10 a11 a12 a13 a14 a15 a16]. cbn [c_std] in *.
  destruct E as [-> | ->]; reflexivity.
Qed.

(** C62, the part that holds: a .bf file named without -std and the like is read as
    plain source and gets the Befunge-93 instructions, everything else being as
    asked; the number of dimensions is left to the source. *)
Theorem C62_partial : forall args env path c,
  parse_args args env = Ok (Some (path, c)) -> extension path = lit ".bf" ->
  plain_options (options args) ->
  exists c', prepare path c = PUniverse FmtBf c' /\ c_std c' = 93 /\ c_dims c' = 0%nat /\
    c_name c' = path /\ c_args c' = operands args /\ c_env c' = env /\ c_fings c' = c_fings c /\
    c_conc c' = c_conc c /\ c_exec c' = c_exec c /\ c_fs c' = c_fs c /\ c_native c' = c_native c.
Proof.
  intros args env path c E X P. destruct (C61_settings _ _ _ _ E) as (A & _ & Ar & En & _).
  destruct (plain_asked _ _ A P) as (Ed & Es & Et & Er & Ec).
  exists (set_c_std STD_93 (set_c_name path c)). split; [apply (prepare_bf _ _ X); auto|].
  cbn [c_std c_dims c_name c_args c_env c_fings c_conc c_exec c_fs c_native set_c_std set_c_name].
  rewrite Ed, Ar, En. repeat split; reflexivity.
Qed.

(** Missing: topology, strings and cells are not those of -std=be93.  For every
    such command line they are Lahey space, SGML strings and full cells, where the
    same command line with -std=be93 in front has the torus, all spaces and
    character cells. *)
Theorem C62_refuted : forall args env path c,
  parse_args args env = Ok (Some (path, c)) -> extension path = lit ".bf" ->
  plain_options (options args) ->
  exists c' d d', prepare path c = PUniverse FmtBf c' /\
    parse_args (lit "-std=be93" :: args) env = Ok (Some (path, d)) /\
    prepare path d = PUniverse FmtBf d' /\ c_std c' = c_std d' /\
    (c_torus c' = false /\ c_torus d' = true) /\
    (c_str c' = StrSgml /\ c_str d' = StrMultispace) /\
    (c_char c' = false /\ c_char d' = true).
Proof.
  intros args env path c E X P. destruct (C61_settings _ _ _ _ E) as (A & (more & Eo & Np) & Ar & En & _).
  destruct (plain_asked _ _ A P) as (Ed & Es & Et & Er & Ec).
  assert (Q : exists d, parse_args (lit "-std=be93" :: args) env = Ok (Some (path, d))).
  { (* the outcome does not depend on the configuration *)
    assert (K : forall args c1 c2 r k, opt_loop args c1 = Ok (Some (r, k)) -> exists k', opt_loop args c2 = Ok (Some (r, k'))).
    { clear. induction args as [|a t IH]; intros c1 c2 r k E; [cbn in *; injection E as <- <-; eauto|].
      rewrite opt_loop_S in *. destruct (dash a) eqn:D; [|injection E as <- <-; eauto].
      pose proof (opt_step_outcome a c1 D) as O1. pose proof (opt_step_outcome a c2 D) as O2.
      destruct (no_value a); [rewrite O1 in E; discriminate|].
      destruct (invalid a); [rewrite O1 in E; discriminate|].
      destruct O1 as [k1 O1], O2 as [k2 O2]. rewrite O1 in E. rewrite O2. cbn [bind] in *. eauto. }
    unfold parse_args in E. destruct (opt_loop args cfg_default) as [[[r k]|]|] eqn:El; cbn [bind] in E; try discriminate.
    destruct (opt_loop_asked _ _ _ _ El) as (-> & _). rewrite Eo in E.
    unfold parse_args. rewrite opt_loop_S. change (dash (lit "-std=be93")) with true. cbv iota.
    change (opt_step (lit "-std=be93") cfg_default) with (Ok (Some (set_standard (2%nat, STD_93) cfg_default))).
    cbn [bind]. destruct (K _ _ (set_standard (2%nat, STD_93) cfg_default) _ _ El) as [k' ->].
    cbn [bind]. rewrite Eo. destruct path; [congruence|]. eexists. reflexivity. }
  destruct Q as [d Ed']. destruct (C61_settings _ _ _ _ Ed') as (A' & _ & _ & _ & _).
  change (options (lit "-std=be93" :: args)) with (lit "-std=be93" :: options args) in A'.
  assert (N : forall B (g : standard -> B) a, In a (options args) -> std_says g a = None).
  { intros B g a I. apply std_says_none. apply (P a I). }
  assert (O : forall B (f g : bytes -> option B) a, f a = None -> g a = None -> or_else f g a = None).
  { intros B f g a Hf Hg. unfold or_else. now rewrite Hf. }
  assert (L : forall B (says : bytes -> option B) dflt, (forall a, In a (options args) -> says a = None) ->
    latest says (lit "-std=be93" :: options args) dflt = pick says (lit "-std=be93") dflt).
  { intros B says dflt H. unfold latest. cbn [fold_left]. apply (latest_none _ says _ (pick says (lit "-std=be93") dflt) H). }
  assert (F1 : c_std d = 93 /\ c_torus d = true /\ c_str d = StrMultispace /\ c_char d = true).
  { rewrite (ask_std _ _ A'), (ask_torus _ _ A'), (ask_str _ _ A'), (ask_char _ _ A').
    rewrite !L; try (intros a I; try (apply N; exact I); apply O; try (apply N; exact I); apply (P a I)).
    repeat split; reflexivity. }
  destruct F1 as (G1 & G2 & G3 & G4).
  exists (set_c_std STD_93 (set_c_name path c)), d, (set_c_std STD_93 (set_c_name path d)).
  split; [apply (prepare_bf _ _ X); auto|]. split; [exact Ed'|]. split; [apply (prepare_bf _ _ X); auto|].
  cbn [c_std c_torus c_str c_char set_c_std set_c_name].
  rewrite Et, Er, Ec, G2, G3, G4. repeat split; reflexivity.
Qed.

(** The difference is visible: the program ["  "..@] prints the two spaces it
    pushed under -std=be93, but one of them and a zero as a .bf file. *)
Example C62_visible :
  let prog := [34; 32; 32; 34; 46; 46; 64] in
  exists c d c' d',
    parse_args [lit "dir/x.bf"] [] = Ok (Some (lit "dir/x.bf", c)) /\
    parse_args [lit "-std=be93"; lit "dir/x.bf"] [] = Ok (Some (lit "dir/x.bf", d)) /\
    prepare (lit "dir/x.bf") c = PUniverse FmtBf c' /\ prepare (lit "dir/x.bf") d = PUniverse FmtBf d' /\
    run_program 1000 3 c' prog [] = Ok (lit "32 0 ", 0) /\
    run_program 1000 3 d' prog [] = Ok (lit "32 32 ", 0).
Proof.
  cbv zeta. do 4 eexists. split; [vm_compute; reflexivity|]. split; [vm_compute; reflexivity|].
  split; [vm_compute; reflexivity|]. split; [vm_compute; reflexivity|].
  split; vm_compute; reflexivity.
Qed.
Example C62_ex : extension (lit "dir/x.bf") = lit ".bf" /\ plain_options (options (map lit ["-g"; "-fno-execute"; "dir/x.bf"]%string)).
Proof.
  split; [vm_compute; reflexivity|]. intros a [<-|[<-|[]]]; repeat split; vm_compute; reflexivity.
Qed.
Print Assumptions C62_partial.
Print Assumptions C62_refuted.

(** ** C45: names and numbers of fingerprints *)

(** A name is a sequence of bytes, none of them zero; its number has the bytes as
    its base-256 digits. *)
Definition is_name (name : bytes) : Prop := Forall (fun x => 0 < x < 256) name.
Definition name_number (name : bytes) : Z := fold_left (fun a x => a * 256 + x) name 0.

Lemma name_number_app : forall l a, fold_left (fun a x => a * 256 + x) l a = a * 256 ^ Z.of_nat (length l) + name_number l.
Proof.
  unfold name_number. induction l as [|x l IH]; intros a; [cbn; lia|].
  cbn [fold_left length]. rewrite (IH (a * 256 + x)), (IH (0 * 256 + x)).
  rewrite Nat2Z.inj_succ, Z.pow_succ_r by lia. lia.
Qed.
Lemma name_number_bound : forall l, is_name l -> 0 <= name_number l < 256 ^ Z.of_nat (length l).
Proof.
  induction l as [|x l IH]; intros H; [cbn; lia|]. inversion H as [|? ? Hx Hl]; subst.
  unfold name_number. cbn [fold_left length]. rewrite name_number_app. specialize (IH Hl).
  rewrite Nat2Z.inj_succ, Z.pow_succ_r by lia. nia.
Qed.
Lemma name_number_snoc : forall l x, name_number (l ++ [x]) = name_number l * 256 + x.
Proof. intros. unfold name_number. now rewrite fold_left_app. Qed.
Lemma name_number_pos : forall l, is_name l -> l <> [] -> 0 < name_number l.
Proof.
  intros l H N. destruct (exists_last N) as (l' & x & ->). rewrite name_number_snoc.
  apply Forall_app in H. destruct H as [H1 H2]. inversion H2; subst.
  pose proof (name_number_bound l' H1). lia.
Qed.

(** intToStr inverts the number of every name of up to eight bytes. *)
Theorem C45_file : forall name, is_name name -> (length name <= 8)%nat ->
  int_to_str (name_number name) = name.
Proof.
  intros name H L. unfold int_to_str.
  assert (G : forall n l acc, is_name l -> (length l <= n)%nat -> int_to_str_loop n (name_number l) acc = l ++ acc).
  { induction n as [|n IH]; intros l acc Hl Ln.
    - destruct l; [reflexivity|cbn in Ln; lia].
    - destruct l as [|y l0] eqn:El; [reflexivity|]. rewrite <- El in *.
      assert (N : l <> []) by (subst; discriminate). clear El y l0.
      cbn [int_to_str_loop]. pose proof (name_number_pos l Hl N).
      destruct (name_number l >? 0) eqn:Eg; [|rewrite Z.gtb_ltb, Z.ltb_ge in Eg; lia].
      destruct (exists_last N) as (l' & x & ->). apply Forall_app in Hl. destruct Hl as [H1 H2].
      inversion H2 as [|? ? Hx _]; subst. rewrite name_number_snoc, Z.shiftr_div_pow2 by lia.
      change (2 ^ 8) with 256. change 255 with (Z.ones 8). rewrite Z.land_ones by lia. change (2 ^ 8) with 256.
      rewrite Z.div_add_l, (Z.div_small x), Z.add_0_r by lia.
      rewrite Z.add_comm, Z.mod_add, Z.mod_small by lia.
      rewrite app_length in Ln. cbn in Ln. rewrite IH; [|exact H1|lia]. now rewrite <- app_assoc. }
  rewrite G by assumption. apply app_nil_r.
Qed.

(** Different names of up to eight bytes have different numbers. *)
Theorem C45_injective : forall a b, is_name a -> is_name b -> (length a <= 8)%nat -> (length b <= 8)%nat ->
  name_number a = name_number b -> a = b.
Proof. intros a b Ha Hb La Lb E. rewrite <- (C45_file a Ha La), <- (C45_file b Hb Lb). now rewrite E. Qed.

(** The number [-l] computes is the name's for names of up to four bytes below 128. *)
Theorem C45_option_partial : forall name, Forall (fun x => 0 < x < 128) name -> (length name <= 4)%nat ->
  opt_number name = name_number name.
Proof.
  intros name H L. unfold opt_number.
  assert (N : forall l, Forall (fun x => 0 < x < 128) l -> is_name l).
  { intros l Hl. eapply Forall_impl; [|exact Hl]. cbn. lia. }
  assert (B : name_number name < 2 ^ 31 /\ fold_left (fun a c => to_i32 (a * 256 + to_i8 c)) name 0 = name_number name).
  { destruct name as [|a [|b [|c [|d [|e r]]]]]; cbn [length] in L; try lia;
    repeat match goal with K : Forall _ (_ :: _) |- _ => inversion K; clear K; subst end;
    unfold name_number; cbn [fold_left]; (split; [lia|]); rewrite ?(to_i8_id) by lia;
    repeat match goal with
    | |- context [to_i32 ?z] => match z with context [to_i32 _] => fail 1 | _ => rewrite (to_i32_id z) by lia end
    end; reflexivity. }
  destruct B as [B1 ->]. unfold to_u64. apply Z.mod_small.
  pose proof (name_number_bound _ (N _ H)). lia.
Qed.

(** Missing: longer names.  [-l] keeps only the last four bytes, so it asks for
    another fingerprint than the one named; with a byte above 127 it goes wrong
    even for short names. *)
Theorem C45_refuted :
  (forall name pre, Forall (fun x => 0 < x < 128) name -> length name = 4%nat ->
     opt_number (pre ++ name) = name_number name) /\
  opt_number (lit "HELLO") = name_number (lit "ELLO") /\
  name_number (lit "HELLO") <> name_number (lit "ELLO") /\
  opt_number [200] <> name_number [200].
Proof.
  split; [|split; [vm_compute; reflexivity|split; vm_compute; discriminate]].
  intros name pre H L. unfold opt_number. rewrite fold_left_app.
  generalize (fold_left (fun a c => to_i32 (a * 256 + to_i8 c)) pre 0). intros x.
  destruct name as [|a [|b [|c [|d [|e r]]]]]; cbn [length] in L; try lia.
  repeat match goal with K : Forall _ (_ :: _) |- _ => inversion K; clear K; subst end.
  unfold name_number. cbn [fold_left]. rewrite !to_i8_id by lia.
  assert (W : forall y z, to_i32 (to_i32 y * 256 + z) = to_i32 (y * 256 + z)).
  { intros y z. pose proof (wrap_mod 32 y ltac:(lia)) as M. fold (to_i32 y) in M.
    apply Z.mod_divide in M; [|lia]. destruct M as [k M].
    replace (to_i32 y) with (y + k * 2 ^ 32) by lia. unfold to_i32, wrap.
    replace ((y + k * 2 ^ 32) * 256 + z + 2 ^ (32 - 1)) with (y * 256 + z + 2 ^ (32 - 1) + (k * 256) * 2 ^ 32) by ring.
    rewrite Z.mod_add by lia. reflexivity. }
  rewrite (W (x * 256 + a) b), (W ((x * 256 + a) * 256 + b) c), (W (((x * 256 + a) * 256 + b) * 256 + c) d).
  replace ((((x * 256 + a) * 256 + b) * 256 + c) * 256 + d)
    with ((((0 * 256 + a) * 256 + b) * 256 + c) * 256 + d + x * 2 ^ 32) by ring.
  assert (V : forall v, 0 <= v < 2 ^ 31 -> to_i32 (v + x * 2 ^ 32) = v).
  { intros v Hv. unfold to_i32, wrap.
    replace (v + x * 2 ^ 32 + 2 ^ (32 - 1)) with (v + 2 ^ (32 - 1) + x * 2 ^ 32) by ring.
    rewrite Z.mod_add by lia. rewrite Z.mod_small by lia. lia. }
  rewrite V by lia. unfold to_u64. apply Z.mod_small. lia.
Qed.

(** [(] computes the same number from the name's bytes, the top of the stack first,
    pushes it back and looks for the file of that name, unless the name starts with
    a slash.  ([number] is what [C41] and [C42] say about [(] and [)].) *)
Theorem C45_load : forall name, is_name name -> (length name <= 8)%nat ->
  number name = name_number name /\
  forall dir, dir <> [] -> last dir 0 <> 47 -> nth 0 name 0 <> 47 ->
    fl_path dir (number name) = dir ++ lit "/../fing/" ++ name ++ lit ".fl".
Proof.
  intros name H L.
  assert (E : number name = name_number name).
  { unfold number.
    assert (G : forall l p, is_name (p ++ l) -> (length (p ++ l) <= 8)%nat ->
      fold_left (fun a x => to_u64 (a * 256 + x)) l (name_number p) = name_number (p ++ l)).
    { induction l as [|x l IH]; intros p Hp Lp; [now rewrite app_nil_r|]. cbn [fold_left].
      replace (p ++ x :: l) with ((p ++ [x]) ++ l) in * by (now rewrite <- app_assoc).
      rewrite <- IH by assumption. f_equal. rewrite name_number_snoc. unfold to_u64. apply Z.mod_small.
      assert (Hq : is_name (p ++ [x])) by (apply Forall_app in Hp; apply Hp).
      pose proof (name_number_bound _ Hq) as B. rewrite name_number_snoc in B.
      assert (256 ^ Z.of_nat (length (p ++ [x])) <= 256 ^ 8).
      { apply Z.pow_le_mono_r; [lia|]. rewrite app_length in Lp. lia. }
      change (2 ^ 64) with (256 ^ 8). lia. }
    apply (G name []); assumption. }
  split; [exact E|]. intros dir D1 D2 D3. unfold fl_path. rewrite E, C45_file by assumption.
  assert (J : forall a b, a <> [] -> last a 0 <> 47 -> nth 0 b 0 <> 47 -> path_join a b = a ++ 47 :: b).
  { intros a b A1 A2 A3. unfold path_join. destruct (Z.eqb_spec (nth 0 b 0) 47); [contradiction|].
    destruct a as [|a0 a]; [contradiction|]. destruct (Z.eqb_spec (last (a0 :: a) 0) 47); [contradiction|]. reflexivity. }
  assert (La : forall (a b : bytes), b <> [] -> last (a ++ b) 0 = last b 0).
  { intros a b N. destruct (exists_last N) as (b' & x & ->). rewrite app_assoc. now rewrite !last_last. }
  assert (Ne : forall (a b : bytes), a <> [] -> a ++ b <> []) by (intros [|? ?] b N; [contradiction|discriminate]).
  rewrite (J dir) by (auto; vm_compute; discriminate).
  rewrite (J (dir ++ 47 :: lit "..")).
  2: now apply Ne. 2: rewrite La; vm_compute; discriminate. 2: vm_compute; discriminate.
  rewrite J.
  - rewrite <- !app_assoc. reflexivity.
  - now apply Ne, Ne.
  - rewrite La; vm_compute; discriminate.
  - destruct name as [|x name]; [vm_compute; discriminate|exact D3].
Qed.

Example C45_ex : is_name (lit "FRTH") /\ number (lit "FRTH") = opt_number (lit "FRTH") /\
  int_to_str (number (lit "FRTH")) = lit "FRTH" /\
  fl_path (lit "/opt/bin") (number (lit "FRTH")) = lit "/opt/bin/../fing/FRTH.fl".
Proof.
  split; [vm_compute; repeat (apply Forall_cons; [split; reflexivity|]); apply Forall_nil|].
  repeat split; vm_compute; reflexivity.
Qed.
Print Assumptions C45_file.
Print Assumptions C45_injective.
Print Assumptions C45_option_partial.
Print Assumptions C45_refuted.
Print Assumptions C45_load.

(** ** C93: the file name chooses the language *)

(** [path] names, in some directory or none, a file whose name is [stem], a dot and
    [e], the last dot not being the first character of the name. *)
Definition Named (path stem e : bytes) : Prop :=
  exists dir, path = dir ++ stem ++ 46 :: e /\ (dir = [] \/ exists d, dir = d ++ [47]) /\
    stem <> [] /\ ~ In 47 stem /\ ~ In 47 e /\ ~ In 46 e /\ (stem <> [46] \/ e <> []).
(** [path] names a file without a dot in its name, whatever dots its directories have. *)
Definition Dotless (path : bytes) : Prop :=
  exists dir name, path = dir ++ name /\ (dir = [] \/ exists d, dir = d ++ [47]) /\
    ~ In 47 name /\ ~ In 46 name.

(** The languages of the known extensions; any other name is Funge-98. *)
Definition languages : list (string * Z) :=
  [("bf", 93); ("b98", 98); ("beq", 98); ("fish", -1); ("sf", -2)]%string.
Definition language (e : bytes) : Z :=
  match choose e languages with Some n => n | None => 98 end.
Definition is_fish (e : bytes) : bool := streq e (lit "fish") || streq e (lit "sf").

Lemma filename_noslash : forall l acc, ~ In 47 l -> filename_from l acc = acc.
Proof.
  induction l as [|c l IH]; intros acc N; cbn [filename_from]; auto.
  destruct (c =? 47) eqn:E; [apply Z.eqb_eq in E; destruct N; now left|].
  apply IH. intros I. apply N. now right.
Qed.
Lemma filename_dir : forall d name acc, ~ In 47 name -> filename_from (d ++ 47 :: name) acc = name.
Proof.
  induction d as [|c d IH]; intros name acc N; cbn [filename_from app].
  - cbn [Z.eqb Pos.eqb]. now apply filename_noslash.
  - destruct (c =? 47); now apply IH.
Qed.
Lemma filename_in : forall dir name, (dir = [] \/ exists d, dir = d ++ [47]) -> ~ In 47 name ->
  filename (dir ++ name) = name.
Proof.
  intros dir name [-> | (d & ->)] N; unfold filename; cbn [app].
  - now apply filename_noslash.
  - rewrite <- app_assoc. cbn [app]. now apply filename_dir.
Qed.
Lemma last_dot_none : forall e, ~ In 46 e -> last_dot e = None.
Proof.
  induction e as [|c e IH]; intros N; cbn [last_dot]; auto. rewrite IH by (intros I; apply N; now right).
  destruct (c =? 46) eqn:E; [apply Z.eqb_eq in E; destruct N; now left|reflexivity].
Qed.
Lemma last_dot_at : forall s e, ~ In 46 e -> last_dot (s ++ 46 :: e) = Some (46 :: e).
Proof.
  induction s as [|c s IH]; intros e N; cbn [last_dot app].
  - rewrite last_dot_none by assumption. reflexivity.
  - now rewrite IH.
Qed.
Lemma extension_named : forall path stem e, Named path stem e -> extension path = 46 :: e.
Proof.
  intros path stem e (dir & -> & D & Ns & S1 & S2 & N & Nd). unfold extension. cbv zeta.
  rewrite filename_in; auto.
  2:{ intros I. apply in_app_or in I. destruct I as [I|[I|I]]; [auto|discriminate|auto]. }
  destruct (streq (stem ++ 46 :: e) (lit "..")) eqn:E.
  { apply streq_eq in E. destruct stem as [|a [|b stem]]; [now destruct Ns| |].
    - cbn in E. injection E as -> ->. destruct Nd as [Q|Q]; now destruct Q.
    - cbn in E. injection E as _ _ E. destruct stem; discriminate. }
  destruct stem as [|a stem]; [now destruct Ns|]. cbn [app]. now rewrite last_dot_at.
Qed.
Lemma extension_dotless : forall path, Dotless path -> extension path = [].
Proof.
  intros path (dir & name & -> & D & S1 & N). unfold extension. cbv zeta. rewrite filename_in by assumption.
  destruct (streq name (lit "..")); [reflexivity|]. destruct name as [|a name]; [reflexivity|].
  rewrite last_dot_none; [reflexivity|]. intros I. apply N. now right.
Qed.
Lemma streq_dot : forall e x, streq (46 :: e) (46 :: x) = streq e x.
Proof. reflexivity. Qed.

(** What a file's name decides: [e] is its extension, [ ] for none. *)
Definition Chosen (path e : bytes) (c : cfg) (p : prepared) : Prop :=
  if streq e (lit "fmv") then p = PFmv c else
  exists fmt c', p = PUniverse fmt c' /\
    fmt = (if streq e (lit "beq") then FmtBeq else if streq e (lit "fl") then FmtFl else FmtBf) /\
    (* the language: an explicit -std wins *)
    c_std c' = (if c_std c =? 0 then language e else c_std c) /\
    c_dims c' = (if (c_std c =? 0) && is_fish e then 2%nat else c_dims c) /\
    c_str c' = (if (c_std c =? 0) && is_fish e then StrMultispace else c_str c) /\
    (* a .beq file starts with NFUN *)
    c_fings c' = c_fings c ++ (if streq e (lit "beq") then [name_number (lit "NFUN")] else []) /\
    (* the name is the path, and nothing else changes *)
    c_name c' = path /\ c_torus c' = c_torus c /\ c_char c' = c_char c /\ c_args c' = c_args c /\
    c_env c' = c_env c /\ c_conc c' = c_conc c /\ c_exec c' = c_exec c /\ c_fs c' = c_fs c /\
    c_native c' = c_native c /\ c_mode c' = c_mode c /\ c_fing c' = c_fing c /\ c_inverthl c' = c_inverthl c.

Lemma prepare_chosen : forall path e c,
  (forall x, x <> [] -> streq (extension path) (46 :: x) = streq e x) -> Chosen path e c (prepare path c).
Proof.
  intros path e c X. unfold prepare, Chosen. cbv zeta.
  change (lit ".fmv") with (46 :: lit "fmv"). change (lit ".beq") with (46 :: lit "beq").
  change (lit ".fl") with (46 :: lit "fl"). change (lit ".bf") with (46 :: lit "bf").
  change (lit ".b98") with (46 :: lit "b98"). change (lit ".fish") with (46 :: lit "fish").
  change (lit ".sf") with (46 :: lit "sf"). rewrite !X by discriminate.
  destruct (streq e (lit "fmv")); [reflexivity|]. eexists _, _. split; [reflexivity|]. split; [reflexivity|].
  change (name_number (lit "NFUN")) with 1313232206. unfold language, languages, is_fish. cbn [choose].
  assert (St : c_std (set_c_name path (if streq e (lit "beq") then set_c_fings (c_fings c ++ [1313232206]) c else c)) = c_std c)
    by (destruct (streq e (lit "beq")); reflexivity).
  rewrite St. change STD_AUTO with 0.
  destruct (c_std c =? 0) eqn:Es; cbn [negb andb]; rewrite ?(app_nil_r (c_fings c));
    destruct (streq e (lit "beq")) eqn:E1;
    try (apply streq_eq in E1; subst e; cbn; rewrite ?app_nil_r; repeat split; reflexivity);
    destruct (streq e (lit "bf")) eqn:E2;
    try (apply streq_eq in E2; subst e; cbn; rewrite ?app_nil_r; repeat split; reflexivity);
    destruct (streq e (lit "b98")) eqn:E3;
    try (apply streq_eq in E3; subst e; cbn; rewrite ?app_nil_r; repeat split; reflexivity);
    destruct (streq e (lit "fish")) eqn:E4;
    try (apply streq_eq in E4; subst e; cbn; rewrite ?app_nil_r; repeat split; reflexivity);
    destruct (streq e (lit "sf")) eqn:E5;
    try (apply streq_eq in E5; subst e; cbn; rewrite ?app_nil_r; repeat split; reflexivity);
    cbn; rewrite ?app_nil_r; repeat split; reflexivity.
Qed.

(** The extension of the file's own name decides, however many dots and
    directories precede it. *)
Theorem C93_extension : forall path stem e c, Named path stem e -> Chosen path e c (prepare path c).
Proof.
  intros path stem e c N. apply prepare_chosen. intros x _. rewrite (extension_named _ _ _ N). apply streq_dot.
Qed.
(** A name without a dot is plain Funge-98. *)
Theorem C93_dotless : forall path c, Dotless path -> Chosen path [] c (prepare path c).
Proof.
  intros path c N. apply prepare_chosen. intros x Nx. rewrite (extension_dotless _ N).
  destruct x; [now destruct Nx|reflexivity].
Qed.
(** Putting one more -std option in front does not change what is refused. *)
Lemma std_in_front : forall std x args env path c,
  dash std = true -> opt_step std cfg_default = Ok (Some (set_standard x cfg_default)) ->
  parse_args args env = Ok (Some (path, c)) -> exists d, parse_args (std :: args) env = Ok (Some (path, d)).
Proof.
  intros std x args env path c Ds St E.
  destruct (C61_settings _ _ _ _ E) as (_ & (more & Eo & Np) & _).
  assert (K : forall args c1 c2 r k, opt_loop args c1 = Ok (Some (r, k)) -> exists k', opt_loop args c2 = Ok (Some (r, k'))).
  { clear. induction args as [|a t IH]; intros c1 c2 r k E; [cbn in *; injection E as <- <-; eauto|].
    rewrite opt_loop_S in *. destruct (dash a) eqn:D; [|injection E as <- <-; eauto].
    pose proof (opt_step_outcome a c1 D) as O1. pose proof (opt_step_outcome a c2 D) as O2.
    destruct (no_value a); [rewrite O1 in E; discriminate|].
    destruct (invalid a); [rewrite O1 in E; discriminate|].
    destruct O1 as [k1 O1], O2 as [k2 O2]. rewrite O1 in E. rewrite O2. cbn [bind] in *. eauto. }
  unfold parse_args in E. destruct (opt_loop args cfg_default) as [[[r k]|]|] eqn:El; cbn [bind] in E; try discriminate.
  destruct (opt_loop_asked _ _ _ _ El) as (-> & _). rewrite Eo in E.
  unfold parse_args. rewrite opt_loop_S, Ds, St. cbn [bind].
  destruct (K _ _ (set_standard x cfg_default) _ _ El) as [k' ->].
  cbn [bind]. rewrite Eo. destruct path; [congruence|]. eexists. reflexivity.
Qed.

(** For a ><> or starfish file without language options the outcome has the same
    language, dimensions, topology, strings and cells as with the language given by
    -std. *)
Theorem C93_fish : forall args env path stem c e std,
  (e = lit "fish" /\ std = lit "-std=fish") \/ (e = lit "sf" /\ std = lit "-std=sfish") ->
  parse_args args env = Ok (Some (path, c)) -> Named path stem e -> plain_options (options args) ->
  exists c' d d', prepare path c = PUniverse FmtBf c' /\
    parse_args (std :: args) env = Ok (Some (path, d)) /\ prepare path d = PUniverse FmtBf d' /\
    c_std c' = c_std d' /\ c_dims c' = c_dims d' /\ c_torus c' = c_torus d' /\ c_str c' = c_str d' /\
    c_char c' = c_char d'.
Proof.
  intros args env path stem c e std W E X P. destruct (C61_settings _ _ _ _ E) as (A & _).
  destruct (plain_asked _ _ A P) as (Ed & Es & Et & Er & Ec).
  assert (Q : exists d, parse_args (std :: args) env = Ok (Some (path, d))).
  { destruct W as [[_ ->]|[_ ->]].
    - exact (std_in_front (lit "-std=fish") (2%nat, STD_FISH) args env path c eq_refl eq_refl E).
    - exact (std_in_front (lit "-std=sfish") (2%nat, STD_STARFISH) args env path c eq_refl eq_refl E). }
  destruct Q as [d Ed']. destruct (C61_settings _ _ _ _ Ed') as (A' & _).
  assert (Op : options (std :: args) = std :: options args) by (destruct W as [[_ ->]|[_ ->]]; reflexivity).
  rewrite Op in A'. clear Op.
  assert (N : forall B (g : standard -> B) a, In a (options args) -> std_says g a = None).
  { intros B g a I. apply std_says_none. apply (P a I). }
  assert (O : forall B (f g : bytes -> option B) a, f a = None -> g a = None -> or_else f g a = None).
  { intros B f g a Hf Hg. unfold or_else. now rewrite Hf. }
  assert (L : forall B (says : bytes -> option B) dflt, (forall a, In a (options args) -> says a = None) ->
    latest says (std :: options args) dflt = pick says std dflt).
  { intros B says dflt H. unfold latest. cbn [fold_left]. apply (latest_none _ says _ (pick says std dflt) H). }
  assert (F1 : c_std d = language e /\ c_dims d = 2%nat /\ c_torus d = false /\ c_str d = StrMultispace /\ c_char d = false).
  { rewrite (ask_std _ _ A'), (ask_dims _ _ A'), (ask_torus _ _ A'), (ask_str _ _ A'), (ask_char _ _ A').
    rewrite !L; try (intros a I; try (apply N; exact I); apply O; try (apply N; exact I); apply (P a I)).
    destruct W as [[-> ->]|[-> ->]]; repeat split; reflexivity. }
  destruct F1 as (G1 & G2 & G3 & G4 & G5).
  pose proof (C93_extension path stem e c X) as H1. pose proof (C93_extension path stem e d X) as H2.
  unfold Chosen in H1, H2. rewrite Es in H1. rewrite G1 in H2.
  destruct W as [[-> ->]|[-> ->]]; cbn in H1, H2;
    destruct H1 as (f1 & c' & R1 & -> & U1 & U2 & U3 & _ & _ & U4 & U5 & _);
    destruct H2 as (f2 & d' & R2 & -> & V1 & V2 & V3 & _ & _ & V4 & V5 & _);
    exists c', d, d'; (split; [exact R1|]); (split; [exact Ed'|]); (split; [exact R2|]);
    rewrite U1, U2, U3, U4, U5, V1, V2, V3, V4, V5, Et, Ec, G2, G3, G4, G5; repeat split; reflexivity.
Qed.

Example C93_ex : Named (lit "my.dir/prog.v2.fish") (lit "prog.v2") (lit "fish") /\
  Dotless (lit "my.bf/prog") /\ language (lit "b98") = 98 /\ language (lit "txt") = 98 /\
  plain_options (options [lit "-g"; lit "my.dir/prog.v2.fish"]).
Proof.
  assert (NI : forall x l, existsb (Z.eqb x) l = false -> ~ In x l).
  { intros x l H I. rewrite <- not_true_iff_false in H. apply H. apply existsb_exists. exists x. split; [exact I|apply Z.eqb_refl]. }
  split; [|split; [|split; [reflexivity|split; [reflexivity|]]]].
  - exists (lit "my.dir/"). split; [reflexivity|]. split; [right; exists (lit "my.dir"); reflexivity|].
    split; [discriminate|]. split; [apply NI; reflexivity|]. split; [apply NI; reflexivity|].
    split; [apply NI; reflexivity|]. left. discriminate.
  - exists (lit "my.bf/"), (lit "prog"). split; [reflexivity|]. split; [right; exists (lit "my.bf"); reflexivity|].
    split; apply NI; reflexivity.
  - intros a [<-|[]]. repeat split; reflexivity.
Qed.
Print Assumptions C93_extension.
Print Assumptions C93_dotless.
Print Assumptions C93_fish.
