(** * Property C135: whole programs, from the command line.  What [funge++ -std=be98
    FILE ...] prints, and its exit code, for program files of every length and under
    every name, for all arguments, environments, inputs and other files. *)

From Coq Require Import ZArith Lia String List Bool.
From Verif Require Import Base BaseProofs VectorModel VectorProofs TextModel TextProofs
  StackModel StackProofs FieldModel FieldProofs World IpModel IpProofs LoadModel FingModel CoreModel
  UniModel OptModel FileModel MainModel ExecProofs States PropsStack PropsIO PropsOpt PropsStart PropsWhole PropsCompile PropsTwo.
Import ListNotations.
Open Scope Z_scope.

(** A file argument: it is not an option, and not a file of another kind. *)
Definition program_file (path : bytes) : Prop :=
  path <> [] /\ hd 0 path <> 45 /\
  ~ In (extension path) [lit ".fmv"; lit ".beq"; lit ".fl"].

(** ** Starting *)

Definition c98_for (name : bytes) (args env : list bytes) : cfg :=
  set_c_dims 2 (set_c_name name (set_c_args args (set_c_env env c98))).

Lemma parsed path more env : program_file path ->
  parse_args (lit "-std=be98" :: path :: more) env =
  Ok (Some (path, set_c_args (path :: more) (set_c_env env c98))).
Proof.
  intros (N & H & _). destruct path as [|x p]; [congruence|]. cbn [hd] in H.
  assert (E : opt_loop ((x :: p) :: more) c98 = Ok (Some ((x :: p) :: more, c98))).
  { cbn [opt_loop]. destruct x as [|q|q]; try reflexivity. do 6 (destruct q as [q|q|]; try reflexivity). congruence. }
  unfold parse_args.
  change (opt_loop (lit "-std=be98" :: (x :: p) :: more) cfg_default) with (opt_loop ((x :: p) :: more) c98).
  rewrite E. reflexivity.
Qed.

Lemma r98_named f name args env : runner_new (fun _ => false) 0 0
    {| u_cfg := c98_for name args env; u_field := f; u_queue := []; u_running := true; u_exit := 0 |} [0] [1] = Ok r98.
Proof. vm_compute. reflexivity. Qed.

Lemma launched_as F d path more env l input fs rnd : program_file path ->
  Forall plain_char l -> Z.of_nat (length l) <= INT64_MAX -> fs path = Some l ->
  exists w, create_universe (S d) F path (set_c_args (path :: more) (set_c_env env c98)) (world0 input fs rnd) = Ok (Started, w) /\
    RunW (prog_field l) 0 1 false 0 [] input [] w /\
    Wd (prog_field l) [] w /\ waiting w = [0] /\ w_run w 0 = Some p98 /\ w_nrun w = 1 /\ w_fl w = (fun _ => false).
Proof.
  intros (_ & _ & X) HP HL Hf. set (c := set_c_args (path :: more) (set_c_env env c98)).
  assert (P : prepare path c = PUniverse FmtBf (set_c_name path c)).
  { unfold prepare. cbn [In] in X.
    destruct (streq (extension path) (lit ".fmv")) eqn:E1; [apply streq_eq in E1; elim X; auto|].
    destruct (streq (extension path) (lit ".beq")) eqn:E2; [apply streq_eq in E2; elim X; auto|].
    destruct (streq (extension path) (lit ".fl")) eqn:E3; [apply streq_eq in E3; elim X; auto|]. reflexivity. }
  cbn [create_universe]. rewrite P. change (w_fs (world0 input fs rnd) path) with (fs path). rewrite Hf.
  destruct (parse_row l 2 0 [0] 0 (field_empty 2 false) HP) as (z & E & Hz);
    [unfold in64, INT64_MIN, INT64_MAX; lia|lia|exists 0; split; [reflexivity|unfold in64, INT64_MIN, INT64_MAX; lia]|].
  unfold multi_create_fmt. change (c_name (set_c_name path c)) with path.
  assert (L : loop (name_step path (world0 input fs rnd)) F path = Ok path).
  { rewrite loop_loopNr. replace (Pos.to_nat F) with (S (Pos.to_nat F - 1)) by lia. rewrite loopNr_unfold. reflexivity. }
  rewrite L. cbn [bind]. change (c_dims (set_c_name path c)) with 2%nat. change (c_char (set_c_name path c)) with false.
  unfold field_load. unfold f_parse. change (mkvec [0]) with [0]. change (f_dims (field_empty 2 false)) with 2%nat.
  change (f_parse [0] l false (field_empty 2 false)) with
    (r <-- parse_loop false 2 [0] l [0] [0] 0 (field_empty 2 false) ;;
     d <-- vsub (fst r) [0] ;; Ok (d, f_fixdims (snd r))).
  rewrite E. cbn [bind fst snd]. fold (prog_field l).
  assert (V : exists d, vsub [z] [0] = Ok d).
  { unfold vsub. cbn [vsize length Nat.max forN]. unfold sub64. change (vget [z] 0) with z.
    change (vget [0] 0) with 0. rewrite Z.sub_0_r, chk64_ok by exact Hz. cbn [bind]. eauto. }
  destruct V as (v & V). rewrite V. cbn [bind snd].
  replace (f_fixdims (prog_field l)) with (prog_field l)
    by (unfold f_fixdims, prog_field; rewrite row_put_dims; reflexivity).
  unfold create_runner. change (w_nuni (world0 input fs rnd)) with 0%nat.
  match goal with |- context [runner_new _ _ _ ?u _ _] =>
    change u with {| u_cfg := c98_for path (path :: more) env; u_field := prog_field l;
                     u_queue := []; u_running := true; u_exit := 0 |} end.
  match goal with |- context [runner_new ?fl ?id _ _ _ _] =>
    change fl with (fun _ : Z => false); change id with 0 end.
  change (mkvec [1]) with [1]. rewrite r98_named. cbn [bind]. eexists. split; [reflexivity|].
  split; [apply (started _ path (path :: more) env); [exact r98_facts|reflexivity|reflexivity|reflexivity|reflexivity|reflexivity]|].
  match goal with |- context [add_runner 0 r98 ?w] =>
    destruct (begins r98 l path (path :: more) env input w (conj (proj1 p98_facts) r98_id) eq_refl eq_refl eq_refl) as (A & B & C) end.
  split; [exact A|]. split; [exact B|]. split; [exact C|]. split; reflexivity.
Qed.
Lemma launched F d path more env l input fs rnd : program_file path ->
  Forall plain_char l -> Z.of_nat (length l) <= INT64_MAX -> fs path = Some l ->
  exists w, create_universe (S d) F path (set_c_args (path :: more) (set_c_env env c98)) (world0 input fs rnd) = Ok (Started, w) /\
    RunW (prog_field l) 0 1 false 0 [] input [] w.
Proof.
  intros PF HP HL Hf. destruct (launched_as F d path more env l input fs rnd PF HP HL Hf) as (w & E & H & _). eauto.
Qed.

Lemma main_prints F D d path more env l input fs rnd o : program_file path ->
  Forall plain_char l -> Z.of_nat (length l) <= INT64_MAX -> fs path = Some l ->
  (forall w, RunW (prog_field l) 0 1 false 0 [] input [] w -> Prints F D w o) ->
  fungemain F D (S d) (lit "-std=be98" :: path :: more) env (world0 input fs rnd) = Ok (Ended o 0).
Proof.
  intros PF HP HL Hf R. unfold fungemain. rewrite (parsed path more env PF). cbn [bind].
  destruct (launched F d path more env l input fs rnd PF HP HL Hf) as (w & E & H). rewrite E. cbn [bind].
  destruct (R w H) as (w' & E' & O & X). rewrite E'. cbn [bind]. now rewrite O, X.
Qed.

(** ** C135 *)

(** A command line with a value that is not allowed, or without a file, is refused and
    nothing runs, as long as no option misses its value (see C61). *)
Theorem C135_refused : forall F D d args env w, existsb no_value (options args) = false ->
  existsb invalid (options args) = true \/ hd [] (operands args) = [] ->
  fungemain F D d args env w = Ok Refused.
Proof.
  intros F D d args env w N H. pose proof (C61_refused_partial args env N) as P.
  replace (existsb invalid (options args) || streq (hd [] (operands args)) []) with true in P
    by (destruct H as [H|H]; rewrite H; [reflexivity|now rewrite orb_true_r]).
  unfold fungemain. rewrite P. reflexivity.
Qed.
(** A file that does not exist is reported by name, and nothing runs. *)
Theorem C135_missing : forall F D d path more env w, program_file path -> w_fs w path = None ->
  fungemain F D (S d) (lit "-std=be98" :: path :: more) env w = Ok (Unopened path).
Proof.
  intros F D d path more env w PF Hf. unfold fungemain. rewrite (parsed path more env PF). cbn [bind create_universe].
  destruct PF as (_ & _ & X). cbn [In] in X. unfold prepare.
  destruct (streq (extension path) (lit ".fmv")) eqn:E1; [apply streq_eq in E1; elim X; auto|]. rewrite Hf. reflexivity.
Qed.
(** The file  #@~,  (see C129) prints its input. *)
Theorem C135_cat : forall F D d path more env fs rnd input, program_file path -> fs path = Some cat_prog ->
  Forall (fun c => 0 <= c <= 255 /\ c <> 13) input -> 3 * Z.of_nat (length input) + 4 <= Z.pos F ->
  fungemain F (S D) (S d) (lit "-std=be98" :: path :: more) env (world0 input fs rnd) = Ok (Ended input 0).
Proof.
  intros F D d path more env fs rnd input PF Hf HI HF. destruct cat_plain as [P1 P2].
  apply (main_prints F (S D) d path more env cat_prog); auto. intros w H. now apply cat_runs.
Qed.
(** A file that holds a text backwards in quotes and the printing loop prints it. *)
Theorem C135_print : forall F D d path more env fs rnd t input, program_file path ->
  fs path = Some (34 :: rev t ++ [34; 62; 58; 35; 44; 95; 64]) ->
  Forall (fun c => 32 <= c <= 255 /\ c <> 34) t -> (~ exists a b, t = a ++ [32; 32] ++ b) ->
  Z.of_nat (length t) + 8 <= INT64_MAX -> 7 * Z.of_nat (length t) + 8 <= Z.pos F ->
  fungemain F (S D) (S d) (lit "-std=be98" :: path :: more) env (world0 input fs rnd) = Ok (Ended t 0).
Proof.
  intros F D d path more env fs rnd t input PF Hf HT HB HL HF.
  destruct (print_plain t HT HL) as [P1 P2]. apply (main_prints F (S D) d path more env (print_prog t)); auto.
  intros w H. now apply (print_runs F D t HT HB HL input).
Qed.
(** A file that holds the code of an expression prints its value. *)
Theorem C135_expr : forall F D d path more env fs rnd e input, program_file path ->
  fs path = Some (code e ++ [46; 64]) -> Written e -> Defined e ->
  -2147483648 <= value e <= 2147483647 ->
  Z.of_nat (length (code e)) + 3 <= Z.pos F -> Z.of_nat (length (code e)) + 2 <= INT64_MAX ->
  exists text, decimal (value e) text /\
    fungemain F (S D) (S d) (lit "-std=be98" :: path :: more) env (world0 input fs rnd) = Ok (Ended (text ++ [32]) 0).
Proof.
  intros F D d path more env fs rnd e input PF Hf HW HD HV HF HL. exists (dec (value e)). split; [apply dec_decimal|].
  destruct (expr_plain e HW HL) as [P1 P2]. apply (main_prints F (S D) d path more env (code e ++ [46; 64])); auto.
  intros w H. now apply (expr_runs F D e input).
Qed.
(** A file that holds the translation of a structured program (C133) prints what that
    program prints. *)
Theorem C135_program : forall s input v rest e, swritten s -> readable input ->
  Exec s PropsCompile.blanks input v rest e -> len (program s) <= 2147483647 ->
  exists N text, Printed e text /\
    forall F D d path more env fs rnd, (N <= Pos.to_nat F)%nat -> program_file path -> fs path = Some (program s) ->
    fungemain F (S D) (S d) (lit "-std=be98" :: path :: more) env (world0 input fs rnd) = Ok (Ended text 0).
Proof.
  intros s input v rest e HW RD X HL. destruct (program_runs s input v rest e HW RD X HL) as (N & t & P & R).
  exists N, t. split; [exact P|]. intros F D d path more env fs rnd HN PF Hf. destruct (program_plain s HW HL) as [P1 P2].
  apply (main_prints F (S D) d path more env (program s)); auto.
Qed.
(** A structured program that does not end keeps the interpreter running however long
    one waits, and one that comes to an operation C++ does not define makes the
    interpreter do the same. *)
Theorem C135_endless : forall F D d path more env fs rnd s input, program_file path -> fs path = Some (program s) ->
  swritten s -> readable input -> Endless s PropsCompile.blanks input -> len (program s) <= 2147483647 ->
  fungemain F (S D) (S d) (lit "-std=be98" :: path :: more) env (world0 input fs rnd) = Bad BadFuel.
Proof.
  intros F D d path more env fs rnd s input PF Hf HW RD L HL. destruct (program_plain s HW HL) as [P1 P2].
  unfold fungemain. rewrite (parsed path more env PF). cbn [bind].
  destruct (launched F d path more env (program s) input fs rnd PF P1 P2 Hf) as (w & E & H). rewrite E. cbn [bind].
  destruct (program_goes F D s input w HL H) as (w1 & G1 & H1).
  destruct (endless_runs (Pos.to_nat F) s PropsCompile.blanks input L HW) with (F := F) (D := D) (p := program s) (pre := [122]) (suf := [64])
    (o := @nil Z) (w := w1) as (m & w2 & Hm & G2);
    [intros k; unfold PropsCompile.blanks, in64, INT64_MIN, INT64_MAX; lia|exact RD|exact (program_fits s HL)|reflexivity|discriminate|discriminate|exact H1|].
  unfold run_universe. rewrite loop_loopNr.
  rewrite (goes_fuel F (S D) (1 + m) w w2 (goes_trans _ _ _ _ _ _ _ G1 G2)) by lia. reflexivity.
Qed.
Theorem C135_undefined : forall s input, swritten s -> readable input -> Wrong s PropsCompile.blanks input ->
  len (program s) <= 2147483647 ->
  exists N, forall F D d path more env fs rnd, (N <= Pos.to_nat F)%nat -> program_file path -> fs path = Some (program s) ->
    fungemain F (S D) (S d) (lit "-std=be98" :: path :: more) env (world0 input fs rnd) = Bad BadOverflow \/
    fungemain F (S D) (S d) (lit "-std=be98" :: path :: more) env (world0 input fs rnd) = Bad BadDiv.
Proof.
  intros s input HW RD X HL. destruct (program_plain s HW HL) as [P1 P2].
  destruct (wrong_runs s PropsCompile.blanks input X HW) as (n & A); [|exact RD|].
  { intros k. unfold PropsCompile.blanks, in64, INT64_MIN, INT64_MAX. lia. }
  exists (1 + n + 1)%nat. intros F D d path more env fs rnd HN PF Hf.
  unfold fungemain. rewrite (parsed path more env PF). cbn [bind].
  destruct (launched F d path more env (program s) input fs rnd PF P1 P2 Hf) as (w & E & H). rewrite E. cbn [bind].
  destruct (program_goes F D s input w HL H) as (w1 & G1 & H1).
  destruct (A F D (program s) [122] [64] [] w1 (program_fits s HL)) as (w2 & G2 & R);
    [reflexivity|discriminate|discriminate|exact H1|].
  unfold run_universe. rewrite loop_loopNr.
  replace (Pos.to_nat F) with (1 + n + S (Pos.to_nat F - (1 + n + 1)))%nat by lia.
  rewrite (goes_loop _ _ _ _ _ _ (goes_trans _ _ _ _ _ _ _ G1 G2)), loopNr_unfold.
  destruct R as [R|R]; rewrite R; auto.
Qed.
(** A file that splits into two IPs (C134) prints the two threads in turns. *)
Theorem C135_two : forall a b, Forall Written (a ++ b) -> Forall Defined (a ++ b) ->
  Forall (fun e => -2147483648 <= value e <= 2147483647) (a ++ b) ->
  Z.of_nat (length (two a b)) <= 2147483647 ->
  exists ta tb, Shows a ta /\ Shows b tb /\
    forall F D d path more env fs rnd input, Z.of_nat (length (two a b)) + 1 <= Z.pos F ->
      program_file path -> fs path = Some (two a b) ->
      fungemain F (S D) (S d) (lit "-std=be98" :: path :: more) env (world0 input fs rnd) = Ok (Ended (concat (turns tb ta)) 0).
Proof.
  intros a b HW HD HV HL. destruct (two_runs a b HW HD HV HL) as (P & ta & tb & SA & SB & R).
  exists ta, tb. split; [exact SA|]. split; [exact SB|]. intros F D d path more env fs rnd input HF PF Hf.
  unfold fungemain. rewrite (parsed path more env PF). cbn [bind].
  destruct (launched_as F d path more env (two a b) input fs rnd PF P) as (w & E & _ & HWd & Q & R0 & NR & FL);
    [unfold INT64_MAX; lia|exact Hf|]. rewrite E. cbn [bind].
  destruct (R F D w HF HWd Q R0 NR FL) as (w' & E' & O & X). rewrite E'. cbn [bind]. now rewrite O, X.
Qed.

(** *** Cases *)
Example C135_ex :
  program_file (lit "dir/hello.b98") /\
  let fs := files [(lit "dir/hello.b98", 34 :: lit "!dlroW ,olleH" ++ [34] ++ lit ">:#,_@"); (lit "cat", cat_prog)] in
  fungemain 99 1 1 [lit "-std=be98"; lit "dir/hello.b98"; lit "-x"] [lit "A=b"] (world0 [7] fs (fun _ => 0))
    = Ok (Ended (lit "Hello, World!") 0) /\
  fungemain 99 1 1 [lit "-std=be98"; lit "cat"] [] (world0 (lit "abc") fs (fun _ => 0)) = Ok (Ended (lit "abc") 0) /\
  fungemain 99 1 1 [lit "-std=be98"; lit "dog"] [] (world0 (lit "abc") fs (fun _ => 0)) = Ok (Unopened (lit "dog")) /\
  fungemain 99 1 1 [lit "-std=be99"; lit "cat"] [] (world0 (lit "abc") fs (fun _ => 0)) = Ok Refused.
Proof.
  split.
  - split; [discriminate|]. split; [discriminate|]. vm_compute. intuition discriminate.
  - cbv zeta. do 3 (split; [vm_compute; reflexivity|]). vm_compute. reflexivity.
Qed.
(** The programs of C133, whose cases there meet the hypotheses, from files. *)
Example C135_program_ex :
  let fs := files [(lit "count", program C133_count); (lit "a.b98", program C133_forever); (lit "square", program C133_square)] in
  fungemain 2000 1 1 [lit "-std=be98"; lit "count"] [] (world0 [51; 52] fs (fun _ => 0)) = Ok (Ended [51; 32; 50; 32; 49; 32; 10] 0) /\
  (forall F, fungemain F 1 1 [lit "-std=be98"; lit "a.b98"] [] (world0 [] fs (fun _ => 0)) = Bad BadFuel) /\
  fungemain 2000 1 1 [lit "-std=be98"; lit "square"] [] (world0 [] fs (fun _ => 0)) = Bad BadOverflow.
Proof.
  cbv zeta. split; [vm_compute; reflexivity|]. split; [|vm_compute; reflexivity].
  intros F. destruct C133_endless_ex as (HW & HL & HE). apply (C135_endless F 0 0 (lit "a.b98") [] [] _ _ C133_forever []);
    [|reflexivity|exact HW|constructor|exact (HE [])|exact HL].
  split; [discriminate|]. split; [discriminate|]. vm_compute. intuition discriminate.
Qed.
(** The lists of C134's case meet the hypotheses (C134_ex). *)
Example C135_two_ex :
  fungemain 100 1 1 [lit "-std=be98"; lit "two"; lit "x"] [lit "A=b"]
    (world0 [] (files [(lit "two", two C134_a C134_b)]) (fun _ => 0)) = Ok (Ended (lit "1 5 8 42 ") 0).
Proof. vm_compute. reflexivity. Qed.
Example C135_refused_ex :
  existsb no_value (options [lit "-g"; lit "-std=be99"; lit "cat"]) = false /\
  existsb invalid (options [lit "-g"; lit "-std=be99"; lit "cat"]) = true /\
  hd [] (operands [lit "-std=be98"; lit "-g"]) = [].
Proof. repeat split; reflexivity. Qed.
Print Assumptions C135_refused.
Print Assumptions C135_missing.
Print Assumptions C135_cat.
Print Assumptions C135_print.
Print Assumptions C135_expr.
Print Assumptions C135_program.
Print Assumptions C135_endless.
Print Assumptions C135_undefined.
Print Assumptions C135_two.
