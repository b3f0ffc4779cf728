(** * C109: starting a program, and the programs a .fmv file lists. *)

From Coq Require Import ZArith Lia String List Bool.
From Verif Require Import Base BaseProofs VectorModel TextModel StackModel FieldModel World IpModel LoadModel
  FingModel CoreModel UniModel OptModel FileModel
  VectorProofs FieldProofs TextProofs LibProofs PropsOpt FileProofs Effects SchedProofs PropsMvrs.
Import ListNotations.
Open Scope Z_scope.
Local Notation length := List.length.

(** ** Specification *)

(** The format a file name asks for. *)
Definition kind (path : bytes) : format :=
  if streq (extension path) (lit ".beq") then FmtBeq
  else if streq (extension path) (lit ".fl") then FmtFl else FmtBf.

(** [w'] is [w] after starting program [path] with arguments [args]: one universe more,
    which holds the program and one IP, and nothing else changed. *)
Record Launch (path : bytes) (args : list bytes) (c : cfg) (w w' : world) : Prop := {
  l_nuni : w_nuni w' = S (w_nuni w);
  l_nrun : w_nrun w' = w_nrun w + 1;
  l_prog : exists data, w_fs w path = Some data /\
             field_load (kind path) data (c_dims c) (c_char c) = Ok (u_field (w_uni w' (w_nuni w)));
  l_args : c_args (u_cfg (w_uni w' (w_nuni w))) = args;
  l_name : ~ Taken w (c_name (u_cfg (w_uni w' (w_nuni w)))) /\
           (c_name (u_cfg (w_uni w' (w_nuni w))) = path \/ c_name (u_cfg (w_uni w' (w_nuni w))) = path ++ [46; 49]);
  l_queue : u_queue (w_uni w' (w_nuni w)) = [w_nrun w];
  l_running : u_running (w_uni w' (w_nuni w)) = true;
  l_ip : exists r, w_run w' (w_nrun w) = Some r /\ r_uni r = w_nuni w /\ r_pos r = [0] /\ r_delta r = [1] /\
           r_storage r = [0] /\ r_stopped r = false /\ r_parent r = None /\
           map s_list (ss_list (r_ss r)) = [[]];
  l_unis : forall k, k <> w_nuni w -> w_uni w' k = w_uni w k;
  l_runs : forall i, i <> w_nrun w -> w_run w' i = w_run w i;
  l_rest : w_fs w' = w_fs w /\ w_in w' = w_in w /\ w_out w' = w_out w /\ w_log w' = w_log w }.

(** A line of a .fmv file. *)
Record entry := { e_name : bytes; e_args : list bytes }.
Definition a_word (l : bytes) : Prop := l <> [] /\ Forall (fun c => isspace c = false) l.
Definition Entry_ok (e : entry) : Prop := a_word (e_name e) /\ Forall a_word (e_args e).
Definition entry_line (e : entry) : bytes := sep_by 32 (e_name e :: e_args e).
Definition fmv_text (es : list entry) : bytes := sep_by 10 (map entry_line es).
(** Names that do not start with a slash are looked up next to the .fmv file. *)
Definition entry_path (dir : bytes) (e : entry) : bytes :=
  if hd 0 (e_name e) =? 47 then e_name e else dir ++ [47] ++ e_name e.

(** ** One program *)

Lemma prepare_cases path c : (extension path = lit ".fmv" /\ prepare path c = PFmv c) \/
  (extension path <> lit ".fmv" /\ exists c', prepare path c = PUniverse (kind path) c' /\
     c_args c' = c_args c /\ c_name c' = path /\ c_char c' = c_char c /\ c_mode c' = c_mode c /\
     (c_dims c' = c_dims c \/ c_std c' = STD_FISH \/ c_std c' = STD_STARFISH)).
Proof.
  unfold prepare, kind. destruct (streq (extension path) (lit ".fmv")) eqn:E.
  - left. split; [now apply streq_eq|reflexivity].
  - right. split; [intros X; apply streq_eq in X; congruence|].
    eexists. split; [reflexivity|].
    destruct (streq (extension path) (lit ".beq")); cbv zeta;
      repeat match goal with |- context [if ?b then _ else _] => destruct b end; cbn; repeat split; auto.
Qed.

Lemma create_run path c w w' F fmt data : Z.testbit (c_mode c) MODE_HOVER = false ->
  (w1 <-- multi_create_fmt F fmt data c w ;; create_runner (w_nuni w) (mkvec [0]) (mkvec [1]) w1) = Ok w' ->
  c_name c = path -> fmt = kind path -> w_fs w path = Some data ->
  c_std c <> STD_FISH /\ c_std c <> STD_STARFISH /\ Launch path (c_args c) c w w'.
Proof.
  intros Hov E Nm Fm Hd. destruct (multi_create_fmt F fmt data c w) as [w1|e] eqn:E1; [|discriminate]. cbn [bind] in E.
  unfold multi_create_fmt in E1. destruct (loop _ _ _) as [name|e] eqn:El; [|discriminate]. cbn [bind] in E1.
  destruct (field_load fmt data (c_dims c) (c_char c)) as [fld|e] eqn:Ef; [|discriminate]. cbn [bind] in E1. cbv zeta in E1.
  set (u := {| u_cfg := set_c_dims match c_dims c with O => f_size fld | S _ => c_dims c end (set_c_name name c);
               u_field := fld; u_queue := []; u_running := true; u_exit := 0 |}).
  assert (E2 : w1 = set_w_nuni (S (w_nuni w)) (upd_uni (w_nuni w) (fun _ => u) w)).
  { assert (G : Ok w1 = Ok (set_w_nuni (S (w_nuni w)) (upd_uni (w_nuni w) (fun _ => u) w))).
    { rewrite <- E1. unfold u. destruct (c_dims c); reflexivity. }
    exact (f_equal (fun x => match x with Ok y => y | Bad _ => w end) G). }
  clear E1. subst w1. unfold create_runner in E.
  set (w1 := set_w_nuni (S (w_nuni w)) (upd_uni (w_nuni w) (fun _ => u) w)) in *.
  assert (U1 : w_uni w1 (w_nuni w) = u) by (unfold w1; cbn; now rewrite Nat.eqb_refl).
  rewrite U1 in E. unfold runner_new in E.
  destruct ((c_std (u_cfg u) =? STD_FISH) || (c_std (u_cfg u) =? STD_STARFISH)) eqn:Fi; [discriminate|].
  cbv zeta in E. destruct (strats_construct _ _ _ _) as [r1|e] eqn:Es; [|discriminate]. cbn [bind] in E.
  assert (T : testmode MODE_HOVER u = false) by (unfold testmode, u; cbn; exact Hov). rewrite T in E. cbn [bind] in E.
  apply orb_false_iff in Fi. destruct Fi as [F1 F2]. apply Z.eqb_neq in F1. apply Z.eqb_neq in F2. cbn in F1, F2.
  split; [exact F1|]. split; [exact F2|].
  destruct (same_id_strats _ _ _ _ _ Es) as (I1 & I2 & _ & I3 & _).
  destruct (same_place_strats _ _ _ _ _ Es) as (P1 & P2 & P3 & P4 & P5).
  cbn [runner_blank r_id r_uni r_pos r_delta r_storage r_stopped r_ss] in *.
  match type of E with Ok (add_runner _ ?x _) = _ => set (r := x) in E end.
  assert (Rr : r_id r = w_nrun w /\ r_uni r = w_nuni w /\ r_pos r = [0] /\ r_delta r = [1] /\ r_storage r = [0] /\
               r_stopped r = false /\ r_parent r = None /\ map s_list (ss_list (r_ss r)) = [[]]).
  { unfold r, run_setmode, observe_delta. cbn [r_fish set_r_delta set_r_pos].
    destruct (r_fish r1) as [[a b]|]; [destruct (_ && _)|]; cbn; rewrite ?I1, ?I2, ?I3, ?P3, ?P4, ?P5; cbn; repeat split. }
  clearbody r. destruct Rr as (R1 & R2 & R3 & R4 & R5 & R6 & R7 & R8).
  assert (E3 : w' = add_runner (w_nuni w) r (set_w_nrun (w_nrun w + 1) w1)).
  { change (w_nrun w1) with (w_nrun w) in E. congruence. }
  clear E.
  assert (Q : w_uni w' (w_nuni w) = set_u_queue [w_nrun w] u).
  { rewrite E3. unfold add_runner. cbn. rewrite Nat.eqb_refl, R1. unfold u. reflexivity. }
  assert (Nl : (name = c_name c \/ name = c_name c ++ [46; 49]) /\ multi_find name w = None).
  { split; [|eapply name_loop; exact El].
    apply (loop_inv (name_step (c_name c) w) (fun x => x = c_name c \/ x = c_name c ++ [46; 49])
             (fun x => x = c_name c \/ x = c_name c ++ [46; 49])) in El; auto;
    intros x y Hx; unfold name_step; destruct (multi_find x w); intros X; inversion X; subst; auto. }
  destruct Nl as [N1 N2]. rewrite Nm in N1. apply multi_find_none in N2.
  constructor.
  - rewrite E3. reflexivity.
  - rewrite E3. reflexivity.
  - exists data. split; [exact Hd|]. rewrite Q. subst fmt. exact Ef.
  - rewrite Q. reflexivity.
  - rewrite Q. split; [exact N2|exact N1].
  - rewrite Q. reflexivity.
  - rewrite Q. reflexivity.
  - exists (run_setmode (c_mode c) r). split.
    + rewrite E3. unfold add_runner. cbn. rewrite R1, Z.eqb_refl, Nat.eqb_refl. reflexivity.
    + repeat (split; [assumption|]). unfold run_setmode. cbn.
      rewrite map_map. rewrite <- R8. apply map_ext. reflexivity.
  - intros k Hk. rewrite E3. unfold add_runner. cbn. destruct (Nat.eqb_spec k (w_nuni w)); [contradiction|reflexivity].
  - intros i Hi. rewrite E3. unfold add_runner. cbn. rewrite R1. destruct (Z.eqb_spec i (w_nrun w)); [contradiction|reflexivity].
  - rewrite E3. repeat split.
Qed.

(** C109: starting a program file makes one universe, holding what the file says and one
    IP at the origin going east with an empty stack. *)
Theorem C109_start : forall d F path c w w',
  Z.testbit (c_mode c) MODE_HOVER = false -> extension path <> lit ".fmv" ->
  create_universe (S d) F path c w = Ok (Started, w') -> Launch path (c_args c) c w w'.
Proof.
  intros d F path c w w' Hov Hx E. cbn [create_universe] in E.
  destruct (prepare_cases path c) as [[X _]|(_ & c' & P & C1 & C2 & C3 & C4 & C5)]; [contradiction|].
  rewrite P in E. destruct (w_fs w path) as [data|] eqn:Hd; [|discriminate].
  destruct (multi_create_fmt F (kind path) data c' w) as [w1|e] eqn:E1; [|discriminate]. cbn [bind] in E.
  destruct (create_runner (w_nuni w) (mkvec [0]) (mkvec [1]) w1) as [w2|e] eqn:E2; [|discriminate]. cbn [bind] in E.
  assert (w2 = w') by congruence. subst w2.
  destruct (create_run path c' w w' F (kind path) data) as (F1 & F2 & L); try assumption; try reflexivity.
  - now rewrite C4.
  - rewrite E1. exact E2.
  - destruct C5 as [C5|[C5|C5]]; [|contradiction|contradiction]. rewrite C1 in L.
    destruct L. constructor; try assumption. rewrite C5, C3 in l_prog0. exact l_prog0.
Qed.
Print Assumptions C109_start.

(** A file that cannot be opened is reported and starts nothing. *)
Theorem C109_missing : forall d F path c w,
  w_fs w path = None -> create_universe (S d) F path c w = Ok (NoFile path, w).
Proof.
  intros d F path c w H. cbn [create_universe].
  destruct (prepare_cases path c) as [[_ P]|(_ & c' & P & _)]; rewrite P, H; reflexivity.
Qed.
Print Assumptions C109_missing.

(** A text program for a version of Befunge other than fish starts, given that its name
    or the name with .1 after it is free. *)
Theorem C109_starts : forall d F path c w data f,
  (2 <= F)%positive -> Z.testbit (c_mode c) MODE_HOVER = false -> c_fings c = [] ->
  (c_std c = STD_93 \/ c_std c = STD_98) -> kind path = FmtBf -> extension path <> lit ".fmv" ->
  w_fs w path = Some data -> field_load FmtBf data (c_dims c) (c_char c) = Ok f ->
  ~ (Taken w path /\ Taken w (path ++ [46; 49])) ->
  exists w', create_universe (S d) F path c w = Ok (Started, w').
Proof.
  intros d F path c w data f HF Hov Hf Hs Hk Hx Hd Hl Hn. cbn [create_universe].
  assert (P : prepare path c = PUniverse FmtBf (set_c_name path c)).
  { unfold prepare. unfold kind in Hk.
    destruct (streq (extension path) (lit ".fmv")) eqn:E; [apply streq_eq in E; contradiction|].
    destruct (streq (extension path) (lit ".beq")) eqn:E2; [discriminate|].
    destruct (streq (extension path) (lit ".fl")) eqn:E3; [discriminate|]. cbv zeta.
    change (c_std (set_c_name path c)) with (c_std c).
    assert (A : (c_std c =? STD_AUTO) = false) by (destruct Hs as [-> | ->]; reflexivity). rewrite A. reflexivity. }
  rewrite P, Hd. unfold multi_create_fmt. change (c_name (set_c_name path c)) with path.
  destruct (name_loop_runs F path w HF Hn) as (name & El & _). rewrite El. cbn [bind].
  change (c_dims (set_c_name path c)) with (c_dims c). change (c_char (set_c_name path c)) with (c_char c).
  rewrite Hl. cbn [bind]. cbv zeta. unfold create_runner.
  match goal with |- context [runner_new ?a ?b ?n ?u ?p ?dl] => assert (R : exists r, runner_new a b n u p dl = Ok r) end.
  { unfold runner_new.
    match goal with |- context [w_uni (set_w_nuni ?a ?b) ?k] => change (w_uni (set_w_nuni a b) k) with (w_uni b k) end.
    rewrite upd_uni_same. cbn [u_cfg c_std set_c_dims set_c_name c_fings c_mode].
    assert (A : (c_std c =? STD_FISH) || (c_std c =? STD_STARFISH) = false) by (destruct Hs as [-> | ->]; reflexivity).
    rewrite A, Hf. cbv zeta.
    assert (S_ : forall fl l r, exists r', strats_construct fl [] l r = Ok r').
    { clear. intros fl l. induction l as [|s l IH]; intros r; cbn [strats_construct]; [eauto|].
      destruct s; cbn [strat_construct fp_loads bind]; apply IH. }
    match goal with |- context [strats_construct ?a ?b ?l ?r] => destruct (S_ a l r) as [r' E'] end.
    rewrite E'. cbn [bind]. unfold testmode. cbn [u_cfg c_mode set_c_dims set_c_name]. rewrite Hov. cbn [bind]. eauto. }
  destruct R as [r R]. rewrite R. cbn [bind]. eauto.
Qed.
Print Assumptions C109_starts.

(** ** A list of programs *)

Lemma skipws_word l : Forall (fun c => isspace c = false) l -> l <> [] -> forall t, skipws (l ++ t) = l ++ t.
Proof. intros F N t. destruct F as [|c l H F]; [congruence|]. cbn [app skipws]. now rewrite H. Qed.
Lemma fmv_word_run l : Forall (fun c => isspace c = false) l -> forall t,
  (t = [] \/ exists r, t = 32 :: r) -> fmv_word (l ++ t) = (l, t).
Proof.
  intros F t T. induction F as [|c l H F IH].
  - destruct T as [->|[r ->]]; reflexivity.
  - cbn [app fmv_word]. rewrite H, IH. reflexivity.
Qed.
Definition spaced (ws : list bytes) : bytes := concat (map (fun x => 32 :: x) ws).
Lemma fmv_args_run ws : Forall a_word ws -> forall fuel,
  (length (spaced ws) <= fuel)%nat ->
  fmv_args fuel (spaced ws) = ws.
Proof.
  intros F. induction F as [|x ws [Nx Fx] F IH]; intros fuel L.
  - destruct fuel; reflexivity.
  - change (spaced (x :: ws)) with (32 :: x ++ spaced ws) in *. destruct fuel as [|fuel]; [cbn [List.length] in L; lia|].
    cbn [fmv_args]. unfold next_word. change (skipws (32 :: x ++ spaced ws)) with (skipws (x ++ spaced ws)).
    rewrite skipws_word, fmv_word_run by first [assumption|destruct ws; [left; reflexivity|right; eexists; reflexivity]].
    f_equal. apply IH. cbn [List.length] in L. rewrite app_length in L. lia.
Qed.
Lemma sep_concat x ws : sep_by 32 (x :: ws) = x ++ spaced ws.
Proof.
  revert x. induction ws as [|y ws IH]; intros x.
  - cbn. now rewrite app_nil_r.
  - change (sep_by 32 (x :: y :: ws)) with (x ++ 32 :: sep_by 32 (y :: ws)). rewrite IH. reflexivity.
Qed.
Lemma fmv_line_run dir e c : Entry_ok e ->
  fmv_line dir (entry_line e) c = (entry_path dir e, set_c_args (c_args c ++ e_args e) c).
Proof.
  intros [[Nn Fn] Fa]. unfold fmv_line, entry_line, next_word. rewrite sep_concat.
  rewrite skipws_word, fmv_word_run by first [assumption|destruct (e_args e); [left; reflexivity|right; eexists; reflexivity]].
  rewrite fmv_args_run by (assumption || lia). f_equal. unfold entry_path.
  destruct (e_name e) as [|x t]; [congruence|]. cbn [hd].
  destruct (Z.eqb_spec x 47) as [->|N]; [reflexivity|].
  destruct x as [|p|p]; try reflexivity. do 6 (destruct p as [p|p|]; try reflexivity). congruence.
Qed.
Lemma a_word_no10 l : a_word l -> ~ In 10 l.
Proof. intros [_ F] I. rewrite Forall_forall in F. specialize (F 10 I). discriminate. Qed.
Lemma entry_no10 e : Entry_ok e -> ~ In 10 (entry_line e).
Proof.
  intros [W Fa] I. unfold entry_line in I. apply sep_by_in in I. destruct I as [I|(x & [<-|X] & I)]; [discriminate| |].
  - exact (a_word_no10 _ W I).
  - rewrite Forall_forall in Fa. exact (a_word_no10 _ (Fa x X) I).
Qed.

(** Every universe started keeps its place while the others are started. *)
Record Placed (path : bytes) (args : list bytes) (c : cfg) (w : world) (n : nat) (id : Z) (w' : world) : Prop := {
  p_prog : exists data, w_fs w path = Some data /\
             field_load (kind path) data (c_dims c) (c_char c) = Ok (u_field (w_uni w' n));
  p_args : c_args (u_cfg (w_uni w' n)) = args;
  p_queue : u_queue (w_uni w' n) = [id];
  p_running : u_running (w_uni w' n) = true;
  p_ip : exists r, w_run w' id = Some r /\ r_uni r = n /\ r_pos r = [0] /\ r_delta r = [1] /\
           r_stopped r = false /\ map s_list (ss_list (r_ss r)) = [[]] }.

Lemma lines_run make dir c es :
  (forall p a w r w', (exists e, In e es /\ p = entry_path dir e /\ a = c_args c ++ e_args e) ->
     make p (set_c_args a c) w = Ok (r, w') ->
     match r with
     | Started => Launch p a c w w'
     | NoFile p' => p' = p /\ w_fs w p = None /\ w' = w
     end) ->
  Forall Entry_ok es -> forall w r w', fmv_lines make dir (map entry_line es) c w = Ok (r, w') ->
  exists n, (n <= length es)%nat /\ w_nuni w' = (w_nuni w + n)%nat /\ w_nrun w' = w_nrun w + Z.of_nat n /\
    (forall i e, (i < n)%nat -> nth_error es i = Some e ->
       Placed (entry_path dir e) (c_args c ++ e_args e) c w (w_nuni w + i) (w_nrun w + Z.of_nat i) w') /\
    (forall k, (k < w_nuni w)%nat -> w_uni w' k = w_uni w k) /\
    (forall i, i < w_nrun w -> w_run w' i = w_run w i) /\ w_fs w' = w_fs w /\ w_out w' = w_out w /\
    match r with
    | Started => n = length es
    | NoFile p => exists e, nth_error es n = Some e /\ p = entry_path dir e /\ w_fs w p = None
    end.
Proof.
  intros M F. induction F as [|e es Oe F IH]; intros w r w' E.
  - cbn in E. injection E as <- <-. exists 0%nat. split; [lia|]. split; [lia|]. split; [lia|].
    split; [lia|]. auto 10.
  - cbn [map fmv_lines] in E. rewrite fmv_line_run in E by assumption.
    destruct (make _ _ w) as [[r1 w1]|er] eqn:E1; [|discriminate]. cbn [bind fst snd] in E.
    apply M in E1; [|exists e; cbn; auto]. destruct r1 as [|p1].
    + assert (M' : forall p a w r w', (exists e0, In e0 es /\ p = entry_path dir e0 /\ a = c_args c ++ e_args e0) ->
        make p (set_c_args a c) w = Ok (r, w') ->
        match r with Started => Launch p a c w w' | NoFile p' => p' = p /\ w_fs w p = None /\ w' = w end).
      { intros p a v r0 v' (x & X & Y). apply M. exists x. split; [now right|exact Y]. }
      assert (IH' := IH M' w1 r w' E). clear M'.
      destruct IH' as (n & L & A & B & C & D & G & Fs & Ou & K). destruct E1.
      exists (S n). cbn [List.length]. split; [lia|]. split; [lia|]. split; [lia|]. split; [|split; [|split; [|split; [|split]]]].
      * intros [|i] e0 Hi X; cbn [nth_error] in X.
        -- injection X as <-. rewrite Nat.add_0_r, Z.add_0_r.
           assert (U : w_uni w' (w_nuni w) = w_uni w1 (w_nuni w)) by (apply D; lia).
           assert (R : w_run w' (w_nrun w) = w_run w1 (w_nrun w)) by (apply G; lia).
           constructor; rewrite ?U, ?R; auto. destruct l_ip0 as (r0 & X1 & X2 & X3 & X4 & X5 & X6 & X7 & X8).
           exists r0. repeat (split; [assumption|]). assumption.
        -- assert (Q := C i e0 ltac:(lia) X). rewrite l_nuni0, l_nrun0 in Q.
           replace (w_nuni w + S i)%nat with (S (w_nuni w) + i)%nat by lia.
           replace (w_nrun w + Z.of_nat (S i)) with (w_nrun w + 1 + Z.of_nat i) by lia.
           destruct Q. constructor; auto. destruct l_rest0 as [W _]. rewrite <- W. assumption.
      * intros k Hk. rewrite D by lia. apply l_unis0. lia.
      * intros i Hi. rewrite G by lia. apply l_runs0. lia.
      * rewrite Fs. apply l_rest0.
      * rewrite Ou. apply l_rest0.
      * destruct r; [lia|]. destruct K as (e0 & X & Y & W). exists e0. cbn [nth_error].
        split; [exact X|]. split; [exact Y|]. destruct l_rest0 as [V _]. now rewrite <- V.
    + destruct E1 as (-> & Hn & ->). injection E as <- <-. exists 0%nat. split; [lia|]. split; [lia|]. split; [lia|].
      split; [lia|]. do 4 (split; [auto; fail|]). exists e. auto.
Qed.

(** C109: a .fmv file starts the programs it lists, one universe with one IP for each
    line, in order, with the line's arguments after those of the command line; it stops
    at the first that cannot be opened. *)
Theorem C109_partial : forall d F path c es w r w',
  Z.testbit (c_mode c) MODE_HOVER = false -> extension path = lit ".fmv" ->
  es <> [] -> Forall Entry_ok es ->
  Forall (fun e => extension (entry_path (parent_path path) e) <> lit ".fmv") es ->
  w_fs w path = Some (fmv_text es) ->
  create_universe (S (S d)) F path c w = Ok (r, w') ->
  exists n, (n <= length es)%nat /\ w_nuni w' = (w_nuni w + n)%nat /\
    (forall i e, (i < n)%nat -> nth_error es i = Some e ->
       Placed (entry_path (parent_path path) e) (c_args c ++ e_args e) c w
              (w_nuni w + i) (w_nrun w + Z.of_nat i) w') /\
    (forall k, (k < w_nuni w)%nat -> w_uni w' k = w_uni w k) /\
    (forall i, i < w_nrun w -> w_run w' i = w_run w i) /\ w_fs w' = w_fs w /\ w_out w' = w_out w /\
    match r with
    | Started => n = length es
    | NoFile p => exists e, nth_error es n = Some e /\ p = entry_path (parent_path path) e /\ w_fs w p = None
    end.
Proof.
  intros d F path c es w r w' Hov Hx Ne Fe Fx Hd E. cbn [create_universe] in E.
  destruct (prepare_cases path c) as [[_ P]|(X & _)]; [|contradiction]. rewrite P, Hd in E.
  unfold fmv_text in E. rewrite split_sep in E.
  2:{ destruct es; [congruence|discriminate]. }
  2:{ apply Forall_forall. intros l I. apply in_map_iff in I. destruct I as (e & <- & I). rewrite Forall_forall in Fe.
      apply entry_no10. auto. }
  fold (create_universe (S d) F) in E.
  assert (X := lines_run (create_universe (S d) F) (parent_path path) c es).
  destruct (X) with (w := w) (r := r) (w' := w') as (n & A & B & _ & C); [|assumption|exact E|exists n; auto].
  intros p a w0 r0 w1 (e & Ie & -> & ->) E0. rewrite Forall_forall in Fx. specialize (Fx e Ie).
  destruct r0 as [|p'].
  - apply C109_start in E0; [|exact Hov|exact Fx].
    destruct E0. constructor; assumption.
  - cbn [create_universe] in E0.
    destruct (prepare_cases (entry_path (parent_path path) e) (set_c_args (c_args c ++ e_args e) c))
      as [[W _]|(_ & c' & P' & _)]; [contradiction|]. rewrite P' in E0.
    destruct (w_fs w0 (entry_path (parent_path path) e)) as [data|] eqn:Hf.
    + destruct (multi_create_fmt _ _ _ _ _); [|discriminate]. cbn [bind] in E0.
      destruct (create_runner _ _ _ _); discriminate.
    + injection E0 as <- <-. auto.
Qed.
Print Assumptions C109_partial.

(** ** Lines in any layout *)

(** White space within a line. *)
Definition blanks (b : bytes) : Prop := Forall (fun c => isspace c = true /\ c <> 10) b.
(** Words, each after some white space. *)
Inductive Spread : list bytes -> bytes -> Prop :=
| Spread_nil : Spread [] []
| Spread_cons b x ws t : b <> [] -> blanks b -> a_word x -> Spread ws t -> Spread (x :: ws) (b ++ x ++ t).
(** A line that names [e], with white space before and between its words. *)
Definition Line (e : entry) (l : bytes) : Prop :=
  exists b t, blanks b /\ a_word (e_name e) /\ Spread (e_args e) t /\ l = b ++ e_name e ++ t.

Lemma entry_Line e : Entry_ok e -> Line e (entry_line e).
Proof.
  intros [W Fa]. exists [], (spaced (e_args e)). split; [constructor|]. split; [exact W|]. split.
  - induction Fa as [|x ws Wx Fa IH]; [constructor|].
    apply (Spread_cons [32] x ws (spaced ws)); [discriminate|repeat constructor; discriminate|exact Wx|exact IH].
  - unfold entry_line. apply sep_concat.
Qed.
Lemma skipws_blanks b : blanks b -> forall t, skipws (b ++ t) = skipws t.
Proof. intros F t. induction F as [|c b [H _] F IH]; [reflexivity|]. cbn [app skipws]. now rewrite H. Qed.
Definition ends_word (t : bytes) : Prop := t = [] \/ exists c r, t = c :: r /\ isspace c = true.
Lemma fmv_word_any l : Forall (fun c => isspace c = false) l -> forall t, ends_word t -> fmv_word (l ++ t) = (l, t).
Proof.
  intros F t T. induction F as [|c l H F IH].
  - destruct T as [->|(c & r & -> & H)]; [reflexivity|]. cbn [app fmv_word]. now rewrite H.
  - cbn [app fmv_word]. rewrite H, IH. reflexivity.
Qed.
Lemma next_word_any b x t : blanks b -> a_word x -> ends_word t -> next_word (b ++ x ++ t) = (x, t).
Proof.
  intros B [N F] T. unfold next_word. rewrite skipws_blanks, skipws_word by assumption. now apply fmv_word_any.
Qed.
Lemma blanks_end b t : blanks b -> b <> [] -> ends_word (b ++ t).
Proof. intros F N. destruct F as [|c b [H _] F]; [congruence|]. right. exists c, (b ++ t). auto. Qed.
Lemma Spread_end ws t z : Spread ws t -> blanks z -> ends_word (t ++ z).
Proof.
  intros S Z. destruct S as [|b x ws t N B W S].
  - destruct Z as [|c z [H _] Z]; [now left|]. right. exists c, z. auto.
  - rewrite <- app_assoc. now apply blanks_end.
Qed.
(** White space after the last word counts as one more, empty, argument. *)
Definition after_blanks (z : bytes) : list bytes := match z with [] => [] | _ => [[]] end.
Lemma Spread_args ws t : Spread ws t -> forall z fuel, blanks z -> (length (t ++ z) <= fuel)%nat ->
  fmv_args fuel (t ++ z) = ws ++ after_blanks z.
Proof.
  intros S. induction S as [|b x ws t N B W S IH]; intros z fuel Z L.
  - cbn [app] in *. destruct Z as [|c z H Z]; [destruct fuel; reflexivity|].
    destruct fuel as [|fuel]; [cbn [List.length] in L; lia|]. cbn [fmv_args after_blanks]. unfold next_word.
    assert (E : skipws (c :: z) = []).
    { assert (Q : blanks (c :: z)) by now constructor. assert (K := skipws_blanks _ Q []). rewrite app_nil_r in K. exact K. }
    rewrite E. cbn [fmv_word]. destruct fuel; reflexivity.
  - rewrite <- !app_assoc in *. destruct b as [|c b]; [congruence|]. destruct fuel as [|fuel]; [cbn [List.length app] in L; lia|].
    cbn [fmv_args]. change ((c :: b) ++ x ++ t ++ z) with (c :: b ++ x ++ t ++ z) at 1. cbv iota.
    rewrite next_word_any; [|exact B|exact W|now apply (Spread_end ws)].
    cbn [app]. f_equal. apply IH; [exact Z|]. cbn [List.length app] in L. rewrite !app_length in *. lia.
Qed.
Lemma Line_run dir e l z c : Line e l -> blanks z ->
  fmv_line dir (l ++ z) c = (entry_path dir e, set_c_args (c_args c ++ e_args e ++ after_blanks z) c).
Proof.
  intros (b & t & B & W & S & ->) Z. unfold fmv_line. rewrite <- !app_assoc.
  rewrite next_word_any; [|exact B|exact W|now apply (Spread_end (e_args e))].
  rewrite (Spread_args (e_args e)) by (assumption || lia). f_equal. unfold entry_path. destruct W as [Nn _].
  destruct (e_name e) as [|x r]; [congruence|]. cbn [hd].
  destruct (Z.eqb_spec x 47) as [->|N]; [reflexivity|].
  destruct x as [|p|p]; try reflexivity. do 6 (destruct p as [p|p|]; try reflexivity). congruence.
Qed.
Lemma blanks_no10 b : blanks b -> ~ In 10 b.
Proof. intros F I. unfold blanks in F. rewrite Forall_forall in F. destruct (F 10 I). congruence. Qed.
Lemma Line_no10 e l : Line e l -> ~ In 10 l.
Proof.
  intros (b & t & B & W & S & ->) I. rewrite !in_app_iff in I. destruct I as [I|[I|I]];
    [exact (blanks_no10 _ B I)|exact (a_word_no10 _ W I)|].
  clear W. induction S as [|b' x ws t N B' W S IH]; [exact I|]. rewrite !in_app_iff in I.
  destruct I as [I|[I|I]]; [exact (blanks_no10 _ B' I)|exact (a_word_no10 _ W I)|auto].
Qed.

(** ** .fmv files that list .fmv files *)

(** [Lists fs path args ps]: [path] with arguments [args] stands for the programs [ps],
    each with its arguments: a program file for itself, a .fmv file for what its lines
    stand for; a .fmv file that does not exist stands for itself. *)
Inductive Lists (fs : bytes -> option bytes) : bytes -> list bytes -> list (bytes * list bytes) -> Prop :=
| Lists_program path args : extension path <> lit ".fmv" -> Lists fs path args [(path, args)]
| Lists_missing path args : extension path = lit ".fmv" -> fs path = None -> Lists fs path args [(path, args)]
| Lists_file path args es ls ps : extension path = lit ".fmv" -> es <> [] -> Forall2 Line es ls ->
    fs path = Some (sep_by 10 ls) -> Each fs (parent_path path) args es ps -> Lists fs path args ps
with Each (fs : bytes -> option bytes) : bytes -> list bytes -> list entry -> list (bytes * list bytes) -> Prop :=
| Each_nil dir args : Each fs dir args [] []
| Each_cons dir args e es ps qs : Lists fs (entry_path dir e) (args ++ e_args e) ps -> Each fs dir args es qs ->
    Each fs dir args (e :: es) (ps ++ qs).

(** The programs [ps] are started in order, up to the first that cannot be opened. *)
Definition Outcome (c : cfg) (ps : list (bytes * list bytes)) (w : world) (r : started) (w' : world) : Prop :=
  exists n, (n <= length ps)%nat /\ w_nuni w' = (w_nuni w + n)%nat /\ w_nrun w' = w_nrun w + Z.of_nat n /\
    (forall i p a, (i < n)%nat -> nth_error ps i = Some (p, a) ->
       Placed p a c w (w_nuni w + i) (w_nrun w + Z.of_nat i) w') /\
    (forall k, (k < w_nuni w)%nat -> w_uni w' k = w_uni w k) /\
    (forall i, i < w_nrun w -> w_run w' i = w_run w i) /\ w_fs w' = w_fs w /\ w_out w' = w_out w /\
    match r with
    | Started => n = length ps
    | NoFile p => exists a, nth_error ps n = Some (p, a) /\ w_fs w p = None
    end.
Lemma Outcome_none c w : Outcome c [] w Started w.
Proof. exists 0%nat. split; [cbn; lia|]. split; [lia|]. split; [lia|]. split; [lia|]. auto 10. Qed.
Lemma Outcome_stop c ps qs w p w' : Outcome c ps w (NoFile p) w' -> Outcome c (ps ++ qs) w (NoFile p) w'.
Proof.
  intros (n & A & B & B' & C & D & E & F & G & a & H & I). assert (L : (n < length ps)%nat) by (apply nth_error_Some; congruence).
  exists n. rewrite app_length. split; [lia|]. do 2 (split; [assumption|]). split.
  { intros i q b Hi X. rewrite nth_error_app1 in X by lia. auto. }
  do 4 (split; [assumption|]). exists a. rewrite nth_error_app1 by lia. auto.
Qed.
Lemma Outcome_go c ps qs w w1 r w' : Outcome c ps w Started w1 -> Outcome c qs w1 r w' -> Outcome c (ps ++ qs) w r w'.
Proof.
  intros (n & A & B & B' & C & D & E & F & G & H) (m & A1 & B1 & B1' & C1 & D1 & E1 & F1 & G1 & H1). subst n.
  exists (length ps + m)%nat. rewrite app_length. split; [lia|]. split; [lia|]. split; [lia|]. split; [|split; [|split; [|split; [|split]]]].
  - intros i p a Hi X. destruct (le_lt_dec (length ps) i) as [Le|Lt].
    + rewrite nth_error_app2 in X by exact Le. assert (Hj : (i - length ps < m)%nat) by lia.
      assert (Q := C1 _ _ _ Hj X). rewrite B, B' in Q.
      replace (w_nuni w + i)%nat with (w_nuni w + length ps + (i - length ps))%nat by lia.
      replace (w_nrun w + Z.of_nat i) with (w_nrun w + Z.of_nat (length ps) + Z.of_nat (i - length ps)) by lia.
      destruct Q. constructor; auto. rewrite <- F. assumption.
    + rewrite nth_error_app1 in X by exact Lt. assert (Q := C _ _ _ Lt X).
      assert (U : w_uni w' (w_nuni w + i) = w_uni w1 (w_nuni w + i)) by (apply D1; lia).
      assert (R : w_run w' (w_nrun w + Z.of_nat i) = w_run w1 (w_nrun w + Z.of_nat i)) by (apply E1; lia).
      destruct Q. constructor; rewrite ?U, ?R; assumption.
  - intros k Hk. rewrite D1 by lia. auto.
  - intros i Hi. rewrite E1 by lia. auto.
  - congruence.
  - congruence.
  - destruct r; [lia|]. destruct H1 as (a & X & Y). exists a. rewrite nth_error_app2 by lia.
    replace (length ps + m - length ps)%nat with m by lia. split; [exact X|]. now rewrite <- F.
Qed.
Lemma Outcome_cfg c a ps w r w' : Outcome (set_c_args a c) ps w r w' -> Outcome c ps w r w'.
Proof.
  intros (n & A & B & B' & C & R). exists n. do 3 (split; [assumption|]). split; [|exact R].
  intros i p b Hi X. destruct (C i p b Hi X). constructor; assumption.
Qed.

(** C109: the programs a path stands for are started, however deep .fmv files are
    nested. *)
Theorem C109_nested : forall d F path c ps w r w',
  Z.testbit (c_mode c) MODE_HOVER = false -> Lists (w_fs w) path (c_args c) ps ->
  create_universe d F path c w = Ok (r, w') -> Outcome c ps w r w'.
Proof.
  induction d as [|d IH]; intros F path c ps w r w' Hov L E; [discriminate|].
  inversion L as [? ? Fx|? ? Fx Nf|? ? es ls ? Fx Ne Fe Hd Ea]; subst.
  - destruct r as [|p'].
    + apply C109_start in E; [|exact Hov|exact Fx]. destruct E.
      exists 1%nat. split; [cbn; lia|]. split; [lia|]. split; [lia|]. split.
      { intros [|i] p a Hi X; [|lia]. cbn in X. injection X as <- <-. rewrite Nat.add_0_r, Z.add_0_r.
        constructor; auto. destruct l_ip0 as (r0 & X1 & X2 & X3 & X4 & X5 & X6 & X7 & X8).
        exists r0. repeat (split; [assumption|]). assumption. }
      split; [intros k Hk; apply l_unis0; lia|]. split; [intros i Hi; apply l_runs0; lia|].
      destruct l_rest0 as (R1 & R2 & R3 & R4). auto.
    + cbn [create_universe] in E. destruct (prepare_cases path c) as [[W _]|(_ & c' & P' & _)]; [contradiction|]. rewrite P' in E.
      destruct (w_fs w path) as [data|] eqn:Hf.
      * destruct (multi_create_fmt _ _ _ _ _); [|discriminate]. cbn [bind] in E. destruct (create_runner _ _ _ _); discriminate.
      * injection E as <- <-. exists 0%nat. split; [cbn; lia|]. split; [lia|]. split; [lia|]. split; [lia|].
        do 4 (split; [auto; fail|]). exists (c_args c). auto.
  - cbn [create_universe] in E. destruct (prepare_cases path c) as [[_ P]|(X & _)]; [|contradiction]. rewrite P, Nf in E.
    injection E as <- <-. exists 0%nat. split; [cbn; lia|]. split; [lia|]. split; [lia|]. split; [lia|].
    do 4 (split; [auto; fail|]). exists (c_args c). auto.
  - cbn [create_universe] in E. destruct (prepare_cases path c) as [[_ P]|(X & _)]; [|contradiction]. rewrite P, Hd in E.
    rewrite split_sep in E.
    2:{ destruct Fe; [congruence|discriminate]. }
    2:{ clear - Fe. induction Fe; constructor; [eapply Line_no10; eassumption|assumption]. }
    fold (create_universe d F) in E. clear P Hd Ne L Fx. set (dir := parent_path path) in *. clearbody dir.
    remember (w_fs w) as fs eqn:Hfs. symmetry in Hfs. revert ps Ea w r w' Hfs E.
    induction Fe as [|e l es ls Oe Fe IHe]; intros ps Ea w r w' Hfs E; inversion Ea; subst.
    + cbn in E. injection E as <- <-. apply Outcome_none.
    + cbn [fmv_lines] in E. rewrite <- (app_nil_r l), (Line_run dir e l [] c Oe (Forall_nil _)) in E.
      cbn [after_blanks] in E. rewrite app_nil_r in E.
      destruct (create_universe d F _ _ w) as [[r1 w1]|er] eqn:E1; [|discriminate]. cbn [bind fst snd] in E.
      apply IH with (ps := ps0) in E1; [|exact Hov|assumption]. apply Outcome_cfg in E1.
      destruct r1 as [|p1].
      * apply (Outcome_go _ _ _ _ w1 _ _ E1). apply IHe; [assumption| |exact E].
        destruct E1 as (n & _ & _ & _ & _ & _ & _ & Fs & _). congruence.
      * injection E as <- <-. apply Outcome_stop, E1.
Qed.
Print Assumptions C109_nested.

(** *** Cases *)
Definition files (l : list (bytes * bytes)) (p : bytes) : option bytes :=
  match find (fun x => streq (fst x) p) l with Some x => Some (snd x) | None => None end.
Definition C109_entries : list entry :=
  [{| e_name := lit "a.bf"; e_args := [] |};
   {| e_name := lit "/x/b.b98"; e_args := [lit "-q"; lit "7"] |};
   {| e_name := lit "a.bf"; e_args := [lit "z"] |}].
Definition C109_world : world :=
  world0 [] (files [(lit "d/l.fmv", fmv_text C109_entries); (lit "d/a.bf", lit "1.@"); (lit "/x/b.b98", lit "v" ++ [10] ++ lit "@")])
         (fun _ => 0).
Definition C109_cfg : cfg := set_c_args [lit "d/l.fmv"] cfg_default.
Example C109_case :
  fmv_text C109_entries = lit "a.bf" ++ [10] ++ lit "/x/b.b98 -q 7" ++ [10] ++ lit "a.bf z" /\
  Forall Entry_ok C109_entries /\ extension (lit "d/l.fmv") = lit ".fmv" /\
  Forall (fun e => extension (entry_path (parent_path (lit "d/l.fmv")) e) <> lit ".fmv") C109_entries /\
  Z.testbit (c_mode C109_cfg) MODE_HOVER = false /\
  match create_universe 2 10 (lit "d/l.fmv") C109_cfg C109_world with
  | Ok (Started, w) =>
      w_nuni w = 3%nat /\ map (fun n => u_queue (w_uni w n)) [0; 1; 2]%nat = [[0]; [1]; [2]] /\
      map (fun n => c_args (u_cfg (w_uni w n))) [0; 1; 2]%nat =
        [[lit "d/l.fmv"]; [lit "d/l.fmv"; lit "-q"; lit "7"]; [lit "d/l.fmv"; lit "z"]] /\
      map (fun n => c_name (u_cfg (w_uni w n))) [0; 1; 2]%nat = [lit "d/a.bf"; lit "/x/b.b98"; lit "d/a.bf.1"] /\
      map (fun n => f_get (u_field (w_uni w n)) [0; 1]) [0; 1; 2]%nat = [32; 64; 32]
  | _ => False
  end.
Proof.
  split; [reflexivity|]. split.
  - unfold C109_entries, Entry_ok, a_word.
    repeat (constructor; cbn [e_name e_args];
            [split; [split; [discriminate|repeat (constructor; [reflexivity|]); constructor]
                    |repeat (constructor; [split; [discriminate|repeat (constructor; [reflexivity|]); constructor]|]); constructor]|]).
    constructor.
  - split; [reflexivity|]. split; [|split; [reflexivity|vm_compute; repeat split]].
    unfold C109_entries. repeat (constructor; [vm_compute; discriminate|]). constructor.
Qed.

(** d/m.fmv lists d/l.fmv and d/c.bf, with tabs and blanks. *)
Definition C109_outer : list entry :=
  [{| e_name := lit "l.fmv"; e_args := [lit "k"] |}; {| e_name := lit "c.bf"; e_args := [] |}].
Definition C109_lines : list bytes := [[9] ++ lit "l.fmv  k"; lit " c.bf"].
Definition C109_world2 : world :=
  world0 [] (files [(lit "d/m.fmv", sep_by 10 C109_lines); (lit "d/l.fmv", fmv_text C109_entries); (lit "d/a.bf", lit "1.@"); (lit "d/c.bf", lit "2.@");
                    (lit "/x/b.b98", lit "v" ++ [10] ++ lit "@")]) (fun _ => 0).
Example C109_nested_case :
  Lists (w_fs C109_world2) (lit "d/m.fmv") []
    [(lit "d/a.bf", [lit "k"]); (lit "/x/b.b98", [lit "k"; lit "-q"; lit "7"]); (lit "d/a.bf", [lit "k"; lit "z"]); (lit "d/c.bf", [])] /\
  match create_universe 3 10 (lit "d/m.fmv") cfg_default C109_world2 with
  | Ok (Started, w) => w_nuni w = 4%nat /\
      map (fun n => c_args (u_cfg (w_uni w n))) [0; 1; 2; 3]%nat = [[lit "k"]; [lit "k"; lit "-q"; lit "7"]; [lit "k"; lit "z"]; []]
  | _ => False
  end.
Proof.
  split; [|vm_compute; repeat split].
  assert (O2 : Forall Entry_ok C109_entries).
  { unfold C109_entries, Entry_ok, a_word.
    repeat (constructor; cbn [e_name e_args];
            [split; [split; [discriminate|repeat (constructor; [reflexivity|]); constructor]
                    |repeat (constructor; [split; [discriminate|repeat (constructor; [reflexivity|]); constructor]|]); constructor]|]);
    constructor. }
  assert (O1 : Forall2 Line C109_outer C109_lines).
  { assert (Wd : forall x, forallb (fun c => negb (isspace c)) x = true -> x <> [] -> a_word x).
    { intros x F N. split; [exact N|]. rewrite forallb_forall in F. apply Forall_forall. intros c I. apply negb_true_iff, F, I. }
    assert (Bl : forall x, forallb (fun c => isspace c && negb (c =? 10)) x = true -> blanks x).
    { intros x F. rewrite forallb_forall in F. apply Forall_forall. intros c I. specialize (F c I).
      apply andb_true_iff in F. destruct F as [F G]. split; [exact F|]. intros ->. discriminate. }
    constructor; [|constructor; [|constructor]].
    - exists [9], (lit "  k"). split; [now apply Bl|]. split; [apply Wd; [reflexivity|discriminate]|]. split; [|reflexivity].
      apply (Spread_cons (lit "  ") (lit "k") [] []); [discriminate|now apply Bl|apply Wd; [reflexivity|discriminate]|constructor].
    - exists [32], []. split; [now apply Bl|]. split; [apply Wd; [reflexivity|discriminate]|]. split; [constructor|reflexivity]. }
  apply Lists_file with (es := C109_outer) (ls := C109_lines); [reflexivity|discriminate|exact O1|reflexivity|].
  change (parent_path (lit "d/m.fmv")) with (lit "d"). unfold C109_outer.
  change [(lit "d/a.bf", [lit "k"]); (lit "/x/b.b98", [lit "k"; lit "-q"; lit "7"]); (lit "d/a.bf", [lit "k"; lit "z"]); (lit "d/c.bf", [])]
    with ([(lit "d/a.bf", [lit "k"]); (lit "/x/b.b98", [lit "k"; lit "-q"; lit "7"]); (lit "d/a.bf", [lit "k"; lit "z"])] ++ [(lit "d/c.bf", [])] ++ []).
  apply Each_cons; [|apply Each_cons; [apply Lists_program; vm_compute; discriminate|apply Each_nil]].
  apply Lists_file with (es := C109_entries) (ls := map entry_line C109_entries); [reflexivity|discriminate| |reflexivity|].
  { clear - O2. induction O2; constructor; [now apply entry_Line|assumption]. }
  apply (Each_cons _ _ _ _ _ [(lit "d/a.bf", [lit "k"])]); [apply Lists_program; vm_compute; discriminate|].
  apply (Each_cons _ _ _ _ _ [(lit "/x/b.b98", [lit "k"; lit "-q"; lit "7"])]); [apply Lists_program; vm_compute; discriminate|].
  apply (Each_cons _ _ _ _ _ [(lit "d/a.bf", [lit "k"; lit "z"])]); [apply Lists_program; vm_compute; discriminate|apply Each_nil].
Qed.

(** A .fmv file whose last line ends with a newline, as text files do, also asks for the
    directory itself: although every program listed can be started, starting fails. *)
Theorem C109_newline_refuted :
  exists path text w, extension path = lit ".fmv" /\ w_fs w path = Some (text ++ [10]) /\
    (exists w', create_universe 2 10 path cfg_default
                  (set_w_fs (fun p => if streq p path then Some text else w_fs w p) w) = Ok (Started, w')) /\
    (exists w', create_universe 2 10 path cfg_default w = Ok (NoFile (lit "d/"), w')).
Proof.
  exists (lit "d/l.fmv"), (lit "a.bf"),
    (world0 [] (files [(lit "d/l.fmv", lit "a.bf" ++ [10]); (lit "d/a.bf", lit "@")]) (fun _ => 0)).
  split; [reflexivity|]. split; [reflexivity|]. split; eexists; vm_compute; reflexivity.
Qed.
Print Assumptions C109_newline_refuted.

(** White space at the end of a line, such as the carriage return of text files from
    other systems, passes one more argument, an empty one. *)
Theorem C109_blank_refuted :
  (forall dir e l z c, Line e l -> blanks z -> z <> [] ->
     fmv_line dir (l ++ z) c = (entry_path dir e, set_c_args (c_args c ++ e_args e ++ [[]]) c)) /\
  exists w w', w_fs w (lit "d/l.fmv") = Some (lit "a.bf x" ++ [13; 10] ++ lit "b.bf") /\
    create_universe 2 10 (lit "d/l.fmv") cfg_default w = Ok (Started, w') /\
    c_args (u_cfg (w_uni w' 0%nat)) = [lit "x"; []] /\ c_args (u_cfg (w_uni w' 1%nat)) = [].
Proof.
  split.
  - intros dir e l z c L Z N. rewrite (Line_run _ _ _ _ _ L Z). destruct z; [congruence|reflexivity].
  - exists (world0 [] (files [(lit "d/l.fmv", lit "a.bf x" ++ [13; 10] ++ lit "b.bf"); (lit "d/a.bf", lit "@"); (lit "d/b.bf", lit "@")])
              (fun _ => 0)).
    eexists. split; [reflexivity|]. split; [vm_compute; reflexivity|]. split; vm_compute; reflexivity.
Qed.
Print Assumptions C109_blank_refuted.

(** A .fmv file in the current directory, named without a directory, has its programs
    looked up in the root directory. *)
Theorem C109_here_refuted :
  exists w, w_fs w (lit "l.fmv") = Some (lit "a.bf") /\ w_fs w (lit "a.bf") <> None /\
    create_universe 2 10 (lit "l.fmv") cfg_default w = Ok (NoFile (lit "/a.bf"), w).
Proof.
  exists (world0 [] (files [(lit "l.fmv", lit "a.bf"); (lit "a.bf", lit "@")]) (fun _ => 0)).
  split; [reflexivity|]. split; [vm_compute; discriminate|vm_compute; reflexivity].
Qed.
Print Assumptions C109_here_refuted.

(** A .fmv file that lists itself never finishes starting, whatever nesting is allowed. *)
Theorem C109_self_refuted : forall d F c,
  create_universe d F (lit "d/l.fmv") c (world0 [] (files [(lit "d/l.fmv", lit "l.fmv")]) (fun _ => 0)) = Bad BadFuel.
Proof.
  intros d F. induction d as [|d IH]; intros c; [reflexivity|]. cbn [create_universe].
  change (prepare (lit "d/l.fmv") c) with (PFmv c). cbv iota.
  change (w_fs (world0 [] (files [(lit "d/l.fmv", lit "l.fmv")]) (fun _ => 0)) (lit "d/l.fmv")) with (Some (lit "l.fmv")).
  cbv iota. change (split_at 10 (lit "l.fmv") []) with [lit "l.fmv"].
  change (parent_path (lit "d/l.fmv")) with (lit "d"). cbn [fmv_lines].
  change (fmv_line (lit "d") (lit "l.fmv") c) with (lit "d/l.fmv", set_c_args (c_args c ++ []) c).
  cbv iota beta. rewrite IH. reflexivity.
Qed.
Print Assumptions C109_self_refuted.

(** What a text program looks like once loaded: its characters at column and line. *)
Theorem C109_text : forall data dims char, textual data -> Z.of_nat (length data) <= INT64_MAX ->
  exists f, field_load FmtBf data dims char = Ok f /\
    (forall x y p c, vget p 0 = Z.of_nat x -> vget p 1 = Z.of_nat y -> (forall i, (2 <= i)%nat -> vget p i = 0) ->
       char_at data x y = Some c -> c <> 32 -> f_get f p = (if char then to_i8 c else c)) /\
    (forall p, (forall x y c, vget p 0 = Z.of_nat x -> vget p 1 = Z.of_nat y ->
                  (forall i, (2 <= i)%nat -> vget p i = 0) -> char_at data x y = Some c -> c = 32) ->
       f_get f p = 32).
Proof.
  intros data dims char T L.
  destruct (f_parse_text (mkvec [0]) data (field_empty dims char) T) as (d & f & E & A & B & _).
  - intros i. rewrite vget_mkvec. unfold in64, INT64_MIN, INT64_MAX. destruct i as [|[|i]]; cbn; lia.
  - exact L.
  - rewrite vget_mkvec. cbn. exact L.
  - rewrite vget_mkvec. cbn. exact L.
  - assert (Z0 : forall i, vget (mkvec [0]) i = 0) by (intros i; rewrite vget_mkvec; destruct i as [|[|i]]; reflexivity).
    assert (At : forall x y p, vget p 0 = x -> vget p 1 = y -> (forall i, (2 <= i)%nat -> vget p i = 0) -> at_xy (mkvec [0]) x y p).
    { intros x y p X Y W. unfold at_xy. rewrite !Z0. split; [lia|]. split; [lia|]. intros i Hi. rewrite Z0. auto. }
    unfold field_load. rewrite E. cbn [bind snd]. eexists. split; [reflexivity|].
    assert (G : forall p, f_get (match dims with O => f_setdims (length (f_maxs f)) f | S _ => f end) p = f_get f p)
      by (intros p; destruct dims; reflexivity).
    split.
    + intros x y p c X Y W C N. rewrite G. exact (A x y p c (At _ _ p X Y W) C N).
    + intros p H. rewrite G, B.
      * unfold f_get. cbn. destruct char; reflexivity.
      * intros x y c (X & Y & W) C. rewrite !Z0 in X, Y. cbn [Z.add] in X, Y. apply (H x y c); auto.
        intros i Hi. rewrite W by exact Hi. apply Z0.
Qed.
Print Assumptions C109_text.
