(** * Properties C31 and C41 to C44: the instruction set and fingerprints *)

From Coq Require Import String Ascii ZArith List Bool Lia.
From Verif Require Import Base BaseProofs VectorModel TextModel RangeModel StackModel FieldModel
  World IpModel LoadModel FingModel CoreModel UniModel ExecProofs FlowProofs States Effects SchedProofs CoreProofs.
Import ListNotations.
Open Scope Z_scope.

(** ** C31 The instruction set is the documented one *)

(** Specification: the characters of doc/notes.txt, and space and tab. *)
Definition chars (s : string) : list Z :=
  map (fun a => Z.of_nat (nat_of_ascii a)) (list_ascii_of_string s).
Definition doc_u93 : list Z := 32 :: 9 :: chars "!""#$%&*+,-./0123456789:<>?@\_`gp~".
Definition doc_b93 : list Z := chars "^v|".
Definition doc_u98 : list Z := chars "'();=abcdefijknoqrstuxyz{}".
Definition doc_b98 : list Z := chars "[]w".
Definition doc_t98 : list Z := chars "hlm".
Definition documented (std : Z) (dims : nat) : list Z :=
  doc_u93 ++ (if Nat.leb 2 dims then doc_b93 else []) ++
  (if std =? 98 then
     doc_u98 ++ (if Nat.leb 2 dims then doc_b98 else []) ++ (if Nat.leb 3 dims then doc_t98 else [])
   else []).

Lemma sem_pushes_bound l i : forall f, sem_pushes l f i <> [] <-> In i (map fst l) \/ f i <> [].
Proof.
  induction l as [|e l IH]; intros f; cbn [map In]; [tauto|].
  unfold sem_pushes in *. cbn [fold_left]. rewrite IH. unfold sem_push.
  destruct (Z.eqb_spec i (fst e)); [|intuition congruence].
  split; [intros _; left; left; now symmetry|]. intros _. right. discriminate.
Qed.
Lemma strat_sem_from_bound l i : forall f,
  fold_left (fun f s => sem_pushes (strat_table s) f) l f i <> [] <->
  In i (flat_map (fun s => map fst (strat_table s)) l) \/ f i <> [].
Proof.
  induction l as [|s l IH]; intros f; cbn [fold_left flat_map]; [cbn; tauto|].
  rewrite IH, sem_pushes_bound, in_app_iff. tauto.
Qed.
Lemma strat_sem_bound l i : strat_sem l i <> [] <-> In i (flat_map (fun s => map fst (strat_table s)) l).
Proof. unfold strat_sem. rewrite strat_sem_from_bound. tauto. Qed.
Lemma sem_top_bound i f : sem_top i f <> None <-> f i <> [].
Proof. unfold sem_top. destruct (f i); cbn; split; congruence. Qed.

(** The strategies of a standard in the three cases of the dimension. *)
Lemma incl_dec (a b : list Z) : forallb (fun x => existsb (Z.eqb x) b) a = true -> incl a b.
Proof.
  intros H x I. rewrite forallb_forall in H. specialize (H x I). apply existsb_exists in H.
  destruct H as (y & Y & E). apply Z.eqb_eq in E. now subst.
Qed.
Lemma documented_keys std dims i : std = 93 \/ std = 98 -> (1 <= dims)%nat ->
  (strat_sem (strats_of std dims) i <> [] <-> In i (documented std dims)).
Proof.
  intros S D. rewrite strat_sem_bound.
  set (a := flat_map (fun s => map fst (strat_table s)) (strats_of std dims)).
  enough (H : incl a (documented std dims) /\ incl (documented std dims) a) by (destruct H; split; auto).
  subst a. destruct dims as [|[|[|d]]]; [lia| | |]; destruct S as [-> | ->];
    split; apply incl_dec; vm_compute; reflexivity.
Qed.
Lemma documented_meaning std dims i : std = 93 \/ std = 98 -> (1 <= dims)%nat ->
  In i (documented std dims) -> sem_top i (strat_sem (strats_of std dims)) = std_sem i.
Proof.
  intros S D.
  enough (H : Forall (fun i => sem_top i (strat_sem (strats_of std dims)) = std_sem i) (documented std dims)).
  { intros I. rewrite Forall_forall in H. now apply H. }
  destruct dims as [|[|[|d]]]; [lia| | |]; destruct S as [-> | ->]; vm_compute;
    repeat (apply Forall_cons; [reflexivity|]); apply Forall_nil.
Qed.

(** A newly created IP in a universe of standard 93 or 98 with [dims] dimensions:
    a character that is not an upper-case letter has a meaning exactly if it is
    documented, and then it is the one of the standard; an upper-case letter has
    none unless fingerprints were asked for on the command line. *)
Lemma fp_loads_nil fl r r' : fp_loads fl [] r = Ok r' -> r' = r.
Proof. cbn. congruence. Qed.
Lemma strat_keys_no_letter s : forallb (fun e => negb (is_letter (fst e))) (strat_table s) = true.
Proof. destruct s; vm_compute; reflexivity. Qed.
Lemma strats_no_letters fl l : forall r r', strats_construct fl [] l r = Ok r' ->
  forall i, is_letter i = true -> r_sem r' i = r_sem r i.
Proof.
  assert (P : forall t i f, is_letter i = true -> forallb (fun e => negb (is_letter (fst e))) t = true ->
    sem_pushes t f i = f i).
  { induction t as [|e t IH]; intros i f L H; [reflexivity|]. cbn [forallb] in H. apply andb_prop in H.
    destruct H as (H1 & H2). unfold sem_pushes in *. cbn [fold_left]. rewrite IH by auto. unfold sem_push.
    destruct (Z.eqb_spec i (fst e)); [subst; rewrite L in H1; discriminate|reflexivity]. }
  induction l as [|s l IH]; intros r r' E i L; cbn [strats_construct] in E; [congruence|].
  destruct (strat_construct fl [] s r) as [r1|e] eqn:Es; [|discriminate]. cbn [bind] in E.
  rewrite (IH _ _ E i L). pose proof (strat_keys_no_letter s) as K.
  assert (X : r_sem r1 i = sem_pushes (strat_table s) (r_sem r) i).
  { destruct s; cbn [strat_construct fp_loads bind] in Es; inversion Es; subst r1; reflexivity. }
  rewrite X. now apply P.
Qed.
Theorem C31_fresh : forall fl id n u p d r std dims,
  runner_new fl id n u p d = Ok r ->
  c_std (u_cfg u) = std -> c_dims (u_cfg u) = dims -> std = 93 \/ std = 98 -> (1 <= dims)%nat ->
  (forall i, is_letter i = false ->
     (sem_top i (r_sem r) <> None <-> In i (documented std dims)) /\
     (In i (documented std dims) -> sem_top i (r_sem r) = std_sem i)) /\
  (c_fings (u_cfg u) = [] -> forall i, is_letter i = true -> sem_top i (r_sem r) = None).
Proof.
  intros fl id n u p d r std dims E ES ED S D. split.
  - intros i L. destruct (runner_new_core _ _ _ _ _ _ _ E) as (_ & C). specialize (C i L).
    rewrite ES, ED in C. unfold sem_top. rewrite C. split; [|intros I; exact (documented_meaning _ _ _ S D I)].
    rewrite <- (documented_keys std dims i S D). apply (sem_top_bound i (strat_sem (strats_of std dims))).
  - intros N i L. unfold runner_new in E. destruct (_ || _) in E; [discriminate|]. cbv zeta in E. rewrite N in E.
    destruct (strats_construct _ _ _ _) as [r1|e] eqn:Es; [|discriminate]. cbn [bind] in E.
    pose proof (strats_no_letters _ _ _ _ Es i L) as Q. cbn in Q.
    match type of E with bind ?x _ = _ => destruct x as [d'|e]; [|discriminate] end. cbn [bind] in E.
    inversion E; subst r. unfold sem_top. cbn [r_sem run_setmode set_r_ss].
    replace (r_sem (observe_delta d' (set_r_delta d' (set_r_pos p r1)))) with (r_sem r1).
    + now rewrite Q.
    + unfold observe_delta. destruct (r_fish _) as [[]|]; [destruct (_ && _)|]; reflexivity.
Qed.

(** The same at any moment of any run, whatever universes and IPs the program
    creates and whatever fingerprints it loads: an IP that is alive has for every
    character but the upper-case letters exactly the documented meanings. *)
Theorem C31_always : forall F D data c input fs rnd w0 sched w id r std dims,
  boot F data c (world0 input fs rnd) = Ok w0 -> uni_run F D sched w0 = Ok w ->
  c_std c = std -> c_dims (u_cfg (w_uni w0 0)) = dims -> std = 93 \/ std = 98 -> (1 <= dims)%nat ->
  w_run w id = Some r ->
  forall i, is_letter i = false ->
    (sem_top i (r_sem r) <> None <-> In i (documented std dims)) /\
    (In i (documented std dims) -> sem_top i (r_sem r) = std_sem i).
Proof.
  intros F D data c input fs rnd w0 sched w id r std dims B E ES ED S Dm R i L.
  pose proof (boot_cores _ _ _ _ _ B (fun _ => eq_refl)) as C. cbn [w_nuni world0] in C. rewrite ES, ED in C.
  destruct (run_cores _ _ _ _ _ _ E C _ _ R) as (_ & X). unfold sem_top. rewrite (X i L).
  split; [|intros I; exact (documented_meaning _ _ _ S Dm I)].
  rewrite <- (documented_keys std dims i S Dm). apply (sem_top_bound i (strat_sem (strats_of std dims))).
Qed.
Example C31_ex : let s := start98 3 (chars "12+.@") [] in
  c_dims (u_cfg (w_uni (s_w s) 0)) = 3%nat /\ c_std (u_cfg (w_uni (s_w s) 0)) = 98 /\
  length (documented 98 3) = 70%nat /\ sem_top 104 (r_sem (s_r s)) <> None /\
  sem_top 94 (r_sem (s_r s)) <> None /\ sem_top 200 (r_sem (s_r s)) = None /\ sem_top 65 (r_sem (s_r s)) = None.
Proof. vm_compute. repeat split; try discriminate. Qed.
Print Assumptions C31_fresh.
Print Assumptions C31_always.

(** ** C41 Loading a fingerprint shadows, unloading restores *)

(** Specification: the fingerprints and their instructions (README.md and the
    sources in src/fingerprint). *)
Definition fingerprints : list (string * string) :=
  [("BASE", "BHINO"); ("BITW", "ALNORX"); ("BOOL", "ANOX"); ("CPLI", "ADMOSV"); ("DBUG", "ABDEW");
   ("DIRF", "CMR"); ("FING", "XYZ"); ("FISH", "CDFHILMNORSTUV"); ("FIXP", "ABCDIJNOPQRSTUVX");
   ("FPDP", "ABCDEFGHIKLMNPQRSTVXY"); ("FPRT", "DFILS"); ("FPSP", "ABCDEFGHIKLMNPQRSTVXY");
   ("FRTH", "DLOPR"); ("HRTI", "EGMST"); ("IIPC", "ADGILP"); ("JSTR", "GP"); ("LONG", "ABDELMNOPRSZ");
   ("MODE", "HIQS"); ("MVRS", "BCFGJNP"); ("NFUN", "ABCDHILMRVXYZ"); ("ORTH", "AEGOPSVWXYZ");
   ("PERL", "EIS"); ("REFC", "DR"); ("STRN", "ACDFGILMNPRSV"); ("SUBR", "ACJOR");
   ("TOYS", "ABCDEFGHIJKLMNOPQRSTUVWXYZ")]%string.
(** The number of a name: its bytes, most significant first. *)
Definition number (name : list Z) : Z := fold_left (fun a x => to_u64 (a * 256 + x)) name 0.
(** The meaning "instruction [i] of fingerprint [n]". *)
Definition Means (n i : Z) (x : sem) : Prop := exists fld, sm_act x = AFing n fld i.

(** The model's table is the specified one. *)
Lemma fp_letters_spec name letters : In (name, letters) fingerprints ->
  exists l, fp_letters (number (chars name)) = Some l /\ NoDup l /\ forall i, In i l <-> In i (chars letters).
Proof.
  intros H.
  assert (K : Forall (fun e => exists l, fp_letters (number (chars (fst e))) = Some l /\ NoDup l /\
    forall i, In i l <-> In i (chars (snd e))) fingerprints).
  { assert (X : forall l, nodup Z.eq_dec l = l -> NoDup l) by (intros l <-; apply NoDup_nodup).
    assert (Y : forall a b, forallb (fun x => existsb (Z.eqb x) b) a = true ->
      forallb (fun x => existsb (Z.eqb x) a) b = true -> forall i : Z, In i a <-> In i b).
    { intros a b H1 H2 i. apply incl_dec in H1, H2. split; auto. }
    unfold fingerprints.
    repeat (apply Forall_cons;
      [eexists; split; [vm_compute; reflexivity|split; [apply X; vm_compute; reflexivity|
        apply Y; vm_compute; reflexivity]]|]).
    apply Forall_nil. }
  rewrite Forall_forall in K. exact (K _ H).
Qed.
Lemma fp_letters_nodup n l : fp_letters n = Some l -> NoDup l.
Proof.
  assert (H : forall bs, forallb (fun e => if list_eq_dec Z.eq_dec (nodup Z.eq_dec (snd e)) (snd e) then true else false) bs = true ->
    assoc n bs = Some l -> NoDup l).
  { induction bs as [|[m x] bs IH]; cbn [assoc forallb snd]; intros B E; [discriminate|].
    apply andb_prop in B. destruct B as (B1 & B2). destruct (m =? n); [|now apply IH].
    inversion E; subst. destruct (list_eq_dec Z.eq_dec (nodup Z.eq_dec l) l) as [e|]; [|discriminate].
    rewrite <- e. apply NoDup_nodup. }
  apply H. vm_compute. reflexivity.
Qed.

Lemma sem_pushes_notin l i : ~ In i (map fst l) -> forall f, sem_pushes l f i = f i.
Proof.
  induction l as [|e l IH]; intros H f; [reflexivity|]. unfold sem_pushes in *. cbn [fold_left map In] in *.
  rewrite IH by tauto. unfold sem_push. destruct (Z.eqb_spec i (fst e)); [exfalso; apply H; left; congruence|reflexivity].
Qed.
Lemma sem_pushes_in l i x : NoDup (map fst l) -> In (i, x) l -> forall f, sem_pushes l f i = x :: f i.
Proof.
  induction l as [|e l IH]; intros N H f; [destruct H|]. cbn [map] in N. inversion N as [|? ? N1 N2]; subst.
  unfold sem_pushes in *. cbn [fold_left]. destruct H as [-> |H].
  - cbn [fst snd] in *. pose proof (sem_pushes_notin l i N1) as Q. unfold sem_pushes in Q. rewrite Q.
    unfold sem_push. now rewrite Z.eqb_refl.
  - rewrite IH by auto. f_equal. unfold sem_push. destruct (Z.eqb_spec i (fst e)); [|reflexivity].
    exfalso. apply N1. subst. apply in_map_iff. exists (fst e, x). auto.
Qed.
Lemma activate_in n fld f i l : n <> FP_DBUG -> fp_letters n = Some l -> In i l ->
  fp_activate n fld f i = {| sm_act := AFing n fld i; sm_move := fp_move n i |} :: f i.
Proof.
  intros N E I. unfold fp_activate. destruct (Z.eqb_spec n FP_DBUG); [contradiction|]. rewrite E.
  apply sem_pushes_in.
  - rewrite map_map. cbn [fst]. rewrite map_id. eapply fp_letters_nodup; eauto.
  - apply in_map_iff. eauto.
Qed.
Lemma activate_notin n fld f i l : fp_letters n = Some l -> ~ In i l -> fp_activate n fld f i = f i.
Proof.
  intros E I. unfold fp_activate. destruct (Z.eqb_spec n FP_DBUG); [reflexivity|]. rewrite E.
  apply sem_pushes_notin. rewrite map_map. cbn [fst]. now rewrite map_id.
Qed.
Lemma pops_notin l i : ~ In i l -> forall f, fold_left (fun t c => sem_pop c t) l f i = f i.
Proof.
  induction l as [|e l IH]; intros H f; [reflexivity|]. cbn [fold_left In] in *.
  rewrite IH by tauto. unfold sem_pop. destruct (Z.eqb_spec i e); [exfalso; apply H; left; congruence|reflexivity].
Qed.
Lemma pops_in l i : NoDup l -> In i l -> forall f, fold_left (fun t c => sem_pop c t) l f i = tl (f i).
Proof.
  induction l as [|e l IH]; intros N H f; [destruct H|]. inversion N as [|? ? N1 N2]; subst. cbn [fold_left].
  destruct H as [-> |H].
  - rewrite pops_notin by auto. unfold sem_pop. now rewrite Z.eqb_refl.
  - rewrite IH by auto. f_equal. unfold sem_pop. destruct (Z.eqb_spec i e); [congruence|reflexivity].
Qed.
Lemma assoc_app {A} n (l1 l2 : list (Z * A)) :
  assoc n (l1 ++ l2) = match assoc n l1 with Some x => Some x | None => assoc n l2 end.
Proof.
  induction l1 as [|[m x] l1 IH]; [reflexivity|]. cbn [app assoc]. destruct (m =? n); auto.
Qed.
(** What loading does to an IP. *)
Lemma load_effect fl n r r' : fp_load fl n r = Ok (true, r') ->
  exists fld, assoc n (r_avail r') = Some fld /\ (assoc n (r_avail r) = None -> fld = r_uni r) /\
    (forall m, m <> n -> assoc m (r_avail r') = assoc m (r_avail r)) /\
    (forall i, r_sem r' i = fp_activate n fld (r_sem r) i) /\ r_loaded r' = r_loaded r ++ [n] /\
    r_strats r' = r_strats r /\ r_uni r' = r_uni r.
Proof.
  intros E. unfold fp_load in E. destruct (assoc n (r_avail r)) as [fld|] eqn:A.
  - inversion E; subst. exists fld. cbn. repeat split; auto. congruence.
  - destruct (fl n); [discriminate|]. destruct (fp_letters n) as [l|]; [|discriminate].
    assert (E2 : r' = snd (true, r')) by reflexivity.
    set (r1 := fp_construct n r) in *.
    assert (K : r_avail r1 = r_avail r /\ r_sem r1 = r_sem r /\ r_loaded r1 = r_loaded r /\ r_strats r1 = r_strats r /\
                r_uni r1 = r_uni r).
    { subst r1. unfold fp_construct. repeat match goal with |- context [if ?b then _ else _] => destruct b end; repeat split. }
    destruct K as (K1 & K2 & K3 & K4 & K5). inversion E; subst r'. clear E E2. exists (r_uni r).
    cbn [r_avail r_sem r_loaded r_strats r_uni set_r_sem set_r_loaded set_r_avail].
    rewrite K1, K2, K3, K4, K5. repeat split.
    + rewrite assoc_app, A. cbn. now rewrite Z.eqb_refl.
    + intros m M. rewrite assoc_app. destruct (assoc m (r_avail r)); [reflexivity|]. cbn.
      destruct (Z.eqb_spec n m); [congruence|reflexivity].
Qed.
Lemma unload_effect n r r' : fp_unload n r = (true, r') ->
  exists l, fp_letters n = Some l /\ (forall i, r_sem r' i = if in_dec Z.eq_dec i l then tl (r_sem r i) else r_sem r i) /\
    r_avail r' = r_avail r /\ r_loaded r' = erase_last n (r_loaded r) /\ r_strats r' = r_strats r /\ r_uni r' = r_uni r.
Proof.
  unfold fp_unload. intros E. destruct (assoc n (r_avail r)); [|discriminate].
  destruct (fp_letters n) as [l|] eqn:L; [|discriminate]. inversion E; subst. exists l.
  cbn [r_avail r_sem r_loaded r_strats r_uni set_r_sem set_r_loaded]. repeat split.
  intros i. destruct (in_dec Z.eq_dec i l) as [I|I]; [apply pops_in; auto; eapply fp_letters_nodup; eauto|now apply pops_notin].
Qed.

(** The cells popped for a name. *)
Lemma popFing_name name : forall acc s l, Holds s (name ++ l) ->
  exists s', popFing (length name) acc s = Ok (fold_left (fun a x => to_u64 (a * 256 + x)) name acc, s') /\ Only_stack s s' l.
Proof.
  induction name as [|x name IH]; intros acc s l H; cbn [length popFing fold_left app] in *.
  - exists s. split; [reflexivity|]. now apply Only_stack_refl.
  - xpop. cbn [hd tl] in *. destruct (IH (to_u64 (acc * 256 + x)) s0 l H0) as (s' & E' & C').
    exists s'. split; auto. exact (Only_stack_trans _ _ _ _ _ C C').
Qed.

(** [r'] is [r] but for its stacks. *)
Lemma only_stack_sem s s' l : Only_stack s s' l -> r_sem (s_r s') = r_sem (s_r s) /\ r_avail (s_r s') = r_avail (s_r s) /\
  r_loaded (s_r s') = r_loaded (s_r s) /\ r_uni (s_r s') = r_uni (s_r s).
Proof. intros (k & k' & _ & _ & _ & ->). repeat split. Qed.
Lemma holds_modR s l r' : Holds s l -> r_ss r' = r_ss (s_r s) -> Holds {| s_w := s_w s; s_r := r' |} l.
Proof. intros (k & E & P & L) H. exists k. unfold mySS in *. cbn [s_r]. rewrite H. auto. Qed.
Lemma load_ss fl n r br : fp_load fl n r = Ok br -> r_ss (snd br) = r_ss r.
Proof. intros E. destruct (same_place_load _ _ _ _ E) as (_ & _ & _ & _ & H). exact H. Qed.

Lemma to_nat_len {A} (l : list A) : Z.to_nat (Z.of_nat (length l)) = length l.
Proof. apply Nat2Z.id. Qed.

(** The [(] instruction: with the name and its length on the stack, in a universe
    that allows fingerprints and has no funge-lib file of that name. *)
Lemma load_run F D s name l : Normal s 40 -> Holds s (Z.of_nat (length name) :: name ++ l) ->
  c_fing (my_cfg s) = true -> testmode MODE_SWITCH (w_uni (s_w s) (r_uni (s_r s))) = false ->
  forall r', fp_load (w_fl (s_w s)) (number name) (s_r s) = Ok (true, r') ->
  exists s', execute F (S D) 40 s = Ok (ENone, s') /\ Holds s' (1 :: to_i64 (number name) :: l) /\
    s_w s' = s_w s /\ s_r s' = set_r_ss (mySS s') r'.
Proof.
  intros HN H CF NS r' EL. rewrite (execute_normal F D _ s _ _ HN eq_refl). cbn [run_meth].
  unfold load_. unfold getC, mbind at 1, mbind at 1, getU, ret at 1. unfold my_cfg in CF. rewrite CF.
  unfold mbind at 1. xpop. cbn [hd tl] in *. rewrite to_nat_len.
  destruct (popFing_name name 0 s0 l H0) as (s1 & E1 & C1). rewrite (run_bind _ _ _ _ _ E1).
  fold (number name). unfold mbind at 1, getR at 1. unfold mbind at 1, getW at 1.
  pose proof (Only_stack_trans _ _ _ _ _ C C1) as C2. clear C C1 E E1.
  assert (H1 : Holds s1 l) by exact (Only_stack_holds s s1 _ _ H C2). clear H0 s0.
  destruct C2 as (k & k' & T & M & L & X). 
  assert (R1 : s_r s1 = set_r_ss (mySS s1) (s_r s)) by (subst s1; reflexivity).
  assert (W1 : s_w s1 = s_w s) by (subst s1; reflexivity). clear X.
  assert (EL1 : exists r1, fp_load (w_fl (s_w s1)) (number name) (s_r s1) = Ok (true, r1) /\ r1 = set_r_ss (mySS s1) r').
  { rewrite W1, R1. unfold fp_load in *. cbn [r_avail set_r_ss]. change (r_avail (set_r_ss (mySS s1) (s_r s))) with (r_avail (s_r s)).
    destruct (assoc (number name) (r_avail (s_r s))) as [fld|].
    - eexists. split; [reflexivity|]. inversion EL. reflexivity.
    - destruct (w_fl (s_w s) (number name)); [discriminate|]. destruct (fp_letters (number name)); [|discriminate].
      eexists. split; [reflexivity|]. inversion EL. unfold fp_construct.
      repeat match goal with |- context [if ?b then _ else _] => destruct b end; reflexivity. }
  destruct EL1 as (r1 & EL1 & ER). rewrite (run_bind (lift _) _ s1 (true, r1) s1) by (unfold lift; rewrite EL1; reflexivity).
  cbn [fst snd]. unfold mbind at 1. unfold modR at 1.
  set (s2 := {| s_w := s_w s1; s_r := r1 |}).
  assert (H2 : Holds s2 l). { apply (holds_modR s1); [exact H1|]. rewrite ER. reflexivity. }
  xpush. xpush. unfold ok, ret at 1.
  assert (K : Only_stack s2 s3 (1 :: to_i64 (number name) :: l)) by exact (Only_stack_trans _ _ _ _ _ C C0).
  exists s3. destruct (Only_stack_w _ _ _ K). pose proof (Only_stack_r _ _ _ K) as K2.
  split; [|split; [|split]].
  - unfold switchPut, isMode. unfold mbind at 1. unfold mbind at 1. unfold mbind at 1, getU, ret at 1.
    replace (testmode MODE_SWITCH (w_uni (s_w s3) (r_uni (s_r s3)))) with false; [reflexivity|].
    symmetry. rewrite <- NS. f_equal. rewrite (Only_stack_w _ _ _ K), K2. cbn [s2 s_w s_r r_uni set_r_ss].
    change (w_uni (s_w s1) (r_uni r1) = w_uni (s_w s) (r_uni (s_r s))).
    rewrite W1, ER. cbn [r_uni set_r_ss]. change (r_uni (set_r_ss (mySS s1) r')) with (r_uni r').
    destruct (load_effect _ _ _ _ EL) as (fld & _ & _ & _ & _ & _ & _ & ->). reflexivity.
  - exact H3.
  - rewrite (Only_stack_w _ _ _ K). exact W1.
  - rewrite K2. cbn [s2 s_r]. rewrite ER. reflexivity.
Qed.
(** The [)] instruction, whether the fingerprint is known or not. *)
Lemma unload_run F D s name l : Normal s 41 -> Holds s (Z.of_nat (length name) :: name ++ l) ->
  c_fing (my_cfg s) = true -> testmode MODE_SWITCH (w_uni (s_w s) (r_uni (s_r s))) = false ->
  forall b r', fp_unload (number name) (s_r s) = (b, r') ->
  exists s', execute F (S D) 41 s = Ok (if b then ENone else EUnspec, s') /\ Holds s' l /\
    s_w s' = s_w s /\ s_r s' = set_r_ss (mySS s') r'.
Proof.
  intros HN H CF NS b r' EL. rewrite (execute_normal F D _ s _ _ HN eq_refl). cbn [run_meth].
  unfold unload_. unfold getC, mbind at 1, mbind at 1, getU, ret at 1. unfold my_cfg in CF. rewrite CF.
  unfold mbind at 1. xpop. cbn [hd tl] in *. rewrite to_nat_len.
  destruct (popFing_name name 0 s0 l H0) as (s1 & E1 & C1). rewrite (run_bind _ _ _ _ _ E1).
  fold (number name). unfold mbind at 1, getR at 1.
  pose proof (Only_stack_trans _ _ _ _ _ C C1) as C2. clear C C1 E E1.
  assert (H1 : Holds s1 l) by exact (Only_stack_holds s s1 _ _ H C2). clear H0 s0.
  destruct C2 as (k & k' & T & M & L & X).
  assert (R1 : s_r s1 = set_r_ss (mySS s1) (s_r s)) by (subst s1; reflexivity).
  assert (W1 : s_w s1 = s_w s) by (subst s1; reflexivity). clear X.
  assert (EL1 : fp_unload (number name) (s_r s1) = (b, set_r_ss (mySS s1) r')).
  { rewrite R1. unfold fp_unload in *. change (r_avail (set_r_ss (mySS s1) (s_r s))) with (r_avail (s_r s)).
    destruct (assoc (number name) (r_avail (s_r s))), (fp_letters (number name)); inversion EL; reflexivity. }
  rewrite EL1. cbn [fst snd]. unfold mbind at 1. unfold modR at 1.
  set (s2 := {| s_w := s_w s1; s_r := set_r_ss (mySS s1) r' |}).
  assert (H2 : Holds s2 l). { apply (holds_modR s1); [exact H1|]. reflexivity. }
  assert (U : r_uni r' = r_uni (s_r s)).
  { pose proof (same_ip_unload (number name) (s_r s)) as (_ & U & _). rewrite EL in U. exact U. }
  assert (Q : (if b then ok else reterr EUnspec) s2 = Ok (if b then ENone else EUnspec, s2)) by (destruct b; reflexivity).
  rewrite Q. exists s2. split; [|split; [exact H2|split; [exact W1|reflexivity]]].
  unfold switchPut, isMode. unfold mbind at 1. unfold mbind at 1. unfold mbind at 1, getU, ret at 1.
  replace (testmode MODE_SWITCH (w_uni (s_w s2) (r_uni (s_r s2)))) with false; [destruct b; reflexivity|].
  symmetry. rewrite <- NS. f_equal. change (w_uni (s_w s1) (r_uni r') = w_uni (s_w s) (r_uni (s_r s))).
  now rewrite W1, U.
Qed.

(** The meanings of all characters in state [s]. *)
Definition meaning (s : st) (i : Z) : list sem := r_sem (s_r s) i.

(** Loading a built-in fingerprint [name] gives exactly its instructions a new
    meaning, on top of their previous ones. *)
Theorem C41_load_partial : forall F D s name letters l,
  In (name, letters) fingerprints -> name <> "DBUG"%string ->
  Normal s 40 -> Holds s (Z.of_nat (length (chars name)) :: chars name ++ l) ->
  c_fing (my_cfg s) = true -> testmode MODE_SWITCH (w_uni (s_w s) (r_uni (s_r s))) = false ->
  w_fl (s_w s) (number (chars name)) = false ->
  exists s', execute F (S D) 40 s = Ok (ENone, s') /\ s_w s' = s_w s /\
    Holds s' (1 :: to_i64 (number (chars name)) :: l) /\
    assoc (number (chars name)) (r_avail (s_r s')) <> None /\
    forall i, (In i (chars letters) -> exists x, Means (number (chars name)) i x /\ meaning s' i = x :: meaning s i) /\
              (~ In i (chars letters) -> meaning s' i = meaning s i).
Proof.
  intros F D s name letters l HI ND HN H CF NS FL.
  destruct (fp_letters_spec _ _ HI) as (ll & EL & _ & Iff).
  assert (DB : number (chars name) <> FP_DBUG).
  { clear -HI ND. cbn [fingerprints In] in HI.
    repeat (destruct HI as [HI|HI]; [inversion HI; subst; first [contradiction | vm_compute; discriminate]|]). destruct HI. }
  assert (X : exists r', fp_load (w_fl (s_w s)) (number (chars name)) (s_r s) = Ok (true, r')).
  { unfold fp_load. destruct (assoc _ (r_avail (s_r s))); [eauto|]. rewrite FL, EL. eauto. }
  destruct X as (r' & EX). destruct (load_run F D s (chars name) l HN H CF NS r' EX) as (s' & E & H' & W & R).
  destruct (load_effect _ _ _ _ EX) as (fld & A & _ & _ & Sm & _). exists s'.
  split; [exact E|]. split; [exact W|]. split; [exact H'|].
  assert (M : forall i, meaning s' i = fp_activate (number (chars name)) fld (r_sem (s_r s)) i).
  { intros i. unfold meaning. rewrite R. cbn [r_sem set_r_ss]. apply Sm. }
  split. { rewrite R. cbn [r_avail set_r_ss]. change (r_avail (set_r_ss (mySS s') r')) with (r_avail r'). rewrite A. discriminate. }
  intros i. split; intros I; rewrite M.
  - eexists. split; [|apply (activate_in _ _ _ _ _ DB EL); now apply Iff]. exists fld. reflexivity.
  - apply (activate_notin _ _ _ _ _ EL). now rewrite Iff.
Qed.

(** Unloading it removes the top meaning of exactly its instructions. *)
Theorem C41_unload : forall F D s name letters l,
  In (name, letters) fingerprints -> assoc (number (chars name)) (r_avail (s_r s)) <> None ->
  Normal s 41 -> Holds s (Z.of_nat (length (chars name)) :: chars name ++ l) ->
  c_fing (my_cfg s) = true -> testmode MODE_SWITCH (w_uni (s_w s) (r_uni (s_r s))) = false ->
  exists s', execute F (S D) 41 s = Ok (ENone, s') /\ s_w s' = s_w s /\ Holds s' l /\
    forall i, (In i (chars letters) -> meaning s' i = tl (meaning s i)) /\
              (~ In i (chars letters) -> meaning s' i = meaning s i).
Proof.
  intros F D s name letters l HI A HN H CF NS.
  destruct (fp_letters_spec _ _ HI) as (ll & EL & ND & Iff).
  assert (X : exists r', fp_unload (number (chars name)) (s_r s) = (true, r')).
  { unfold fp_unload. destruct (assoc _ (r_avail (s_r s))); [|congruence]. rewrite EL. eauto. }
  destruct X as (r' & EX). destruct (unload_run F D s (chars name) l HN H CF NS true r' EX) as (s' & E & H' & W & R).
  destruct (unload_effect _ _ _ EX) as (l2 & EL2 & Sm & _). rewrite EL in EL2. inversion EL2; subst l2. clear EL2.
  exists s'. split; [exact E|]. split; [exact W|]. split; [exact H'|].
  intros i. unfold meaning. rewrite R. cbn [r_sem set_r_ss].
  change (r_sem (set_r_ss (mySS s') r')) with (r_sem r'). rewrite Sm, <- Iff.
  destruct (in_dec Z.eq_dec i ll); split; intros; tauto.
Qed.

(** So unloading next, in any state [s2] in which the meanings are those that
    loading left, restores every meaning. *)
Theorem C41_partial : forall F D s name letters l s1 s2 l2 s3,
  In (name, letters) fingerprints -> name <> "DBUG"%string ->
  Normal s 40 -> Holds s (Z.of_nat (length (chars name)) :: chars name ++ l) ->
  c_fing (my_cfg s) = true -> testmode MODE_SWITCH (w_uni (s_w s) (r_uni (s_r s))) = false ->
  w_fl (s_w s) (number (chars name)) = false ->
  execute F (S D) 40 s = Ok (ENone, s1) ->
  (forall i, meaning s2 i = meaning s1 i) -> r_avail (s_r s2) = r_avail (s_r s1) ->
  Normal s2 41 -> Holds s2 (Z.of_nat (length (chars name)) :: chars name ++ l2) ->
  c_fing (my_cfg s2) = true -> testmode MODE_SWITCH (w_uni (s_w s2) (r_uni (s_r s2))) = false ->
  execute F (S D) 41 s2 = Ok (ENone, s3) ->
  forall i, meaning s3 i = meaning s i.
Proof.
  intros F D s name letters l s1 s2 l2 s3 HI ND HN H CF NS FL E1 M2 A2 HN2 H2 CF2 NS2 E3 i.
  destruct (C41_load_partial F D s name letters l HI ND HN H CF NS FL) as (s1' & E1' & _ & _ & A & M1).
  rewrite E1 in E1'. inversion E1'; subst s1'. rewrite <- A2 in A.
  destruct (C41_unload F D s2 name letters l2 HI A HN2 H2 CF2 NS2) as (s3' & E3' & _ & _ & M3).
  rewrite E3 in E3'. inversion E3'; subst s3'. destruct (M1 i) as (M1a & M1b). destruct (M3 i) as (M3a & M3b).
  destruct (in_dec Z.eq_dec i (chars letters)) as [I|I].
  - rewrite (M3a I), M2. destruct (M1a I) as (x & _ & ->). reflexivity.
  - now rewrite (M3b I), M2, (M1b I).
Qed.

(** Histories: loads and unloads of an IP. *)
Inductive hop : Type := HLoad (n : Z) | HUnload (n : Z).
Inductive Steps (fl : Z -> bool) : runner -> list hop -> runner -> Prop :=
| steps_nil r : Steps fl r [] r
| steps_load r n r1 h r2 : fp_load fl n r = Ok (true, r1) -> Steps fl r1 h r2 -> Steps fl r (HLoad n :: h) r2
| steps_unload r n r1 h r2 : fp_unload n r = (true, r1) -> Steps fl r1 h r2 -> Steps fl r (HUnload n :: h) r2.
(** Well nested histories. *)
Inductive Nested : list hop -> Prop :=
| nested_nil : Nested []
| nested_pair n h : n <> FP_DBUG -> Nested h -> Nested (HLoad n :: h ++ [HUnload n])
| nested_app h1 h2 : Nested h1 -> Nested h2 -> Nested (h1 ++ h2).
Lemma steps_app fl h1 : forall h2 r r2, Steps fl r (h1 ++ h2) r2 -> exists r1, Steps fl r h1 r1 /\ Steps fl r1 h2 r2.
Proof.
  induction h1 as [|o h1 IH]; intros h2 r r2 H; cbn [app] in H; [exists r; split; [constructor|exact H]|].
  inversion H; subst; destruct (IH _ _ _ H5) as (r3 & A & B); exists r3; split; auto; econstructor; eauto.
Qed.
(** However deep fingerprints are loaded and unloaded in nested order, in the end
    every character has its meaning back. *)
Theorem C41_nested_partial : forall fl h, Nested h -> forall r r', Steps fl r h r' -> forall i, r_sem r' i = r_sem r i.
Proof.
  intros fl h N. induction N as [|n h ND N IH|h1 h2 N1 IH1 N2 IH2]; intros r r' H i.
  - inversion H; subst. reflexivity.
  - inversion H as [|? ? r1 ? ? EL H2|]; subst. apply steps_app in H2. destruct H2 as (r2 & H1 & H2).
    inversion H2 as [| |? ? r3 ? ? EU H3]; subst. inversion H3; subst. clear H2 H3.
    destruct (load_effect _ _ _ _ EL) as (fld & _ & _ & _ & Sm & _).
    destruct (unload_effect _ _ _ EU) as (l & L & Sm2 & _). rewrite Sm2, (IH _ _ H1 i), Sm.
    destruct (in_dec Z.eq_dec i l) as [I|I].
    + rewrite (activate_in _ _ _ _ _ ND L I). reflexivity.
    + apply (activate_notin _ _ _ _ _ L I).
  - apply steps_app in H. destruct H as (r1 & A & B). rewrite (IH2 _ _ B i). now apply IH1.
Qed.

(** Core characters keep their meaning in every tick, for the executing IP and for
    all others. *)
Lemma effs_same_sem t s s' : effs t s s' -> Same_sem (s_r s) (s_r s').
Proof.
  apply (effs_preorder t (fun s s' => Same_sem (s_r s) (s_r s'))).
  - intros s0. split; auto.
  - intros s0 s1 s2 (A1 & B1) (A2 & B2). split; [congruence|]. intros i L. rewrite B2, B1; auto.
  - intros s0 s1 E. destruct E; cbn [s_r]; try (split; [reflexivity|auto; fail]); try (split; auto; fail).
    + destruct H as (_ & _ & _ & _ & _ & H). exact H.
    + destruct H2 as (_ & _ & _ & _ & _ & (A & B)). split; [exact A|]. intros i L. rewrite B by exact L. reflexivity.
Qed.
Theorem C41_core : forall F D s s', tick F D s = Ok (tt, s') ->
  forall i, is_letter i = false -> meaning s' i = meaning s i.
Proof. intros F D s s' E i L. apply tick_effs in E. destruct (effs_same_sem _ _ _ E) as (_ & B). now apply B. Qed.

(** A program started with the fingerprints [l]. *)
Definition start_with (l : list Z) (data : bytes) : st :=
  the dummy (start (set_c_fings l (set_c_dims 2 (set_c_std STD_98 cfg_default))) data []).
(** The state [s] with [name] and its length on the stack. *)
Definition naming (name : string) (s : st) : st :=
  with_list (Z.of_nat (length (chars name)) :: chars name) s.
Definition top_fing (s : st) (i : Z) : option Z :=
  match sem_top i (r_sem (s_r s)) with
  | Some x => match sm_act x with AFing n _ _ => Some n | _ => None end
  | None => None
  end.

(** The hypotheses of C41 are met: loading BITW over BOOL and unloading it. *)
Lemma ex_holds name s : ss_sel (mySS s) = 0%nat -> ss_list (mySS s) <> [] ->
  Holds (naming name s) (Z.of_nat (length (chars name)) :: chars name ++ []).
Proof. intros A B. rewrite app_nil_r. now apply holds_with_list. Qed.
Definition bool_on : st := start_with [FP_BOOL] (chars "(.@").
Definition fing_ready (s : st) (c : Z) : Prop :=
  Normal s c /\ c_fing (my_cfg s) = true /\ testmode MODE_SWITCH (w_uni (s_w s) (r_uni (s_r s))) = false.
Example C41_ex_hyp : let s := naming "BITW" bool_on in
  In ("BITW", "ALNORX")%string fingerprints /\ fing_ready s 40 /\ Holds s (4 :: chars "BITW" ++ []) /\
  w_fl (s_w s) (number (chars "BITW")) = false /\ top_fing s 65 = Some FP_BOOL /\
  match execute 100 1 40 s with
  | Ok (ENone, s1) =>
      let s2 := naming "BITW" s1 in
      fing_ready s2 41 /\ top_fing s2 65 = Some FP_BITW /\ top_fing s2 82 = Some FP_BITW /\
      match execute 100 1 41 s2 with
      | Ok (ENone, s3) => top_fing s3 65 = Some FP_BOOL /\ top_fing s3 82 = None
      | _ => False
      end
  | _ => False
  end.
Proof.
  cbv zeta. split; [vm_compute; auto|]. split; [vm_compute; auto|].
  split; [apply (ex_holds "BITW"); vm_compute; [reflexivity|discriminate]|]. vm_compute. repeat split.
Qed.
Example C41_nested_ex : Nested [HLoad FP_BOOL; HLoad FP_BITW; HUnload FP_BITW; HLoad FP_TOYS; HUnload FP_TOYS; HUnload FP_BOOL].
Proof.
  apply (nested_pair FP_BOOL [HLoad FP_BITW; HUnload FP_BITW; HLoad FP_TOYS; HUnload FP_TOYS]); [vm_compute; discriminate|].
  apply (nested_app [HLoad FP_BITW; HUnload FP_BITW]).
  - apply (nested_pair FP_BITW []); [vm_compute; discriminate|constructor].
  - apply (nested_pair FP_TOYS []); [vm_compute; discriminate|constructor].
Qed.
(** With DBUG the property fails: loading it binds nothing, but unloading it takes
    meanings away.  Here BOOL's [A] is gone after loading and unloading DBUG. *)
Theorem C41_refuted : exists s letters,
  In ("DBUG"%string, letters) fingerprints /\ fing_ready s 40 /\ Holds s (4 :: chars "DBUG" ++ []) /\
  w_fl (s_w s) (number (chars "DBUG")) = false /\ top_fing s 65 = Some FP_BOOL /\
  match execute 100 1 40 s with
  | Ok (ENone, s1) =>
      let s2 := naming "DBUG" s1 in
      fing_ready s2 41 /\ (forall i, meaning s2 i = meaning s1 i) /\
      match execute 100 1 41 s2 with
      | Ok (ENone, s3) => meaning s3 65 = []
      | _ => False
      end
  | _ => False
  end.
Proof.
  exists (naming "DBUG" bool_on), "ABDEW"%string.
  split; [vm_compute; tauto|]. split; [vm_compute; auto|].
  split; [apply (ex_holds "DBUG"); vm_compute; [reflexivity|discriminate]|].
  split; [vm_compute; reflexivity|]. split; [vm_compute; reflexivity|].
  destruct (execute 100 1 40 (naming "DBUG" bool_on)) as [[e s1]|e] eqn:E; [|vm_compute in E; discriminate].
  assert (K : match execute 100 1 40 (naming "DBUG" bool_on) with
     | Ok (ENone, s1) => fing_ready (naming "DBUG" s1) 41 /\
         match execute 100 1 41 (naming "DBUG" s1) with Ok (ENone, s3) => meaning s3 65 = [] | _ => False end
     | _ => False end) by (vm_compute; auto).
  rewrite E in K. destruct e; try contradiction. destruct K as (K1 & K2). cbv zeta. split; [exact K1|].
  split; [reflexivity|exact K2].
Qed.
Print Assumptions C41_load_partial.
Print Assumptions C41_unload.
Print Assumptions C41_partial.
Print Assumptions C41_nested_partial.
Print Assumptions C41_core.
Print Assumptions C41_refuted.

(** ** C42 Unloading a fingerprint that is not loaded has no effect *)

(** It holds for fingerprints the IP never loaded: the instruction fails, so that
    the IP reflects (C30), and only the name is popped. *)
Theorem C42_partial : forall F D s name l,
  assoc (number name) (r_avail (s_r s)) = None ->
  Normal s 41 -> Holds s (Z.of_nat (length name) :: name ++ l) ->
  c_fing (my_cfg s) = true -> testmode MODE_SWITCH (w_uni (s_w s) (r_uni (s_r s))) = false ->
  exists s', execute F (S D) 41 s = Ok (EUnspec, s') /\ s_w s' = s_w s /\ Holds s' l /\
    s_r s' = set_r_ss (mySS s') (s_r s) /\ forall i, meaning s' i = meaning s i.
Proof.
  intros F D s name l A HN H CF NS.
  destruct (unload_run F D s name l HN H CF NS false (s_r s)) as (s' & E & H' & W & R).
  { unfold fp_unload. now rewrite A. }
  exists s'. repeat split; auto. intros i. unfold meaning. now rewrite R.
Qed.
Example C42_ex_hyp : let s := naming "BITW" bool_on in
  assoc (number (chars "BITW")) (r_avail (s_r s)) = None /\ fing_ready s 41 /\ Holds s (4 :: chars "BITW" ++ []).
Proof.
  cbv zeta. split; [vm_compute; auto|]. split; [vm_compute; auto|].
  apply (ex_holds "BITW"); vm_compute; [reflexivity|discriminate].
Qed.
(** It fails for a fingerprint that was loaded and unloaded: unloading it once more
    takes away the meanings another fingerprint gave.  Here BITW was loaded over
    BOOL and unloaded, so that it is not loaded in [s]; unloading it again succeeds
    and BOOL's [A] is gone. *)
Definition again (s : st) : st :=
  match execute 100 1 40 (naming "BITW" s) with
  | Ok (_, s1) => match execute 100 1 41 (naming "BITW" s1) with Ok (_, s2) => naming "BITW" s2 | Bad _ => dummy end
  | Bad _ => dummy
  end.
Theorem C42_refuted : exists s, fing_ready s 41 /\ Holds s (4 :: chars "BITW" ++ []) /\
  ~ In (number (chars "BITW")) (r_loaded (s_r s)) /\ top_fing s 65 = Some FP_BOOL /\
  match execute 100 1 41 s with
  | Ok (ENone, s') => meaning s' 65 = [] /\ r_delta (s_r s') = r_delta (s_r s)
  | _ => False
  end.
Proof.
  exists (again bool_on). split; [vm_compute; auto|].
  split. { assert (K : Holds (naming "BITW" (again bool_on)) (4 :: chars "BITW" ++ [])).
           { apply (ex_holds "BITW"); vm_compute; [reflexivity|discriminate]. }
           destruct K as (k & K1 & K2 & K3). eexists. split; [vm_compute; reflexivity|]. split; [split; reflexivity|vm_compute; reflexivity]. }
  split; [vm_compute; intuition discriminate|]. split; [vm_compute; reflexivity|]. vm_compute. split; reflexivity.
Qed.
Print Assumptions C42_partial.
Print Assumptions C42_refuted.

(** ** C44 A loaded fingerprint provides its instructions *)

(** It holds for all built-in fingerprints but DBUG. *)
Theorem C44_partial : forall F D s name letters l,
  In (name, letters) fingerprints -> name <> "DBUG"%string ->
  Normal s 40 -> Holds s (Z.of_nat (length (chars name)) :: chars name ++ l) ->
  c_fing (my_cfg s) = true -> testmode MODE_SWITCH (w_uni (s_w s) (r_uni (s_r s))) = false ->
  w_fl (s_w s) (number (chars name)) = false ->
  exists s', execute F (S D) 40 s = Ok (ENone, s') /\
    forall i, In i (chars letters) -> exists x, sem_top i (r_sem (s_r s')) = Some x /\ Means (number (chars name)) i x.
Proof.
  intros F D s name letters l HI ND HN H CF NS FL.
  destruct (C41_load_partial F D s name letters l HI ND HN H CF NS FL) as (s' & E & _ & _ & _ & M).
  exists s'. split; [exact E|]. intros i I. destruct (M i) as (M1 & _). destruct (M1 I) as (x & X & Y).
  exists x. split; [|exact X]. unfold sem_top. unfold meaning in Y. now rewrite Y.
Qed.
(** It fails for DBUG: loading succeeds and none of its instructions is bound. *)
Theorem C44_refuted : exists s letters, In ("DBUG"%string, letters) fingerprints /\
  fing_ready s 40 /\ Holds s (4 :: chars "DBUG" ++ []) /\ w_fl (s_w s) (number (chars "DBUG")) = false /\
  match execute 100 1 40 s with
  | Ok (ENone, s') => Forall (fun i => sem_top i (r_sem (s_r s')) = None) (chars letters)
  | _ => False
  end.
Proof.
  exists (naming "DBUG" (start_with [] (chars "(.@"))), "ABDEW"%string.
  split; [vm_compute; tauto|]. split; [vm_compute; auto|].
  split; [apply (ex_holds "DBUG"); vm_compute; [reflexivity|discriminate]|].
  split; [vm_compute; reflexivity|]. vm_compute. repeat (apply Forall_cons; [reflexivity|]). apply Forall_nil.
Qed.
Print Assumptions C44_partial.
Print Assumptions C44_refuted.

(** ** C43 A child IP inherits the parent's instruction meanings *)

(** The upper-case letters mean what the loaded fingerprints give them, in the order
    they were loaded. *)
Definition given (u : nat) (loaded : list Z) (f : Z -> list sem) : Z -> list sem :=
  fold_left (fun f n => fp_activate n u f) loaded f.
Definition Faithful (r : runner) : Prop :=
  (forall n f, assoc n (r_avail r) = Some f -> f = r_uni r) /\
  forall i, is_letter i = true -> r_sem r i = given (r_uni r) (r_loaded r) (fun _ => []) i.

Lemma activate_ext n u f g i : f i = g i -> fp_activate n u f i = fp_activate n u g i.
Proof.
  intros H. unfold fp_activate. destruct (n =? FP_DBUG); [exact H|]. destruct (fp_letters n); [|exact H].
  now apply sem_pushes_ext.
Qed.
Lemma given_ext u l i : forall f g, f i = g i -> given u l f i = given u l g i.
Proof.
  unfold given. induction l as [|n l IH]; intros f g H; cbn [fold_left]; [exact H|]. apply IH. now apply activate_ext.
Qed.
Lemma given_app u l1 l2 f i : given u (l1 ++ l2) f i = given u l2 (given u l1 f) i.
Proof. unfold given. now rewrite fold_left_app. Qed.
Lemma activate_none n u f i : fp_letters n = None -> fp_activate n u f i = f i.
Proof. intros H. unfold fp_activate. rewrite H. now destruct (n =? FP_DBUG). Qed.
Lemma fp_load_uni fl n r br : fp_load fl n r = Ok br ->
  (forall m f, assoc m (r_avail r) = Some f -> f = r_uni r) ->
  (forall m f, assoc m (r_avail (snd br)) = Some f -> f = r_uni (snd br)) /\ r_uni (snd br) = r_uni r /\
  forall i, r_sem (snd br) i = fp_activate n (r_uni r) (r_sem r) i.
Proof.
  intros E A. destruct br as [[|] r'].
  - destruct (load_effect _ _ _ _ E) as (fld & B1 & B2 & B3 & B4 & _ & _ & B7). cbn [snd].
    assert (X : fld = r_uni r).
    { destruct (assoc n (r_avail r)) as [f|] eqn:Q; [|now apply B2].
      unfold fp_load in E. rewrite Q in E. inversion E; subst. cbn in B1. rewrite Q in B1. inversion B1; subst. now apply (A n). }
    split; [|split; [exact B7|intros i; rewrite B4, X; reflexivity]].
    intros m f Q. rewrite B7. destruct (Z.eq_dec m n) as [-> |N]; [congruence|]. rewrite B3 in Q by exact N. now apply (A m).
  - unfold fp_load in E. destruct (assoc n (r_avail r)); [discriminate|]. destruct (fl n); [discriminate|].
    destruct (fp_letters n) eqn:L; [discriminate|]. inversion E; subst. cbn [snd]. split; [exact A|]. split; [reflexivity|].
    intros i. symmetry. now apply activate_none.
Qed.
Lemma fp_loads_given fl l : forall r r', fp_loads fl l r = Ok r' ->
  (forall m f, assoc m (r_avail r) = Some f -> f = r_uni r) ->
  forall i, r_sem r' i = given (r_uni r) l (r_sem r) i.
Proof.
  induction l as [|n l IH]; intros r r' E A i; cbn [fp_loads] in E.
  - inversion E; subst. reflexivity.
  - destruct (fp_load fl n r) as [br|e] eqn:El; [|discriminate]. cbn [bind] in E.
    destruct (fp_load_uni _ _ _ _ El A) as (B & U & Sm). rewrite (IH _ _ E B i), U.
    unfold given. cbn [fold_left]. apply given_ext. apply Sm.
Qed.
Lemma push_table_letters s r i : is_letter i = true -> r_sem (push_table (strat_table s) r) i = r_sem r i.
Proof.
  intros L. unfold push_table. cbn [r_sem set_r_sem]. apply sem_pushes_notin. intros H.
  apply in_map_iff in H. destruct H as (e & <- & H). pose proof (strat_keys_no_letter s) as K.
  rewrite forallb_forall in K. specialize (K _ H). rewrite L in K. discriminate.
Qed.
Lemma strats_given fl fs dims r r' : (1 <= dims)%nat -> strats_construct fl fs (strats_of 98 dims) r = Ok r' ->
  r_avail r = [] -> forall i, is_letter i = true -> r_sem r' i = given (r_uni r) fs (r_sem r) i.
Proof.
  intros D E A i L.
  assert (X : exists t, strats_of 98 dims = SU93 :: SU98 :: t /\ ~ In SU98 t).
  { destruct dims as [|[|[|d]]]; [lia| | |]; eexists; (split; [reflexivity|]); cbn; intuition discriminate. }
  destruct X as (t & X & NI). rewrite X in E. cbn [strats_construct strat_construct bind] in E.
  set (r0 := set_r_handler true (push_table table_u93 r)) in E.
  destruct (fp_loads fl fs r0) as [r1|e] eqn:El; [|discriminate]. cbn [bind] in E.
  assert (G : forall t r r', ~ In SU98 t -> strats_construct fl fs t r = Ok r' -> r_sem r' i = r_sem r i).
  { clear -L. induction t as [|s t IH]; intros r r' NI E; cbn [strats_construct] in E; [congruence|].
    destruct (strat_construct fl fs s r) as [r1|e] eqn:Es; [|discriminate]. cbn [bind] in E.
    rewrite (IH r1 r') by (auto; intros K; apply NI; now right). 
    destruct s; cbn [strat_construct] in Es; try (exfalso; apply NI; now left); inversion Es; subst r1.
    - apply (push_table_letters SU93 r i L).
    - apply (push_table_letters SB93 r i L).
    - apply (push_table_letters SB98 r i L).
    - apply (push_table_letters ST98 r i L). }
  pose proof (push_table_letters SU98 r1 i L) as P8. cbn [strat_table] in P8. rewrite (G _ _ _ NI E), P8.
  rewrite (fp_loads_given _ _ _ _ El); [|intros m f Q; change (r_avail r0) with (r_avail r) in Q; rewrite A in Q; discriminate].
  change (r_uni r0) with (r_uni r). apply given_ext. apply (push_table_letters SU93 r i L).
Qed.
Lemma clone_sem fl id u o r dims : runner_clone fl id u o = Ok r -> r_strats o = strats_of 98 dims -> (1 <= dims)%nat ->
  (forall i, is_letter i = true -> r_sem r i = given (r_uni o) (r_loaded o) (fun _ => []) i).
Proof.
  intros E St D i L. unfold runner_clone in E. cbv zeta in E.
  match type of E with context [strats_construct fl (r_loaded o) (r_strats o) ?b] => set (b0 := b) in E end.
  destruct (strats_construct fl (r_loaded o) (r_strats o) b0) as [r1|e] eqn:Es; [|discriminate]. cbn [bind] in E.
  rewrite St in Es. pose proof (strats_given _ _ _ _ _ D Es eq_refl i L) as Q. subst b0. cbn [r_uni r_sem] in Q.
  destruct (vrev (r_delta r1)) as [d|e]; [|discriminate]. cbn [bind] in E.
  match type of E with bind ?x _ = _ => destruct x as [[p' d']|e]; [|discriminate] end.
  cbn [bind] in E. inversion E; subst r. exact Q.
Qed.

(** If the parent's letters mean what its loaded fingerprints give, every character
    means the same in the child. *)
Theorem C43_partial : forall F D s s' dims, Normal s 116 -> c_conc (my_cfg s) = true ->
  (1 <= dims)%nat -> Core (strats_of 98 dims) (s_r s) -> Faithful (s_r s) ->
  execute F (S D) 116 s = Ok (ENone, s') ->
  exists r', w_run (s_w s') (w_nrun (s_w s)) = Some r' /\ forall i, r_sem r' i = r_sem (s_r s) i.
Proof.
  intros F D s s' dims HN HC Dm Co (A & Fa) E. rewrite (execute_normal F D _ s _ _ HN eq_refl) in E. cbn [run_meth] in E.
  unfold getC, mbind at 1, mbind at 1, getU, ret at 1 in E. unfold my_cfg in HC. rewrite HC in E.
  apply run_bind_inv in E. destruct E as ([] & s1 & E & E2). inversion E2; subst s1. clear E2.
  unfold cloneRunner, mbind, getR, getU, getW, lift in E.
  destruct (runner_clone _ _ _ _) as [r'|e] eqn:Ec; [|discriminate]. inversion E; subst s'. clear E.
  destruct (clone_fields _ _ _ _ _ Ec) as (I1 & _ & _ & _ & _ & _ & _ & _ & I9 & _).
  destruct Co as (C1 & C2). pose proof (clone_sem _ _ _ _ _ _ Ec C1 Dm) as Q.
  cbn [s_w]. unfold add_runner. cbn [w_run upd_uni set_w_uni].
  exists (run_setmode (c_mode (u_cfg (w_uni (set_w_nrun (w_nrun (s_w s) + 1) (s_w s)) (r_uni (s_r s))))) r').
  split; [rewrite <- I1; apply upd_run_same|]. intros i. cbn [r_sem run_setmode set_r_ss].
  change (r_sem (run_setmode (c_mode (u_cfg (w_uni (set_w_nrun (w_nrun (s_w s) + 1) (s_w s)) (r_uni (s_r s))))) r')) with (r_sem r').
  destruct (is_letter i) eqn:L.
  - rewrite Q, Fa; auto.
  - rewrite I9, C1, C2; auto.
Qed.

(** Which is so for a new IP, and stays so while it loads fingerprints and unloads
    the one loaded last. *)
Inductive Lifo (fl : Z -> bool) : runner -> runner -> Prop :=
| lifo_refl r : Lifo fl r r
| lifo_load r n b r1 r2 : fp_load fl n r = Ok (b, r1) -> Lifo fl r1 r2 -> Lifo fl r r2
| lifo_unload r n l r1 r2 : n <> FP_DBUG -> r_loaded r = l ++ [n] -> fp_unload n r = (true, r1) -> Lifo fl r1 r2 -> Lifo fl r r2.
Lemma erase_last_app n l : erase_last n (l ++ [n]) = l.
Proof. unfold erase_last. rewrite rev_app_distr. cbn. now rewrite Z.eqb_refl, rev_involutive. Qed.
Lemma load_loaded fl n r b r1 : fp_load fl n r = Ok (b, r1) ->
  if b then r_loaded r1 = r_loaded r ++ [n] else r1 = r.
Proof.
  destruct b; intros E; [destruct (load_effect _ _ _ _ E) as (_ & _ & _ & _ & _ & H & _); exact H|].
  unfold fp_load in E. destruct (assoc n (r_avail r)); [discriminate|]. destruct (fl n); [discriminate|].
  destruct (fp_letters n); [discriminate|]. congruence.
Qed.
Theorem C43_histories : forall fl r r', Lifo fl r r' -> Faithful r -> Faithful r'.
Proof.
  intros fl r r' H. induction H as [r|r n b r1 r2 E H IH|r n l r1 r2 ND EL E H IH]; intros Fa0; [exact Fa0| |];
    destruct Fa0 as (A & Fa); apply IH; clear IH H.
  - destruct (fp_load_uni _ _ _ _ E A) as (B & U & Sm). cbn [snd] in *. pose proof (load_loaded _ _ _ _ _ E) as Ld.
    split; [exact B|]. intros i L. destruct b; [|subst r1; auto].
    rewrite Sm, Ld, U, given_app. unfold given at 1. cbn [fold_left]. apply activate_ext. now apply Fa.
  - destruct (unload_effect _ _ _ E) as (ll & L1 & Sm & Av & Ld & _ & U). split; [now rewrite Av, U|].
    intros i L. rewrite Sm, Ld, EL, erase_last_app, U, (Fa i L), EL, given_app. unfold given at 1 3. cbn [fold_left].
    fold (given (r_uni r) l (fun _ => [])).
    destruct (in_dec Z.eq_dec i ll) as [I|I]; [now rewrite (activate_in _ _ _ _ _ ND L1 I)|now apply (activate_notin _ _ _ _ _ L1)].
Qed.

(** A new IP. *)
Lemma faithful_same r r' : r_avail r' = r_avail r -> r_uni r' = r_uni r -> r_loaded r' = r_loaded r ->
  (forall i, is_letter i = true -> r_sem r' i = r_sem r i) -> Faithful r -> Faithful r'.
Proof.
  intros A U Ld Sm (F1 & F2). split; [now rewrite A, U|]. intros i L. rewrite Sm, Ld, U by exact L. now apply F2.
Qed.
Lemma loads_lifo fl l : forall r r', fp_loads fl l r = Ok r' -> Lifo fl r r'.
Proof.
  induction l as [|n l IH]; intros r r' E; cbn [fp_loads] in E; [inversion E; subst; constructor|].
  destruct (fp_load fl n r) as [[b r1]|e] eqn:El; [|discriminate]. cbn [bind snd] in E.
  eapply lifo_load; [exact El|]. now apply IH.
Qed.
Lemma strats_faithful fl fs l : forall r r', strats_construct fl fs l r = Ok r' -> Faithful r -> Faithful r'.
Proof.
  induction l as [|s l IH]; intros r r' E Fa; cbn [strats_construct] in E; [inversion E; subst; auto|].
  destruct (strat_construct fl fs s r) as [r1|e] eqn:Es; [|discriminate]. cbn [bind] in E.
  apply (IH _ _ E).
  destruct s; cbn [strat_construct] in Es;
    try (inversion Es; subst r1; apply (faithful_same r); auto; intros i L; 
         first [exact (push_table_letters SU93 r i L)|exact (push_table_letters SB93 r i L)|
                exact (push_table_letters SB98 r i L)|exact (push_table_letters ST98 r i L)]).
  destruct (fp_loads fl fs r) as [r2|e] eqn:El; [|discriminate]. cbn [bind] in Es. inversion Es; subst r1.
  apply (faithful_same r2); auto; [intros i L; exact (push_table_letters SU98 r2 i L)|].
  eapply C43_histories; [eapply loads_lifo; exact El|exact Fa].
Qed.
Theorem C43_new : forall fl id n u p d r, runner_new fl id n u p d = Ok r -> Faithful r.
Proof.
  intros fl id n u p d r E. unfold runner_new in E. destruct (_ || _) in E; [discriminate|]. cbv zeta in E.
  destruct (strats_construct _ _ _ _) as [r1|e] eqn:Es; [|discriminate]. cbn [bind] in E.
  apply strats_faithful in Es; [|split; [cbn; discriminate|reflexivity]].
  match type of E with bind ?x _ = _ => destruct x as [d'|e]; [|discriminate] end. cbn [bind] in E.
  inversion E; subst r. apply (faithful_same r1); auto.
  - cbn. unfold observe_delta. destruct (r_fish _) as [[]|]; [destruct (_ && _)|]; reflexivity.
  - cbn. unfold observe_delta. destruct (r_fish _) as [[]|]; [destruct (_ && _)|]; reflexivity.
  - cbn. unfold observe_delta. destruct (r_fish _) as [[]|]; [destruct (_ && _)|]; reflexivity.
  - intros i L. cbn. unfold observe_delta. destruct (r_fish _) as [[]|]; [destruct (_ && _)|]; reflexivity.
Qed.
(** It is met: a parent with BITW over BOOL. *)
Example C43_ex : let s := start_with [FP_BOOL; FP_BITW] (chars "t@") in
  Normal s 116 /\ c_conc (my_cfg s) = true /\
  match execute 100 1 116 s with
  | Ok (ENone, s') => match w_run (s_w s') (w_nrun (s_w s)) with
                      | Some r' => option_map sm_act (sem_top 65 (r_sem r')) = Some (AFing FP_BITW 0 65)
                      | None => False end
  | _ => False
  end.
Proof. vm_compute. auto. Qed.
Example C43_ex_faithful : Faithful (s_r (start_with [FP_BOOL; FP_BITW] (chars "t@"))) /\
  Core (strats_of 98 2) (s_r (start_with [FP_BOOL; FP_BITW] (chars "t@"))).
Proof.
  set (c := set_c_fings [FP_BOOL; FP_BITW] (set_c_dims 2 (set_c_std STD_98 cfg_default))).
  assert (X : exists u r, runner_new (fun _ => false) 0 0 u (mkvec [0]) (mkvec [1]) = Ok r /\ u_cfg u = c /\ run_setmode (c_mode (u_cfg u)) r = s_r (start_with [FP_BOOL; FP_BITW] (chars "t@"))).
  { destruct (boot 1000 (chars "t@") c (world0 [] (fun _ => None) (fun _ => 0))) as [w|e] eqn:B;
      [|vm_compute in B; discriminate].
    exists (set_u_queue [] (w_uni w 0)). vm_compute in B. inversion B; subst w. eexists.
    split; [vm_compute; reflexivity|]. split; vm_compute; reflexivity. }
  destruct X as (u & r & E & U & <-). split.
  - apply (faithful_same r); auto. eapply C43_new; eauto.
  - pose proof (runner_new_core _ _ _ _ _ _ _ E) as K. rewrite U in K. exact K.
Qed.
(** It fails when fingerprints are unloaded in another order, or swapped by FING:
    with BITW over BOOL, unloading BOOL leaves the parent with BOOL's [A], while the
    child gets BITW's. *)
Definition out_of_order : st :=
  the dummy (match execute 100 1 41 (naming "BOOL" (start_with [FP_BOOL; FP_BITW] (chars "t@"))) with
             | Ok (_, s) => Ok s | Bad e => Bad e end).
Theorem C43_refuted : exists s, Normal s 116 /\ c_conc (my_cfg s) = true /\
  match execute 100 1 116 s with
  | Ok (ENone, s') => match w_run (s_w s') (w_nrun (s_w s)) with
                      | Some r' => top_fing s' 65 = Some FP_BOOL /\
                                   option_map sm_act (sem_top 65 (r_sem r')) = Some (AFing FP_BITW 0 65)
                      | None => False end
  | _ => False
  end.
Proof. exists out_of_order. vm_compute. auto. Qed.
Print Assumptions C43_partial.
Print Assumptions C43_histories.
Print Assumptions C43_new.
Print Assumptions C43_refuted.
