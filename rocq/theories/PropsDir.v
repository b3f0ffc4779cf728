(** * Property C126: DIRF and the file system. *)

From Coq Require Import String ZArith List Bool Lia.
From Verif Require Import Base BaseProofs VectorModel VectorProofs RangeModel RangeProofs TextModel TextProofs
  StackModel StackProofs FieldModel FieldProofs World IpModel LoadModel FingModel CoreModel
  UniModel IpProofs ExecProofs FlowProofs States PropsStack PropsTurn PropsBlocks Effects SchedProofs PropsIO
  CopyProofs PropsCopy PropsSched PropsFing PropsMvrs PropsMath PropsPerl OptModel DirModel.
Import ListNotations.
Open Scope Z_scope.

(** ** Specification *)

(** The name of a file or directory within its directory. *)
Definition entry (c : bytes) : Prop := c <> [] /\ c <> dot /\ c <> dotdot /\ ~ In 47 c.
(** A path as one writes it: entries with slashes between them. *)
Fixpoint joined (l : path) : bytes :=
  match l with
  | [] => []
  | [c] => c
  | c :: t => c ++ 47 :: joined t
  end.
(** The text [b] names the place [p]: from the root or from the working directory. *)
Inductive Names (t : tree) : bytes -> path -> Prop :=
| names_absolute l : Forall entry l -> l <> [] -> Names t (47 :: joined l) l
| names_relative l c : Forall entry l -> l <> [] -> t_cwd t = Some c -> Names t (joined l) (c ++ l).
Definition Dir (t : tree) (p : path) : Prop := lookup t p = Some KDir.
Definition File (t : tree) (p : path) : Prop := lookup t p = Some KFile.
Definition Free (t : tree) (p : path) : Prop := lookup t p = None.
(** Entries are in directories, and so is the working directory. *)
Definition Sound (t : tree) : Prop :=
  (forall p c, lookup t (p ++ [c]) <> None -> Dir t p) /\ (forall c, t_cwd t = Some c -> Dir t c).
(** Nothing is in the directory. *)
Definition Bare (t : tree) (p : path) : Prop := forall c, Free t (p ++ [c]).
(** [t'] is [t], with the place [p] holding [k]. *)
Definition Only_at (t t' : tree) (p : path) (k : option kind) : Prop :=
  lookup t' p = k /\ forall q, q <> p -> lookup t' q = lookup t q.

(** ** Lemmas *)

Lemma path_eqb_eq a : forall b, path_eqb a b = true <-> a = b.
Proof.
  induction a as [|x a IH]; intros [|y b]; cbn; split; try discriminate; auto.
  - rewrite andb_true_iff, bytes_eqb_eq, IH. intros (-> & ->). reflexivity.
  - intros X. injection X as -> ->. rewrite andb_true_iff, bytes_eqb_eq, IH. auto.
Qed.
Lemma path_eqb_neq a b : a <> b -> path_eqb a b = false.
Proof. intros N. destruct (path_eqb a b) eqn:E; [|reflexivity]. apply path_eqb_eq in E. contradiction. Qed.
Lemma bytes_eqb_neq a b : a <> b -> bytes_eqb a b = false.
Proof. intros N. destruct (bytes_eqb a b) eqn:E; [|reflexivity]. apply bytes_eqb_eq in E. contradiction. Qed.
Lemma path_dec (a b : path) : {a = b} + {a <> b}.
Proof. apply list_eq_dec, list_eq_dec, Z.eq_dec. Qed.
Lemma is_dir_spec t p : is_dir t p = true <-> Dir t p.
Proof. unfold is_dir, Dir. destruct (lookup t p) as [[]|]; split; congruence. Qed.

Lemma components_entry c : ~ In 47 c -> forall cur b,
  components cur (c ++ b) = components (cur ++ c) b.
Proof.
  induction c as [|x c IH]; intros N cur b; [now rewrite app_nil_r|]. cbn [app components]. cbn [In] in N.
  destruct (Z.eqb_spec x 47); [tauto|]. rewrite IH by tauto. now rewrite <- app_assoc.
Qed.
Lemma components_joined l : Forall entry l -> l <> [] -> components [] (joined l) = l.
Proof.
  induction l as [|c l IH]; intros H N; [contradiction|]. inversion H as [|? ? E HL]; subst.
  destruct E as (E1 & E2 & E3 & E4). destruct l as [|d l].
  - cbn [joined]. rewrite <- (app_nil_r c) at 1. rewrite components_entry by auto. reflexivity.
  - change (joined (c :: d :: l)) with (c ++ 47 :: joined (d :: l)). rewrite components_entry by auto.
    cbn [app components Z.eqb Pos.eqb]. rewrite IH by (auto; discriminate). reflexivity.
Qed.

(** Walking along entries: every directory on the way must exist. *)
Lemma walk_entries t l : Forall entry l -> forall p,
  (forall q r, l = q ++ r -> r <> [] -> Dir t (p ++ q)) -> walk t p l = Some (p ++ l).
Proof.
  induction 1 as [|c l (E1 & E2 & E3 & E4) HL IH]; intros p HD; [now rewrite app_nil_r|]. cbn [walk].
  assert (D0 : is_dir t p = true).
  { apply is_dir_spec. specialize (HD [] (c :: l) eq_refl ltac:(discriminate)). now rewrite app_nil_r in HD. }
  rewrite D0, !bytes_eqb_neq by assumption. cbn [orb]. rewrite IH; [now rewrite <- app_assoc|].
  intros q r E N. rewrite <- app_assoc. apply (HD (c :: q) r); [now rewrite E|exact N].
Qed.
Lemma walk_blocked t l : Forall entry l -> forall p,
  (exists q r, l = q ++ r /\ r <> [] /\ ~ Dir t (p ++ q)) -> walk t p l = None.
Proof.
  induction 1 as [|c l (E1 & E2 & E3 & E4) HL IH]; intros p (q & r & E & N & B).
  - symmetry in E. apply app_eq_nil in E. tauto.
  - cbn [walk]. destruct (is_dir t p) eqn:D0; [|reflexivity].
    rewrite !bytes_eqb_neq by assumption. cbn [orb]. apply IH. destruct q as [|x q].
    + rewrite app_nil_r in B. apply is_dir_spec in D0. contradiction.
    + cbn [app] in E. injection E as -> E. exists q, r. rewrite <- app_assoc. auto.
Qed.
(** In a sound tree, what is above a directory is a directory. *)
Lemma above t : Sound t -> forall r p, Dir t (p ++ r) -> Dir t p.
Proof.
  intros (S1 & _). induction r as [|c r IH] using rev_ind; intros p H; [now rewrite app_nil_r in H|].
  apply IH. apply (S1 _ c). rewrite <- app_assoc. unfold Dir in H. congruence.
Qed.
Lemma joined_start l : Forall entry l -> l <> [] -> exists x b, joined l = x :: b /\ x <> 47.
Proof.
  intros H N. destruct l as [|c l]; [contradiction|]. inversion H as [|? ? (E1 & _ & _ & E4) HL]; subst.
  destruct c as [|x c]; [contradiction|]. exists x. cbn [In] in E4.
  destruct l as [|d l]; [exists c|exists (c ++ 47 :: joined (d :: l))]; (split; [reflexivity|intros ->; tauto]).
Qed.
Lemma removelast_snoc {A} (l : list A) x : removelast (l ++ [x]) = l.
Proof. apply removelast_last. Qed.

(** Resolving: in a sound tree a text leads to its place exactly if that place's
    directory exists. *)
Lemma resolve_names t b p : Sound t -> Names t b p ->
  p <> [] /\ (Dir t (removelast p) -> resolve t b = Some p) /\ (~ Dir t (removelast p) -> resolve t b = None).
Proof.
  intros SD HN. assert (K : forall s l, Forall entry l -> l <> [] -> Dir t s ->
    s ++ l <> [] /\ (Dir t (removelast (s ++ l)) -> walk t s l = Some (s ++ l)) /\
    (~ Dir t (removelast (s ++ l)) -> walk t s l = None)).
  { intros s l H N HS. destruct (exists_last N) as (l' & c & ->).
    replace (removelast (s ++ l' ++ [c])) with (s ++ l') by (now rewrite app_assoc, removelast_snoc).
    split; [now destruct s, l'|]. split; intros D.
    - apply walk_entries; [exact H|]. intros q r E NR. destruct (exists_last NR) as (r' & d & ->).
      rewrite app_assoc in E. apply app_inj_tail in E. destruct E as (-> & _).
      apply (above t SD r'). now rewrite <- app_assoc.
    - apply walk_blocked; [exact H|]. exists l', [c]. repeat split; [discriminate|exact D]. }
  destruct HN as [l H N|l c H N EC].
  - destruct (K [] l H N eq_refl) as (K0 & K1 & K2). cbn [app] in *. split; [exact N|].
    cbn [resolve Z.eqb Pos.eqb]. cbn [components Z.eqb Pos.eqb walk].
    replace (is_dir t []) with true by reflexivity. cbn [bytes_eqb orb]. rewrite components_joined by assumption. auto.
  - destruct (K c l H N (proj2 SD _ EC)) as (K0 & K1 & K2). split; [exact K0|].
    destruct (joined_start l H N) as (x & b & EB & NX). rewrite <- (components_joined l H N) in K1, K2.
    unfold resolve. rewrite EB in *. destruct (Z.eqb_spec x 47); [contradiction|]. rewrite EC.
    rewrite <- EB in *. rewrite components_joined in * by assumption. auto.
Qed.

Lemma find_filter p q l : q <> p -> find_node q (filter (fun e => negb (path_eqb (fst e) p)) l) = find_node q l.
Proof.
  intros N. induction l as [|(x & k) l IH]; [reflexivity|]. cbn [filter fst find_node].
  destruct (path_eqb x p) eqn:E; cbn [negb find_node].
  - rewrite IH. apply path_eqb_eq in E. subst x. rewrite path_eqb_neq by congruence. reflexivity.
  - now rewrite IH.
Qed.
Lemma find_filter_same p l : find_node p (filter (fun e => negb (path_eqb (fst e) p)) l) = None.
Proof.
  induction l as [|(x & k) l IH]; [reflexivity|]. cbn [filter fst].
  destruct (path_eqb x p) eqn:E; cbn [negb find_node]; [exact IH|]. now rewrite E.
Qed.
Lemma find_none p l : find_node p l = None <-> ~ In p (map fst l).
Proof.
  induction l as [|(x & k) l IH]; [cbn; tauto|]. cbn [find_node map fst In].
  destruct (path_eqb x p) eqn:E.
  - apply path_eqb_eq in E. split; [discriminate|tauto].
  - rewrite IH. split; [|tauto]. intros N [->|I]; [|tauto]. assert (X : path_eqb p p = true) by now apply path_eqb_eq.
    congruence.
Qed.
Lemma is_empty_spec t p : is_empty t p = true <-> Bare t p.
Proof.
  unfold is_empty. rewrite negb_true_iff. split.
  - intros E c. unfold Free, lookup. destruct (p ++ [c]) as [|x q] eqn:EQ; [now destruct p|]. rewrite <- EQ.
    apply find_none. intros I. apply in_map_iff in I. destruct I as ((y & k) & EY & I). cbn [fst] in EY. subst y.
    assert (X : existsb (fun e => below p (fst e)) (t_nodes t) = true); [|congruence].
    apply existsb_exists. eexists. split; [exact I|]. cbn [fst]. unfold below. rewrite EQ, <- EQ, removelast_snoc.
    now apply path_eqb_eq.
  - intros B. destruct (existsb _ _) eqn:E; [|reflexivity]. apply existsb_exists in E.
    destruct E as ((q & k) & I & X). cbn [fst] in X. unfold below in X. destruct q as [|x q]; [discriminate|].
    apply path_eqb_eq in X. assert (NQ : x :: q <> []) by discriminate. destruct (exists_last NQ) as (q' & c & EQ).
    rewrite EQ in *. rewrite removelast_snoc in X. subst q'. specialize (B c). unfold Free, lookup in B.
    destruct (p ++ [c]) as [|y r] eqn:EP; [now destruct p|]. rewrite <- EP in *. apply find_none in B.
    exfalso. apply B. apply in_map_iff. exists (p ++ [c], k). auto.
Qed.
Lemma last_name_entries l : Forall entry l -> l <> [] -> entry (last_name l).
Proof.
  induction 1 as [|c l E HL IH]; intros N; [contradiction|]. cbn [last_name]. destruct l as [|d l]; [exact E|].
  specialize (IH ltac:(discriminate)). destruct (last_name (d :: l)) as [|x y]; [destruct IH; contradiction|exact IH].
Qed.
Lemma names_last t b p : Names t b p -> entry (last_name (components [] b)).
Proof.
  intros [l H N|l c H N _].
  - cbn [components Z.eqb Pos.eqb last_name]. rewrite components_joined by assumption.
    pose proof (last_name_entries l H N) as E. destruct (last_name l); [destruct E; contradiction|exact E].
  - rewrite components_joined by assumption. now apply last_name_entries.
Qed.

(** ** C126 *)

Section Named.
  Context (s : st) (t : tree) (b : bytes) (p : path) (l : list Z).
  Context (HS : Holds s (b ++ 0 :: l)) (HC : char_str b) (SD : Sound t) (HN : Names t b p).
  (* a section: these are premises of every lemma below *)

  Lemma dirf_pops c : In c [67; 77; 82] -> exists s', Only_stack s s' l /\
    dirf_tree c s t =
      if c =? 67 then
        if names_dir t b then Ok (ENone, s', {| t_nodes := t_nodes t; t_cwd := resolve t b |}) else Ok (EUnspec, s', t)
      else if c =? 77 then t1 <-- create_directory b t ;; Ok (ENone, s', t1)
      else if names_dir t b then t1 <-- remove_dir b t ;; Ok (ENone, s', t1) else Ok (EUnspec, s', t).
  Proof using HS HC.
    intros I. destruct (popString_plain s b l HC HS) as (s' & E & O). exists s'. split; [exact O|].
    unfold dirf_tree. rewrite E, (cstr_all b (char_str_no0 b HC)).
    cbn [In] in I. destruct I as [<-|[<-|[<-|[]]]]; reflexivity.
  Qed.
  Lemma names_dir_spec : names_dir t b = true <-> Dir t p.
  Proof using SD HN.
    destruct (resolve_names t b p SD HN) as (NP & R1 & R2). unfold names_dir.
    destruct (is_dir t (removelast p)) eqn:E.
    - rewrite R1 by (now apply is_dir_spec). apply is_dir_spec.
    - assert (X : ~ Dir t (removelast p)) by (intros Y; apply is_dir_spec in Y; congruence).
      rewrite R2 by exact X. split; [discriminate|]. intros D. exfalso. apply X.
      destruct (exists_last NP) as (q & c & ->). rewrite removelast_snoc. now apply (above t SD [c]).
  Qed.
  Lemma dir_resolves : Dir t p -> resolve t b = Some p.
  Proof using SD HN.
    intros D. destruct (resolve_names t b p SD HN) as (NP & R1 & R2). apply R1.
    destruct (exists_last NP) as (q & c & ->). rewrite removelast_snoc. now apply (above t SD [c]).
  Qed.
End Named.

(** C makes the directory named on the stack the working directory, and reflects if
    there is none; the tree stays as it is. *)
Theorem C126_C : forall s t b p l, Holds s (b ++ 0 :: l) -> char_str b -> Sound t -> Names t b p ->
  exists s', Only_stack s s' l /\
    (Dir t p -> dirf_tree 67 s t = Ok (ENone, s', {| t_nodes := t_nodes t; t_cwd := Some p |})) /\
    (~ Dir t p -> dirf_tree 67 s t = Ok (EUnspec, s', t)).
Proof.
  intros s t b p l HS HC SD HN. destruct (dirf_pops s t b l HS HC 67 ltac:(cbn; auto)) as (s' & O & E).
  exists s'. split; [exact O|]. rewrite E. cbn [Z.eqb Pos.eqb]. pose proof (names_dir_spec t b p SD HN) as K.
  split; intros D.
  - rewrite (proj2 K D), (dir_resolves t b p SD HN D). reflexivity.
  - destruct (names_dir t b); [exfalso; apply D; now apply K|reflexivity].
Qed.

(** M makes a directory where nothing is, and leaves one that is there.  Missing:
    the other cases, see [C126_M_refuted]. *)
Theorem C126_M_partial : forall s t b p l, Holds s (b ++ 0 :: l) -> char_str b -> Sound t -> Names t b p ->
  exists s', Only_stack s s' l /\
    (Dir t (removelast p) -> Free t p -> exists t', dirf_tree 77 s t = Ok (ENone, s', t') /\
       Only_at t t' p (Some KDir) /\ t_cwd t' = t_cwd t /\ Bare t' p) /\
    (Dir t p -> dirf_tree 77 s t = Ok (ENone, s', t)).
Proof.
  intros s t b p l HS HC SD HN. destruct (dirf_pops s t b l HS HC 77 ltac:(cbn; auto)) as (s' & O & E).
  destruct (resolve_names t b p SD HN) as (NP & R1 & R2).
  exists s'. split; [exact O|]. rewrite E. cbn [Z.eqb Pos.eqb]. unfold create_directory. split.
  - intros D Fr. rewrite (R1 D), Fr. cbn [bind].
    assert (OA : Only_at t {| t_nodes := (p, KDir) :: t_nodes t; t_cwd := t_cwd t |} p (Some KDir)).
    { split.
      - destruct p as [|x q]; [contradiction|]. unfold lookup. cbn [t_nodes find_node].
        replace (path_eqb (x :: q) (x :: q)) with true by (symmetry; now apply path_eqb_eq). reflexivity.
      - intros q N. destruct q as [|x q]; [reflexivity|]. unfold lookup. cbn [t_nodes find_node].
        rewrite path_eqb_neq by congruence. reflexivity. }
    eexists. split; [reflexivity|]. split; [exact OA|]. split; [reflexivity|].
    intros c. unfold Free. rewrite (proj2 OA).
    + destruct (lookup t (p ++ [c])) eqn:EL; [|reflexivity]. exfalso.
      assert (X : Dir t p) by (apply (proj1 SD p c); congruence). unfold Dir, Free in *. congruence.
    + intros X. apply (f_equal (@length bytes)) in X. rewrite app_length in X. cbn in X. lia.
  - intros D. rewrite (dir_resolves t b p SD HN D). unfold Dir in D. rewrite D. reflexivity.
Qed.

(** R removes an empty directory and nothing else, and reflects if what is named is
    no directory.  Missing: directories with something in them, see
    [C126_R_refuted]. *)
Theorem C126_R_partial : forall s t b p l, Holds s (b ++ 0 :: l) -> char_str b -> Sound t -> Names t b p ->
  exists s', Only_stack s s' l /\
    (Dir t p -> Bare t p -> exists t', dirf_tree 82 s t = Ok (ENone, s', t') /\ Only_at t t' p None /\
       (t_cwd t <> Some p -> t_cwd t' = t_cwd t)) /\
    (~ Dir t p -> dirf_tree 82 s t = Ok (EUnspec, s', t)).
Proof.
  intros s t b p l HS HC SD HN. destruct (dirf_pops s t b l HS HC 82 ltac:(cbn; auto)) as (s' & O & E).
  destruct (resolve_names t b p SD HN) as (NP & _). pose proof (names_dir_spec t b p SD HN) as K.
  exists s'. split; [exact O|]. rewrite E. cbn [Z.eqb Pos.eqb]. split.
  - intros D B. rewrite (proj2 K D). unfold remove_dir. rewrite (dir_resolves t b p SD HN D).
    destruct (names_last t b p HN) as (E1 & E2 & E3 & _). rewrite !bytes_eqb_neq by assumption.
    rewrite (proj2 (is_empty_spec t p) B). cbn [negb orb bind]. eexists. split; [reflexivity|]. split; [split|].
    + destruct p as [|x q]; [contradiction|]. unfold lookup. cbn [t_nodes]. apply find_filter_same.
    + intros q N. destruct q as [|x q]; [reflexivity|]. unfold lookup. cbn [t_nodes]. now apply find_filter.
    + cbn [t_cwd]. intros N. destruct (t_cwd t) as [c|]; [|reflexivity]. rewrite path_eqb_neq by congruence. reflexivity.
  - intros D. destruct (names_dir t b); [exfalso; apply D; now apply K|reflexivity].
Qed.

(** Removing what was made restores the tree. *)
Theorem C126_undo : forall s t b p l s1 t1 s2 l2 s3 t3,
  Holds s (b ++ 0 :: l) -> char_str b -> Sound t -> Names t b p -> Dir t (removelast p) -> Free t p ->
  dirf_tree 77 s t = Ok (ENone, s1, t1) -> Holds s2 (b ++ 0 :: l2) -> dirf_tree 82 s2 t1 = Ok (ENone, s3, t3) ->
  (forall q, lookup t3 q = lookup t q) /\ t_cwd t3 = t_cwd t.
Proof.
  intros s t b p l s1 t1 s2 l2 s3 t3 HS HC SD HN D Fr E1 HS2 E2.
  destruct (C126_M_partial s t b p l HS HC SD HN) as (s1' & _ & M & _).
  destruct (M D Fr) as (t1' & E1' & (A1 & A2) & C1 & B1). rewrite E1 in E1'. injection E1' as <- <-. clear M.
  assert (NP : p <> []) by apply (resolve_names t b p SD HN).
  assert (SD1 : Sound t1).
  { split.
    - intros q c H. destruct (path_dec (q ++ [c]) p) as [EQ|N].
      + subst p. rewrite removelast_snoc in D. unfold Dir. rewrite A2; [exact D|].
        intros X. apply (f_equal (@length bytes)) in X. rewrite app_length in X. cbn in X. lia.
      + rewrite A2 in H by exact N. destruct (path_dec q p) as [->|N2]; [exact A1|]. unfold Dir. rewrite A2 by exact N2.
        now apply (proj1 SD q c).
    - intros c EC. rewrite C1 in EC. destruct (path_dec c p) as [->|N2]; [exact A1|]. unfold Dir. rewrite A2 by exact N2.
      now apply (proj2 SD). }
  assert (HN1 : Names t1 b p). { destruct HN as [x H N|x c H N EC]; constructor; auto. congruence. }
  destruct (C126_R_partial s2 t1 b p l2 HS2 HC SD1 HN1) as (s3' & _ & R & _).
  destruct (R A1 B1) as (t3' & E3 & (A3 & A4) & C3). rewrite E2 in E3. injection E3 as <- <-.
  split.
  - intros q. destruct (path_dec q p) as [->|N]; [rewrite A3; now symmetry|]. rewrite A4, A2 by exact N. reflexivity.
  - rewrite C3; [exact C1|]. rewrite C1. intros X. apply (proj2 SD) in X. unfold Dir, Free in *. congruence.
Qed.

(** ** Histories *)

(** What any number of DIRF instructions, by any IPs, makes of the file system. *)
Inductive After : tree -> tree -> Prop :=
| after_none t : After t t
| after_one t c s e s' t1 t2 : dirf_tree c s t = Ok (e, s', t1) -> After t1 t2 -> After t t2.

Lemma walk_parent t : Sound t -> forall l p q, Dir t p -> walk t p l = Some q -> Dir t (removelast q).
Proof.
  intros SD. assert (RL : forall p, Dir t p -> Dir t (removelast p)).
  { intros p D. destruct p as [|x p] using rev_ind; [exact D|]. rewrite removelast_snoc. now apply (above t SD [x]). }
  induction l as [|c l IH]; intros p q D E; cbn [walk] in E; [injection E as <-; now apply RL|].
  destruct (is_dir t p); [|discriminate]. destruct l as [|d l].
  - cbn [walk] in E. destruct (bytes_eqb c [] || bytes_eqb c dot); [injection E as <-; now apply RL|].
    destruct (bytes_eqb c dotdot); injection E as <-; [now apply RL, RL|]. now rewrite removelast_snoc.
  - set (p' := if _ || _ then _ else _) in E.
    assert (D' : is_dir t p' = true) by (cbn [walk] in E; destruct (is_dir t p'); [reflexivity|discriminate]).
    apply (IH p' q); [now apply is_dir_spec|exact E].
Qed.
Lemma resolve_parent t b p : Sound t -> resolve t b = Some p -> Dir t (removelast p).
Proof.
  intros SD E. unfold resolve in E. destruct b as [|c b]; [discriminate|]. destruct (c =? 47).
  - exact (walk_parent t SD _ [] p eq_refl E).
  - destruct (t_cwd t) as [q|] eqn:EC; [|discriminate]. exact (walk_parent t SD _ q p (proj2 SD _ EC) E).
Qed.

Lemma dirf_sound c s t e s' t' : Sound t -> dirf_tree c s t = Ok (e, s', t') ->
  Sound t' /\ forall p, File t' p <-> File t p.
Proof.
  intros SD E. unfold dirf_tree in E. destruct ((c =? 67) || (c =? 77) || (c =? 82)).
  2:{ injection E as <- <- <-. split; [exact SD|tauto]. }
  destruct (popString s) as [(str & s1)|x]; [|discriminate]. set (b := cstr str) in E. clearbody b.
  destruct (c =? 67); [|destruct (c =? 77)].
  - destruct (names_dir t b) eqn:ND; injection E as <- <- <-; [|split; [exact SD|tauto]].
    split; [|intros p; unfold File; tauto]. split; [exact (proj1 SD)|].
    intros q EC. cbn [t_cwd] in EC. unfold names_dir in ND. rewrite EC in ND. now apply is_dir_spec in ND.
  - unfold create_directory in E. destruct (resolve t b) as [p|] eqn:ER; [|discriminate].
    destruct (lookup t p) as [[]|] eqn:EL; cbn [bind] in E; [discriminate|injection E as <- <- <-; split; [exact SD|tauto]|].
    injection E as <- <- <-. pose proof (resolve_parent t b p SD ER) as DP.
    assert (NP : p <> []) by (intros ->; discriminate EL).
    set (t' := {| t_nodes := (p, KDir) :: t_nodes t; t_cwd := t_cwd t |}).
    assert (LP : lookup t' p = Some KDir).
    { destruct p as [|x q]; [contradiction|]. unfold lookup. cbn [t' t_nodes find_node].
      replace (path_eqb (x :: q) (x :: q)) with true by (symmetry; now apply path_eqb_eq). reflexivity. }
    assert (LO : forall q, q <> p -> lookup t' q = lookup t q).
    { intros q N. destruct q as [|x q]; [reflexivity|]. unfold lookup. cbn [t' t_nodes find_node].
      rewrite path_eqb_neq by congruence. reflexivity. }
    assert (DK : forall q, Dir t q -> Dir t' q).
    { intros q D. destruct (path_dec q p) as [->|N]; [exact LP|]. unfold Dir. now rewrite LO. }
    split; [split|].
    + intros q d H. apply DK. destruct (path_dec (q ++ [d]) p) as [<-|N]; [now rewrite removelast_snoc in DP|].
      rewrite LO in H by exact N. now apply (proj1 SD q d).
    + intros q EC. apply DK. now apply (proj2 SD).
    + intros q. unfold File. destruct (path_dec q p) as [->|N]; [rewrite LP, EL; split; discriminate|]. now rewrite LO.
  - destruct (names_dir t b) eqn:ND; [|injection E as <- <- <-; split; [exact SD|tauto]].
    unfold remove_dir in E. unfold names_dir in ND. destruct (resolve t b) as [p|]; [|discriminate].
    apply is_dir_spec in ND.
    destruct (bytes_eqb _ [] || _ || _ || _) eqn:EB; cbn [bind] in E; [discriminate|]. injection E as <- <- <-.
    apply orb_false_iff in EB. destruct EB as (_ & EB). apply negb_false_iff in EB. apply is_empty_spec in EB.
    set (t' := {| t_nodes := filter _ _; t_cwd := _ |}).
    assert (LO : forall q, q <> p -> lookup t' q = lookup t q).
    { intros q N. destruct q as [|x q]; [reflexivity|]. unfold lookup. cbn [t' t_nodes]. now apply find_filter. }
    assert (LP : p = [] \/ lookup t' p = None).
    { destruct p as [|x q]; [now left|]. right. unfold lookup. cbn [t' t_nodes]. apply find_filter_same. }
    split; [split|].
    + intros q d H. destruct (path_dec (q ++ [d]) p) as [EQ|N].
      { destruct LP as [->|LP]; [now destruct q|]. rewrite EQ in H. contradiction. }
      rewrite LO in H by exact N. destruct (path_dec q p) as [->|N2]; [exfalso; apply H; apply EB|].
      unfold Dir. rewrite LO by exact N2. now apply (proj1 SD q d).
    + intros q EC. cbn [t' t_cwd] in EC. destruct (t_cwd t) as [x|] eqn:ET; [|discriminate].
      destruct (path_eqb x p) eqn:EX; [discriminate|]. injection EC as <-. unfold Dir. rewrite LO; [now apply (proj2 SD)|].
      intros ->. assert (Y : path_eqb p p = true) by now apply path_eqb_eq. congruence.
    + intros q. unfold File. destruct (path_dec q p) as [->|N]; [|now rewrite LO].
      unfold Dir in ND. destruct LP as [->|LP]; [cbn; split; discriminate|]. rewrite LP, ND. split; discriminate.
Qed.

(** Whatever DIRF instructions run, no file is made, changed into a directory or
    lost, and every entry stays in a directory. *)
Theorem C126_files : forall t t', After t t' -> Sound t ->
  Sound t' /\ forall p, File t' p <-> File t p.
Proof.
  induction 1 as [t|t c s e s' t1 t2 E A IH]; intros SD; [split; [exact SD|tauto]|].
  destruct (dirf_sound _ _ _ _ _ _ SD E) as (S1 & F1). destruct (IH S1) as (S2 & F2). split; [exact S2|].
  intros p. rewrite F2. apply F1.
Qed.

(** ** What is wrong with it *)

(** M where a file is or where the directory to make it in is missing, and R of a
    directory that is not empty, end the interpreter: the exception is not caught. *)
Theorem C126_M_refuted : forall s t b p l, Holds s (b ++ 0 :: l) -> char_str b -> Sound t -> Names t b p ->
  File t p \/ ~ Dir t (removelast p) -> dirf_tree 77 s t = Bad BadThrow.
Proof.
  intros s t b p l HS HC SD HN H. destruct (dirf_pops s t b l HS HC 77 ltac:(cbn; auto)) as (s' & O & ->).
  cbn [Z.eqb Pos.eqb]. destruct (resolve_names t b p SD HN) as (NP & R1 & R2). unfold create_directory.
  destruct (is_dir t (removelast p)) eqn:E.
  - destruct H as [H|H]; [|exfalso; apply H; now apply is_dir_spec]. rewrite R1 by (now apply is_dir_spec).
    unfold File in H. now rewrite H.
  - rewrite R2; [reflexivity|]. intros D. apply is_dir_spec in D. congruence.
Qed.
Theorem C126_R_refuted : forall s t b p l c, Holds s (b ++ 0 :: l) -> char_str b -> Sound t -> Names t b p ->
  ~ Free t (p ++ [c]) -> dirf_tree 82 s t = Bad BadThrow.
Proof.
  intros s t b p l c HS HC SD HN H. destruct (dirf_pops s t b l HS HC 82 ltac:(cbn; auto)) as (s' & O & ->).
  cbn [Z.eqb Pos.eqb]. assert (D : Dir t p) by (apply (proj1 SD p c); exact H).
  rewrite (proj2 (names_dir_spec t b p SD HN) D). unfold remove_dir. rewrite (dir_resolves t b p SD HN D).
  destruct (is_empty t p) eqn:E; [apply is_empty_spec in E; exfalso; apply H, E|].
  cbn [negb]. rewrite orb_true_r. reflexivity.
Qed.

(** What [execute] does, where nothing is thrown: the same to the IP and the same
    outcome, and it records what was asked for. *)
Theorem C126_execute : forall F D s t c b l fld s' t' e,
  Letter s FP_DIRF fld c -> In c [67; 77; 82] -> Holds s (b ++ 0 :: l) -> char_str b ->
  (forall d, w_dir (s_w s) d = names_dir t d) ->
  dirf_tree c s t = Ok (e, s', t') ->
  exists s'', execute F (S D) c s = Ok (e, s'') /\ s_r s'' = s_r s' /\
    s_w s'' = match e with
              | ENone => logged (if c =? 67 then EvChdir b else if c =? 77 then EvMkdir b else EvRmdir b) (s_w s)
              | _ => s_w s
              end.
Proof.
  intros F D s t c b l fld s' t' e HL HC HS CH WD E.
  rewrite (execute_letter _ _ _ _ _ _ HL). change (fp_exec F FP_DIRF fld c) with (dirf_exec c).
  destruct (popString_plain s b l CH HS) as (s1 & E1 & O). pose proof (Only_stack_w _ _ _ O) as W1.
  unfold dirf_tree in E. rewrite E1, (cstr_all b (char_str_no0 b CH)) in E. unfold dirf_exec.
  cbn [In] in HC. destruct HC as [<-|[<-|[<-|[]]]]; cbn [Z.eqb Pos.eqb orb] in *; rewrite (run_bind _ _ _ _ _ E1).
  - unfold mbind at 1, getW at 1. rewrite W1, WD. destruct (names_dir t b); injection E as <- <- <-; eexists; repeat split.
    + cbn [s_w]. now rewrite W1.
    + cbn. now rewrite W1.
  - destruct (create_directory b t) as [t1|x]; cbn [bind] in E; [|discriminate]. injection E as <- <- <-.
    eexists. repeat split. cbn [s_w]. now rewrite W1.
  - unfold mbind at 1, getW at 1. rewrite W1, WD. destruct (names_dir t b).
    + destruct (remove_dir b t) as [t1|x]; cbn [bind] in E; [|discriminate]. injection E as <- <- <-.
      eexists. repeat split. cbn [s_w]. now rewrite W1.
    + injection E as <- <- <-. eexists. repeat split. cbn. now rewrite W1.
Qed.

(** A tree with the directories /home and /home/new and the file /home/f, looked at
    from /home. *)
Definition home : path := [lit "home"].
Definition ex_tree : tree :=
  {| t_nodes := [(home, KDir); ([lit "home"; lit "f"], KFile); ([lit "home"; lit "new"], KDir)]; t_cwd := Some home |}.
Lemma ex_sound : Sound ex_tree.
Proof.
  split.
  - intros p c H. unfold lookup in H. destruct (p ++ [c]) as [|x q] eqn:EQ; [now destruct p|].
    rewrite <- EQ in H. cbn [ex_tree t_nodes find_node] in H.
    assert (K : forall l k (x : option kind), (if path_eqb l (p ++ [c]) then Some k else x) <> None -> l = p ++ [c] \/ x <> None).
    { intros l k y. destruct (path_eqb l (p ++ [c])) eqn:E; [left; now apply path_eqb_eq|auto]. }
    assert (R : forall l, l = p ++ [c] -> p = removelast l) by (intros l ->; now rewrite removelast_snoc).
    repeat (apply K in H; destruct H as [H|H]; [rewrite (R _ H); reflexivity|]). contradiction.
  - intros c E. injection E as <-. reflexivity.
Qed.
Definition dirf_at (name : string) : st := loaded [FP_DIRF] (lit name ++ 0 :: [9]).
Lemma ex_holds name : Holds (dirf_at name) (lit name ++ 0 :: [9]).
Proof. apply holds_with_list; [reflexivity|vm_compute; discriminate]. Qed.
Lemma ex_names name : entry (lit name) -> Names ex_tree (lit name) (home ++ [lit name]).
Proof. intros E. exact (names_relative ex_tree [lit name] home (Forall_cons _ E (Forall_nil _)) ltac:(discriminate) eq_refl). Qed.
Example C126_ex :
  Sound ex_tree /\ Holds (dirf_at "new") (lit "new" ++ 0 :: [9]) /\ char_str (lit "new") /\
  Names ex_tree (lit "new") (home ++ [lit "new"]) /\ Dir ex_tree (home ++ [lit "new"]) /\ Bare ex_tree (home ++ [lit "new"]) /\
  Names ex_tree (lit "/home/f/x") [lit "home"; lit "f"; lit "x"] /\ ~ Dir ex_tree (removelast [lit "home"; lit "f"; lit "x"]) /\
  Free ex_tree (home ++ [lit "old"]) /\ ~ Free ex_tree (home ++ [lit "f"]) /\
  Letter (dirf_at "new") FP_DIRF 0 82 /\
  match dirf_tree 82 (dirf_at "new") ex_tree with
  | Ok (ENone, _, t) => names_dir t (lit "new") = false /\ names_dir t (lit "../home") = true
  | _ => False
  end.
Proof.
  assert (EN : forall b, In b [lit "new"; lit "home"; lit "f"; lit "x"] -> entry b).
  { intros b H. cbn [In] in H. repeat (destruct H as [<-|H]; [vm_compute; repeat split; try discriminate; intros X;
      repeat (destruct X as [X|X]; [discriminate|]); exact X|]). destruct H. }
  split; [exact ex_sound|]. split; [apply ex_holds|]. split; [vm_compute; repeat constructor; discriminate|].
  split; [apply ex_names, EN; cbn; auto|]. split; [reflexivity|]. split; [apply is_empty_spec; reflexivity|].
  split. { apply (names_absolute ex_tree [lit "home"; lit "f"; lit "x"]); [|discriminate].
           repeat (apply Forall_cons; [apply EN; cbn; auto|]). apply Forall_nil. }
  split; [intros X; discriminate X|]. split; [reflexivity|]. split; [intros X; discriminate X|].
  split; [vm_compute; repeat split; eexists; reflexivity|]. vm_compute. split; reflexivity.
Qed.

Print Assumptions C126_C.
Print Assumptions C126_M_partial.
Print Assumptions C126_R_partial.
Print Assumptions C126_undo.
Print Assumptions C126_files.
Print Assumptions C126_M_refuted.
Print Assumptions C126_R_refuted.
Print Assumptions C126_execute.
