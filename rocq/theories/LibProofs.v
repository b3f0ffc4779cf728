(** * FungeLib files (Field::parseFungeLib). *)

From Coq Require Import ZArith List Bool Lia.
From Verif Require Import Base BaseProofs VectorModel VectorProofs FieldModel FieldProofs.
Import ListNotations.
Open Scope Z_scope.

(** ** Specification: sections *)

(** A section is a letter and the lines below its "=X" header. *)
Definition lib_section : Type := (Z * list bytes)%type.

Definition is_header (line : bytes) : Prop :=
  exists x, line = [61; x] /\ 65 <= x <= 90.

Definition good_section (s : lib_section) : Prop :=
  65 <= fst s <= 90 /\
  Forall (fun line => ~ is_header line /\ Forall (fun c => 0 <= c < 256 /\ c <> 10) line) (snd s).

(** The lines of a file made of sections. *)
Definition lib_lines (secs : list lib_section) : list bytes :=
  flat_map (fun s => [61; fst s] :: snd s) secs.

(** Lines joined by newlines. *)
Fixpoint join (ls : list bytes) : bytes :=
  match ls with
  | [] => []
  | [l] => l
  | l :: t => l ++ 10 :: join t
  end.

(** Is [p] the point (x,y,z)? *)
Definition at_xyz (p : vec) (x y z : Z) : Prop :=
  vget p 0 = x /\ vget p 1 = y /\ vget p 2 = z /\ forall i, (3 <= i)%nat -> vget p i = 0.

(** ** Facts *)

Lemma split_at_app sep l t : forall cur, ~ In sep l ->
  split_at sep (l ++ sep :: t) cur = (cur ++ l) :: split_at sep t [].
Proof.
  induction l as [|c l IH]; intros cur H; cbn.
  - rewrite Z.eqb_refl, app_nil_r. reflexivity.
  - destruct (Z.eqb_spec c sep); [exfalso; apply H; left; auto|].
    rewrite IH by (intros ?; apply H; right; auto). now rewrite <- app_assoc.
Qed.
Lemma split_at_end sep l : forall cur, ~ In sep l -> split_at sep l cur = [cur ++ l].
Proof.
  induction l as [|c l IH]; intros cur H; cbn.
  - now rewrite app_nil_r.
  - destruct (Z.eqb_spec c sep); [exfalso; apply H; left; auto|].
    rewrite IH by (intros ?; apply H; right; auto). now rewrite <- app_assoc.
Qed.
Lemma split_join ls : ls <> [] -> Forall (fun l => ~ In 10 l) ls -> split_at 10 (join ls) [] = ls.
Proof.
  induction ls as [|l ls IH]; intros N F; [congruence|].
  inversion F; subst. destruct ls as [|m ls].
  - cbn [join]. now rewrite split_at_end.
  - change (join (l :: m :: ls)) with (l ++ 10 :: join (m :: ls)).
    rewrite split_at_app by auto. cbn [app]. f_equal. apply IH; auto. discriminate.
Qed.

Lemma fl_header_some x : 65 <= x <= 90 -> fl_header [61; x] = Some x.
Proof.
  intros H. unfold fl_header. rewrite to_i8_id by lia.
  destruct (Z.leb_spec 65 x); [|lia]. destruct (Z.leb_spec x 90); [|lia]. reflexivity.
Qed.
Lemma fl_header_none line : ~ is_header line -> Forall (fun c => 0 <= c < 256) line ->
  fl_header line = None.
Proof.
  intros H F. unfold fl_header. destruct line as [|e [|x [|]]]; auto.
  destruct (Z.eqb_spec e 61); cbn [andb]; auto.
  inversion F as [|? ? _ F2]; subst. inversion F2 as [|? ? Rx _]; subst.
  destruct (Z.leb_spec 65 (to_i8 x)); cbn [andb]; auto.
  destruct (Z.leb_spec (to_i8 x) 90); cbn [andb]; auto.
  exfalso. apply H. exists x. split; auto.
  unfold to_i8, wrap in *. change (2 ^ 8) with 256 in *. change (2 ^ (8 - 1)) with 128 in *.
  destruct (Z.lt_ge_cases x 128).
  - rewrite Z.mod_small in * by lia. lia.
  - replace (x + 128) with (x - 128 + 1 * 256) in * by lia.
    rewrite Z.mod_add in * by lia. rewrite Z.mod_small in * by lia. lia.
Qed.

(** The field read at (x,y,z). *)
Definition get3 (f : field) (x y z : Z) : Z := f_get f (mkvec [x; y; z]).

Lemma at_xyz_mkvec x y z : at_xyz (mkvec [x; y; z]) x y z.
Proof.
  unfold at_xyz. rewrite !vget_mkvec. cbn [nth]. repeat split; auto.
  intros i Hi. rewrite vget_mkvec. do 3 (destruct i; [lia|]). destruct i; reflexivity.
Qed.
Lemma at_xyz_same p q x y z : at_xyz p x y z -> at_xyz q x y z -> same p q.
Proof.
  intros (A & B & C & D) (A' & B' & C' & D') i.
  do 3 (destruct i; [congruence|]). rewrite D, D' by lia. reflexivity.
Qed.
Lemma get3_put p a b c v f x y z : at_xyz p a b c ->
  get3 (f_put p v f) x y z
  = if (a =? x) && (b =? y) && (c =? z) then cellval (f_char f) v else get3 f x y z.
Proof.
  intros H. unfold get3. rewrite f_get_put.
  destruct (Z.eqb_spec a x), (Z.eqb_spec b y), (Z.eqb_spec c z); cbn [andb]; subst.
  1:{ assert (E : veqb p (mkvec [x; y; z]) = true)
        by (apply veqb_same; eapply at_xyz_same; [exact H|apply at_xyz_mkvec]).
      now rewrite E. }
  all: destruct (veqb p (mkvec [x; y; z])) eqn:E; auto; exfalso;
       apply veqb_same in E; destruct H as (A & B & C & _);
       pose proof (E 0%nat) as E0; pose proof (E 1%nat) as E1; pose proof (E 2%nat) as E2;
       rewrite !vget_mkvec in E0, E1, E2; cbn in E0, E1, E2; congruence.
Qed.

Lemma fl_line_spec line : forall pos f x y z,
  at_xyz pos x y z -> 0 <= x -> x + Z.of_nat (length line) <= INT64_MAX -> in64 y -> in64 z ->
  exists pos' f', fl_line line pos f = Ok (pos', f') /\
    at_xyz pos' (x + Z.of_nat (length line)) y z /\ f_char f' = f_char f /\ f_planes f' = f_planes f /\
    forall x' y' z', get3 f' x' y' z' =
      if (y =? y') && (z =? z') && (x <=? x') && (x' <? x + Z.of_nat (length line))
      then cellval (f_char f) (to_i8 (nth (Z.to_nat (x' - x)) line 0)) else get3 f x' y' z'.
Proof.
  induction line as [|c line IH]; intros pos f x y z A Hx Hb Iy Iz; cbn [fl_line].
  - exists pos, f. split; auto. split; [cbn; rewrite Z.add_0_r; auto|]. split; auto. split; auto.
    intros x' y' z'. cbn [length]. destruct ((y =? y') && (z =? z')); cbn [andb]; auto.
    destruct (Z.leb_spec x x'), (Z.ltb_spec x' (x + Z.of_nat 0)); cbn [andb]; auto; lia.
  - cbn [length] in Hb. pose proof A as (A0 & A1 & A2 & A3).
    destruct (vadd_defined pos [1]) as (p1 & E1).
    { intros i. destruct i as [|[|[|i]]]; cbn [vget].
      - rewrite A0. unfold in64, INT64_MIN, INT64_MAX in *. cbn; lia.
      - rewrite A1. change (vget [1] 1) with 0. rewrite Z.add_0_r. auto.
      - rewrite A2. change (vget [1] 2) with 0. rewrite Z.add_0_r. auto.
      - rewrite A3 by lia. rewrite vget_out by (cbn; lia). unfold in64, INT64_MIN, INT64_MAX; lia. }
    rewrite E1. cbn [bind]. pose proof (vadd_get _ _ _ E1) as G1.
    assert (A' : at_xyz p1 (x + 1) y z).
    { unfold at_xyz. rewrite !G1, A0, A1, A2. change (vget [1] 0) with 1.
      change (vget [1] 1) with 0. change (vget [1] 2) with 0. repeat split; try lia.
      intros i Hi. rewrite G1, A3 by lia. rewrite vget_out by (cbn; lia). lia. }
    destruct (IH p1 (f_put pos (to_i8 c) f) (x + 1) y z A') as (p2 & f' & E2 & A2' & C2 & PL & G2);
      auto; try lia.
    exists p2, f'. split; [exact E2|].
    split. { cbn [length]. replace (x + Z.of_nat (S (length line))) with (x + 1 + Z.of_nat (length line)) by lia. auto. }
    rewrite f_put_char in *. split; auto. split.
    { rewrite PL. unfold f_put. destruct (to_i8 c =? 32); reflexivity. }
    intros x' y' z'. rewrite G2, (get3_put pos x y z) by auto.
    destruct (Z.eqb_spec y y'), (Z.eqb_spec z z'); cbn [andb];
      rewrite ?andb_false_r; cbn [andb]; auto.
    cbn [length]. rewrite !andb_true_r.
    destruct (Z.eqb_spec x x').
    + subst x'. destruct (Z.leb_spec (x + 1) x); [lia|]. cbn [andb].
      destruct (Z.leb_spec x x); [|lia]. destruct (Z.ltb_spec x (x + Z.of_nat (S (length line)))); [|lia].
      cbn [andb]. rewrite Z.sub_diag. reflexivity.
    + destruct (Z.leb_spec (x + 1) x'), (Z.leb_spec x x'); cbn [andb]; try lia; auto.
      destruct (Z.ltb_spec x' (x + 1 + Z.of_nat (length line))),
        (Z.ltb_spec x' (x + Z.of_nat (S (length line)))); try lia; auto.
      replace (Z.to_nat (x' - x)) with (S (Z.to_nat (x' - (x + 1)))) by lia. reflexivity.
Qed.

(** Value of the body of a section at (x,y). *)
Definition body_at (ls : list bytes) (x y : Z) : option Z :=
  if (0 <=? x) && (0 <=? y) then nth_error (nth (Z.to_nat y) ls []) (Z.to_nat x) else None.

Lemma fl_body ls : forall rest pos f y z,
  at_xyz pos 0 y z -> 0 <= y ->
  Forall (fun line => ~ is_header line /\ Forall (fun c => 0 <= c < 256 /\ c <> 10) line) ls ->
  Forall (fun line => Z.of_nat (length line) <= INT64_MAX) ls ->
  y + Z.of_nat (length ls) <= INT64_MAX -> in64 z ->
  exists pos' f', fl_lines (ls ++ rest) pos f = fl_lines rest pos' f' /\
    f_char f' = f_char f /\ f_planes f' = f_planes f /\
    forall x' y' z', get3 f' x' y' z' =
      match (if z =? z' then body_at ls x' (y' - y) else None) with
      | Some c => cellval (f_char f) (to_i8 c)
      | None => get3 f x' y' z'
      end.
Proof.
  induction ls as [|line ls IH]; intros rest pos f y z A Hy F FL Hb Iz.
  - exists pos, f. split; [reflexivity|]. split; [auto|]. split; [auto|].
    intros. destruct (z =? z'); auto. unfold body_at.
    destruct ((0 <=? x') && (0 <=? y' - y)); auto.
    destruct (Z.to_nat (y' - y)); destruct (Z.to_nat x'); reflexivity.
  - inversion F as [|? ? [Hh Hc] F']; subst. inversion FL as [|? ? Hl FL']; subst.
    cbn [app fl_lines]. rewrite fl_header_none; auto.
    2:{ eapply Forall_impl; [|exact Hc]. cbn. tauto. }
    cbn [length] in Hb.
    destruct (fl_line_spec line pos f 0 y z A) as (p1 & f1 & E1 & A1 & C1 & PL1 & G1); auto; try lia.
    { unfold in64, INT64_MIN, INT64_MAX in *; lia. }
    rewrite E1. cbn [bind fst snd].
    pose proof A1 as (B0 & B1 & B2 & B3).
    destruct (vadd_defined p1 [0; 1]) as (p2 & E2).
    { intros i. destruct i as [|[|[|i]]].
      - rewrite B0. change (vget [0; 1] 0) with 0. unfold in64, INT64_MIN, INT64_MAX in *. lia.
      - rewrite B1. change (vget [0; 1] 1) with 1. unfold in64, INT64_MIN, INT64_MAX in *. lia.
      - rewrite B2. change (vget [0; 1] 2) with 0. rewrite Z.add_0_r. auto.
      - rewrite B3 by lia. rewrite vget_out by (cbn; lia). unfold in64, INT64_MIN, INT64_MAX; lia. }
    rewrite E2. cbn [bind]. pose proof (vadd_get _ _ _ E2) as G2.
    destruct (IH rest (vset p2 0 0) f1 (y + 1) z) as (p3 & f3 & E3 & C3 & PL3 & G3); auto; try lia.
    { unfold at_xyz. rewrite !vget_vset, !G2, B1, B2. cbn [Nat.eqb].
      change (vget [0; 1] 1) with 1. change (vget [0; 1] 2) with 0. repeat split; try lia.
      intros i Hi. rewrite vget_vset, G2, B3 by lia. destruct (Nat.eqb_spec i 0); [lia|].
      rewrite vget_out by (cbn; lia). lia. }
    exists p3, f3. split; [exact E3|]. split; [congruence|]. split; [congruence|].
    intros x' y' z'. rewrite G3, G1, C1. cbn [Z.add] in *.
    destruct (Z.eqb_spec z z'); [|rewrite andb_false_r; reflexivity].
    rewrite andb_true_r. unfold body_at.
    destruct (Z.leb_spec 0 x'); cbn [andb].
    2:{ rewrite andb_false_r. reflexivity. }
    rewrite andb_true_r.
    destruct (Z.leb_spec 0 (y' - (y + 1))), (Z.leb_spec 0 (y' - y)); try lia.
    + destruct (Z.eqb_spec y y'); [lia|]. cbn [andb].
      replace (Z.to_nat (y' - y)) with (S (Z.to_nat (y' - (y + 1)))) by lia. reflexivity.
    + assert (y = y') by lia. subst. rewrite Z.eqb_refl, Z.sub_diag. cbn [andb Z.to_nat nth].
      destruct (Z.ltb_spec x' (Z.of_nat (length line))).
      * rewrite Z.sub_0_r. rewrite (nth_error_nth' line 0) by lia. reflexivity.
      * destruct (nth_error line (Z.to_nat x')) eqn:N; auto.
        assert (Z.to_nat x' < length line)%nat by (apply nth_error_Some; congruence). lia.
    + destruct (Z.eqb_spec y y'); [lia|]. reflexivity.
Qed.

Fixpoint in_section (secs : list lib_section) (x y z : Z) : option Z :=
  match secs with
  | [] => None
  | s :: t => if fst s - 65 =? z then body_at (snd s) x y else in_section t x y z
  end.

Lemma fl_sections secs : forall pos f,
  Forall good_section secs -> NoDup (map fst secs) ->
  Forall (fun s => Forall (fun line => Z.of_nat (length line) <= INT64_MAX) (snd s) /\
                   Z.of_nat (length (snd s)) <= INT64_MAX) secs ->
  exists f', fl_lines (lib_lines secs) pos f = Ok f' /\
    f_char f' = f_char f /\ f_planes f' = f_planes f ++ map fst secs /\
    forall x y z, get3 f' x y z =
      match in_section secs x y z with
      | Some c => cellval (f_char f) (to_i8 c)
      | None => get3 f x y z
      end.
Proof.
  induction secs as [|[X ls] secs IH]; intros pos f F ND FB.
  - exists f. cbn. rewrite app_nil_r. auto.
  - inversion F as [|? ? [HX Hls] F']; subst. inversion FB as [|? ? [Hl1 Hl2] FB']; subst.
    inversion ND as [|? ? Hni ND']; subst. cbn [fst snd] in *.
    change (lib_lines ((X, ls) :: secs)) with ([61; X] :: ls ++ lib_lines secs).
    cbn [fl_lines]. rewrite fl_header_some by auto.
    destruct (fl_body ls (lib_lines secs) (mkvec [0; 0; X - 65]) (f_add_plane X f) 0 (X - 65))
      as (p1 & f1 & E1 & C1 & PL1 & G1); auto; try lia.
    { apply at_xyz_mkvec. }
    { unfold in64, INT64_MIN, INT64_MAX; lia. }
    rewrite E1. destruct (IH p1 f1) as (f2 & E2 & C2 & PL2 & G2); auto.
    exists f2. split; [exact E2|]. cbn [f_char f_add_plane] in C1. split; [congruence|]. split.
    { rewrite PL2, PL1. cbn [f_planes f_add_plane map fst]. now rewrite <- app_assoc. }
    intros x y z. rewrite G2, G1, C1. cbn [in_section fst snd].
    rewrite Z.sub_0_r. cbn [f_char f_add_plane].
    change (get3 (f_add_plane X f) x y z) with (get3 f x y z).
    destruct (Z.eqb_spec (X - 65) z); auto.
    assert (NS : in_section secs x y z = None).
    { clear -Hni e. induction secs as [|[Y m] secs IH]; cbn; auto.
      destruct (Z.eqb_spec (Y - 65) z).
      - exfalso. apply Hni. left. cbn. lia.
      - apply IH. intros H. apply Hni. right. auto. }
    rewrite NS. reflexivity.
Qed.

Lemma parse_lib_sections secs f :
  secs <> [] -> Forall good_section secs -> NoDup (map fst secs) ->
  Forall (fun s => Forall (fun line => Z.of_nat (length line) <= INT64_MAX) (snd s) /\
                   Z.of_nat (length (snd s)) <= INT64_MAX) secs ->
  exists f', f_parse_lib (join (lib_lines secs)) f = Ok f' /\
    f_planes f' = f_planes f ++ map fst secs /\ f_char f' = f_char f /\
    forall x y z, get3 f' x y z =
      match in_section secs x y z with
      | Some c => cellval (f_char f) (to_i8 c)
      | None => get3 f x y z
      end.
Proof.
  intros N F ND FB. unfold f_parse_lib. rewrite split_join.
  - destruct (fl_sections secs [] {| f_cells := f_cells f; f_maxs := f_maxs f; f_mins := f_mins f;
       f_planes := f_planes f; f_dims := 3; f_char := f_char f |} F ND FB) as (f' & E & C & P & G).
    exists f'. split; [exact E|]. split; [exact P|]. split; [exact C|]. exact G.
  - destruct secs; [congruence|]. discriminate.
  - apply Forall_forall. intros l Hl. apply in_flat_map in Hl. destruct Hl as (s & Hs & Hl).
    rewrite Forall_forall in F. destruct (F s Hs) as [HX Hls]. destruct Hl as [<-|Hl].
    + destruct s as [X ls]. cbn [fst] in *. cbn [In]. intros [?|[?|[]]]; lia.
    + rewrite Forall_forall in Hls. destruct (Hls l Hl) as [_ Hc].
      rewrite Forall_forall in Hc. intros Hin. apply Hc in Hin. lia.
Qed.
