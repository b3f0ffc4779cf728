(** * C108: the blocks of a .beq file land where their control lines say. *)

From Coq Require Import ZArith Lia String List Bool.
From Verif Require Import Base BaseProofs VectorModel TextModel StackModel FieldModel World IpModel LoadModel
  FingModel CoreModel UniModel OptModel FileModel
  VectorProofs FieldProofs TextProofs LibProofs PropsOpt FileProofs.
Import ListNotations.
Open Scope Z_scope.
Local Notation length := List.length.

(** ** Specification *)

(** A block: its Origin, its Coord (whose parts may be left out) and its lines. *)
Record block := { b_origin : list Z; b_coord : list (option Z); b_lines : list bytes }.

Definition words (l : list bytes) : bytes := sep_by 32 l.
Definition control (b : block) : bytes :=
  sep_by 44 [words [lit "Lines"; dec (Z.of_nat (length (b_lines b)))];
             words [lit "Origin"; sep_by 58 (map dec (b_origin b))];
             words [lit "Coord"; sep_by 58 (map opt_dec (b_coord b))]].
Definition head_line (version : bytes) (dims : Z) : bytes :=
  sep_by 44 [words [lit "Version"; version]; words [lit "Dimensions"; dec dims]].
Definition beq_text (version : bytes) (dims : Z) (bs : list block) (newline : bool) : bytes :=
  sep_by 10 (head_line version dims :: flat_map (fun b => control b :: b_lines b) bs
             ++ (if newline then [[]] else [])).

(** The corner of a block: its Origin followed by its Coord, zero elsewhere. *)
Definition coord (b : block) (d : nat) : Z := nth d (b_origin b ++ map opt_val (b_coord b)) 0.
(** Block [b] has character [c] at point [q]. *)
Definition Covers (b : block) (q : vec) (c : Z) : Prop :=
  exists j i line, nth_error (b_lines b) j = Some line /\ nth_error line i = Some c /\
    vget q 0 = coord b 0 + Z.of_nat i /\ vget q 1 = coord b 1 + Z.of_nat j /\
    forall d, (2 <= d)%nat -> vget q d = coord b d.

Definition is_int (n : Z) : Prop := -2147483648 <= n <= 2147483647.
Record Block_ok (b : block) : Prop := {
  ok_origin : b_origin b <> [] /\ Forall is_int (b_origin b);
  ok_coord : b_coord b <> [] /\ Forall (fun x => is_int (opt_val x)) (b_coord b);
  ok_lines : Forall (fun l => ~ In 10 l /\ Z.of_nat (length l) < 2 ^ 62) (b_lines b);
  ok_count : Z.of_nat (length (b_lines b)) < 2 ^ 62 }.

(** ** Proof *)

Lemma dec_without sep n : sep <> 45 -> (sep < 48 \/ 57 < sep) -> ~ In sep (dec n).
Proof. intros A B I. destruct (dec_chars _ _ I) as [X|X]; [congruence|]. unfold digit in X. lia. Qed.
Lemma decs_without sep s l : sep <> 45 -> (sep < 48 \/ 57 < sep) -> sep <> s -> ~ In sep (sep_by s (map dec l)).
Proof.
  intros A B C I. destruct (sep_by_in _ _ _ I) as [X|(x & X & Y)]; [congruence|].
  apply in_map_iff in X. destruct X as (n & <- & _). exact (dec_without sep n A B Y).
Qed.
Lemma opts_without sep s l : sep <> 45 -> (sep < 48 \/ 57 < sep) -> sep <> s -> ~ In sep (sep_by s (map opt_dec l)).
Proof.
  intros A B C I. destruct (sep_by_in _ _ _ I) as [X|(x & X & Y)]; [congruence|].
  apply in_map_iff in X. destruct X as ([n|] & <- & _); [|destruct Y]. exact (dec_without sep n A B Y).
Qed.
Lemma word2_in w x c : In c (words [w; x]) -> In c w \/ c = 32 \/ In c x.
Proof. unfold words. cbn [sep_by]. intros I. apply in_app_or in I. destruct I as [I|[I|I]]; auto. Qed.
Lemma word2_split w x : ~ In 32 w -> ~ In 32 x -> split_at 32 (words [w; x]) [] = [w; x].
Proof. intros A B. unfold words. apply split_sep; [discriminate|]. auto. Qed.

Ltac not_in := let I := fresh in intros I; vm_compute in I; repeat (destruct I as [I|I]; [discriminate I|]); destruct I.

Ltac all_not := repeat (constructor; [split; [not_in|cbn; lia]|]); constructor.
Ltac block_ok := constructor; cbn [b_origin b_coord b_lines]; [split; [discriminate|repeat constructor; unfold is_int; cbn; lia]
  |split; [discriminate|repeat constructor; unfold is_int; cbn; lia]|all_not|cbn; lia].

Lemma head_run v n q : ~ In 32 v -> ~ In 44 v -> 0 <= n < 2 ^ 64 -> q_dims q = 0 ->
  beq_items (split_at 44 (head_line v n) []) q =
  Ok {| q_dims := n; q_lines := q_lines q; q_origin := q_origin q; q_dim := q_dim q |}.
Proof.
  intros V1 V2 N Q. unfold head_line. rewrite split_sep; [|discriminate|].
  - cbn [beq_items]. unfold beq_item at 1. rewrite word2_split by (assumption || not_in).
    change (hd [] [lit "Version"; v]) with (lit "Version"). change (streq (lit "Version") (lit "Version")) with true.
    cbv iota. cbn [bind]. unfold beq_item.
    rewrite word2_split by (not_in || (apply dec_without; lia)). change (hd [] [lit "Dimensions"; dec n]) with (lit "Dimensions").
    change (streq (lit "Dimensions") (lit "Version")) with false. change (streq (lit "Dimensions") (lit "Dimensions")) with true.
    cbv iota. rewrite Q. change (0 =? 0) with true. cbv iota. cbn [part nth_error bind].
    rewrite stoul_dec by assumption. reflexivity.
  - constructor; [|constructor; [|constructor]]; intros I; apply word2_in in I; destruct I as [I|[I|I]];
      try discriminate I; try (revert I; not_in); try contradiction. revert I. apply dec_without; lia.
Qed.

Lemma control_run b dims : Block_ok b -> exists o k,
  beq_items (split_at 44 (control b) []) {| q_dims := dims; q_lines := 0; q_origin := []; q_dim := 0 |}
  = Ok {| q_dims := dims; q_lines := Z.of_nat (length (b_lines b)); q_origin := o; q_dim := k |} /\
  forall d, vget o d = coord b d.
Proof.
  intros [[O1 O2] [C1 C2] _ Kn]. unfold control. rewrite split_sep; [|discriminate|].
  - cbn [beq_items]. unfold beq_item at 1. rewrite word2_split by (not_in || (apply dec_without; lia)).
    match goal with |- context [hd [] [lit "Lines"; ?x]] => change (hd [] [lit "Lines"; x]) with (lit "Lines") end.
    change (streq (lit "Lines") (lit "Version")) with false. change (streq (lit "Lines") (lit "Dimensions")) with false.
    change (streq (lit "Lines") (lit "Lines")) with true. cbv iota. cbn [part nth_error bind].
    rewrite stoul_dec by lia. cbn [bind q_dims q_lines q_origin q_dim].
    unfold beq_item at 1. rewrite word2_split by (not_in || (apply decs_without; lia)).
    match goal with |- context [hd [] [lit "Origin"; ?x]] => change (hd [] [lit "Origin"; x]) with (lit "Origin") end.
    change (streq (lit "Origin") (lit "Version")) with false. change (streq (lit "Origin") (lit "Dimensions")) with false.
    change (streq (lit "Origin") (lit "Lines")) with false. change (streq (lit "Origin") (lit "Origin")) with true.
    cbv iota. cbn [part nth_error bind q_dims q_lines q_origin q_dim].
    rewrite split_sep; [|destruct (b_origin b); [congruence|discriminate]|].
    2:{ apply Forall_forall. intros x X. apply in_map_iff in X. destruct X as (n & <- & _). apply dec_without; lia. }
    destruct (beq_origin_run (b_origin b) 0 [] O2) as (o1 & E1 & G1). rewrite E1. cbn [bind fst snd].
    unfold beq_item at 1. rewrite word2_split by (not_in || (apply opts_without; lia)).
    match goal with |- context [hd [] [lit "Coord"; ?x]] => change (hd [] [lit "Coord"; x]) with (lit "Coord") end.
    change (streq (lit "Coord") (lit "Version")) with false. change (streq (lit "Coord") (lit "Dimensions")) with false.
    change (streq (lit "Coord") (lit "Lines")) with false. change (streq (lit "Coord") (lit "Origin")) with false.
    change (streq (lit "Coord") (lit "Coord")) with true.
    cbv iota. cbn [part nth_error bind q_dims q_lines q_origin q_dim].
    rewrite split_sep; [|destruct (b_coord b); [congruence|discriminate]|].
    2:{ apply Forall_forall. intros x X. apply in_map_iff in X. destruct X as ([n|] & <- & _); [apply dec_without; lia|intros []]. }
    assert (V0 : forall i, vget [] i = 0) by (intros i; apply vget_out; cbn; lia).
    destruct (beq_coord_run (b_coord b) (0 + length (b_origin b)) o1 C2) as (o2 & E2 & G2).
    { intros i Hi. rewrite G1, V0. cbn [Nat.add] in *. destruct (Nat.ltb_spec i (length (b_origin b))); [lia|].
      destruct (Nat.ltb i 0); reflexivity. }
    rewrite E2. cbn [bind fst snd q_dims q_lines]. eexists _, _. split; [reflexivity|].
    intros d. rewrite G2, G1, V0. unfold coord. cbn [Nat.add]. rewrite Nat.sub_0_r.
    change (Nat.ltb d 0) with false. cbv iota.
    destruct (Nat.ltb_spec d (length (b_origin b))).
    + rewrite app_nth1 by assumption. reflexivity.
    + rewrite app_nth2 by lia. change 0 with (opt_val None) at 1. now rewrite map_nth.
  - repeat constructor; intros I; apply word2_in in I; destruct I as [I|[I|I]];
      try discriminate I; try (revert I; not_in); revert I;
      [apply dec_without|apply decs_without|apply opts_without]; lia.
Qed.

(** The last block of [bs] that covers [q] shows [c] there. *)
Definition Shown (bs : list block) (q : vec) (c : Z) : Prop :=
  exists pre b post, bs = pre ++ b :: post /\ Covers b q c /\
    forall b' c', In b' post -> ~ Covers b' q c'.

Lemma covers_at b o q c : (forall d, vget o d = coord b d) ->
  (Covers b q c <-> exists j i, line_char (b_lines b) j i = Some c /\ at_xy o (Z.of_nat i) (0 + Z.of_nat j) q).
Proof.
  intros G. unfold Covers, line_char, at_xy. rewrite !G. split.
  - intros (j & i & l & A & B & C & D & E). exists j, i. rewrite A. split; [exact B|].
    split; [exact C|]. split; [exact D|]. intros d Hd. rewrite G. auto.
  - intros (j & i & A & B & C & D). destruct (nth_error (b_lines b) j) as [l|] eqn:El; [|discriminate].
    exists j, i, l. split; [exact El|]. split; [exact A|]. split; [exact B|]. split; [exact C|]. intros d Hd. rewrite <- G. auto.
Qed.

Lemma covers_fun b q c c' : Covers b q c -> Covers b q c' -> c = c'.
Proof.
  intros (j & i & l & A & B & C & D & _) (j' & i' & l' & A' & B' & C' & D' & _).
  assert (j = j') by lia. assert (i = i') by lia. subst. congruence.
Qed.
Lemma covers_dec b q : (exists c, Covers b q c) \/ forall c, ~ Covers b q c.
Proof.
  set (n := Nat.max (length q) (length (b_origin b ++ map opt_val (b_coord b)))).
  destruct (Z_le_dec 0 (vget q 0 - coord b 0)) as [X0|X0].
  2:{ right. intros c (j & i & l & _ & _ & C & _). lia. }
  destruct (Z_le_dec 0 (vget q 1 - coord b 1)) as [X1|X1].
  2:{ right. intros c (j & i & l & _ & _ & _ & C & _). lia. }
  destruct (nth_error (b_lines b) (Z.to_nat (vget q 1 - coord b 1))) as [l|] eqn:El.
  2:{ right. intros c (j & i & l & A & _ & _ & C & _).
      replace (Z.to_nat (vget q 1 - coord b 1)) with j in El by lia. congruence. }
  destruct (nth_error l (Z.to_nat (vget q 0 - coord b 0))) as [c|] eqn:Ec.
  2:{ right. intros c (j & i & l' & A & B & C & D & _).
      replace (Z.to_nat (vget q 1 - coord b 1)) with j in El by lia.
      replace (Z.to_nat (vget q 0 - coord b 0)) with i in Ec by lia. congruence. }
  destruct (forallb (fun d => vget q d =? coord b d) (seq 2 n)) eqn:Ef.
  - left. exists c, (Z.to_nat (vget q 1 - coord b 1)), (Z.to_nat (vget q 0 - coord b 0)), l.
    split; [exact El|]. split; [exact Ec|]. split; [lia|]. split; [lia|]. intros d Hd.
    rewrite forallb_forall in Ef. destruct (Nat.ltb_spec d (2 + n)).
    + apply Z.eqb_eq, Ef, in_seq. lia.
    + rewrite vget_out by (unfold n in *; lia). symmetry. apply nth_overflow. unfold n in *. lia.
  - right. intros c' (j & i & l' & _ & _ & _ & _ & D).
    assert (T : forallb (fun d => vget q d =? coord b d) (seq 2 n) = true).
    { apply forallb_forall. intros d Hd. apply in_seq in Hd. apply Z.eqb_eq, D. lia. }
    congruence.
Qed.

Lemma block_run b rest line o f : Block_ok b -> (forall d, vget o d = coord b d) ->
  exists f', beq_block (length (b_lines b)) (b_lines b ++ rest) line o o f = Ok (rest, f') /\
    f_char f' = f_char f /\ f_dims f' = f_dims f /\
    (forall q c, Covers b q c -> f_get f' q = cellval (f_char f) (to_i8 c)) /\
    (forall q, (forall c, ~ Covers b q c) -> f_get f' q = f_get f q).
Proof.
  intros [[O1 O2] [C1 C2] L K] G.
  assert (Int : forall d, is_int (coord b d)).
  { intros d. unfold coord. destruct (Nat.ltb_spec d (length (b_origin b ++ map opt_val (b_coord b)))) as [H|H].
    - assert (F : Forall is_int (b_origin b ++ map opt_val (b_coord b))).
      { apply Forall_app. split; [exact O2|]. apply Forall_map. exact C2. }
      rewrite Forall_forall in F. apply F. now apply nth_In.
    - rewrite nth_overflow by assumption. unfold is_int. lia. }
  pose proof (Int 0%nat) as I0. pose proof (Int 1%nat) as I1. unfold is_int in I0, I1.
  destruct (beq_block_run (b_lines b) rest line o o 0 f) as (f' & E & A & B & In_ & Out).
  - unfold at_xy. split; [lia|]. split; [lia|reflexivity].
  - rewrite G. unfold in64, INT64_MIN, INT64_MAX. lia.
  - rewrite G. unfold in64, INT64_MIN, INT64_MAX. lia.
  - rewrite G. unfold in64, INT64_MIN, INT64_MAX, bytes in *. lia.
  - eapply Forall_impl; [|exact L]. intros l [_ H]. rewrite G. unfold in64, INT64_MIN, INT64_MAX. lia.
  - exists f'. split; [exact E|]. split; [exact A|]. split; [exact B|]. split.
    + intros q c H. apply (covers_at b o q c G) in H. destruct H as (j & i & X & Y). exact (In_ q j i c Y X).
    + intros q H. apply Out. intros j i c X Y. apply (H c). apply (covers_at b o q c G). eauto.
Qed.

Lemma blocks_run tail bs : tail = [] \/ tail = [[]] -> forall fuel dims f, Forall Block_ok bs ->
  (length (flat_map (fun b => control b :: b_lines b) bs ++ tail) <= fuel)%nat ->
  exists f', beq_loop fuel (flat_map (fun b => control b :: b_lines b) bs ++ tail) dims f = Ok (dims, f') /\
    f_char f' = f_char f /\ f_dims f' = f_dims f /\
    (forall q c, Shown bs q c -> f_get f' q = cellval (f_char f) (to_i8 c)) /\
    (forall q, (forall b c, In b bs -> ~ Covers b q c) -> f_get f' q = f_get f q).
Proof.
  intros T. induction bs as [|b bs IH]; intros fuel dims f F Hf.
  - exists f. cbn [flat_map app] in *. split.
    + destruct T; subst; destruct fuel as [|fuel]; try reflexivity.
      cbn [beq_loop split_at beq_items]. unfold beq_item. cbn. destruct fuel; reflexivity.
    + split; [reflexivity|]. split; [reflexivity|]. split; [|reflexivity].
      intros q c (pre & b & post & X & _). destruct pre; discriminate.
  - inversion F as [|? ? B1 B2]; subst. cbn [flat_map] in *. cbn [app] in *.
    rewrite <- app_assoc in *. destruct fuel as [|fuel]; [cbn [length] in Hf; lia|].
    cbn [length] in Hf. rewrite app_length in Hf.
    cbn [beq_loop]. destruct (control_run b dims B1) as (o & k & E & G). rewrite E. cbn [bind q_dims q_lines q_origin].
    rewrite Nat2Z.id.
    destruct (block_run b (flat_map (fun b => control b :: b_lines b) bs ++ tail) (control b) o f B1 G)
      as (f1 & E1 & A1 & D1 & In1 & Out1).
    assert (R : (if Z.of_nat (length (b_lines b)) >? 0
                 then rf <-- beq_block (length (b_lines b)) (b_lines b ++ flat_map (fun b => control b :: b_lines b) bs ++ tail)
                               (control b) o o f ;; beq_loop fuel (fst rf) dims (snd rf)
                 else beq_loop fuel (b_lines b ++ flat_map (fun b => control b :: b_lines b) bs ++ tail) dims f)
                = beq_loop fuel (flat_map (fun b => control b :: b_lines b) bs ++ tail) dims f1).
    { destruct (Z.of_nat (length (b_lines b)) >? 0) eqn:Z0.
      - rewrite E1. reflexivity.
      - destruct (b_lines b) as [|l ls]; [|rewrite Z.gtb_ltb in Z0; apply Z.ltb_ge in Z0; cbn [List.length] in Z0; lia]. cbn in E1. injection E1 as <-. reflexivity. }
    rewrite R. destruct (IH fuel dims f1 B2) as (f' & E2 & A2 & D2 & In2 & Out2); [unfold bytes in *; lia|].
    exists f'. rewrite E2. rewrite A1 in *. rewrite D1 in D2. split; [reflexivity|]. split; [exact A2|]. split; [exact D2|]. split.
    + intros q c (pre & b' & post & X & Y & W). destruct pre as [|b0 pre]; cbn [app] in X; injection X as -> ->.
      * rewrite Out2 by (intros b'' c' I; exact (W b'' c' I)). now apply In1.
      * apply In2. exists pre, b', post. auto.
    + intros q H. rewrite Out2 by (intros b'' c' I; apply H; now right). apply Out1. intros c. apply H. now left.
Qed.

(** C108: loading a well-formed .beq file puts every character of every block at the
    block's corner plus its column and line, the last block winning where blocks overlap,
    and leaves every other point of the space blank. *)
Theorem C108_partial : forall version n bs newline dims char,
  ~ In 10 version -> ~ In 32 version -> ~ In 44 version -> 0 <= n < 2 ^ 64 -> Forall Block_ok bs ->
  exists f, field_load FmtBeq (beq_text version n bs newline) dims char = Ok f /\
    (forall q pre b post c, bs = pre ++ b :: post -> Covers b q c ->
       (forall b' c', In b' post -> ~ Covers b' q c') ->
       f_get f q = (if char then to_i8 (to_i8 c) else to_i8 c)) /\
    (forall q, (forall b c, In b bs -> ~ Covers b q c) -> f_get f q = 32).
Proof.
  intros v n bs nl dims char V0 V1 V2 N F.
  set (tail := if nl then [[]] else [] : list bytes).
  assert (T : tail = [] \/ tail = [[]]) by (unfold tail; destruct nl; auto).
  set (ls := flat_map (fun b => control b :: b_lines b) bs ++ tail).
  unfold field_load, f_parse_beq, beq_text. fold tail. fold ls. rewrite split_sep; [|discriminate|].
  2:{ constructor.
      - unfold head_line. intros I. apply sep_by_in in I. destruct I as [I|(x & [<-|[<-|[]]] & I)]; [discriminate| |];
          apply word2_in in I; destruct I as [I|[I|I]]; try discriminate I; try contradiction; try (revert I; not_in).
        revert I. apply dec_without; lia.
      - unfold ls. apply Forall_app. split.
        + apply Forall_forall. intros l I. apply in_flat_map in I. destruct I as (b & Ib & I).
          rewrite Forall_forall in F. specialize (F b Ib). destruct I as [<-|I].
          * unfold control. intros I. apply sep_by_in in I. destruct I as [I|(x & [<-|[<-|[<-|[]]]] & I)]; [discriminate| | |];
              apply word2_in in I; destruct I as [I|[I|I]]; try discriminate I; try (revert I; not_in); revert I;
              [apply dec_without|apply decs_without|apply opts_without]; lia.
          * pose proof (ok_lines b F) as L. rewrite Forall_forall in L. apply (L l I).
        + unfold tail. destruct nl; [|constructor]. constructor; [intros []|constructor]. }
  cbn [length beq_loop]. rewrite head_run by (assumption || reflexivity).
  cbn [bind q_dims q_lines]. change (0 >? 0) with false. cbv iota.
  destruct (blocks_run tail bs T (length ls) n (field_empty dims char) F) as (f & E & A & D & In_ & Out); [unfold ls; lia|].
  fold ls in E.
  match goal with |- context [beq_loop ?a ?b ?c ?d] =>
    change (beq_loop a b c d) with (beq_loop (length ls) ls n (field_empty dims char)) end.
  rewrite E. cbn [bind fst snd f_char field_empty] in *.
  assert (Gd : forall k g q, f_get (f_setdims k g) q = f_get g q) by reflexivity.
  assert (R : exists f', (f0 <-- Ok match f_dims f with
                                     | O => f_setdims (if n =? 0 then length (f_maxs f) else Z.to_nat n) f
                                     | S _ => f end ;;
                          Ok match dims with O => f_setdims (length (f_maxs f0)) f0 | S _ => f0 end) = Ok f' /\
                         forall q, f_get f' q = f_get f q).
  { cbn [bind]. eexists. split; [reflexivity|]. intros q. destruct dims; destruct (f_dims f); reflexivity. }
  destruct R as (f' & R & Gf). exists f'. split; [exact R|]. split.
  - intros q pre b post c X Y W. rewrite Gf, (In_ q c); [|exists pre, b, post; auto].
    unfold cellval. reflexivity.
  - intros q H. rewrite Gf, Out by assumption. unfold f_get. cbn. destruct char; reflexivity.
Qed.
Print Assumptions C108_partial.

(** Every point covered at all is covered by a last block, so the two cases are all. *)
Theorem C108_cases : forall bs q,
  (exists c, Shown bs q c) \/ (forall b c, In b bs -> ~ Covers b q c).
Proof.
  intros bs q. induction bs as [|b bs IH].
  - right. intros b c [].
  - destruct IH as [(c & pre & b' & post & -> & X & Y)|N].
    + left. exists c, (b :: pre), b', post. auto.
    + destruct (covers_dec b q) as [[c X]|X].
      * left. exists c, [], b, bs. auto.
      * right. intros b' c [<-|I]; auto.
Qed.
Print Assumptions C108_cases.

(** *** A case: the two blocks of a three-dimensional program *)
Definition C108_blocks : list block :=
  [{| b_origin := [0; 0]; b_coord := [Some 0; None]; b_lines := [lit "12+v"; lit "@ .<"] |};
   {| b_origin := [2; 1]; b_coord := [Some (-3)]; b_lines := [lit "z"] |};
   {| b_origin := [3; 0]; b_coord := [None]; b_lines := [lit ">"] |}].
Example C108_case : Forall Block_ok C108_blocks /\
  beq_text (lit "1") 3 C108_blocks true =
    lit "Version 1,Dimensions 3" ++ [10] ++ lit "Lines 2,Origin 0:0,Coord 0:" ++ [10] ++ lit "12+v" ++ [10] ++ lit "@ .<" ++ [10]
    ++ lit "Lines 1,Origin 2:1,Coord -3" ++ [10] ++ lit "z" ++ [10] ++ lit "Lines 1,Origin 3:0,Coord " ++ [10] ++ lit ">" ++ [10] /\
  match field_load FmtBeq (beq_text (lit "1") 3 C108_blocks true) 0 false with
  | Ok f => map (fun p => f_get f p) [[0]; [1]; [2]; [3]; [3; 1]; [2; 1; -3]; [5]] = [49; 50; 43; 62; 60; 122; 32]
  | Bad _ => False
  end.
Proof.
  split; [|split; vm_compute; reflexivity].
  unfold C108_blocks. repeat (constructor; [block_ok|]). constructor.
Qed.

(** The Dimensions of the file do not decide the dimensions of the universe: with none
    asked for on the command line, the constructor of Field takes the number of
    dimensions the text happens to use. *)
Theorem C108_refuted :
  ~ (forall version n bs, ~ In 10 version -> ~ In 32 version -> ~ In 44 version -> 0 < n < 2 ^ 64 ->
       Forall Block_ok bs -> forall f, field_load FmtBeq (beq_text version n bs true) 0 false = Ok f ->
       f_size f = Z.to_nat n).
Proof.
  intros H.
  assert (X : exists f, field_load FmtBeq (beq_text (lit "1") 3
                 [{| b_origin := [0; 0]; b_coord := [Some 0]; b_lines := [lit "@"; lit "@"] |}] true) 0 false = Ok f /\
              f_size f = 2%nat) by (eexists; split; vm_compute; reflexivity).
  destruct X as (f & E & S). specialize (H (lit "1") 3 [{| b_origin := [0; 0]; b_coord := [Some 0]; b_lines := [lit "@"; lit "@"] |}]).
  rewrite (H ltac:(not_in) ltac:(not_in) ltac:(not_in) ltac:(lia)) in S; [discriminate S| |exact E].
  repeat (constructor; [block_ok|]). constructor.
Qed.
Print Assumptions C108_refuted.

(** A block that ends early is filled up by repeating its last line; one without any
    line shows its own control line. *)
Theorem C108_short_refuted :
  (exists f, field_load FmtBeq (lit "Lines 3,Origin 0:0" ++ [10] ++ lit "ab") 0 false = Ok f /\
     f_get f [0; 2] = 97 /\ f_get f [1; 2] = 98) /\
  (exists f, field_load FmtBeq (lit "Lines 1,Origin 0:0") 0 false = Ok f /\
     f_get f [0; 0] = 76 /\ f_get f [8; 0] = 79).
Proof. split; eexists; (split; [vm_compute; reflexivity|]); split; vm_compute; reflexivity. Qed.
Print Assumptions C108_short_refuted.
