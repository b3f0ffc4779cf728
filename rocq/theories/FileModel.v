(** * Program files: Field::parseBeq (src/Field.cpp:98-164), the constructor of Field
    (src/Field.cpp:14-38), FungeMultiverse::create for every format, and createUniverse
    and parseFMV of src/Funge.cpp.

    Simplified: the text of messages on standard error is left out. *)

From Coq Require Import ZArith String List Bool.
From Verif Require Import Base VectorModel TextModel StackModel FieldModel World IpModel
  LoadModel FingModel CoreModel UniModel OptModel.
Import ListNotations.
Open Scope Z_scope.

Local Notation length := List.length.

(** ** .beq files *)

(** [cmd[i]] of splitString's result (src/Field.cpp:98-107, [split_at] of FieldModel.v):
    undefined without such an element. *)
Definition part (i : nat) (l : list bytes) : res bytes :=
  match nth_error l i with Some x => Ok x | None => Bad BadOob end.

(** [std::stoul]: white space, optional sign, at least one digit, reduced modulo 2^64
    if negative; throws without digits or above 2^64-1. *)
Definition stoul (s : bytes) : res Z :=
  let s1 := skipws s in
  let '(neg, s2) := match s1 with
                    | c :: t => if c =? 45 then (true, t)
                                else if c =? 43 then (false, t) else (false, s1)
                    | [] => (false, [])
                    end in
  match s2 with
  | c :: _ =>
      if isdigit c then
        let v := stoi_digits s2 0 in
        if v <? 2 ^ 64 then Ok (if neg then to_u64 (- v) else v) else Bad BadThrow
      else Bad BadThrow
  | [] => Bad BadThrow
  end.

(** What the control line of a block says: the file's dimensions so far, the number of
    lines, the origin and the next dimension of it. *)
Record beq_ctl := { q_dims : Z; q_lines : Z; q_origin : vec; q_dim : nat }.

(** The loop of Origin, src/Field.cpp:130-132. *)
Fixpoint beq_origin (l : list bytes) (d : nat) (o : vec) : res (nat * vec) :=
  match l with
  | [] => Ok (d, o)
  | x :: t => n <-- stoi x ;; beq_origin t (S d) (vset o d n)
  end.
(** The loop of Coord, src/Field.cpp:136-140: empty parts are skipped. *)
Fixpoint beq_coord (l : list bytes) (d : nat) (o : vec) : res (nat * vec) :=
  match l with
  | [] => Ok (d, o)
  | x :: t =>
      match x with
      | [] => beq_coord t (S d) o
      | _ => n <-- stoi x ;; beq_coord t (S d) (vset o d n)
      end
  end.
(** One item of a control line, src/Field.cpp:117-142. *)
Definition beq_item (c : bytes) (q : beq_ctl) : res beq_ctl :=
  let cmd := split_at 32 c [] in
  let k := hd [] cmd in
  if streq k (lit "Version") then Ok q
  else if streq k (lit "Dimensions") then
    if q_dims q =? 0
    then x <-- part 1 cmd ;; n <-- stoul x ;;
         Ok {| q_dims := n; q_lines := q_lines q; q_origin := q_origin q; q_dim := q_dim q |}
    else Ok q
  else if streq k (lit "Lines") then
    x <-- part 1 cmd ;; n <-- stoul x ;;
    Ok {| q_dims := q_dims q; q_lines := n; q_origin := q_origin q; q_dim := q_dim q |}
  else if streq k (lit "Origin") then
    x <-- part 1 cmd ;;
    r <-- beq_origin (split_at 58 x []) 0 (q_origin q) ;;
    Ok {| q_dims := q_dims q; q_lines := q_lines q; q_origin := snd r; q_dim := fst r |}
  else if streq k (lit "Coord") then
    x <-- part 1 cmd ;;
    r <-- beq_coord (split_at 58 x []) (q_dim q) (q_origin q) ;;
    Ok {| q_dims := q_dims q; q_lines := q_lines q; q_origin := snd r; q_dim := fst r |}
  else Ok q.
Fixpoint beq_items (l : list bytes) (q : beq_ctl) : res beq_ctl :=
  match l with
  | [] => Ok q
  | c :: t => q' <-- beq_item c q ;; beq_items t q'
  end.

(** One line of a block, src/Field.cpp:147-150. *)
Fixpoint beq_line (l : bytes) (pos : vec) (f : field) : res (vec * field) :=
  match l with
  | [] => Ok (pos, f)
  | c :: t =>
      x <-- add64 (vget pos 0) 1 ;;
      beq_line t (vset pos 0 x) (f_put pos (to_i8 c) f)
  end.
(** The lines of a block, src/Field.cpp:144-154.  [rest] are the lines left in the file;
    when there is none, std::getline leaves [line] as it was. *)
Fixpoint beq_block (n : nat) (rest : list bytes) (line : bytes) (origin pos : vec) (f : field)
  : res (list bytes * field) :=
  match n with
  | O => Ok (rest, f)
  | S n' =>
      let line' := match rest with [] => line | x :: _ => x end in
      pf <-- beq_line line' pos f ;;
      let pos1 := vset (fst pf) 0 (vget origin 0) in
      y <-- add64 (vget pos1 1) 1 ;;
      beq_block n' (tl rest) line' origin (vset pos1 1 y) (snd pf)
  end.
(** The loop over the file, src/Field.cpp:111-156; every turn takes at least one line,
    so [fuel] of the number of lines is enough. *)
Fixpoint beq_loop (fuel : nat) (ls : list bytes) (dims : Z) (f : field) : res (Z * field) :=
  match fuel, ls with
  | _, [] => Ok (dims, f)
  | O, _ => Ok (dims, f)
  | S fu, line :: rest =>
      q <-- beq_items (split_at 44 line [])
              {| q_dims := dims; q_lines := 0; q_origin := []; q_dim := 0 |} ;;
      if q_lines q >? 0 then
        rf <-- beq_block (Z.to_nat (q_lines q)) rest line (q_origin q) (q_origin q) f ;;
        beq_loop fu (fst rf) (q_dims q) (snd rf)
      else beq_loop fu rest (q_dims q) f
  end.
Definition f_setdims (n : nat) (f : field) : field :=
  {| f_cells := f_cells f; f_maxs := f_maxs f; f_mins := f_mins f;
     f_planes := f_planes f; f_dims := n; f_char := f_char f |}.
(** Field::parseBeq, src/Field.cpp:109-164. *)
Definition f_parse_beq (data : bytes) (f : field) : res field :=
  let ls := split_at 10 data [] in
  r <-- beq_loop (length ls) ls 0 f ;;
  let f' := snd r in
  Ok (match f_dims f' with
      | O => f_setdims (if fst r =? 0 then length (f_maxs f') else Z.to_nat (fst r)) f'
      | _ => f'
      end).

(** Field::Field(file, fmt, dim, csize), src/Field.cpp:14-38. *)
Definition field_load (fmt : format) (data : bytes) (dims : nat) (char : bool) : res field :=
  let f0 := field_empty dims char in
  f <-- match fmt with
        | FmtBf => df <-- f_parse (mkvec [0]) data false f0 ;; Ok (snd df)
        | FmtBeq => f_parse_beq data f0
        | FmtFl => f_parse_lib data f0
        end ;;
  Ok (match dims with O => f_setdims (length (f_maxs f)) f | _ => f end).

(** FungeMultiverse::create(file, fmt, cfg), src/FungeMultiverse.cpp:32-46, with
    FungeUniverse::FungeUniverse(file, fmt, cfg), src/FungeUniverse.cpp:13-31. *)
Definition multi_create_fmt (F : positive) (fmt : format) (data : bytes) (c : cfg) (w : world)
  : res world :=
  name <-- loop (name_step (c_name c) w) F (c_name c) ;;
  fld <-- field_load fmt data (c_dims c) (c_char c) ;;
  let dims := match c_dims c with O => f_size fld | d => d end in
  let u := {| u_cfg := set_c_dims dims (set_c_name name c); u_field := fld;
              u_queue := []; u_running := true; u_exit := 0 |} in
  Ok (set_w_nuni (S (w_nuni w)) (upd_uni (w_nuni w) (fun _ => u) w)).

(** ** Starting programs *)

(** Outcome of createUniverse: 0, or EIO for a file that cannot be opened. *)
Inductive started := Started | NoFile (path : bytes).

(** std::filesystem::path::parent_path: the path without its last component and the
    separators before that; the root is its own parent. *)
Fixpoint drop_slashes (l : bytes) : bytes :=
  match l with
  | c :: t => if c =? 47 then drop_slashes t else l
  | [] => []
  end.
Fixpoint drop_name (l : bytes) : bytes :=
  match l with
  | c :: t => if c =? 47 then l else drop_name t
  | [] => []
  end.
Definition parent_path (p : bytes) : bytes :=
  let r := drop_name (rev p) in
  match r with
  | [] => []
  | _ => match drop_slashes r with [] => [47] | d => rev d end
  end.

(** [iss >> word] on a line: skip white space, take up to the next; the flag tells
    whether the end was reached. *)
Fixpoint fmv_word (l : bytes) : bytes * bytes :=
  match l with
  | [] => ([], [])
  | c :: t => if isspace c then ([], l) else let '(a, r) := fmv_word t in (c :: a, r)
  end.
Definition next_word (l : bytes) : bytes * bytes := fmv_word (skipws l).
(** [while(iss.good()){ iss >> arg; args.push_back(arg); }], src/Funge.cpp:44-48: the
    stream is good as long as characters are left. *)
Fixpoint fmv_args (fuel : nat) (l : bytes) : list bytes :=
  match fuel, l with
  | _, [] => []
  | O, _ => []
  | S fu, _ => let '(a, r) := next_word l in a :: fmv_args fu r
  end.
(** One line of a .fmv file, src/Funge.cpp:33-48: the path and the configuration. *)
Definition fmv_line (dir line : bytes) (c : cfg) : bytes * cfg :=
  let '(name, rest) := next_word line in
  let path := match name with
              | 47 :: _ => name
              | _ => dir ++ [47] ++ name
              end in
  (path, set_c_args (c_args c ++ fmv_args (length rest) rest) c).

(** The loop of parseFMV over lines, src/Funge.cpp:30-53, [make] being createUniverse. *)
Fixpoint fmv_lines (make : bytes -> cfg -> world -> res (started * world)) (dir : bytes)
         (ls : list bytes) (c : cfg) (w : world) : res (started * world) :=
  match ls with
  | [] => Ok (Started, w)
  | line :: t =>
      let '(path, c') := fmv_line dir line c in
      r <-- make path c' w ;;
      match fst r with
      | Started => fmv_lines make dir t c (snd r)
      | NoFile p => Ok (NoFile p, snd r)
      end
  end.
(** createUniverse with parseFMV, src/Funge.cpp:22-102; [depth] bounds the nesting of
    .fmv files (the program itself has no bound). *)
Fixpoint create_universe (depth : nat) (F : positive) (path : bytes) (c : cfg) (w : world)
  : res (started * world) :=
  match depth with
  | O => Bad BadFuel
  | S d =>
      match prepare path c with
      | PFmv c' =>
          match w_fs w path with
          | None => Ok (NoFile path, w)
          | Some data =>
              fmv_lines (create_universe d F) (parent_path path) (split_at 10 data []) c' w
          end
      | PUniverse fmt c' =>
          match w_fs w path with
          | None => Ok (NoFile path, w)
          | Some data =>
              w1 <-- multi_create_fmt F fmt data c' w ;;
              w2 <-- create_runner (w_nuni w) (mkvec [0]) (mkvec [1]) w1 ;;
              Ok (Started, w2)
          end
      end
  end.
