(** * Model of src/Field.cpp (class Field, src/include/Field.h). *)

From Coq Require Import ZArith List Bool.
From Verif Require Import Base VectorModel.
Import ListNotations.
Open Scope Z_scope.

(** Class Field.  [f_cells] stands for the [std::unordered_map<Vector, inst_t,
    Vector::hash>]: an association list looked up with Vector::operator==
    (which the hash respects, see theorem C03).  [f_char] is [cellsize ==
    CELL_CHAR].  The observers (used only by the debugger's watchpoints) are
    not part of the record. *)
Record field := {
  f_cells : list (vec * Z);
  f_maxs : list Z;
  f_mins : list Z;
  f_planes : list Z;
  f_dims : nat;
  f_char : bool }.

(** Field::Field(dim, csize), src/Field.cpp:40-50. *)
Definition field_empty (dims : nat) (char : bool) : field :=
  {| f_cells := []; f_maxs := []; f_mins := []; f_planes := [];
     f_dims := dims; f_char := char |}.

(** [unordered_map::find]. *)
Fixpoint cells_find (p : vec) (l : list (vec * Z)) : option Z :=
  match l with
  | [] => None
  | (k, v) :: t => if veqb k p then Some v else cells_find p t
  end.
(** [unordered_map::erase(find(p))]. *)
Definition cells_erase (p : vec) (l : list (vec * Z)) : list (vec * Z) :=
  filter (fun kv => negb (veqb (fst kv) p)) l.
(** [field[p] = v]. *)
Definition cells_set (p : vec) (v : Z) (l : list (vec * Z)) : list (vec * Z) :=
  (p, v) :: cells_erase p l.

(** Field::min and max, src/Field.cpp:232-246. *)
Definition f_min (f : field) (d : nat) : Z :=
  if Nat.ltb d (length (f_mins f)) then nth d (f_mins f) 0 else 0.
Definition f_max (f : field) (d : nat) : Z :=
  if Nat.ltb d (length (f_maxs f)) then nth d (f_maxs f) 0 else 0.

(** Field::get, src/Field.cpp:308-323. *)
Definition f_get (f : field) (p : vec) : Z :=
  let ret := match cells_find p (f_cells f) with
             | Some v => v
             | None => 32 (* ' ' *)
             end in
  if f_char f then to_i8 ret else ret.

(** Field::size, src/Field.cpp:300-306. *)
Definition f_size (f : field) : nat :=
  match f_dims f with O => length (f_maxs f) | d => d end.

(** [while(maxs.size() < n) maxs.push_back(0)], src/Field.cpp:249-254. *)
Definition grow (l : list Z) (n : nat) : list Z := l ++ repeat 0 (n - length l).

(** The loops over dimensions 0..p.size()-1 of [put] treat each dimension
    independently; [mapi] applies a function with the index. *)
Fixpoint mapi (g : nat -> Z -> Z) (i : nat) (l : list Z) : list Z :=
  match l with
  | [] => []
  | x :: t => g i x :: mapi g (S i) t
  end.

(** Scan for the new maximum/minimum, src/Field.cpp:264-269, 274-279. *)
Definition scan_max (i : nat) (cells : list (vec * Z)) : Z :=
  fold_left (fun m kv => if m <? vget (fst kv) i then vget (fst kv) i else m)
            cells INT64_MIN.
Definition scan_min (i : nat) (cells : list (vec * Z)) : Z :=
  fold_left (fun m kv => if vget (fst kv) i <? m then vget (fst kv) i else m)
            cells INT64_MAX.

(** Field::put, src/Field.cpp:248-298. *)
Definition f_put (p : vec) (v : Z) (f : field) : field :=
  let n := vsize p in
  let maxs := grow (f_maxs f) n in
  let mins := grow (f_mins f) n in
  if v =? 32 then
    let cells := cells_erase p (f_cells f) in
    {| f_cells := cells;
       f_maxs := mapi (fun i m => if Nat.ltb i n && (m =? vget p i)
                                  then scan_max i cells else m) 0 maxs;
       f_mins := mapi (fun i m => if Nat.ltb i n && (m =? vget p i)
                                  then scan_min i cells else m) 0 mins;
       f_planes := f_planes f; f_dims := f_dims f; f_char := f_char f |}
  else
    {| f_cells := cells_set p (if f_char f then to_i8 v else v) (f_cells f);
       f_maxs := mapi (fun i m => if Nat.ltb i n && (m <? vget p i)
                                  then vget p i else m) 0 maxs;
       f_mins := mapi (fun i m => if Nat.ltb i n && (vget p i <? m)
                                  then vget p i else m) 0 mins;
       f_planes := f_planes f; f_dims := f_dims f; f_char := f_char f |}.

(** ** Loading source text *)

(** Field::increment, src/Field.cpp:218-223. *)
Definition f_increment (d : nat) (v mx : vec) : res (vec * vec) :=
  x <-- add64 (vget v d) 1 ;;
  let v' := vset v d x in
  Ok (v', if vget mx d <? vget v' d then vset mx d (vget v' d) else mx).

(** Field::reset, src/Field.cpp:225-230. *)
Definition f_reset (d : nat) (v start mx : vec) : vec * vec :=
  (vset v d (vget start d),
   if vget mx d <? vget v d then vset mx d (vget v d) else mx).

(** The for loop of Field::parse, src/Field.cpp:56-91, over the bytes left.
    [dims] is the field's [dimensions] at entry (0 means "not fixed"). *)
Fixpoint parse_loop (binary : bool) (dims : nat) (start : vec) (l : bytes)
         (v mx : vec) (last : Z) (f : field) : res (vec * field) :=
  match l with
  | [] => Ok (mx, f)
  | i :: t =>
      if ((i =? 10) || (i =? 13)) && negb binary then
        let newline t' :=
          if negb (last =? 12) && negb (last =? 11) then
            vm <-- f_increment 1 v mx ;;
            let (v1, mx1) := f_reset 0 (fst vm) start (snd vm) in
            parse_loop binary dims start t' v1 mx1 last f
          else parse_loop binary dims start t' v mx last f in
        if i =? 13 then
          match t with
          | j :: t' => if j =? 10 then newline t' else newline t
          | [] => newline t
          end
        else newline t
      else if (i =? 12) && negb binary then
        if Nat.eqb dims 0 || Nat.leb 3 dims then
          let (v1, mx1) := f_reset 0 v start mx in
          let (v2, mx2) := f_reset 1 v1 start mx1 in
          vm <-- f_increment 2 v2 mx2 ;;
          parse_loop binary dims start t (fst vm) (snd vm) 12 f
        else parse_loop binary dims start t v mx last f
      else if (i =? 11) && negb binary then
        if Nat.eqb dims 0 || Nat.leb 3 dims then
          let (v1, mx1) := f_reset 0 v start mx in
          let (v2, mx2) := f_reset 1 v1 start mx1 in
          let (v3, mx3) := f_reset 2 v2 start mx2 in
          vm <-- f_increment 3 v3 mx3 ;;
          parse_loop binary dims start t (fst vm) (snd vm) 11 f
        else parse_loop binary dims start t v mx last f
      else
        let f' := if i =? 32 then f else f_put v i f in
        vm <-- f_increment 0 v mx ;;
        parse_loop binary dims start t (fst vm) (snd vm) i f'
  end.

(** [if(dimensions == 0) dimensions = maxs.size()], src/Field.cpp:35-37,
    92-94. *)
Definition f_fixdims (f : field) : field :=
  match f_dims f with
  | O => {| f_cells := f_cells f; f_maxs := f_maxs f; f_mins := f_mins f;
            f_planes := f_planes f; f_dims := length (f_maxs f);
            f_char := f_char f |}
  | _ => f
  end.

(** Field::parse, src/Field.cpp:52-96: the extent of the text and the new
    field. *)
Definition f_parse (start : vec) (l : bytes) (binary : bool) (f : field)
  : res (vec * field) :=
  r <-- parse_loop binary (f_dims f) start l start start 0 f ;;
  d <-- vsub (fst r) start ;;
  Ok (d, f_fixdims (snd r)).

(** ** FungeLib files *)

(** Lines as seen by [while(file.good()) getline(file, line)]: the text split
    at newlines, the last piece always included, even when empty. *)
Fixpoint split_at (sep : Z) (l : bytes) (cur : bytes) : list bytes :=
  match l with
  | [] => [cur]
  | c :: t => if c =? sep then cur :: split_at sep t [] else split_at sep t (cur ++ [c])
  end.

(** The inner for loop, src/Field.cpp:181-184. *)
Fixpoint fl_line (l : bytes) (pos : vec) (f : field) : res (vec * field) :=
  match l with
  | [] => Ok (pos, f)
  | c :: t =>
      let f' := f_put pos (to_i8 c) f in
      pos' <-- vadd pos [1] ;;
      fl_line t pos' f'
  end.

Definition f_add_plane (x : Z) (f : field) : field :=
  {| f_cells := f_cells f; f_maxs := f_maxs f; f_mins := f_mins f;
     f_planes := f_planes f ++ [x]; f_dims := f_dims f; f_char := f_char f |}.

(** Is the line [=X] with X an upper-case letter?  src/Field.cpp:172-174. *)
Definition fl_header (line : bytes) : option Z :=
  match line with
  | [e; x] => if (e =? 61) && (65 <=? to_i8 x) && (to_i8 x <=? 90)
              then Some (to_i8 x) else None
  | _ => None
  end.

(** Body of the while loop of Field::parseFungeLib, src/Field.cpp:169-187. *)
Fixpoint fl_lines (ls : list bytes) (pos : vec) (f : field) : res field :=
  match ls with
  | [] => Ok f
  | line :: t =>
      match fl_header line with
      | Some x => fl_lines t (mkvec [0; 0; x - 65]) (f_add_plane x f)
      | None =>
          pf <-- fl_line line pos f ;;
          pos' <-- vadd (fst pf) [0; 1] ;;
          fl_lines t (vset pos' 0 0) (snd pf)
      end
  end.

(** Field::parseFungeLib, src/Field.cpp:166-188. *)
Definition f_parse_lib (l : bytes) (f : field) : res field :=
  fl_lines (split_at 10 l []) []
    {| f_cells := f_cells f; f_maxs := f_maxs f; f_mins := f_mins f;
       f_planes := f_planes f; f_dims := 3; f_char := f_char f |}.

(** ** Writing a region *)

(** State of the while loop of Field::dump, src/Field.cpp:194-215: position,
    buffered characters and bytes written (newest last). *)
Definition dump_st := (vec * bytes * bytes)%type.

Definition dump_step (f : field) (start fin : vec) (binary : bool) (s : dump_st)
  : res (dump_st + bytes) :=
  let '(v, buf, out) := s in
  if vltb v fin then
    let i := f_get f v in
    let buf1 := buf ++ [to_i8 i] in
    let flush := negb (i =? 32) || binary in
    let out1 := if flush then out ++ map to_u8 buf1 else out in
    let buf2 := if flush then [] else buf1 in
    x <-- add64 (vget v 0) 1 ;;
    let v1 := vset v 0 x in
    s2 <-- (if vget v1 0 >=? vget fin 0 then
              y <-- add64 (vget v1 1) 1 ;;
              let v2 := vset v1 1 y in
              Ok (vset v2 0 (vget start 0), if binary then buf2 else [], out1 ++ [10])
            else Ok (v1, buf2, out1)) ;;
    let '(v3, buf3, out3) := s2 in
    if vget v3 1 >=? vget fin 1 then Ok (inr out3)
    else Ok (inl (v3, buf3, out3))
  else Ok (inr out).

(** Field::dump, src/Field.cpp:190-216: the bytes written. *)
Definition f_dump (fuel : positive) (start delta : vec) (binary : bool) (f : field)
  : res bytes :=
  fin <-- vadd start delta ;;
  loop (dump_step f start fin binary) fuel (start, [], []).
