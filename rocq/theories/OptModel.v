(** * Command line: fungemain and createUniverse of src/Funge.cpp, and the names
    of fingerprint files (src/FingerprintStrategy.cpp,
    src/fingerprint/FingerprintFungeLib.cpp).

    Simplified: the streams behind the files and the messages on standard error
    are left out, and a .fmv file is not followed (an outcome of its own). *)

From Coq Require Import ZArith String Ascii List Bool.
From Verif Require Import Base VectorModel StackModel World CoreModel.
Import ListNotations.
Open Scope Z_scope.

(** A C string literal as its bytes. *)
Definition lit (s : string) : bytes :=
  map (fun a => Z.of_N (N_of_ascii a)) (list_ascii_of_string s).

(** strcmp(a, b) == 0, used throughout src/Funge.cpp:112-219. *)
Fixpoint streq (a b : bytes) : bool :=
  match a, b with
  | [], [] => true
  | x :: a', y :: b' => (x =? y) && streq a' b'
  | _, _ => false
  end.

(** strncmp(a, p, strlen(p)) == 0, src/Funge.cpp:112, 168, 179, 192, 203, 213. *)
Fixpoint starts (p a : bytes) : bool :=
  match p, a with
  | [], _ => true
  | x :: p', y :: a' => (x =? y) && starts p' a'
  | _ :: _, [] => false
  end.

(** What strtok does with the delimiter string "=": skip the delimiters, then take
    the characters up to the next delimiter; the delimiter found is consumed. *)
Fixpoint tok_skip (l : bytes) : bytes :=
  match l with
  | c :: t => if c =? 61 then tok_skip t else l
  | [] => []
  end.
Fixpoint tok_take (l : bytes) : bytes * bytes :=
  match l with
  | c :: t => if c =? 61 then ([], t) else let (a, r) := tok_take t in (c :: a, r)
  | [] => ([], [])
  end.

(** strtok(arg, "=") followed by strtok(NULL, "="), src/Funge.cpp:113-114 and the
    like: [None] is the null pointer. *)
Definition opt_value (arg : bytes) : option bytes :=
  match tok_skip (snd (tok_take (tok_skip arg))) with
  | [] => None
  | l => Some (fst (tok_take l))
  end.

(** [strcmp(arg, ...)] on the value of an option: comparing a null pointer is
    undefined.  [table] lists the comparisons in order; none matching is EINVAL
    ([None]). *)
Fixpoint lookup {A} (v : bytes) (table : list (string * A)) : option A :=
  match table with
  | [] => None
  | (n, x) :: t => if streq v (lit n) then Some x else lookup v t
  end.
Definition with_value {A} (arg : bytes) (table : list (string * A)) : res (option A) :=
  match opt_value arg with
  | None => Bad BadNull
  | Some v => Ok (lookup v table)
  end.

(** The standards of -std=, src/Funge.cpp:115-140: dimensions and standard. *)
Definition std_table : list (string * (nat * Z)) :=
  [("une93"%string, (1%nat, STD_93)); ("une98"%string, (1%nat, STD_98));
   ("be93"%string, (2%nat, STD_93)); ("be98"%string, (2%nat, STD_98));
   ("tre98"%string, (3%nat, STD_98)); ("fish"%string, (2%nat, STD_FISH));
   ("sfish"%string, (2%nat, STD_STARFISH))].
(** The rest of the -std= branch, src/Funge.cpp:115-153. *)
Definition set_standard (x : nat * Z) (c : cfg) : cfg :=
  let c := set_c_dims (fst x) (set_c_std (snd x) c) in
  if snd x =? STD_93 then set_c_char true (set_c_str StrMultispace (set_c_torus true c))
  else if (snd x =? STD_FISH) || (snd x =? STD_STARFISH)
  then set_c_char false (set_c_str StrMultispace (set_c_torus false c))
  else set_c_char false (set_c_str StrSgml (set_c_torus false c)).

(** src/Funge.cpp:168-178, 179-191, 192-202, 203-212. *)
Definition topo_table : list (string * bool) :=
  [("torus"%string, true); ("lahey"%string, false)].
Definition strings_table : list (string * strstyle) :=
  [("multispace"%string, StrMultispace); ("sgml"%string, StrSgml); ("c"%string, StrC)].
Definition cells_table : list (string * bool) :=
  [("char"%string, true); ("int"%string, false)].
Definition threads_table : list (string * bool) :=
  [("native"%string, true); ("funge"%string, false)].

(** std::accumulate(fing.begin(), fing.end(), 0, ...), src/Funge.cpp:215: the
    accumulator has the type of the initial value, int. *)
Definition opt_number (name : bytes) : Z :=
  to_u64 (fold_left (fun a c => to_i32 (a * 256 + to_i8 c)) name 0).

(** FUNGE_MODE_DEBUG, src/include/funge_types.h. *)
Definition set_debug (c : cfg) : cfg := set_c_mode (Z.lor (c_mode c) (2 ^ MODE_DEBUG)) c.

(** One option, the body of the loop src/Funge.cpp:112-219; [None] is the return
    of EINVAL. *)
Definition opt_step (arg : bytes) (c : cfg) : res (option cfg) :=
  if starts (lit "-std=") arg then
    v <-- with_value arg std_table ;; Ok (option_map (fun x => set_standard x c) v)
  else if streq arg (lit "-fconcurrent") then Ok (Some (set_c_conc true c))
  else if streq arg (lit "-fexecute") then Ok (Some (set_c_exec true c))
  else if streq arg (lit "-ffilesystem") then Ok (Some (set_c_fs true c))
  else if streq arg (lit "-fno-concurrent") then Ok (Some (set_c_conc false c))
  else if streq arg (lit "-fno-execute") then Ok (Some (set_c_exec false c))
  else if streq arg (lit "-fno-filesystem") then Ok (Some (set_c_fs false c))
  else if streq arg (lit "-finvert-hl") then Ok (Some (set_c_inverthl true c))
  else if starts (lit "-ftopo=") arg then
    v <-- with_value arg topo_table ;; Ok (option_map (fun x => set_c_torus x c) v)
  else if starts (lit "-fstrings=") arg then
    v <-- with_value arg strings_table ;; Ok (option_map (fun x => set_c_str x c) v)
  else if starts (lit "-fcells=") arg then
    v <-- with_value arg cells_table ;; Ok (option_map (fun x => set_c_char x c) v)
  else if starts (lit "-fthreads=") arg then
    v <-- with_value arg threads_table ;; Ok (option_map (fun x => set_c_native x c) v)
  else if starts (lit "-l") arg then
    Ok (Some (set_c_fings (c_fings c ++ [opt_number (skipn 2 arg)]) c))
  else if streq arg (lit "-g") then Ok (Some (set_debug c))
  else Ok (Some c).

(** The option loop, src/Funge.cpp:107-220: the configuration and the arguments
    from the first one that does not begin with '-' (an empty argument's first
    character is its terminator). *)
Fixpoint opt_loop (args : list bytes) (c : cfg) : res (option (list bytes * cfg)) :=
  match args with
  | [] => Ok (Some ([], c))
  | a :: t =>
      match a with
      | 45 :: _ =>
          r <-- opt_step a c ;;
          match r with
          | None => Ok None
          | Some c' => opt_loop t c'
          end
      | _ => Ok (Some (args, c))
      end
  end.

(** fungemain up to the call of createUniverse, src/Funge.cpp:104-235: [args] are
    argv[1..], [env] the environment; [None] is the return of EINVAL, otherwise
    the file and the configuration. *)
Definition parse_args (args env : list bytes) : res (option (bytes * cfg)) :=
  r <-- opt_loop args cfg_default ;;
  match r with
  | None => Ok None
  | Some ([], _) => Ok None
  | Some ([] :: _, _) => Ok None
  | Some (path :: more, c) =>
      Ok (Some (path, set_c_env (c_env c ++ env) (set_c_args (c_args c ++ path :: more) c)))
  end.

(** std::filesystem::path::filename: what follows the last '/'. *)
Fixpoint filename_from (l acc : bytes) : bytes :=
  match l with
  | [] => acc
  | c :: t => if c =? 47 then filename_from t t else filename_from t acc
  end.
Definition filename (p : bytes) : bytes := filename_from p p.
(** From the last '.' of [l] on; [None] without one. *)
Fixpoint last_dot (l : bytes) : option bytes :=
  match l with
  | [] => None
  | c :: t =>
      match last_dot t with
      | Some e => Some e
      | None => if c =? 46 then Some l else None
      end
  end.
(** std::filesystem::path::extension: from the last '.' of the file name unless
    that begins the name, or the name is "..". *)
Definition extension (p : bytes) : bytes :=
  let n := filename p in
  if streq n (lit "..") then [] else
  match n with
  | [] => []
  | _ :: t => match last_dot t with Some e => e | None => [] end
  end.

(** Field::FileFormat, src/include/Field.h. *)
Inductive format := FmtBf | FmtBeq | FmtFl.
(** What createUniverse makes of a file: a universe, or a list of files. *)
Inductive prepared := PUniverse (fmt : format) (c : cfg) | PFmv (c : cfg).

(** createUniverse up to opening the file, src/Funge.cpp:58-90. *)
Definition prepare (path : bytes) (c : cfg) : prepared :=
  let ext := extension path in
  if streq ext (lit ".fmv") then PFmv c
  else
    let fmt := if streq ext (lit ".beq") then FmtBeq
               else if streq ext (lit ".fl") then FmtFl else FmtBf in
    let c := if streq ext (lit ".beq")
             then set_c_fings (c_fings c ++ [1313232206]) c else c in
    let c := set_c_name path c in
    let c :=
      if negb (c_std c =? STD_AUTO) then c
      else if streq ext (lit ".bf") then set_c_std STD_93 c
      else if streq ext (lit ".b98") then set_c_std STD_98 c
      else if streq ext (lit ".beq") then set_c_std STD_98 c
      else if streq ext (lit ".fish")
      then set_c_str StrMultispace (set_c_std STD_FISH (set_c_dims 2 c))
      else if streq ext (lit ".sf")
      then set_c_str StrMultispace (set_c_std STD_STARFISH (set_c_dims 2 c))
      else set_c_std STD_98 c in
    PUniverse fmt c.

(** FingerprintStrategy::intToStr, src/FingerprintStrategy.cpp:154-162.  The
    number has 64 bits, so eight turns of the loop exhaust it; the bytes are given
    as unsigned values. *)
Fixpoint int_to_str_loop (fuel : nat) (i : Z) (s : bytes) : bytes :=
  match fuel with
  | O => s
  | S f => if i >? 0 then int_to_str_loop f (Z.shiftr i 8) (Z.land i 255 :: s) else s
  end.
Definition int_to_str (i : Z) : bytes := int_to_str_loop 8 i [].

(** std::filesystem::path::operator/=: an absolute right-hand side replaces the
    left-hand side; otherwise a separator goes between them unless the left-hand
    side is empty or ends with one. *)
Definition path_join (a b : bytes) : bytes :=
  if nth 0 b 0 =? 47 then b
  else match a with
       | [] => b
       | _ => if last a 0 =? 47 then a ++ b else a ++ 47 :: b
       end.

(** FingerprintFungeLib::factory, src/fingerprint/FingerprintFungeLib.cpp:26-30:
    the file looked for, [dir] being the directory of the executable. *)
Definition fl_path (dir : bytes) (number : Z) : bytes :=
  path_join (path_join (path_join dir (lit "..")) (lit "fing")) (int_to_str number ++ lit ".fl").
