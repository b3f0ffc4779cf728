(** * Starting a program: src/FungeMultiverse.cpp, src/FungeUniverse.cpp and
    createUniverse of src/Funge.cpp; and running it on one universe. *)

From Coq Require Import ZArith List Bool.
From Verif Require Import Base VectorModel TextModel StackModel FieldModel
  World IpModel LoadModel FingModel CoreModel.
Import ListNotations.
Open Scope Z_scope.

(** FungeMultiverse::create(file, FORMAT_BF, cfg),
    src/FungeMultiverse.cpp:32-46, with FungeUniverse::FungeUniverse(file, fmt,
    cfg), src/FungeUniverse.cpp:13-31, and Field::Field(file, fmt, dim, csize),
    src/Field.cpp:14-38. *)
Definition multi_create_file (F : positive) (data : bytes) (c : cfg) (w : world)
  : res world :=
  name <-- loop (name_step (c_name c) w) F (c_name c) ;;
  df <-- f_parse (mkvec [0]) data false (field_empty (c_dims c) (c_char c)) ;;
  let fld := snd df in
  let dims := match c_dims c with O => f_size fld | d => d end in
  let u := {| u_cfg := set_c_dims dims (set_c_name name c); u_field := fld;
              u_queue := []; u_running := true; u_exit := 0 |} in
  Ok (set_w_nuni (S (w_nuni w)) (upd_uni (w_nuni w) (fun _ => u) w)).

(** The multiverse before any universe exists; [fs] are the readable files,
    [input] is standard input. *)
Definition world0 (input : bytes) (fs : bytes -> option bytes) (rnd : nat -> Z)
  : world :=
  {| w_uni := fun _ => {| u_cfg := cfg_default; u_field := field_empty 0 false;
                          u_queue := []; u_running := true; u_exit := 0 |};
     w_nuni := 0; w_run := fun _ => None; w_nrun := 0;
     w_in := input; w_out := []; w_log := []; w_fs := fs;
     w_wr := fun _ => true; w_dir := fun _ => false;
     w_rnd := rnd; w_nrnd := 0; w_sys := fun _ => 0; w_nsys := 0;
     w_clock := fun _ => 0; w_tm := fun _ => []; w_nclock := 0;
     w_refs := []; w_fl := fun _ => false |}.

(** The end of createUniverse, src/Funge.cpp:98-99. *)
Definition boot (F : positive) (data : bytes) (c : cfg) (w : world) : res world :=
  w1 <-- multi_create_file F data c w ;;
  create_runner (w_nuni w) (mkvec [0]) (mkvec [1]) w1.

(** FungeUniverse::operator() of universe [n], src/FungeUniverse.cpp:115-147:
    runs while there are IPs. *)
Definition run_step (F : positive) (D : nat) (n : nat) (w : world)
  : res (world + world) :=
  match u_queue (w_uni w n) with
  | [] => Ok (inr w)
  | _ => w' <-- uni_step F D n w ;; Ok (inl w')
  end.
Definition run_universe (F : positive) (D : nat) (n : nat) (w : world) : res world :=
  loop (run_step F D n) F w.

(** Run program [data] alone with configuration [c]: what it printed and the exit
    code. *)
Definition run_program (F : positive) (D : nat) (c : cfg) (data input : bytes)
  : res (bytes * Z) :=
  w <-- boot F data c (world0 input (fun _ => None) (fun _ => 0)) ;;
  w' <-- run_universe F D 0 w ;;
  Ok (w_out w', u_exit (w_uni w' 0)).
