(** * State of the interpreter: configuration, IPs, universes, the world.

    One FungeRunner object is one [runner]; pointers to runners are their IDs
    (FungeRunner::id, unique because [count++] hands them out, see
    src/FungeRunner.cpp:20-62).  A [FungeUniverse*] is a universe number.  Each
    record below is followed by its field updates, which model assignments to
    the corresponding member and carry no behaviour of their own. *)

From Coq Require Import ZArith List Bool.
From Verif Require Import Base VectorModel StackModel FieldModel.
Import ListNotations.
Open Scope Z_scope.

(** FungeString, src/include/funge_types.h:60-64. *)
Inductive strstyle := StrMultispace | StrSgml | StrC.

(** FungeStandard, src/include/FungeConfig.h:16-22. *)
Definition STD_AUTO : Z := 0.
Definition STD_93 : Z := 93.
Definition STD_98 : Z := 98.
Definition STD_FISH : Z := -1.
Definition STD_STARFISH : Z := -2.

(** Class FungeConfig, src/include/FungeConfig.h:27-44. *)
Record cfg := {
  c_name : bytes; (* name *)
  c_args : list bytes; (* args *)
  c_env : list bytes; (* env *)
  c_fings : list Z; (* fingerprints *)
  c_dims : nat; (* dimensions *)
  c_std : Z; (* standard *)
  c_torus : bool; (* topo == TOPO_TORUS *)
  c_str : strstyle; (* strings *)
  c_char : bool; (* cells == CELL_CHAR *)
  c_native : bool; (* threads == THREAD_NATIVE *)
  c_mode : Z; (* mode *)
  c_conc : bool; (* concurrent *)
  c_exec : bool; (* execute *)
  c_fs : bool; (* filesystem *)
  c_fing : bool; (* fingerprint *)
  c_inverthl : bool }. (* inverthl *)

Definition set_c_name (x : bytes) (s : cfg) : cfg :=
  {| c_name := x; c_args := c_args s; c_env := c_env s; c_fings := c_fings s; c_dims := c_dims s; c_std := c_std s; c_torus := c_torus s; c_str := c_str s; c_char := c_char s; c_native := c_native s; c_mode := c_mode s; c_conc := c_conc s; c_exec := c_exec s; c_fs := c_fs s; c_fing := c_fing s; c_inverthl := c_inverthl s |}.
Definition set_c_args (x : list bytes) (s : cfg) : cfg :=
  {| c_name := c_name s; c_args := x; c_env := c_env s; c_fings := c_fings s; c_dims := c_dims s; c_std := c_std s; c_torus := c_torus s; c_str := c_str s; c_char := c_char s; c_native := c_native s; c_mode := c_mode s; c_conc := c_conc s; c_exec := c_exec s; c_fs := c_fs s; c_fing := c_fing s; c_inverthl := c_inverthl s |}.
Definition set_c_env (x : list bytes) (s : cfg) : cfg :=
  {| c_name := c_name s; c_args := c_args s; c_env := x; c_fings := c_fings s; c_dims := c_dims s; c_std := c_std s; c_torus := c_torus s; c_str := c_str s; c_char := c_char s; c_native := c_native s; c_mode := c_mode s; c_conc := c_conc s; c_exec := c_exec s; c_fs := c_fs s; c_fing := c_fing s; c_inverthl := c_inverthl s |}.
Definition set_c_fings (x : list Z) (s : cfg) : cfg :=
  {| c_name := c_name s; c_args := c_args s; c_env := c_env s; c_fings := x; c_dims := c_dims s; c_std := c_std s; c_torus := c_torus s; c_str := c_str s; c_char := c_char s; c_native := c_native s; c_mode := c_mode s; c_conc := c_conc s; c_exec := c_exec s; c_fs := c_fs s; c_fing := c_fing s; c_inverthl := c_inverthl s |}.
Definition set_c_dims (x : nat) (s : cfg) : cfg :=
  {| c_name := c_name s; c_args := c_args s; c_env := c_env s; c_fings := c_fings s; c_dims := x; c_std := c_std s; c_torus := c_torus s; c_str := c_str s; c_char := c_char s; c_native := c_native s; c_mode := c_mode s; c_conc := c_conc s; c_exec := c_exec s; c_fs := c_fs s; c_fing := c_fing s; c_inverthl := c_inverthl s |}.
Definition set_c_std (x : Z) (s : cfg) : cfg :=
  {| c_name := c_name s; c_args := c_args s; c_env := c_env s; c_fings := c_fings s; c_dims := c_dims s; c_std := x; c_torus := c_torus s; c_str := c_str s; c_char := c_char s; c_native := c_native s; c_mode := c_mode s; c_conc := c_conc s; c_exec := c_exec s; c_fs := c_fs s; c_fing := c_fing s; c_inverthl := c_inverthl s |}.
Definition set_c_torus (x : bool) (s : cfg) : cfg :=
  {| c_name := c_name s; c_args := c_args s; c_env := c_env s; c_fings := c_fings s; c_dims := c_dims s; c_std := c_std s; c_torus := x; c_str := c_str s; c_char := c_char s; c_native := c_native s; c_mode := c_mode s; c_conc := c_conc s; c_exec := c_exec s; c_fs := c_fs s; c_fing := c_fing s; c_inverthl := c_inverthl s |}.
Definition set_c_str (x : strstyle) (s : cfg) : cfg :=
  {| c_name := c_name s; c_args := c_args s; c_env := c_env s; c_fings := c_fings s; c_dims := c_dims s; c_std := c_std s; c_torus := c_torus s; c_str := x; c_char := c_char s; c_native := c_native s; c_mode := c_mode s; c_conc := c_conc s; c_exec := c_exec s; c_fs := c_fs s; c_fing := c_fing s; c_inverthl := c_inverthl s |}.
Definition set_c_char (x : bool) (s : cfg) : cfg :=
  {| c_name := c_name s; c_args := c_args s; c_env := c_env s; c_fings := c_fings s; c_dims := c_dims s; c_std := c_std s; c_torus := c_torus s; c_str := c_str s; c_char := x; c_native := c_native s; c_mode := c_mode s; c_conc := c_conc s; c_exec := c_exec s; c_fs := c_fs s; c_fing := c_fing s; c_inverthl := c_inverthl s |}.
Definition set_c_native (x : bool) (s : cfg) : cfg :=
  {| c_name := c_name s; c_args := c_args s; c_env := c_env s; c_fings := c_fings s; c_dims := c_dims s; c_std := c_std s; c_torus := c_torus s; c_str := c_str s; c_char := c_char s; c_native := x; c_mode := c_mode s; c_conc := c_conc s; c_exec := c_exec s; c_fs := c_fs s; c_fing := c_fing s; c_inverthl := c_inverthl s |}.
Definition set_c_mode (x : Z) (s : cfg) : cfg :=
  {| c_name := c_name s; c_args := c_args s; c_env := c_env s; c_fings := c_fings s; c_dims := c_dims s; c_std := c_std s; c_torus := c_torus s; c_str := c_str s; c_char := c_char s; c_native := c_native s; c_mode := x; c_conc := c_conc s; c_exec := c_exec s; c_fs := c_fs s; c_fing := c_fing s; c_inverthl := c_inverthl s |}.
Definition set_c_conc (x : bool) (s : cfg) : cfg :=
  {| c_name := c_name s; c_args := c_args s; c_env := c_env s; c_fings := c_fings s; c_dims := c_dims s; c_std := c_std s; c_torus := c_torus s; c_str := c_str s; c_char := c_char s; c_native := c_native s; c_mode := c_mode s; c_conc := x; c_exec := c_exec s; c_fs := c_fs s; c_fing := c_fing s; c_inverthl := c_inverthl s |}.
Definition set_c_exec (x : bool) (s : cfg) : cfg :=
  {| c_name := c_name s; c_args := c_args s; c_env := c_env s; c_fings := c_fings s; c_dims := c_dims s; c_std := c_std s; c_torus := c_torus s; c_str := c_str s; c_char := c_char s; c_native := c_native s; c_mode := c_mode s; c_conc := c_conc s; c_exec := x; c_fs := c_fs s; c_fing := c_fing s; c_inverthl := c_inverthl s |}.
Definition set_c_fs (x : bool) (s : cfg) : cfg :=
  {| c_name := c_name s; c_args := c_args s; c_env := c_env s; c_fings := c_fings s; c_dims := c_dims s; c_std := c_std s; c_torus := c_torus s; c_str := c_str s; c_char := c_char s; c_native := c_native s; c_mode := c_mode s; c_conc := c_conc s; c_exec := c_exec s; c_fs := x; c_fing := c_fing s; c_inverthl := c_inverthl s |}.
Definition set_c_fing (x : bool) (s : cfg) : cfg :=
  {| c_name := c_name s; c_args := c_args s; c_env := c_env s; c_fings := c_fings s; c_dims := c_dims s; c_std := c_std s; c_torus := c_torus s; c_str := c_str s; c_char := c_char s; c_native := c_native s; c_mode := c_mode s; c_conc := c_conc s; c_exec := c_exec s; c_fs := c_fs s; c_fing := x; c_inverthl := c_inverthl s |}.
Definition set_c_inverthl (x : bool) (s : cfg) : cfg :=
  {| c_name := c_name s; c_args := c_args s; c_env := c_env s; c_fings := c_fings s; c_dims := c_dims s; c_std := c_std s; c_torus := c_torus s; c_str := c_str s; c_char := c_char s; c_native := c_native s; c_mode := c_mode s; c_conc := c_conc s; c_exec := c_exec s; c_fs := c_fs s; c_fing := c_fing s; c_inverthl := x |}.

(** FungeConfig::FungeConfig(), src/include/FungeConfig.h:49-66. *)
Definition cfg_default : cfg :=
  {| c_name := []; c_args := []; c_env := []; c_fings := []; c_dims := 0;
     c_std := STD_AUTO; c_torus := false; c_str := StrSgml; c_char := false;
     c_native := false; c_mode := 0; c_conc := true; c_exec := true;
     c_fs := true; c_fing := true; c_inverthl := false |}.

(** FungeError, src/include/funge_types.h:136-143. *)
Inductive err := ENone | ESkip | EBlock | EUnimp | ENotAvail | EUnspec.

(** Member functions bound as semantics by the core strategies. *)
Inductive meth :=
| MSkip | MPush (n : Z) | MWest | MEast | MStop | MTramp | MIf | MGoAway
| MNot | MRem | MMul | MAdd | MSub | MDiv | MGt | MPop | MDup | MSwap
| MNumIn | MCharIn | MString | MNumOut | MCharOut | MGet | MPut
| MSysInfo | MNoop | MJumpOver | MJumpFwd | MReflect | MAbsolute | MIterate
| MQuit | MThread | MClear | MUnder | MBegin | MEnd | MFileIn | MFileOut
| MExec | MFetch | MStore | MLoad | MUnload
| MNorth | MSouth | MIfV | MLeft | MRight | MCompare | MHigh | MLow | MIfH.

(** What a FungeSemantic calls: a core method; Fingerprint::execute(c) of the
    fingerprint object numbered [fp], whose [field] reference was taken in
    universe [fld] (src/Fingerprint.cpp:14-20, 26-30); or
    FingerprintFING::instructionReflect. *)
Inductive act :=
| ABase (m : meth)
| AFing (fp : Z) (fld : nat) (c : Z)
| AReflect.

(** FungeSemantic, src/include/FungeSemantic.h:13-41: function and MOVEMENT
    flag. *)
Record sem := { sm_act : act; sm_move : bool }.

(** The strategies an IP holds, in loading order (src/FungeRunner.cpp:85-115).
    FishStrategy and StarfishStrategy are modelled separately (FishModel.v). *)
Inductive strat := SU93 | SU98 | SB93 | SB98 | ST98.

(** Class FungeRunner with its InstructionPointer, states and fingerprint objects
    (src/include/FungeRunner.h, InstructionPointer.h, FungeStateNormal.h,
    FungeStateString.h, FingerprintStrategy.h).  A fingerprint object exists at
    most once per IP (FingerprintStrategy::available), so its members are here. *)
Record runner := {
  r_id : Z; (* id *)
  r_uni : nat; (* universe *)
  r_fld : nat; (* universe whose Field the strategies hold a reference to *)
  r_pos : vec; (* ip.pos *)
  r_delta : vec; (* ip.delta *)
  r_storage : vec; (* ip.storage *)
  r_stopped : bool; (* ip.stopped *)
  r_ss : sstk; (* *stack *)
  r_parent : option Z; (* parent *)
  r_handler : bool; (* errorHandler != nullptr *)
  r_strats : list strat; (* strategies *)
  r_sem : Z -> list sem; (* normalState.semantics, top first *)
  r_avail : list (Z * nat); (* finger.available: number, universe of its Field *)
  r_loaded : list Z; (* finger.loaded *)
  r_string : bool; (* state == &stringState *)
  r_end : Z; (* stringState.end *)
  r_prev : Z; (* stringState.previous *)
  r_offset : bool; (* FingerprintSUBR::offset *)
  r_sage : Z; (* FingerprintIIPC::sage *)
  r_dormant : bool; (* FingerprintIIPC::dormant *)
  r_mark : Z; (* FingerprintHRTI::hrti_mark *)
  r_fish : option (bool * vec) }. (* FingerprintFISH: fisherstate == FISHER_DOWN, fishercache; None: not constructed *)

Definition set_r_id (x : Z) (s : runner) : runner :=
  {| r_id := x; r_uni := r_uni s; r_fld := r_fld s; r_pos := r_pos s; r_delta := r_delta s; r_storage := r_storage s; r_stopped := r_stopped s; r_ss := r_ss s; r_parent := r_parent s; r_handler := r_handler s; r_strats := r_strats s; r_sem := r_sem s; r_avail := r_avail s; r_loaded := r_loaded s; r_string := r_string s; r_end := r_end s; r_prev := r_prev s; r_offset := r_offset s; r_sage := r_sage s; r_dormant := r_dormant s; r_mark := r_mark s; r_fish := r_fish s |}.
Definition set_r_uni (x : nat) (s : runner) : runner :=
  {| r_id := r_id s; r_uni := x; r_fld := r_fld s; r_pos := r_pos s; r_delta := r_delta s; r_storage := r_storage s; r_stopped := r_stopped s; r_ss := r_ss s; r_parent := r_parent s; r_handler := r_handler s; r_strats := r_strats s; r_sem := r_sem s; r_avail := r_avail s; r_loaded := r_loaded s; r_string := r_string s; r_end := r_end s; r_prev := r_prev s; r_offset := r_offset s; r_sage := r_sage s; r_dormant := r_dormant s; r_mark := r_mark s; r_fish := r_fish s |}.
Definition set_r_fld (x : nat) (s : runner) : runner :=
  {| r_id := r_id s; r_uni := r_uni s; r_fld := x; r_pos := r_pos s; r_delta := r_delta s; r_storage := r_storage s; r_stopped := r_stopped s; r_ss := r_ss s; r_parent := r_parent s; r_handler := r_handler s; r_strats := r_strats s; r_sem := r_sem s; r_avail := r_avail s; r_loaded := r_loaded s; r_string := r_string s; r_end := r_end s; r_prev := r_prev s; r_offset := r_offset s; r_sage := r_sage s; r_dormant := r_dormant s; r_mark := r_mark s; r_fish := r_fish s |}.
Definition set_r_pos (x : vec) (s : runner) : runner :=
  {| r_id := r_id s; r_uni := r_uni s; r_fld := r_fld s; r_pos := x; r_delta := r_delta s; r_storage := r_storage s; r_stopped := r_stopped s; r_ss := r_ss s; r_parent := r_parent s; r_handler := r_handler s; r_strats := r_strats s; r_sem := r_sem s; r_avail := r_avail s; r_loaded := r_loaded s; r_string := r_string s; r_end := r_end s; r_prev := r_prev s; r_offset := r_offset s; r_sage := r_sage s; r_dormant := r_dormant s; r_mark := r_mark s; r_fish := r_fish s |}.
Definition set_r_delta (x : vec) (s : runner) : runner :=
  {| r_id := r_id s; r_uni := r_uni s; r_fld := r_fld s; r_pos := r_pos s; r_delta := x; r_storage := r_storage s; r_stopped := r_stopped s; r_ss := r_ss s; r_parent := r_parent s; r_handler := r_handler s; r_strats := r_strats s; r_sem := r_sem s; r_avail := r_avail s; r_loaded := r_loaded s; r_string := r_string s; r_end := r_end s; r_prev := r_prev s; r_offset := r_offset s; r_sage := r_sage s; r_dormant := r_dormant s; r_mark := r_mark s; r_fish := r_fish s |}.
Definition set_r_storage (x : vec) (s : runner) : runner :=
  {| r_id := r_id s; r_uni := r_uni s; r_fld := r_fld s; r_pos := r_pos s; r_delta := r_delta s; r_storage := x; r_stopped := r_stopped s; r_ss := r_ss s; r_parent := r_parent s; r_handler := r_handler s; r_strats := r_strats s; r_sem := r_sem s; r_avail := r_avail s; r_loaded := r_loaded s; r_string := r_string s; r_end := r_end s; r_prev := r_prev s; r_offset := r_offset s; r_sage := r_sage s; r_dormant := r_dormant s; r_mark := r_mark s; r_fish := r_fish s |}.
Definition set_r_stopped (x : bool) (s : runner) : runner :=
  {| r_id := r_id s; r_uni := r_uni s; r_fld := r_fld s; r_pos := r_pos s; r_delta := r_delta s; r_storage := r_storage s; r_stopped := x; r_ss := r_ss s; r_parent := r_parent s; r_handler := r_handler s; r_strats := r_strats s; r_sem := r_sem s; r_avail := r_avail s; r_loaded := r_loaded s; r_string := r_string s; r_end := r_end s; r_prev := r_prev s; r_offset := r_offset s; r_sage := r_sage s; r_dormant := r_dormant s; r_mark := r_mark s; r_fish := r_fish s |}.
Definition set_r_ss (x : sstk) (s : runner) : runner :=
  {| r_id := r_id s; r_uni := r_uni s; r_fld := r_fld s; r_pos := r_pos s; r_delta := r_delta s; r_storage := r_storage s; r_stopped := r_stopped s; r_ss := x; r_parent := r_parent s; r_handler := r_handler s; r_strats := r_strats s; r_sem := r_sem s; r_avail := r_avail s; r_loaded := r_loaded s; r_string := r_string s; r_end := r_end s; r_prev := r_prev s; r_offset := r_offset s; r_sage := r_sage s; r_dormant := r_dormant s; r_mark := r_mark s; r_fish := r_fish s |}.
Definition set_r_parent (x : option Z) (s : runner) : runner :=
  {| r_id := r_id s; r_uni := r_uni s; r_fld := r_fld s; r_pos := r_pos s; r_delta := r_delta s; r_storage := r_storage s; r_stopped := r_stopped s; r_ss := r_ss s; r_parent := x; r_handler := r_handler s; r_strats := r_strats s; r_sem := r_sem s; r_avail := r_avail s; r_loaded := r_loaded s; r_string := r_string s; r_end := r_end s; r_prev := r_prev s; r_offset := r_offset s; r_sage := r_sage s; r_dormant := r_dormant s; r_mark := r_mark s; r_fish := r_fish s |}.
Definition set_r_handler (x : bool) (s : runner) : runner :=
  {| r_id := r_id s; r_uni := r_uni s; r_fld := r_fld s; r_pos := r_pos s; r_delta := r_delta s; r_storage := r_storage s; r_stopped := r_stopped s; r_ss := r_ss s; r_parent := r_parent s; r_handler := x; r_strats := r_strats s; r_sem := r_sem s; r_avail := r_avail s; r_loaded := r_loaded s; r_string := r_string s; r_end := r_end s; r_prev := r_prev s; r_offset := r_offset s; r_sage := r_sage s; r_dormant := r_dormant s; r_mark := r_mark s; r_fish := r_fish s |}.
Definition set_r_strats (x : list strat) (s : runner) : runner :=
  {| r_id := r_id s; r_uni := r_uni s; r_fld := r_fld s; r_pos := r_pos s; r_delta := r_delta s; r_storage := r_storage s; r_stopped := r_stopped s; r_ss := r_ss s; r_parent := r_parent s; r_handler := r_handler s; r_strats := x; r_sem := r_sem s; r_avail := r_avail s; r_loaded := r_loaded s; r_string := r_string s; r_end := r_end s; r_prev := r_prev s; r_offset := r_offset s; r_sage := r_sage s; r_dormant := r_dormant s; r_mark := r_mark s; r_fish := r_fish s |}.
Definition set_r_sem (x : Z -> list sem) (s : runner) : runner :=
  {| r_id := r_id s; r_uni := r_uni s; r_fld := r_fld s; r_pos := r_pos s; r_delta := r_delta s; r_storage := r_storage s; r_stopped := r_stopped s; r_ss := r_ss s; r_parent := r_parent s; r_handler := r_handler s; r_strats := r_strats s; r_sem := x; r_avail := r_avail s; r_loaded := r_loaded s; r_string := r_string s; r_end := r_end s; r_prev := r_prev s; r_offset := r_offset s; r_sage := r_sage s; r_dormant := r_dormant s; r_mark := r_mark s; r_fish := r_fish s |}.
Definition set_r_avail (x : list (Z * nat)) (s : runner) : runner :=
  {| r_id := r_id s; r_uni := r_uni s; r_fld := r_fld s; r_pos := r_pos s; r_delta := r_delta s; r_storage := r_storage s; r_stopped := r_stopped s; r_ss := r_ss s; r_parent := r_parent s; r_handler := r_handler s; r_strats := r_strats s; r_sem := r_sem s; r_avail := x; r_loaded := r_loaded s; r_string := r_string s; r_end := r_end s; r_prev := r_prev s; r_offset := r_offset s; r_sage := r_sage s; r_dormant := r_dormant s; r_mark := r_mark s; r_fish := r_fish s |}.
Definition set_r_loaded (x : list Z) (s : runner) : runner :=
  {| r_id := r_id s; r_uni := r_uni s; r_fld := r_fld s; r_pos := r_pos s; r_delta := r_delta s; r_storage := r_storage s; r_stopped := r_stopped s; r_ss := r_ss s; r_parent := r_parent s; r_handler := r_handler s; r_strats := r_strats s; r_sem := r_sem s; r_avail := r_avail s; r_loaded := x; r_string := r_string s; r_end := r_end s; r_prev := r_prev s; r_offset := r_offset s; r_sage := r_sage s; r_dormant := r_dormant s; r_mark := r_mark s; r_fish := r_fish s |}.
Definition set_r_string (x : bool) (s : runner) : runner :=
  {| r_id := r_id s; r_uni := r_uni s; r_fld := r_fld s; r_pos := r_pos s; r_delta := r_delta s; r_storage := r_storage s; r_stopped := r_stopped s; r_ss := r_ss s; r_parent := r_parent s; r_handler := r_handler s; r_strats := r_strats s; r_sem := r_sem s; r_avail := r_avail s; r_loaded := r_loaded s; r_string := x; r_end := r_end s; r_prev := r_prev s; r_offset := r_offset s; r_sage := r_sage s; r_dormant := r_dormant s; r_mark := r_mark s; r_fish := r_fish s |}.
Definition set_r_end (x : Z) (s : runner) : runner :=
  {| r_id := r_id s; r_uni := r_uni s; r_fld := r_fld s; r_pos := r_pos s; r_delta := r_delta s; r_storage := r_storage s; r_stopped := r_stopped s; r_ss := r_ss s; r_parent := r_parent s; r_handler := r_handler s; r_strats := r_strats s; r_sem := r_sem s; r_avail := r_avail s; r_loaded := r_loaded s; r_string := r_string s; r_end := x; r_prev := r_prev s; r_offset := r_offset s; r_sage := r_sage s; r_dormant := r_dormant s; r_mark := r_mark s; r_fish := r_fish s |}.
Definition set_r_prev (x : Z) (s : runner) : runner :=
  {| r_id := r_id s; r_uni := r_uni s; r_fld := r_fld s; r_pos := r_pos s; r_delta := r_delta s; r_storage := r_storage s; r_stopped := r_stopped s; r_ss := r_ss s; r_parent := r_parent s; r_handler := r_handler s; r_strats := r_strats s; r_sem := r_sem s; r_avail := r_avail s; r_loaded := r_loaded s; r_string := r_string s; r_end := r_end s; r_prev := x; r_offset := r_offset s; r_sage := r_sage s; r_dormant := r_dormant s; r_mark := r_mark s; r_fish := r_fish s |}.
Definition set_r_offset (x : bool) (s : runner) : runner :=
  {| r_id := r_id s; r_uni := r_uni s; r_fld := r_fld s; r_pos := r_pos s; r_delta := r_delta s; r_storage := r_storage s; r_stopped := r_stopped s; r_ss := r_ss s; r_parent := r_parent s; r_handler := r_handler s; r_strats := r_strats s; r_sem := r_sem s; r_avail := r_avail s; r_loaded := r_loaded s; r_string := r_string s; r_end := r_end s; r_prev := r_prev s; r_offset := x; r_sage := r_sage s; r_dormant := r_dormant s; r_mark := r_mark s; r_fish := r_fish s |}.
Definition set_r_sage (x : Z) (s : runner) : runner :=
  {| r_id := r_id s; r_uni := r_uni s; r_fld := r_fld s; r_pos := r_pos s; r_delta := r_delta s; r_storage := r_storage s; r_stopped := r_stopped s; r_ss := r_ss s; r_parent := r_parent s; r_handler := r_handler s; r_strats := r_strats s; r_sem := r_sem s; r_avail := r_avail s; r_loaded := r_loaded s; r_string := r_string s; r_end := r_end s; r_prev := r_prev s; r_offset := r_offset s; r_sage := x; r_dormant := r_dormant s; r_mark := r_mark s; r_fish := r_fish s |}.
Definition set_r_dormant (x : bool) (s : runner) : runner :=
  {| r_id := r_id s; r_uni := r_uni s; r_fld := r_fld s; r_pos := r_pos s; r_delta := r_delta s; r_storage := r_storage s; r_stopped := r_stopped s; r_ss := r_ss s; r_parent := r_parent s; r_handler := r_handler s; r_strats := r_strats s; r_sem := r_sem s; r_avail := r_avail s; r_loaded := r_loaded s; r_string := r_string s; r_end := r_end s; r_prev := r_prev s; r_offset := r_offset s; r_sage := r_sage s; r_dormant := x; r_mark := r_mark s; r_fish := r_fish s |}.
Definition set_r_mark (x : Z) (s : runner) : runner :=
  {| r_id := r_id s; r_uni := r_uni s; r_fld := r_fld s; r_pos := r_pos s; r_delta := r_delta s; r_storage := r_storage s; r_stopped := r_stopped s; r_ss := r_ss s; r_parent := r_parent s; r_handler := r_handler s; r_strats := r_strats s; r_sem := r_sem s; r_avail := r_avail s; r_loaded := r_loaded s; r_string := r_string s; r_end := r_end s; r_prev := r_prev s; r_offset := r_offset s; r_sage := r_sage s; r_dormant := r_dormant s; r_mark := x; r_fish := r_fish s |}.
Definition set_r_fish (x : option (bool * vec)) (s : runner) : runner :=
  {| r_id := r_id s; r_uni := r_uni s; r_fld := r_fld s; r_pos := r_pos s; r_delta := r_delta s; r_storage := r_storage s; r_stopped := r_stopped s; r_ss := r_ss s; r_parent := r_parent s; r_handler := r_handler s; r_strats := r_strats s; r_sem := r_sem s; r_avail := r_avail s; r_loaded := r_loaded s; r_string := r_string s; r_end := r_end s; r_prev := r_prev s; r_offset := r_offset s; r_sage := r_sage s; r_dormant := r_dormant s; r_mark := r_mark s; r_fish := x |}.

(** Class FungeUniverse, src/include/FungeUniverse.h:126-140.  The mutex, condition
    variable and semaphore are modelled in Sched.v; [creator] is only set for
    FungeLib universes, which are not executed by this model. *)
Record universe := {
  u_cfg : cfg; (* config *)
  u_field : field; (* field *)
  u_queue : list Z; (* runners, front first *)
  u_running : bool; (* running *)
  u_exit : Z }. (* exitcode *)

Definition set_u_cfg (x : cfg) (s : universe) : universe :=
  {| u_cfg := x; u_field := u_field s; u_queue := u_queue s; u_running := u_running s; u_exit := u_exit s |}.
Definition set_u_field (x : field) (s : universe) : universe :=
  {| u_cfg := u_cfg s; u_field := x; u_queue := u_queue s; u_running := u_running s; u_exit := u_exit s |}.
Definition set_u_queue (x : list Z) (s : universe) : universe :=
  {| u_cfg := u_cfg s; u_field := u_field s; u_queue := x; u_running := u_running s; u_exit := u_exit s |}.
Definition set_u_running (x : bool) (s : universe) : universe :=
  {| u_cfg := u_cfg s; u_field := u_field s; u_queue := u_queue s; u_running := x; u_exit := u_exit s |}.
Definition set_u_exit (x : Z) (s : universe) : universe :=
  {| u_cfg := u_cfg s; u_field := u_field s; u_queue := u_queue s; u_running := u_running s; u_exit := x |}.

(** Effects outside the interpreter. *)
Inductive event :=
| EvSystem (cmd : bytes)          (** [system()] *)
| EvRead (path : bytes)           (** file opened for reading by [i] *)
| EvWrite (path data : bytes)     (** file written by [o] *)
| EvChdir (path : bytes) | EvMkdir (path : bytes) | EvRmdir (path : bytes).

(** Everything: all universes and IPs, standard input and output, the file system
    and the other sources of information.  The unknown environment (random numbers,
    system() results, clocks) is given by arbitrary functions. *)
Record world := {
  w_uni : nat -> universe; (* FungeMultiverse::universes, numbered in order of creation *)
  w_nuni : nat; (* their number *)
  w_run : Z -> option runner; (* live FungeRunner objects *)
  w_nrun : Z; (* FungeRunner::count *)
  w_in : bytes; (* standard input left *)
  w_out : bytes; (* standard output so far *)
  w_log : list event; (* external effects, newest first *)
  w_fs : bytes -> option bytes; (* readable files *)
  w_wr : bytes -> bool; (* can the path be opened for writing? *)
  w_dir : bytes -> bool; (* is the path a directory? *)
  w_rnd : nat -> Z; (* random choices *)
  w_nrnd : nat; (* how many were made *)
  w_sys : nat -> Z; (* results of system() calls *)
  w_nsys : nat;
  w_clock : nat -> Z; (* clock readings, in ns *)
  w_tm : nat -> list Z; (* localtime: hour, min, sec, year, mon, mday *)
  w_nclock : nat; (* how many readings were made *)
  w_refs : list (Z * vec); (* FingerprintREFC::refc_map *)
  w_fl : Z -> bool }. (* is there a FungeLib file for this number in ../fing? *)

Definition set_w_uni (x : nat -> universe) (s : world) : world :=
  {| w_uni := x; w_nuni := w_nuni s; w_run := w_run s; w_nrun := w_nrun s; w_in := w_in s; w_out := w_out s; w_log := w_log s; w_fs := w_fs s; w_wr := w_wr s; w_dir := w_dir s; w_rnd := w_rnd s; w_nrnd := w_nrnd s; w_sys := w_sys s; w_nsys := w_nsys s; w_clock := w_clock s; w_tm := w_tm s; w_nclock := w_nclock s; w_refs := w_refs s; w_fl := w_fl s |}.
Definition set_w_nuni (x : nat) (s : world) : world :=
  {| w_uni := w_uni s; w_nuni := x; w_run := w_run s; w_nrun := w_nrun s; w_in := w_in s; w_out := w_out s; w_log := w_log s; w_fs := w_fs s; w_wr := w_wr s; w_dir := w_dir s; w_rnd := w_rnd s; w_nrnd := w_nrnd s; w_sys := w_sys s; w_nsys := w_nsys s; w_clock := w_clock s; w_tm := w_tm s; w_nclock := w_nclock s; w_refs := w_refs s; w_fl := w_fl s |}.
Definition set_w_run (x : Z -> option runner) (s : world) : world :=
  {| w_uni := w_uni s; w_nuni := w_nuni s; w_run := x; w_nrun := w_nrun s; w_in := w_in s; w_out := w_out s; w_log := w_log s; w_fs := w_fs s; w_wr := w_wr s; w_dir := w_dir s; w_rnd := w_rnd s; w_nrnd := w_nrnd s; w_sys := w_sys s; w_nsys := w_nsys s; w_clock := w_clock s; w_tm := w_tm s; w_nclock := w_nclock s; w_refs := w_refs s; w_fl := w_fl s |}.
Definition set_w_nrun (x : Z) (s : world) : world :=
  {| w_uni := w_uni s; w_nuni := w_nuni s; w_run := w_run s; w_nrun := x; w_in := w_in s; w_out := w_out s; w_log := w_log s; w_fs := w_fs s; w_wr := w_wr s; w_dir := w_dir s; w_rnd := w_rnd s; w_nrnd := w_nrnd s; w_sys := w_sys s; w_nsys := w_nsys s; w_clock := w_clock s; w_tm := w_tm s; w_nclock := w_nclock s; w_refs := w_refs s; w_fl := w_fl s |}.
Definition set_w_in (x : bytes) (s : world) : world :=
  {| w_uni := w_uni s; w_nuni := w_nuni s; w_run := w_run s; w_nrun := w_nrun s; w_in := x; w_out := w_out s; w_log := w_log s; w_fs := w_fs s; w_wr := w_wr s; w_dir := w_dir s; w_rnd := w_rnd s; w_nrnd := w_nrnd s; w_sys := w_sys s; w_nsys := w_nsys s; w_clock := w_clock s; w_tm := w_tm s; w_nclock := w_nclock s; w_refs := w_refs s; w_fl := w_fl s |}.
Definition set_w_out (x : bytes) (s : world) : world :=
  {| w_uni := w_uni s; w_nuni := w_nuni s; w_run := w_run s; w_nrun := w_nrun s; w_in := w_in s; w_out := x; w_log := w_log s; w_fs := w_fs s; w_wr := w_wr s; w_dir := w_dir s; w_rnd := w_rnd s; w_nrnd := w_nrnd s; w_sys := w_sys s; w_nsys := w_nsys s; w_clock := w_clock s; w_tm := w_tm s; w_nclock := w_nclock s; w_refs := w_refs s; w_fl := w_fl s |}.
Definition set_w_log (x : list event) (s : world) : world :=
  {| w_uni := w_uni s; w_nuni := w_nuni s; w_run := w_run s; w_nrun := w_nrun s; w_in := w_in s; w_out := w_out s; w_log := x; w_fs := w_fs s; w_wr := w_wr s; w_dir := w_dir s; w_rnd := w_rnd s; w_nrnd := w_nrnd s; w_sys := w_sys s; w_nsys := w_nsys s; w_clock := w_clock s; w_tm := w_tm s; w_nclock := w_nclock s; w_refs := w_refs s; w_fl := w_fl s |}.
Definition set_w_fs (x : bytes -> option bytes) (s : world) : world :=
  {| w_uni := w_uni s; w_nuni := w_nuni s; w_run := w_run s; w_nrun := w_nrun s; w_in := w_in s; w_out := w_out s; w_log := w_log s; w_fs := x; w_wr := w_wr s; w_dir := w_dir s; w_rnd := w_rnd s; w_nrnd := w_nrnd s; w_sys := w_sys s; w_nsys := w_nsys s; w_clock := w_clock s; w_tm := w_tm s; w_nclock := w_nclock s; w_refs := w_refs s; w_fl := w_fl s |}.
Definition set_w_wr (x : bytes -> bool) (s : world) : world :=
  {| w_uni := w_uni s; w_nuni := w_nuni s; w_run := w_run s; w_nrun := w_nrun s; w_in := w_in s; w_out := w_out s; w_log := w_log s; w_fs := w_fs s; w_wr := x; w_dir := w_dir s; w_rnd := w_rnd s; w_nrnd := w_nrnd s; w_sys := w_sys s; w_nsys := w_nsys s; w_clock := w_clock s; w_tm := w_tm s; w_nclock := w_nclock s; w_refs := w_refs s; w_fl := w_fl s |}.
Definition set_w_dir (x : bytes -> bool) (s : world) : world :=
  {| w_uni := w_uni s; w_nuni := w_nuni s; w_run := w_run s; w_nrun := w_nrun s; w_in := w_in s; w_out := w_out s; w_log := w_log s; w_fs := w_fs s; w_wr := w_wr s; w_dir := x; w_rnd := w_rnd s; w_nrnd := w_nrnd s; w_sys := w_sys s; w_nsys := w_nsys s; w_clock := w_clock s; w_tm := w_tm s; w_nclock := w_nclock s; w_refs := w_refs s; w_fl := w_fl s |}.
Definition set_w_rnd (x : nat -> Z) (s : world) : world :=
  {| w_uni := w_uni s; w_nuni := w_nuni s; w_run := w_run s; w_nrun := w_nrun s; w_in := w_in s; w_out := w_out s; w_log := w_log s; w_fs := w_fs s; w_wr := w_wr s; w_dir := w_dir s; w_rnd := x; w_nrnd := w_nrnd s; w_sys := w_sys s; w_nsys := w_nsys s; w_clock := w_clock s; w_tm := w_tm s; w_nclock := w_nclock s; w_refs := w_refs s; w_fl := w_fl s |}.
Definition set_w_nrnd (x : nat) (s : world) : world :=
  {| w_uni := w_uni s; w_nuni := w_nuni s; w_run := w_run s; w_nrun := w_nrun s; w_in := w_in s; w_out := w_out s; w_log := w_log s; w_fs := w_fs s; w_wr := w_wr s; w_dir := w_dir s; w_rnd := w_rnd s; w_nrnd := x; w_sys := w_sys s; w_nsys := w_nsys s; w_clock := w_clock s; w_tm := w_tm s; w_nclock := w_nclock s; w_refs := w_refs s; w_fl := w_fl s |}.
Definition set_w_sys (x : nat -> Z) (s : world) : world :=
  {| w_uni := w_uni s; w_nuni := w_nuni s; w_run := w_run s; w_nrun := w_nrun s; w_in := w_in s; w_out := w_out s; w_log := w_log s; w_fs := w_fs s; w_wr := w_wr s; w_dir := w_dir s; w_rnd := w_rnd s; w_nrnd := w_nrnd s; w_sys := x; w_nsys := w_nsys s; w_clock := w_clock s; w_tm := w_tm s; w_nclock := w_nclock s; w_refs := w_refs s; w_fl := w_fl s |}.
Definition set_w_nsys (x : nat) (s : world) : world :=
  {| w_uni := w_uni s; w_nuni := w_nuni s; w_run := w_run s; w_nrun := w_nrun s; w_in := w_in s; w_out := w_out s; w_log := w_log s; w_fs := w_fs s; w_wr := w_wr s; w_dir := w_dir s; w_rnd := w_rnd s; w_nrnd := w_nrnd s; w_sys := w_sys s; w_nsys := x; w_clock := w_clock s; w_tm := w_tm s; w_nclock := w_nclock s; w_refs := w_refs s; w_fl := w_fl s |}.
Definition set_w_clock (x : nat -> Z) (s : world) : world :=
  {| w_uni := w_uni s; w_nuni := w_nuni s; w_run := w_run s; w_nrun := w_nrun s; w_in := w_in s; w_out := w_out s; w_log := w_log s; w_fs := w_fs s; w_wr := w_wr s; w_dir := w_dir s; w_rnd := w_rnd s; w_nrnd := w_nrnd s; w_sys := w_sys s; w_nsys := w_nsys s; w_clock := x; w_tm := w_tm s; w_nclock := w_nclock s; w_refs := w_refs s; w_fl := w_fl s |}.
Definition set_w_tm (x : nat -> list Z) (s : world) : world :=
  {| w_uni := w_uni s; w_nuni := w_nuni s; w_run := w_run s; w_nrun := w_nrun s; w_in := w_in s; w_out := w_out s; w_log := w_log s; w_fs := w_fs s; w_wr := w_wr s; w_dir := w_dir s; w_rnd := w_rnd s; w_nrnd := w_nrnd s; w_sys := w_sys s; w_nsys := w_nsys s; w_clock := w_clock s; w_tm := x; w_nclock := w_nclock s; w_refs := w_refs s; w_fl := w_fl s |}.
Definition set_w_nclock (x : nat) (s : world) : world :=
  {| w_uni := w_uni s; w_nuni := w_nuni s; w_run := w_run s; w_nrun := w_nrun s; w_in := w_in s; w_out := w_out s; w_log := w_log s; w_fs := w_fs s; w_wr := w_wr s; w_dir := w_dir s; w_rnd := w_rnd s; w_nrnd := w_nrnd s; w_sys := w_sys s; w_nsys := w_nsys s; w_clock := w_clock s; w_tm := w_tm s; w_nclock := x; w_refs := w_refs s; w_fl := w_fl s |}.
Definition set_w_refs (x : list (Z * vec)) (s : world) : world :=
  {| w_uni := w_uni s; w_nuni := w_nuni s; w_run := w_run s; w_nrun := w_nrun s; w_in := w_in s; w_out := w_out s; w_log := w_log s; w_fs := w_fs s; w_wr := w_wr s; w_dir := w_dir s; w_rnd := w_rnd s; w_nrnd := w_nrnd s; w_sys := w_sys s; w_nsys := w_nsys s; w_clock := w_clock s; w_tm := w_tm s; w_nclock := w_nclock s; w_refs := x; w_fl := w_fl s |}.
Definition set_w_fl (x : Z -> bool) (s : world) : world :=
  {| w_uni := w_uni s; w_nuni := w_nuni s; w_run := w_run s; w_nrun := w_nrun s; w_in := w_in s; w_out := w_out s; w_log := w_log s; w_fs := w_fs s; w_wr := w_wr s; w_dir := w_dir s; w_rnd := w_rnd s; w_nrnd := w_nrnd s; w_sys := w_sys s; w_nsys := w_nsys s; w_clock := w_clock s; w_tm := w_tm s; w_nclock := w_nclock s; w_refs := w_refs s; w_fl := x |}.

(** ** The state monad of one IP's execution

    [s_r] is the executing IP; its entry in [w_run] is stale meanwhile. *)
Record st := { s_w : world; s_r : runner }.
Definition M (A : Type) : Type := st -> res (A * st).

Definition ret {A} (a : A) : M A := fun s => Ok (a, s).
Definition fail {A} (b : bad) : M A := fun _ => Bad b.
Definition lift {A} (x : res A) : M A :=
  fun s => match x with Ok a => Ok (a, s) | Bad b => Bad b end.
Definition mbind {A B} (m : M A) (k : A -> M B) : M B :=
  fun s => match m s with Ok (a, s') => k a s' | Bad b => Bad b end.
Notation "x <- m ;; k" := (mbind m (fun x => k))
  (at level 61, m at next level, right associativity).
Notation "m ;;; k" := (mbind m (fun _ => k)) (at level 61, right associativity).

Definition getR : M runner := fun s => Ok (s_r s, s).
Definition getW : M world := fun s => Ok (s_w s, s).
Definition modR (f : runner -> runner) : M unit :=
  fun s => Ok (tt, {| s_w := s_w s; s_r := f (s_r s) |}).
Definition modW (f : world -> world) : M unit :=
  fun s => Ok (tt, {| s_w := f (s_w s); s_r := s_r s |}).

(** Assignment to one universe. *)
Definition upd_uni (n : nat) (f : universe -> universe) (w : world) : world :=
  set_w_uni (fun m => if Nat.eqb m n then f (w_uni w n) else w_uni w m) w.
(** Assignment to one runner of the heap. *)
Definition upd_run (id : Z) (r : option runner) (w : world) : world :=
  set_w_run (fun i => if i =? id then r else w_run w i) w.

(** FungeRunner::getUniverse of the executing IP. *)
Definition getU : M universe := fun s => Ok (w_uni (s_w s) (r_uni (s_r s)), s).
Definition modU (f : universe -> universe) : M unit :=
  fun s => Ok (tt, {| s_w := upd_uni (r_uni (s_r s)) f (s_w s); s_r := s_r s |}).
Definition getC : M cfg := u <- getU ;; ret (u_cfg u).

(** Field::get and Field::put on the Field of universe [n]. *)
Definition fget (n : nat) (p : vec) : M Z :=
  fun s => Ok (f_get (u_field (w_uni (s_w s) n)) p, s).
Definition fput (n : nat) (p : vec) (v : Z) : M unit :=
  modW (upd_uni n (fun u => set_u_field (f_put p v (u_field u)) u)).

(** [std::cout << ...]. *)
Definition out (b : bytes) : M unit := modW (fun w => set_w_out (w_out w ++ b) w).
(** [getchar()]; [None] is EOF. *)
Definition getchar : M (option Z) :=
  fun s => match w_in (s_w s) with
           | [] => Ok (None, s)
           | c :: t => Ok (Some c, {| s_w := set_w_in t (s_w s); s_r := s_r s |})
           end.
(** [ungetc(c, stdin)]. *)
Definition ungetc (c : Z) : M unit := modW (fun w => set_w_in (c :: w_in w) w).
Definition log (e : event) : M unit := modW (fun w => set_w_log (e :: w_log w) w).
(** One random choice. *)
Definition rnd : M Z :=
  fun s => Ok (w_rnd (s_w s) (w_nrnd (s_w s)),
               {| s_w := set_w_nrnd (S (w_nrnd (s_w s))) (s_w s); s_r := s_r s |}).

(** Loop in the monad: [f] returns [inl] to go on, [inr] to leave. *)
Definition loopM {A B} (F : positive) (f : A -> M (A + B)) (a : A) : M B :=
  fun s => loop (fun as_ : A * st =>
                   match f (fst as_) (snd as_) with
                   | Ok (inl a', s') => Ok (inl (a', s'))
                   | Ok (inr b, s') => Ok (inr (b, s'))
                   | Bad e => Bad e
                   end) F (a, s).
(** [for(i = 0; i < n; ++i) body]. *)
Fixpoint repM (n : nat) (body : M unit) : M unit :=
  match n with
  | O => ret tt
  | S n' => body ;;; repM n' body
  end.

(** Apply [f] to the runner with ID [id], which must be alive. *)
Definition on_runner (id : Z) (f : runner -> runner) : M unit :=
  fun s =>
    if id =? r_id (s_r s) then Ok (tt, {| s_w := s_w s; s_r := f (s_r s) |})
    else match w_run (s_w s) id with
         | Some r => Ok (tt, {| s_w := upd_run id (Some (f r)) (s_w s); s_r := s_r s |})
         | None => Bad BadFreed
         end.
Definition find_runner (id : Z) : M runner :=
  fun s =>
    if id =? r_id (s_r s) then Ok (s_r s, s)
    else match w_run (s_w s) id with
         | Some r => Ok (r, s)
         | None => Bad BadFreed
         end.
(** [for(auto r : runners) f(r)]. *)
Fixpoint on_runners (l : list Z) (f : runner -> runner) : M unit :=
  match l with
  | [] => ret tt
  | id :: t => on_runner id f ;;; on_runners t f
  end.
