(** * Instruction tables, fingerprints and IP creation: the constructors of the
    strategies, src/FingerprintStrategy.cpp, src/FungeStateNormal.cpp,
    src/FungeRunner.cpp and the creation functions of src/FungeUniverse.cpp and
    src/FungeMultiverse.cpp. *)

From Coq Require Import ZArith List Bool.
From Verif Require Import Base VectorModel TextModel StackModel FieldModel World IpModel.
Import ListNotations.
Open Scope Z_scope.

(** ** Semantics *)

(** FungeStateNormal::pushSemantic, src/FungeStateNormal.cpp:19-25. *)
Definition sem_push (i : Z) (x : sem) (t : Z -> list sem) : Z -> list sem :=
  fun j => if j =? i then x :: t i else t j.
(** FungeStateNormal::popSemantic, src/FungeStateNormal.cpp:27-35. *)
Definition sem_pop (i : Z) (t : Z -> list sem) : Z -> list sem :=
  fun j => if j =? i then tl (t i) else t j.
(** FungeStateNormal::getSemantic, src/FungeStateNormal.cpp:37-44; [None] is
    the null pointer. *)
Definition sem_top (i : Z) (t : Z -> list sem) : option sem := hd_error (t i).

Definition sem_pushes (l : list (Z * sem)) (t : Z -> list sem) : Z -> list sem :=
  fold_left (fun t e => sem_push (fst e) (snd e) t) l t.

Definition base (m : meth) : sem := {| sm_act := ABase m; sm_move := false |}.
Definition base_mv (m : meth) : sem := {| sm_act := ABase m; sm_move := true |}.

(** Unefunge93Strategy::Unefunge93Strategy, src/Unefunge93Strategy.cpp:17-60. *)
Definition table_u93 : list (Z * sem) :=
  [(32, base MSkip); (9, base MSkip);
   (48, base (MPush 0)); (49, base (MPush 1)); (50, base (MPush 2));
   (51, base (MPush 3)); (52, base (MPush 4)); (53, base (MPush 5));
   (54, base (MPush 6)); (55, base (MPush 7)); (56, base (MPush 8));
   (57, base (MPush 9));
   (60, base_mv MWest); (62, base_mv MEast); (64, base MStop); (35, base MTramp);
   (95, base MIf); (63, base MGoAway);
   (33, base MNot); (37, base MRem); (42, base MMul); (43, base MAdd);
   (45, base MSub); (47, base MDiv); (96, base MGt);
   (36, base MPop); (58, base MDup); (92, base MSwap);
   (38, base MNumIn); (126, base MCharIn); (34, base MString);
   (46, base MNumOut); (44, base MCharOut); (103, base MGet); (112, base MPut)].
(** Unefunge98Strategy::init, src/Unefunge98Strategy.cpp:33-65. *)
Definition table_u98 : list (Z * sem) :=
  [(97, base (MPush 10)); (98, base (MPush 11)); (99, base (MPush 12));
   (100, base (MPush 13)); (101, base (MPush 14)); (102, base (MPush 15));
   (121, base MSysInfo); (122, base MNoop);
   (59, base MJumpOver); (106, base MJumpFwd); (114, base_mv MReflect);
   (120, base MAbsolute); (107, base MIterate); (113, base MQuit);
   (116, base MThread);
   (110, base MClear); (117, base MUnder); (123, base MBegin); (125, base MEnd);
   (105, base MFileIn); (111, base MFileOut); (61, base MExec);
   (39, base MFetch); (115, base MStore); (40, base MLoad); (41, base MUnload)].
(** Befunge93Strategy::Befunge93Strategy, src/Befunge93Strategy.cpp:13-19. *)
Definition table_b93 : list (Z * sem) :=
  [(94, base_mv MNorth); (118, base_mv MSouth); (124, base MIfV)].
(** Befunge98Strategy::Befunge98Strategy, src/Befunge98Strategy.cpp:13-19. *)
Definition table_b98 : list (Z * sem) :=
  [(91, base MLeft); (93, base MRight); (119, base MCompare)].
(** Trefunge98Strategy::Trefunge98Strategy, src/Trefunge98Strategy.cpp:14-20. *)
Definition table_t98 : list (Z * sem) :=
  [(104, base_mv MHigh); (108, base_mv MLow); (109, base MIfH)].

(** ** Fingerprints *)

(** The switch of FingerprintStrategy::loadBuiltin,
    src/FingerprintStrategy.cpp:67-93.  FingerprintDynamic needs a creator,
    which only FungeLib universes have. *)
Definition FP_BASE : Z := 1111577413. (* 0x42415345 *)
Definition FP_BITW : Z := 1112101975. (* 0x42495457 *)
Definition FP_BOOL : Z := 1112493900. (* 0x424F4F4C *)
Definition FP_CPLI : Z := 1129335881. (* 0x43504C49 *)
Definition FP_DBUG : Z := 1145197895. (* 0x44425547 *)
Definition FP_DIRF : Z := 1145655878. (* 0x44495246 *)
Definition FP_FING : Z := 1179209287. (* 0x46494E47 *)
Definition FP_FISH : Z := 1179210568. (* 0x46495348 *)
Definition FP_FIXP : Z := 1179211856. (* 0x46495850 *)
Definition FP_FPDP : Z := 1179665488. (* 0x46504450 *)
Definition FP_FPRT : Z := 1179669076. (* 0x46505254 *)
Definition FP_FPSP : Z := 1179669328. (* 0x46505350 *)
Definition FP_FRTH : Z := 1179800648. (* 0x46525448 *)
Definition FP_HRTI : Z := 1213355081. (* 0x48525449 *)
Definition FP_IIPC : Z := 1229541443. (* 0x49495043 *)
Definition FP_JSTR : Z := 1246975058. (* 0x4A535452 *)
Definition FP_LONG : Z := 1280265799. (* 0x4C4F4E47 *)
Definition FP_MODE : Z := 1297040453. (* 0x4D4F4445 *)
Definition FP_MVRS : Z := 1297502803. (* 0x4D565253 *)
Definition FP_NFUN : Z := 1313232206. (* 0x4E46554E *)
Definition FP_ORTH : Z := 1330795592. (* 0x4F525448 *)
Definition FP_PERL : Z := 1346720332. (* 0x5045524C *)
Definition FP_REFC : Z := 1380271683. (* 0x52454643 *)
Definition FP_STRN : Z := 1398035022. (* 0x5354524E *)
Definition FP_SUBR : Z := 1398096466. (* 0x53554252 *)
Definition FP_TOYS : Z := 1414486355. (* 0x544F5953 *)

(** The instruction letters given to the Fingerprint constructor by each
    built-in fingerprint (first lines of src/fingerprint/Fingerprint*.cpp and
    src/fingerprint/include/FingerprintFloat.h), in that order. *)
Definition builtins : list (Z * list Z) :=
  [(FP_BASE, [66; 72; 73; 78; 79]);
   (FP_BITW, [65; 76; 78; 79; 82; 88]);
   (FP_BOOL, [65; 78; 79; 88]);
   (FP_CPLI, [65; 68; 77; 79; 83; 86]);
   (FP_DBUG, [65; 66; 68; 69; 87]);
   (FP_DIRF, [67; 77; 82]);
   (FP_FING, [88; 89; 90]);
   (FP_FISH, [67; 68; 70; 72; 73; 76; 77; 78; 79; 82; 83; 84; 85; 86]);
   (FP_FIXP, [65; 66; 67; 68; 73; 74; 78; 79; 80; 81; 82; 83; 84; 85; 86; 88]);
   (FP_FPDP, [65; 66; 67; 68; 69; 70; 71; 72; 73; 75; 76; 77; 78; 80; 81; 82; 83; 84; 86; 88; 89]);
   (FP_FPRT, [68; 70; 73; 76; 83]);
   (FP_FPSP, [65; 66; 67; 68; 69; 70; 71; 72; 73; 75; 76; 77; 78; 80; 81; 82; 83; 84; 86; 88; 89]);
   (FP_FRTH, [68; 76; 79; 80; 82]);
   (FP_HRTI, [69; 71; 77; 83; 84]);
   (FP_IIPC, [65; 68; 71; 73; 76; 80]);
   (FP_JSTR, [71; 80]);
   (FP_LONG, [65; 66; 68; 69; 76; 77; 78; 79; 80; 82; 83; 90]);
   (FP_MODE, [72; 73; 81; 83]);
   (FP_MVRS, [66; 67; 70; 71; 74; 78; 80]);
   (FP_NFUN, [65; 66; 67; 68; 72; 73; 76; 77; 82; 86; 88; 89; 90]);
   (FP_ORTH, [65; 69; 71; 79; 80; 83; 86; 87; 88; 89; 90]);
   (FP_PERL, [69; 73; 83]);
   (FP_REFC, [82; 68]);
   (FP_STRN, [65; 67; 68; 70; 71; 73; 76; 77; 78; 80; 82; 83; 86]);
   (FP_SUBR, [65; 67; 74; 79; 82]);
   (FP_TOYS, [65; 66; 67; 68; 69; 70; 71; 72; 73; 74; 75; 76; 77; 78; 79; 80; 81; 82; 83; 84; 85; 86; 87; 88; 89; 90])].

Fixpoint assoc {A} (n : Z) (l : list (Z * A)) : option A :=
  match l with
  | [] => None
  | (m, x) :: t => if m =? n then Some x else assoc n t
  end.
(** Fingerprint::instructions of the built-in fingerprint [n]; [None] when
    loadBuiltin returns a null pointer. *)
Definition fp_letters (n : Z) : option (list Z) := assoc n builtins.

(** Is instruction [c] of fingerprint [n] a movement?  Only FISH says so,
    src/fingerprint/FingerprintFISH.cpp:20-28. *)
Definition fp_move (n c : Z) : bool :=
  (n =? FP_FISH) && ((c =? 85) || (c =? 79)).

(** Fingerprint::activate, src/Fingerprint.cpp:26-30, and its overrides in
    FingerprintDBUG (src/fingerprint/FingerprintDBUG.cpp:18-20, binds nothing)
    and FingerprintFISH: semantics of a fingerprint object whose Field is that
    of universe [fld]. *)
Definition fp_activate (n : Z) (fld : nat) (t : Z -> list sem) : Z -> list sem :=
  if n =? FP_DBUG then t
  else match fp_letters n with
       | Some l =>
           sem_pushes (map (fun c => (c, {| sm_act := AFing n fld c;
                                            sm_move := fp_move n c |})) l) t
       | None => t
       end.

(** Members of a newly constructed fingerprint object. *)
Definition fp_construct (n : Z) (r : runner) : runner :=
  if n =? FP_SUBR then set_r_offset false r
  else if n =? FP_IIPC then set_r_dormant false (set_r_sage 0 r)
  else if n =? FP_HRTI then set_r_mark 0 r
  else if n =? FP_FISH then set_r_fish (Some (false, mkvec [1; 0])) r
  else r.

(** FingerprintStrategy::load, src/FingerprintStrategy.cpp:110-131, on runner
    [r]; [fl n] says whether a FungeLib file for [n] exists, in which case a new
    universe would be created: not modelled. *)
Definition fp_load (fl : Z -> bool) (n : Z) (r : runner) : res (bool * runner) :=
  match assoc n (r_avail r) with
  | Some fld =>
      Ok (true, set_r_sem (fp_activate n fld (r_sem r))
                  (set_r_loaded (r_loaded r ++ [n]) r))
  | None =>
      if fl n then Bad BadUnmodelled
      else match fp_letters n with
           | Some _ =>
               let r1 := fp_construct n r in
               let r2 := set_r_avail (r_avail r1 ++ [(n, r_uni r1)]) r1 in
               Ok (true, set_r_sem (fp_activate n (r_uni r2) (r_sem r2))
                           (set_r_loaded (r_loaded r2 ++ [n]) r2))
           | None => Ok (false, r)
           end
  end.

(** The loop that erases the last entry equal to [n],
    src/FingerprintStrategy.cpp:139-144. *)
Fixpoint remove_first (n : Z) (l : list Z) : list Z :=
  match l with
  | [] => []
  | x :: t => if x =? n then t else x :: remove_first n t
  end.
Definition erase_last (n : Z) (l : list Z) : list Z := rev (remove_first n (rev l)).

(** FingerprintStrategy::unload, src/FingerprintStrategy.cpp:133-148. *)
Definition fp_unload (n : Z) (r : runner) : bool * runner :=
  match assoc n (r_avail r), fp_letters n with
  | Some _, Some l =>
      (true, set_r_loaded (erase_last n (r_loaded r))
               (set_r_sem (fold_left (fun t c => sem_pop c t) l (r_sem r)) r))
  | _, _ => (false, r)
  end.

Fixpoint fp_loads (fl : Z -> bool) (l : list Z) (r : runner) : res runner :=
  match l with
  | [] => Ok r
  | n :: t => br <-- fp_load fl n r ;; fp_loads fl t (snd br)
  end.

(** ** Strategies *)

Definition push_table (t : list (Z * sem)) (r : runner) : runner :=
  set_r_sem (sem_pushes t (r_sem r)) r.

(** Constructing strategy [s] on runner [r]; [fings] are the fingerprints the
    FingerprintStrategy of Unefunge98Strategy loads first: those of the
    configuration for a new IP (src/FingerprintStrategy.cpp:41-48), those loaded
    by the original for a clone (50-57). *)
Definition strat_construct (fl : Z -> bool) (fings : list Z) (s : strat) (r : runner)
  : res runner :=
  match s with
  | SU93 => Ok (set_r_handler true (push_table table_u93 r))
  | SU98 => r1 <-- fp_loads fl fings r ;; Ok (push_table table_u98 r1)
  | SB93 => Ok (push_table table_b93 r)
  | SB98 => Ok (push_table table_b98 r)
  | ST98 => Ok (push_table table_t98 r)
  end.
Fixpoint strats_construct (fl : Z -> bool) (fings : list Z) (l : list strat) (r : runner)
  : res runner :=
  match l with
  | [] => Ok r
  | s :: t => r1 <-- strat_construct fl fings s r ;; strats_construct fl fings t r1
  end.

(** FungeRunner::loadStrategies, src/FungeRunner.cpp:85-115, for the standards
    other than FISH and STARFISH. *)
Definition strats_of (std : Z) (dims : nat) : list strat :=
  (if Nat.leb 1 dims
   then (if STD_93 <=? std then [SU93] else []) ++
        (if STD_98 <=? std then [SU98] else [])
   else []) ++
  (if Nat.leb 2 dims
   then (if STD_93 <=? std then [SB93] else []) ++
        (if STD_98 <=? std then [SB98] else [])
   else []) ++
  (if Nat.leb 3 dims
   then (if STD_98 <=? std then [ST98] else [])
   else []).

(** A runner before its strategies are loaded: member initialisers of
    FungeRunner and InstructionPointer, src/FungeRunner.cpp:22-33,
    src/InstructionPointer.cpp:14-23, src/FungeStateString.cpp:13-19. *)
Definition runner_blank (id : Z) (uni : nat) (ss : sstk) (strats : list strat) : runner :=
  {| r_id := id; r_uni := uni; r_fld := uni;
     r_pos := mkvec [0]; r_delta := mkvec [1]; r_storage := mkvec [0];
     r_stopped := false; r_ss := ss; r_parent := None; r_handler := false;
     r_strats := strats; r_sem := fun _ => []; r_avail := []; r_loaded := [];
     r_string := false; r_end := 34; r_prev := 0;
     r_offset := false; r_sage := 0; r_dormant := false; r_mark := 0;
     r_fish := None |}.

(** FungeRunner::FungeRunner(uni, pos, delta), src/FungeRunner.cpp:22-38. *)
Definition runner_new (fl : Z -> bool) (id : Z) (n : nat) (u : universe) (pos delta : vec)
  : res runner :=
  let c := u_cfg u in
  if (c_std c =? STD_FISH) || (c_std c =? STD_STARFISH) then Bad BadUnmodelled
  else
    let sl := strats_of (c_std c) (c_dims c) in
    r <-- strats_construct fl (c_fings c) sl (runner_blank id n ss_new sl) ;;
    d <-- (if testmode MODE_HOVER u then hover_add (r_delta r) delta else Ok delta) ;;
    Ok (run_setmode (c_mode c)
          (observe_delta d (set_r_delta d (set_r_pos pos r)))).

(** FungeRunner::FungeRunner(const FungeRunner&), src/FungeRunner.cpp:58-75: a
    clone with the new [id]; [u] is the universe of the original. *)
Definition runner_clone (fl : Z -> bool) (id : Z) (u : universe) (o : runner)
  : res runner :=
  let c := u_cfg u in
  let b := runner_blank id (r_uni o) (ss_copy (r_ss o)) (r_strats o) in
  let b := set_r_parent (Some (r_id o))
             (set_r_stopped (r_stopped o)
                (set_r_storage (r_storage o)
                   (set_r_delta (r_delta o) (set_r_pos (r_pos o) b)))) in
  r <-- strats_construct fl (r_loaded o) (r_strats o) b ;;
  d <-- vrev (r_delta r) ;;
  pd <-- (if r_stopped r then Ok (r_pos r, d)
          else ip_next (c_torus c) (c_dims c) (u_field u) (r_pos r) d) ;;
  Ok (run_setmode (c_mode c) (set_r_delta (snd pd) (set_r_pos (fst pd) r))).

(** ** Universes *)

(** FungeUniverse::addRunner, src/FungeUniverse.cpp:95-104, for an IP that is
    not the executing one. *)
Definition add_runner (n : nat) (r : runner) (w : world) : world :=
  let m := c_mode (u_cfg (w_uni w n)) in
  upd_uni n (fun u => set_u_queue (u_queue u ++ [r_id r]) u)
    (upd_run (r_id r) (Some (run_setmode m r)) w).

(** FungeUniverse::createRunner, src/FungeUniverse.cpp:76-78. *)
Definition create_runner (n : nat) (pos delta : vec) (w : world) : res world :=
  r <-- runner_new (w_fl w) (w_nrun w) n (w_uni w n) pos delta ;;
  Ok (add_runner n r (set_w_nrun (w_nrun w + 1) w)).

(** FungeUniverse::cloneRunner, src/FungeUniverse.cpp:72-74, called by the
    executing IP on itself. *)
Definition cloneRunner : M unit :=
  r <- getR ;; u <- getU ;; w <- getW ;;
  r' <- lift (runner_clone (w_fl w) (w_nrun w) u r) ;;
  modW (fun w => add_runner (r_uni r) r' (set_w_nrun (w_nrun w + 1) w)).

(** FungeUniverse::transferRunner, src/FungeUniverse.cpp:85-93, of the executing
    IP to universe [n]. *)
Definition transferRunner (n : nat) : M unit :=
  r <- getR ;; w <- getW ;;
  if Nat.eqb (r_uni r) n then ret tt
  else
    modR (fun r => run_setmode (c_mode (u_cfg (w_uni w n))) (set_r_uni n r)) ;;;
    modW (upd_uni n (fun u => set_u_queue (u_queue u ++ [r_id r]) u)).

(** FungeUniverse::getRunner, src/FungeUniverse.cpp:207-214: is [id] the ID of
    an IP of the current universe? *)
Definition getRunner (id : Z) : M (option Z) :=
  u <- getU ;; ret (find (fun i => i =? id) (u_queue u)).

(** FungeMultiverse::operator[], src/FungeMultiverse.cpp:88-93. *)
Fixpoint bytes_eqb (a b : bytes) : bool :=
  match a, b with
  | [], [] => true
  | x :: a', y :: b' => (x =? y) && bytes_eqb a' b'
  | _, _ => false
  end.
Fixpoint find_uni (k : nat) (i : nat) (name : bytes) (w : world) : option nat :=
  match k with
  | O => None
  | S k' => if bytes_eqb (c_name (u_cfg (w_uni w i))) name then Some i
            else find_uni k' (S i) name w
  end.
Definition multi_find (name : bytes) (w : world) : option nat :=
  find_uni (w_nuni w) 0 name w.

(** The loop that makes the name unique, src/FungeMultiverse.cpp:34-38, 50-54:
    [a] stays 1. *)
Definition name_step (name0 : bytes) (w : world) (name : bytes) : res (bytes + bytes) :=
  match multi_find name w with
  | Some _ => Ok (inl (name0 ++ [46; 49]))
  | None => Ok (inr name)
  end.

(** FungeMultiverse::create(cfg), src/FungeMultiverse.cpp:48-61, with
    FungeUniverse::FungeUniverse(cfg), src/FungeUniverse.cpp:33-51. *)
Definition multi_create (F : positive) (c : cfg) (w : world) : res world :=
  name <-- loop (name_step (c_name c) w) F (c_name c) ;;
  let fld := field_empty (c_dims c) (c_char c) in
  let dims := match c_dims c with O => f_size fld | d => d end in
  let u := {| u_cfg := set_c_dims dims (set_c_name name c); u_field := fld;
              u_queue := []; u_running := true; u_exit := 0 |} in
  Ok (set_w_nuni (S (w_nuni w)) (upd_uni (w_nuni w) (fun _ => u) w)).
