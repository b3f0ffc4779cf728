(** * Loading fingerprints from files: src/FingerprintStrategy.cpp and
    src/fingerprint/FingerprintFungeLib.cpp.

    [execute] of CoreModel.v knows the built-in fingerprints only.  Here [(], [)]
    and [t] are modelled with fingerprints that come from files, and an instruction
    such a fingerprint binds runs as LibModel.v says.

    Simplifications: every file that exists can be opened; the instructions of
    other fingerprints that load or clone (FING, MVRS) and the IPs of a library
    itself load built-in fingerprints only. *)

From Coq Require Import ZArith List Bool.
From Verif Require Import Base VectorModel TextModel StackModel FieldModel
  World IpModel LoadModel FingModel CoreModel OptModel FileModel LibModel.
Import ListNotations.
Open Scope Z_scope.

Section Files.
  (** The directory of the executable and std::filesystem::canonical. *)
  Context (dir : bytes) (canon : bytes -> bytes).

  (** The name handed to the operating system: a C string of [char]s. *)
  Definition os_path (n : Z) : bytes := map to_i8 (cstr (fl_path dir n)).

  (** Is the fingerprint object whose universe is [u] a FingerprintFungeLib?  Only
      the universes of these are configured with the dynamic fingerprint,
      src/fingerprint/FingerprintFungeLib.cpp:45. *)
  Definition is_library (w : world) (u : nat) : bool :=
    existsb (Z.eqb FP_DYN) (c_fings (u_cfg (w_uni w u))).

  (** The instructions of the object, src/fingerprint/FingerprintFungeLib.cpp:19-22. *)
  Definition lib_letters (w : world) (u : nat) : list Z := f_planes (u_field (w_uni w u)).

  (** Fingerprint::activate, src/Fingerprint.cpp:26-30. *)
  Definition lib_activate (n : Z) (u : nat) (letters : list Z) (t : Z -> list sem) : Z -> list sem :=
    sem_pushes (map (fun c => (c, {| sm_act := AFing n u c; sm_move := false |})) letters) t.

  (** FingerprintStrategy::load, src/FingerprintStrategy.cpp:110-131, with loadFL,
      105-108, and FingerprintFungeLib::factory,
      src/fingerprint/FingerprintFungeLib.cpp:26-49. *)
  Definition load_builtin (n : Z) : M bool :=
    fun s => match fp_load (fun _ => false) n (s_r s) with
             | Bad b => Bad b
             | Ok (b, r) => Ok (b, {| s_w := s_w s; s_r := r |})
             end.
  Definition load_any (F : positive) (n : Z) : M bool :=
    fun s =>
      let w := s_w s in
      let r := s_r s in
      match assoc n (r_avail r) with
      | Some u =>
          if is_library w u then
            Ok (true, {| s_w := w;
                         s_r := set_r_sem (lib_activate n u (lib_letters w u) (r_sem r))
                                  (set_r_loaded (r_loaded r ++ [n]) r) |})
          else load_builtin n s
      | None =>
          match w_fs w (os_path n) with
          | Some data =>
              match lib_open F (canon (os_path n)) data (testmode MODE_DEBUG (w_uni w (r_uni r))) w with
              | Bad b => Bad b
              | Ok (letters, w1) =>
                  let u := w_nuni w in
                  Ok (true, {| s_w := w1;
                               s_r := set_r_sem (lib_activate n u letters (r_sem r))
                                        (set_r_loaded (r_loaded r ++ [n])
                                           (set_r_avail (r_avail r ++ [(n, u)]) r)) |})
              end
          | None => load_builtin n s
          end
      end.

  (** FingerprintStrategy::unload, src/FingerprintStrategy.cpp:133-148. *)
  Definition unload_any (n : Z) : M bool :=
    fun s =>
      let w := s_w s in
      let r := s_r s in
      match assoc n (r_avail r) with
      | Some u =>
          if is_library w u then
            Ok (true, {| s_w := w;
                         s_r := set_r_loaded (erase_last n (r_loaded r))
                                  (set_r_sem (fold_left (fun t c => sem_pop c t) (lib_letters w u) (r_sem r)) r) |})
          else Ok (fst (fp_unload n r), {| s_w := w; s_r := snd (fp_unload n r) |})
      | None => Ok (false, s)
      end.

  (** Unefunge98Strategy::instructionLoad, src/Unefunge98Strategy.cpp:309-332. *)
  Definition load_file (F : positive) : M err :=
    c <- getC ;;
    e <- (if c_fing c then
            count <- popS ;; n <- popFing (Z.to_nat count) 0 ;;
            b <- load_any F n ;;
            if b then pushS (to_i64 n) ;;; pushS 1 ;;; ok else reterr EUnspec
          else reterr ENotAvail) ;;
    switchPut 41 ;;; ret e.

  (** Unefunge98Strategy::instructionUnload, src/Unefunge98Strategy.cpp:334-354. *)
  Definition unload_file : M err :=
    c <- getC ;;
    e <- (if c_fing c then
            count <- popS ;; n <- popFing (Z.to_nat count) 0 ;;
            b <- unload_any n ;;
            if b then ok else reterr EUnspec
          else reterr ENotAvail) ;;
    switchPut 40 ;;; ret e.

  (** FingerprintStrategy::FingerprintStrategy(orig, r),
      src/FingerprintStrategy.cpp:50-57. *)
  Fixpoint loads_any (F : positive) (l : list Z) : M unit :=
    match l with
    | [] => ret tt
    | n :: t => load_any F n ;;; loads_any F t
    end.
  Fixpoint strats_any (F : positive) (fings : list Z) (l : list strat) : M unit :=
    match l with
    | [] => ret tt
    | SU98 :: t => loads_any F fings ;;; modR (push_table table_u98) ;;; strats_any F fings t
    | x :: t =>
        r <- getR ;; r1 <- lift (strat_construct (fun _ => false) [] x r) ;; modR (fun _ => r1) ;;;
        strats_any F fings t
    end.

  (** FungeRunner::FungeRunner(const FungeRunner&), src/FungeRunner.cpp:58-75, and
      FungeUniverse::cloneRunner, src/FungeUniverse.cpp:72-74, called by the
      executing IP on itself. *)
  Definition clone_file (F : positive) : M unit :=
    fun s =>
      let w := s_w s in
      let o := s_r s in
      let u := w_uni w (r_uni o) in
      let c := u_cfg u in
      let b := runner_blank (w_nrun w) (r_uni o) (ss_copy (r_ss o)) (r_strats o) in
      let b := set_r_parent (Some (r_id o))
                 (set_r_stopped (r_stopped o)
                    (set_r_storage (r_storage o)
                       (set_r_delta (r_delta o) (set_r_pos (r_pos o) b)))) in
      match strats_any F (r_loaded o) (r_strats o) {| s_w := w; s_r := b |} with
      | Bad e => Bad e
      | Ok (_, s1) =>
          let r := s_r s1 in
          match (d <-- vrev (r_delta r) ;;
                 pd <-- (if r_stopped r then Ok (r_pos r, d)
                         else ip_next (c_torus c) (c_dims c) (u_field u) (r_pos r) d) ;;
                 Ok (run_setmode (c_mode c) (set_r_delta (snd pd) (set_r_pos (fst pd) r)))) with
          | Bad e => Bad e
          | Ok r' =>
              Ok (tt, {| s_w := add_runner (r_uni o) r' (set_w_nrun (w_nrun (s_w s1) + 1) (s_w s1));
                         s_r := o |})
          end
      end.

  (** FungeStateNormal::execute, src/FungeStateNormal.cpp:46-58: as [exec_normal] of
      CoreModel.v. *)
  Fixpoint execute_file (F : positive) (D : nat) (i : Z) : M err :=
    match D with
    | O => fail BadFuel
    | S D' =>
        r <- getR ;;
        if r_string r then exec_string i
        else match sem_top i (r_sem r) with
             | None => reterr EUnimp
             | Some x =>
                 dive <- isMode MODE_DIVE ;;
                 if dive && negb (sm_move x) then reterr ESkip
                 else match sm_act x with
                      | ABase MLoad => load_file F
                      | ABase MUnload => unload_file
                      | ABase MThread =>
                          c <- getC ;; if c_conc c then clone_file F ;;; ok else reterr ENotAvail
                      | AFing n u c =>
                          w <- getW ;;
                          if is_library w u then lib_call F D u c
                          else run_act F (execute_file F D') (AFing n u c)
                      | a => run_act F (execute_file F D') a
                      end
             end
    end.
End Files.
