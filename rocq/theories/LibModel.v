(** * Fingerprints written in Funge: src/fingerprint/FingerprintFungeLib.cpp and
    src/fingerprint/FingerprintDynamic.cpp.

    A FungeLib fingerprint is a universe of its own whose planes hold the
    instructions.  Executing one creates an IP in that universe that shares the
    stacks of the calling IP, and waits until the universe is idle.  The
    instructions of FingerprintDynamic, available in such universes only, let the
    library act on the calling IP.

    Simplifications: while the caller waits, no other universe runs; a library
    that loads a FungeLib fingerprint itself, unloads the dynamic fingerprint or
    is debugged is outside the model. *)

From Coq Require Import ZArith List Bool.
From Verif Require Import Base VectorModel TextModel StackModel FieldModel
  World IpModel LoadModel FingModel CoreModel OptModel FileModel.
Import ListNotations.
Open Scope Z_scope.

(** FingerprintDynamic::ID, src/fingerprint/include/FingerprintDynamic.h, and the
    letters of the constructor, src/fingerprint/FingerprintDynamic.cpp:12-17. *)
Definition FP_DYN : Z := 7239939240701289318. (* 0x64796E616D696366 *)
Definition dyn_letters : list Z := [66; 68; 69; 70; 71; 75; 76; 77; 78; 79; 80; 81; 82; 83; 88].

(** ** Opening a library *)

(** The configuration made by FingerprintFungeLib::factory,
    src/fingerprint/FingerprintFungeLib.cpp:39-45, for the file [path]. *)
Definition lib_cfg (path : bytes) (debug : bool) : cfg :=
  let c := set_c_fings [FP_DYN] (set_c_std STD_98 (set_c_name path cfg_default)) in
  if debug then set_c_mode (2 ^ MODE_DEBUG) c else c.

(** FingerprintFungeLib::FingerprintFungeLib,
    src/fingerprint/FingerprintFungeLib.cpp:15-23: the letters the library
    defines and the world with its universe, number [w_nuni w]. *)
Definition lib_open (F : positive) (path data : bytes) (debug : bool) (w : world)
  : res (list Z * world) :=
  w1 <-- multi_create_fmt F FmtFl data (lib_cfg path debug) w ;;
  Ok (f_planes (u_field (w_uni w1 (w_nuni w))), w1).

(** ** The dynamic instructions *)

Section Dynamic.
  (** The IP that loaded the library (FungeUniverse::getCreator) and the IP that
      runs the instruction and shares the stacks of the former. *)
  Context (cid main : Z).

  (** [caller->...]: a computation on the calling IP.  Both IPs see the same
      stacks if the executing one is [main]; IPs the library splits off have their
      own. *)
  Definition with_caller {A} (m : M A) : M A :=
    fun s =>
      match w_run (s_w s) cid with
      | None => Bad BadFreed
      | Some c =>
          let share := r_id (s_r s) =? main in
          let c' := if share then set_r_ss (r_ss (s_r s)) c else c in
          match m {| s_w := s_w s; s_r := c' |} with
          | Bad b => Bad b
          | Ok (a, s1) =>
              Ok (a, {| s_w := upd_run cid (Some (s_r s1)) (s_w s1);
                        s_r := if share then set_r_ss (r_ss (s_r s1)) (s_r s) else s_r s |})
          end
      end.

  (** FingerprintDynamic::execute, src/fingerprint/FingerprintDynamic.cpp:19-116,
      with a caller. *)
  Definition dyn_exec (c : Z) : M err :=
    if c =? 66 then with_caller (ipReflect ;;; ipNext ;;; ipReflect) ;;; ok
    else if c =? 68 then v <- popVec ;; with_caller (ipSetDelta v) ;;; ok
    else if c =? 69 then n <- sizeS ;; pushS n ;;; ok
    else if c =? 70 then with_caller ipNext ;;; ok
    else if c =? 71 then
      v <- popVec ;;
      x <- with_caller (r <- getR ;; fget (r_uni r) v) ;; pushS x ;;; ok
    else if c =? 75 then
      u <- popS ;;
      if u <? 0 then reterr EUnspec
      else p <- lift (add64 u 1) ;; x <- getS p ;; pushS x ;;; ok
    else if c =? 76 then v <- popVec ;; with_caller (ipSetPos v) ;;; ok
    else if c =? 77 then
      x <- with_caller (u <- getU ;; ret (Z.shiftr (c_mode (u_cfg u)) 12)) ;; pushS x ;;; ok
    else if c =? 78 then
      x <- with_caller (r <- getR ;; v <- lift (vadd (r_pos r) (r_delta r)) ;; fget (r_uni r) v) ;;
      pushS x ;;; ok
    else if c =? 79 then
      u <- popS ;;
      count <- (if u <? 0 then lift (neg64 u) else ret u) ;;
      len <- lift (add64 count 1) ;;
      n <- vla len ;;
      l <- popL n ;;
      (if u <? 0
       then pushL (firstn 1 l) ;;; pushL (rev (skipn 1 l))
       else pushL (rev (firstn (Z.to_nat count) l)) ;;; pushL (skipn (Z.to_nat count) l)) ;;;
      ok
    else if c =? 80 then
      v <- popVec ;; n <- popS ;;
      with_caller (r <- getR ;; fput (r_uni r) v n) ;;; ok
    else if c =? 81 then
      with_caller (r <- getR ;;
                   pushVec (r_pos r) ;;; pushVec (r_delta r) ;;; pushVec (r_storage r)) ;;; ok
    else if c =? 82 then with_caller ipReflect ;;; ok
    else if c =? 83 then v <- popVec ;; with_caller (ipSetStorage v) ;;; ok
    else if c =? 88 then with_caller ipStop ;;; ipStop ;;; ok
    else reterr EUnimp.

  (** FungeRunner::execute of an IP of the library.  The dynamic fingerprint is
      loaded before anything else binds a letter, so its instructions are found
      when no other semantic is. *)
  Fixpoint lib_execute (F : positive) (D : nat) (i : Z) : M err :=
    match D with
    | O => fail BadFuel
    | S D' =>
        r <- getR ;;
        if r_string r then exec_string i
        else match sem_top i (r_sem r) with
             | Some _ => exec_normal F (lib_execute F D') i
             | None =>
                 if existsb (Z.eqb i) dyn_letters then
                   dive <- isMode MODE_DIVE ;;
                   if dive then reterr ESkip else dyn_exec i
                 else reterr EUnimp
             end
    end.
End Dynamic.

(** [tick_step] and [tick] (src/FungeRunner.cpp:132-160) over any interpretation
    of the instructions. *)
Definition tick_step_with (exec : Z -> M err) (_ : unit) : M (unit + unit) :=
  dbg <- isMode MODE_DEBUG ;;
  if dbg then fail BadUnmodelled
  else
    i <- ipGet ;;
    e <- exec i ;;
    r <- getR ;;
    e' <- match e with
          | ENone | ESkip | EBlock => ret e
          | EUnimp | ENotAvail | EUnspec =>
              if r_handler r then errorHandler e else ipNext ;;; ret e
          end ;;
    match e' with
    | ENone => ipNext ;;; ret (inr tt)
    | ESkip => ipNext ;;; ret (inl tt)
    | _ => ret (inr tt)
    end.
Definition tick_with (F : positive) (exec : Z -> M err) : M unit :=
  loopM F (tick_step_with exec) tt.

(** ** Calling an instruction of a library *)

(** A tick of the library IP [id]: [main] sees the stacks of the caller. *)
Definition lib_as (cid main id : Z) (m : M unit) (w : world) : res world :=
  match w_run w id, w_run w cid with
  | Some r, Some c =>
      match m {| s_w := w; s_r := if id =? main then set_r_ss (r_ss c) r else r |} with
      | Bad b => Bad b
      | Ok (_, s) =>
          match w_run (s_w s) cid with
          | None => Bad BadFreed
          | Some c' =>
              Ok (upd_run id (Some (s_r s))
                    (upd_run cid (Some (if id =? main then set_r_ss (r_ss (s_r s)) c' else c'))
                       (s_w s)))
          end
      end
  | _, _ => Bad BadFreed
  end.

(** One iteration of the loop of the library's thread, src/FungeUniverse.cpp:124-145. *)
Definition lib_step (F : positive) (D : nat) (cid main : Z) (n : nat) (w : world) : res world :=
  match u_queue (w_uni w n) with
  | [] => Ok w
  | id :: _ =>
      match w_run w id with
      | None => Bad BadFreed
      | Some r =>
          w1 <-- (if r_stopped r then Ok w
                  else lib_as cid main id (tick_with F (lib_execute cid main F D)) w) ;;
          let w2 := upd_uni n (fun u => set_u_queue (tl (u_queue u)) u) w1 in
          match w_run w2 id with
          | None => Bad BadFreed
          | Some r2 =>
              if Nat.eqb (r_uni r2) n then
                if r_stopped r2 then Ok (upd_run id None w2)
                else Ok (upd_uni n (fun u => set_u_queue (u_queue u ++ [id]) u) w2)
              else Ok w2
          end
      end
  end.

(** FungeUniverse::wait, src/FungeUniverse.cpp:151-154: until the library is idle.  Its
    thread runs until the queue is empty, unless it has been killed before. *)
Definition lib_wait_step (F : positive) (D : nat) (cid main : Z) (n : nat) (w : world)
  : res (world + world) :=
  match u_queue (w_uni w n) with
  | [] => Ok (inr w)
  | _ => w1 <-- lib_step F D cid main n w ;; Ok (inl w1)
  end.
Definition lib_wait (F : positive) (D : nat) (cid main : Z) (n : nat) (w : world) : res world :=
  if u_running (w_uni w n) then loop (lib_wait_step F D cid main n) F w else Ok w.

(** FingerprintFungeLib::execute, src/fingerprint/FingerprintFungeLib.cpp:51-57,
    called by the executing IP, which loaded the library in universe [n]; with
    FungeUniverse::createRunner(pos, delta, r), src/FungeUniverse.cpp:80-83, and
    FungeRunner::FungeRunner(uni, pos, delta, r), src/FungeRunner.cpp:40-56. *)
Definition lib_call (F : positive) (D : nat) (n : nat) (cmd : Z) : M err :=
  fun s =>
    let w := s_w s in
    let cid := r_id (s_r s) in
    let main := w_nrun w in
    let m := c_mode (u_cfg (w_uni w n)) in
    match runner_new (w_fl w) main n (w_uni w n) (mkvec [0; 0; cmd - 65]) (mkvec [1]) with
    | Bad b => Bad b
    | Ok r0 =>
        let c := run_setmode m (s_r s) in
        let r := set_r_parent (Some cid) (set_r_ss (r_ss c) r0) in
        let w1 := add_runner n r (set_w_nrun (main + 1) (upd_run cid (Some c) w)) in
        match lib_wait F D cid main n w1 with
        | Bad b => Bad b
        | Ok w2 =>
            match w_run w2 cid with
            | None => Bad BadFreed
            | Some c' =>
                Ok (ENone, {| s_w := w2;
                              s_r := run_setmode (c_mode (u_cfg (w_uni w2 (r_uni c')))) c' |})
            end
        end
    end.
