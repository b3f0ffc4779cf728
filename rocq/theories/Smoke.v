(** * The project's own smoke tests (test/smoketest.sh) run on the model.
    These are tests of the model, not proofs of properties: they compare the
    formal model with the outputs the project expects of the program. *)

From Coq Require Import ZArith List Bool.
From Verif Require Import Base FieldModel World UniModel.
Import ListNotations.
Open Scope Z_scope.

Definition conf (std : Z) : cfg := set_c_std std cfg_default.
(** The printed bytes and the exit code. *)
Definition prints (std : Z) (data expect : bytes) : Prop :=
  match run_program 10000000 100 (conf std) data [] with
  | Ok (o, _) => o = expect
  | Bad _ => False
  end.

(** test/test_stop.bf *)
Example smoke_test_stop_bf : prints STD_93
  [49; 50; 51; 64; 46; 46; 46; 10]
  [].
Proof. vm_compute. reflexivity. Qed.

(** test/test_outint.bf *)
Example smoke_test_outint_bf : prints STD_93
  [54; 46; 53; 46; 49; 50; 51; 52; 46; 46; 46; 46; 64; 10]
  [54; 32; 53; 32; 52; 32; 51; 32; 50; 32; 49; 32].
Proof. vm_compute. reflexivity. Qed.

(** test/test_outchar.bf *)
Example smoke_test_outchar_bf : prints STD_93
  [53; 54; 43; 51; 42; 32; 34; 100; 108; 114; 111; 87; 32; 111; 108; 108; 101; 72; 34;
   44; 44; 44; 44; 44; 44; 44; 44; 44; 44; 44; 44; 64; 10]
  [72; 101; 108; 108; 111; 32; 87; 111; 114; 108; 100; 33].
Proof. vm_compute. reflexivity. Qed.

(** test/test_arith.bf *)
Example smoke_test_arith_bf : prints STD_93
  [54; 52; 45; 46; 50; 49; 43; 46; 51; 50; 43; 46; 52; 50; 42; 46; 53; 53; 43; 50; 42;
   54; 43; 50; 47; 46; 53; 53; 43; 58; 42; 55; 51; 42; 43; 53; 53; 42; 37; 46; 64; 10; 54;
   45; 52; 32; 50; 43; 49; 32; 51; 43; 50; 32; 52; 42; 50; 32; 32; 32; 50; 54; 47; 50; 32;
   32; 32; 32; 40; 49; 48; 48; 43; 50; 49; 41; 37; 50; 53; 10]
  [50; 32; 51; 32; 53; 32; 56; 32; 49; 51; 32; 50; 49; 32].
Proof. vm_compute. reflexivity. Qed.

(** test/test_flow.bf *)
Example smoke_test_flow_bf : prints STD_93
  [49; 118; 53; 62; 46; 46; 118; 10; 64; 50; 32; 46; 32; 46; 60; 10; 51; 60; 32; 94; 52;
   10]
  [52; 32; 51; 32; 50; 32; 49; 32; 48; 32].
Proof. vm_compute. reflexivity. Qed.

(** test/test_wrap.bf *)
Example smoke_test_wrap_bf : prints STD_93
  [49; 46; 32; 32; 32; 32; 118; 32; 52; 10; 32; 53; 46; 64; 32; 94; 60; 32; 62; 46; 10;
   32; 32; 32; 32; 46; 60; 32; 32; 118; 32; 46; 51; 10; 32; 32; 32; 32; 32; 50; 10]
  [49; 32; 50; 32; 51; 32; 52; 32; 53; 32].
Proof. vm_compute. reflexivity. Qed.

(** test/test_trampoline.bf *)
Example smoke_test_trampoline_bf : prints STD_93
  [49; 50; 51; 46; 35; 46; 46; 64; 10]
  [51; 32; 50; 32].
Proof. vm_compute. reflexivity. Qed.

(** test/test_dup.bf *)
Example smoke_test_dup_bf : prints STD_93
  [49; 50; 51; 58; 52; 53; 46; 46; 46; 46; 46; 46; 64; 10]
  [53; 32; 52; 32; 51; 32; 51; 32; 50; 32; 49; 32].
Proof. vm_compute. reflexivity. Qed.

(** test/test_vif.bf *)
Example smoke_test_vif_bf : prints STD_93
  [48; 49; 50; 51; 118; 46; 60; 10; 32; 32; 32; 32; 62; 58; 124; 10; 32; 32; 32; 32; 32;
   32; 64; 10]
  [51; 32; 50; 32; 49; 32].
Proof. vm_compute. reflexivity. Qed.

(** test/test_hif.bf *)
Example smoke_test_hif_bf : prints STD_93
  [48; 49; 50; 51; 118; 46; 32; 60; 10; 32; 32; 32; 32; 62; 58; 35; 94; 95; 64; 10]
  [51; 32; 50; 32; 49; 32].
Proof. vm_compute. reflexivity. Qed.

(** test/test_not.bf *)
Example smoke_test_not_bf : prints STD_93
  [49; 52; 33; 35; 118; 95; 46; 48; 33; 35; 118; 95; 64; 10; 32; 32; 32; 32; 64; 32; 32;
   32; 46; 50; 60; 10]
  [49; 32; 50; 32].
Proof. vm_compute. reflexivity. Qed.

(** test/test_gt.bf *)
Example smoke_test_gt_bf : prints STD_93
  [54; 53; 96; 46; 50; 53; 96; 46; 64; 10]
  [49; 32; 48; 32].
Proof. vm_compute. reflexivity. Qed.

(** test/test_pop.bf *)
Example smoke_test_pop_bf : prints STD_93
  [49; 50; 51; 46; 36; 46; 46; 64; 10]
  [51; 32; 49; 32; 48; 32].
Proof. vm_compute. reflexivity. Qed.

(** test/test_swap.bf *)
Example smoke_test_swap_bf : prints STD_93
  [49; 50; 51; 92; 46; 46; 46; 64; 10]
  [50; 32; 51; 32; 49; 32].
Proof. vm_compute. reflexivity. Qed.

(** test/test_get.bf *)
Example smoke_test_get_bf : prints STD_93
  [51; 52; 42; 50; 103; 44; 50; 49; 46; 46; 64; 10; 97; 98; 99; 100; 101; 102; 103; 104;
   105; 106; 107; 108; 109; 110; 111; 112; 113; 114; 115; 10; 116; 117; 118; 119; 120; 121;
   122; 65; 66; 67; 68; 69; 70; 71; 72; 73; 74; 75; 76; 10; 77; 78; 79; 80; 81; 82; 83; 84;
   85; 86; 87; 88; 89; 90; 48; 49; 50; 51; 52; 10; 53; 54; 55; 56; 57; 33; 64; 35; 36; 37;
   94; 38; 42; 40; 41; 45; 43; 61; 124; 10]
  [70; 49; 32; 50; 32].
Proof. vm_compute. reflexivity. Qed.

(** test/test_put.bf *)
Example smoke_test_put_bf : prints STD_93
  [53; 53; 43; 54; 42; 51; 52; 42; 50; 112; 50; 46; 118; 10; 10; 46; 49; 32; 32; 32; 32;
   32; 32; 32; 32; 32; 32; 62; 32; 50; 46; 64; 10]
  [50; 32; 49; 32].
Proof. vm_compute. reflexivity. Qed.

(** test/test_quit.b98 *)
Example smoke_test_quit_b98 : prints STD_98
  [52; 49; 50; 51; 46; 46; 46; 113; 46; 64; 10]
  [51; 32; 50; 32; 49; 32].
Proof. vm_compute. reflexivity. Qed.

(** test/test_clear.b98 *)
Example smoke_test_clear_b98 : prints STD_98
  [52; 53; 54; 110; 49; 50; 51; 46; 46; 46; 46; 46; 46; 64; 10]
  [51; 32; 50; 32; 49; 32; 48; 32; 48; 32; 48; 32].
Proof. vm_compute. reflexivity. Qed.

(** test/test_jump.b98 *)
Example smoke_test_jump_b98 : prints STD_98
  [49; 50; 59; 51; 52; 118; 53; 54; 55; 59; 46; 46; 46; 46; 46; 46; 46; 118; 10; 32; 32;
   32; 32; 32; 64; 32; 32; 32; 32; 46; 51; 53; 52; 64; 106; 51; 60; 10]
  [50; 32; 49; 32; 48; 32; 48; 32; 48; 32; 48; 32; 48; 32; 51; 32].
Proof. vm_compute. reflexivity. Qed.

(** test/test_iter.b98 *)
Example smoke_test_iter_b98 : prints STD_98
  [49; 50; 51; 52; 53; 54; 53; 107; 46; 64; 10]
  [54; 32; 53; 32; 52; 32; 51; 32; 50; 32; 49; 32].
Proof. vm_compute. reflexivity. Qed.

(** test/test_hex.b98 *)
Example smoke_test_hex_b98 : prints STD_98
  [97; 98; 99; 100; 101; 102; 46; 46; 46; 46; 46; 46; 64; 10]
  [49; 53; 32; 49; 52; 32; 49; 51; 32; 49; 50; 32; 49; 49; 32; 49; 48; 32].
Proof. vm_compute. reflexivity. Qed.

(** test/test_turn.b98 *)
Example smoke_test_turn_b98 : prints STD_98
  [118; 32; 32; 32; 32; 32; 32; 32; 32; 32; 32; 32; 32; 32; 32; 32; 32; 32; 32; 32; 32;
   32; 32; 32; 32; 32; 32; 62; 32; 101; 46; 102; 46; 32; 32; 118; 10; 62; 49; 46; 93; 32;
   32; 93; 53; 46; 49; 49; 120; 32; 32; 32; 32; 32; 32; 32; 32; 32; 62; 36; 97; 46; 32; 49;
   49; 120; 10; 32; 32; 32; 50; 32; 32; 46; 32; 32; 32; 32; 32; 54; 32; 32; 32; 32; 32; 32;
   32; 36; 32; 32; 32; 32; 32; 32; 32; 32; 98; 10; 32; 32; 32; 46; 32; 32; 52; 32; 32; 32;
   32; 32; 32; 46; 32; 32; 32; 32; 32; 93; 32; 32; 32; 32; 32; 32; 32; 32; 32; 32; 46; 10;
   64; 46; 52; 91; 51; 46; 91; 32; 32; 32; 32; 32; 32; 32; 55; 32; 32; 32; 46; 32; 57; 32;
   32; 32; 32; 32; 32; 32; 32; 32; 32; 99; 32; 32; 32; 62; 10; 32; 32; 32; 46; 32; 32; 32;
   32; 32; 32; 32; 32; 32; 32; 32; 46; 32; 56; 32; 32; 32; 46; 32; 32; 32; 32; 32; 32; 32;
   32; 32; 32; 46; 10; 32; 32; 32; 54; 32; 32; 32; 32; 32; 32; 32; 32; 32; 32; 32; 32; 91;
   32; 32; 32; 32; 32; 35; 32; 32; 32; 32; 32; 32; 32; 32; 32; 32; 100; 10; 32; 32; 32; 32;
   32; 32; 32; 32; 32; 32; 32; 32; 32; 32; 32; 32; 32; 32; 32; 32; 32; 32; 32; 49; 32; 32;
   32; 32; 32; 32; 32; 32; 32; 32; 46; 10; 32; 32; 32; 64; 32; 32; 32; 32; 32; 32; 32; 32;
   32; 32; 32; 32; 32; 32; 32; 32; 32; 32; 32; 32; 114; 32; 32; 32; 32; 32; 32; 32; 32; 32;
   32; 122; 10]
  [49; 32; 50; 32; 51; 32; 52; 32; 53; 32; 54; 32; 55; 32; 56; 32; 57; 32; 49; 48; 32;
   49; 49; 32; 49; 50; 32; 49; 51; 32; 49; 52; 32; 49; 53; 32].
Proof. vm_compute. reflexivity. Qed.

(** test/test_comp.b98 *)
Example smoke_test_comp_b98 : prints STD_98
  [53; 49; 119; 64; 10; 32; 32; 51; 10; 32; 32; 46; 10; 32; 32; 49; 10; 32; 32; 53; 32;
   32; 32; 32; 64; 10; 32; 64; 119; 50; 46; 53; 53; 119; 49; 46; 64; 10]
  [51; 32; 50; 32; 49; 32].
Proof. vm_compute. reflexivity. Qed.

(** test/test_fetch.b98 *)
Example smoke_test_fetch_b98 : prints STD_98
  [49; 39; 118; 50; 46; 44; 118; 32; 39; 10; 62; 35; 64; 32; 32; 32; 39; 32; 94; 10; 94;
   44; 94; 39; 46; 44; 32; 60; 62; 118; 10; 44; 32; 94; 32; 32; 32; 62; 94; 60; 62; 10]
  [50; 32; 118; 32; 49; 32; 94; 60].
Proof. vm_compute. reflexivity. Qed.

(** test/test_store.b98 *)
Example smoke_test_store_b98 : prints STD_98
  [51; 54; 55; 43; 50; 42; 53; 53; 43; 50; 42; 43; 115; 32; 118; 10; 32; 32; 32; 32; 32;
   32; 32; 32; 32; 32; 32; 32; 32; 94; 60; 10; 32; 32; 32; 32; 32; 32; 32; 32; 32; 32; 32;
   32; 32; 64; 10]
  [51; 32].
Proof. vm_compute. reflexivity. Qed.

(** test/test_thread.b98 *)
Example smoke_test_thread_b98 : prints STD_98
  [35; 118; 116; 53; 54; 55; 56; 122; 122; 122; 118; 32; 62; 49; 45; 118; 10; 32; 62;
   122; 49; 50; 51; 52; 53; 53; 43; 32; 58; 124; 58; 32; 60; 10; 32; 32; 64; 46; 107; 51;
   60; 32; 32; 32; 60; 36; 60; 10]
  [56; 32; 55; 32; 54; 32; 53; 32; 52; 32; 51; 32; 50; 32; 49; 32].
Proof. vm_compute. reflexivity. Qed.

(** test/test_3d.b98 *)
Example smoke_test_3d_b98 : prints STD_98
  [62; 49; 46; 118; 32; 62; 53; 46; 104; 104; 10; 104; 46; 50; 60; 32; 32; 62; 54; 46;
   94; 10; 12; 10; 62; 64; 32; 32; 32; 108; 118; 57; 60; 118; 10; 62; 51; 46; 52; 46; 94;
   109; 32; 48; 60; 10; 12; 10; 62; 104; 32; 32; 32; 32; 32; 118; 10; 94; 32; 46; 56; 46;
   55; 60; 60; 10]
  [49; 32; 50; 32; 51; 32; 52; 32; 53; 32; 54; 32; 55; 32; 56; 32].
Proof. vm_compute. reflexivity. Qed.

(** test/test_stackstack.b98 *)
Example smoke_test_stackstack_b98 : prints STD_98
  [49; 50; 51; 52; 53; 51; 123; 46; 46; 46; 54; 55; 56; 57; 51; 125; 46; 46; 46; 46; 64;
   10]
  [53; 32; 52; 32; 51; 32; 57; 32; 56; 32; 55; 32; 50; 32].
Proof. vm_compute. reflexivity. Qed.

(** test/test_under.b98 *)
Example smoke_test_under_b98 : prints STD_98
  [49; 50; 51; 52; 53; 51; 123; 46; 46; 46; 52; 117; 46; 46; 46; 46; 118; 10; 64; 32; 32;
   32; 32; 32; 32; 32; 32; 32; 32; 32; 32; 32; 32; 32; 60; 10]
  [53; 32; 52; 32; 51; 32; 49; 32; 50; 32; 48; 32; 48; 32].
Proof. vm_compute. reflexivity. Qed.

(** test/test_bool.b98 *)
Example smoke_test_bool_b98 : prints STD_98
  [34; 76; 79; 79; 66; 34; 52; 40; 99; 48; 65; 35; 118; 95; 49; 46; 99; 48; 79; 35; 118;
   95; 64; 10; 32; 32; 32; 32; 32; 32; 32; 32; 32; 32; 32; 32; 64; 32; 32; 32; 32; 32; 46;
   50; 60; 10]
  [49; 32; 50; 32].
Proof. vm_compute. reflexivity. Qed.

(** test/test_boulder.b98 *)
Example smoke_test_boulder_b98 : prints STD_98
  [34; 83; 89; 79; 84; 34; 52; 40; 48; 50; 45; 62; 32; 118; 10; 32; 32; 118; 32; 32; 60;
   60; 32; 32; 32; 32; 32; 60; 79; 10; 62; 51; 50; 49; 46; 46; 46; 32; 55; 35; 94; 94; 35;
   60; 10; 32; 46; 46; 46; 52; 53; 54; 60; 32; 32; 32; 32; 64; 41]
  [49; 32; 50; 32; 51; 32; 52; 32; 53; 32; 54; 32].
Proof. vm_compute. reflexivity. Qed.

(** test/test_bracelet.b98 *)
Example smoke_test_bracelet_b98 : prints STD_98
  [34; 83; 89; 79; 84; 34; 52; 40; 49; 49; 55; 51; 57; 49; 67; 118; 10; 32; 118; 60; 60;
   60; 60; 60; 60; 60; 32; 32; 32; 32; 32; 32; 32; 60; 10; 41; 32; 32; 32; 46; 46; 46; 60;
   94; 32; 32; 32; 32; 32; 32; 64; 64; 10; 32; 62; 51; 50; 49; 62; 62; 94]
  [49; 32; 50; 32; 51; 32; 49; 32; 50; 32; 51; 32].
Proof. vm_compute. reflexivity. Qed.

(** test/test_chicane.b98 *)
Example smoke_test_chicane_b98 : prints STD_98
  [34; 83; 89; 79; 84; 34; 52; 40; 39; 60; 57; 51; 55; 49; 83; 118; 10; 118; 46; 46; 46;
   54; 53; 52; 10; 62; 32; 32; 62; 35; 118; 10; 46; 46; 51; 50; 49; 60; 118; 10; 32; 32; 32;
   32; 32; 32; 62; 46; 41; 64]
  [54; 32; 53; 32; 52; 32; 51; 32; 50; 32; 49; 32].
Proof. vm_compute. reflexivity. Qed.

(** test/test_fishhook.b98 *)
Example smoke_test_fishhook_b98 : prints STD_98
  [34; 83; 89; 79; 84; 34; 52; 40; 32; 32; 48; 118; 10; 118; 32; 32; 46; 46; 46; 49; 50;
   51; 60; 62; 50; 118; 10; 62; 32; 51; 32; 32; 32; 32; 32; 32; 32; 94; 45; 10; 32; 32; 32;
   32; 32; 32; 32; 32; 32; 32; 32; 74; 10; 32; 32; 32; 32; 32; 32; 32; 32; 32; 94; 32; 32;
   10; 32; 32; 32; 32; 32; 32; 32; 32; 32; 32; 32; 32; 10; 32; 32; 32; 32; 32; 32; 32; 32;
   32; 64; 41; 60; 10; 64; 41; 46; 46; 46; 52; 53; 54; 32; 32; 32; 32; 60]
  [49; 32; 50; 32; 51; 32; 52; 32; 53; 32; 54; 32].
Proof. vm_compute. reflexivity. Qed.

(** test/test_frth.b98 *)
Example smoke_test_frth_b98 : prints STD_98
  [34; 72; 84; 82; 70; 34; 52; 40; 102; 101; 100; 99; 98; 97; 57; 56; 55; 54; 56; 76; 46;
   46; 46; 46; 46; 46; 46; 46; 46; 46; 118; 10; 64; 41; 32; 32; 32; 46; 46; 46; 46; 46; 46;
   46; 46; 46; 46; 46; 80; 55; 54; 55; 56; 57; 97; 98; 99; 100; 101; 102; 32; 32; 60]
  [49; 52; 32; 54; 32; 55; 32; 56; 32; 57; 32; 49; 48; 32; 49; 49; 32; 49; 50; 32; 49;
   51; 32; 49; 53; 32; 49; 51; 32; 54; 32; 55; 32; 56; 32; 57; 32; 49; 48; 32; 49; 49; 32;
   49; 50; 32; 49; 51; 32; 49; 52; 32; 49; 53; 32].
Proof. vm_compute. reflexivity. Qed.

(** test/test_nfun.b98 *)
Example smoke_test_nfun_b98 : prints STD_98
  [34; 78; 85; 70; 78; 34; 52; 35; 118; 40; 65; 104; 118; 10; 32; 32; 32; 32; 32; 32; 32;
   32; 64; 32; 32; 32; 60; 10; 12; 10; 32; 32; 32; 32; 32; 32; 32; 32; 32; 32; 32; 62; 34;
   78; 85; 70; 78; 34; 52; 35; 118; 41; 118; 10; 32; 39; 33; 44; 32; 32; 32; 32; 108; 32;
   32; 32; 32; 32; 32; 32; 32; 32; 32; 32; 60; 32; 62; 10; 11; 10; 34; 70; 117; 110; 103;
   101; 43; 43; 32; 105; 110; 32; 116; 104; 101; 32; 34; 60; 104; 32; 32; 32; 32; 118; 35;
   10; 32; 32; 32; 32; 32; 32; 32; 32; 32; 32; 32; 32; 32; 32; 32; 32; 32; 32; 32; 32; 32;
   32; 32; 86; 10; 12; 10; 32; 32; 32; 32; 32; 32; 32; 32; 32; 32; 32; 32; 32; 32; 32; 32;
   32; 32; 62; 58; 35; 44; 95; 108; 10; 11; 10; 110; 115; 34; 60; 32; 32; 32; 32; 32; 32;
   32; 32; 32; 32; 32; 32; 32; 65; 34; 70; 111; 114; 116; 104; 32; 68; 105; 109; 101; 10;
   32; 32; 32; 32; 32; 32; 32; 32; 32; 32; 32; 32; 32; 32; 32; 32; 32; 32; 32; 32; 32; 32;
   32; 86; 10; 11; 10; 32; 32; 32; 65; 34; 105; 111; 110; 34; 48; 60; 86; 10; 32; 32; 32;
   32; 32; 32; 32; 32; 32; 32; 32; 94; 32; 32; 32; 32; 32; 32; 32; 32; 32; 32; 32; 60; 10]
  [70; 117; 110; 103; 101; 43; 43; 32; 105; 110; 32; 116; 104; 101; 32; 70; 111; 114;
   116; 104; 32; 68; 105; 109; 101; 110; 115; 105; 111; 110; 33].
Proof. vm_compute. reflexivity. Qed.

(** test/test_television.b98 *)
Example smoke_test_television_b98 : prints STD_98
  [62; 48; 48; 49; 112; 35; 118; 116; 62; 52; 62; 53; 62; 54; 62; 55; 62; 56; 62; 57; 62;
   62; 62; 62; 62; 62; 62; 62; 62; 62; 62; 62; 62; 62; 62; 62; 62; 62; 62; 62; 62; 118; 10;
   32; 118; 32; 32; 32; 32; 60; 64; 46; 46; 46; 46; 51; 50; 49; 48; 41; 60; 32; 32; 118;
   112; 49; 48; 50; 60; 46; 46; 46; 46; 46; 46; 60; 60; 60; 60; 60; 60; 60; 60; 60; 60; 10;
   32; 62; 34; 83; 89; 79; 84; 34; 52; 40; 49; 48; 49; 62; 62; 62; 35; 94; 87; 41; 64]
  [57; 32; 56; 32; 55; 32; 54; 32; 53; 32; 52; 32; 51; 32; 50; 32; 49; 32; 48; 32].
Proof. vm_compute. reflexivity. Qed.

(** test/test_tumbler.b98 *)
Example smoke_test_tumbler_b98 : prints STD_98
  [34; 83; 89; 79; 84; 34; 52; 40; 118; 10; 118; 32; 32; 32; 32; 32; 32; 50; 60; 10; 62;
   58; 35; 118; 95; 36; 45; 35; 118; 95; 118; 10; 45; 32; 32; 32; 118; 50; 60; 32; 49; 64;
   48; 10; 49; 32; 32; 62; 35; 118; 85; 118; 46; 41; 46; 10; 32; 32; 32; 32; 46; 48; 51; 49;
   62; 94; 60; 10; 94; 32; 32; 92; 60; 60; 60; 60]
  [48; 32].
Proof. vm_compute. reflexivity. Qed.

(** test/test_subr.b98 *)
Example smoke_test_subr_b98 : prints STD_98
  [34; 82; 66; 85; 83; 34; 52; 35; 64; 40; 49; 49; 120; 10; 118; 118; 118; 46; 46; 46;
   49; 50; 51; 52; 52; 82; 32; 53; 10; 64; 64; 64; 32; 32; 32; 32; 32; 32; 32; 32; 32; 32;
   32; 54; 10; 32; 32; 32; 32; 32; 32; 32; 32; 32; 32; 32; 32; 32; 32; 32; 55; 10; 58; 49;
   45; 58; 35; 118; 95; 36; 49; 82; 32; 32; 32; 32; 32; 32; 51; 10; 32; 32; 32; 32; 32; 48;
   32; 32; 32; 32; 32; 32; 32; 32; 32; 32; 32; 49; 10; 32; 32; 32; 32; 32; 52; 32; 32; 32;
   32; 32; 32; 32; 32; 32; 32; 64; 32; 51; 10; 32; 32; 32; 32; 32; 49; 32; 32; 32; 32; 32;
   32; 32; 32; 32; 32; 46; 32; 32; 67; 10; 32; 32; 32; 32; 32; 67; 32; 32; 32; 32; 32; 32;
   32; 32; 32; 32; 67; 32; 32; 32; 46; 10; 32; 32; 32; 32; 32; 42; 32; 32; 32; 32; 32; 32;
   32; 32; 32; 32; 49; 32; 32; 32; 32; 46; 10; 32; 32; 32; 32; 32; 62; 49; 82; 32; 32; 32;
   32; 32; 32; 32; 32; 94; 52; 48; 57; 46; 46; 60]
  [55; 32; 54; 32; 53; 32; 52; 32; 51; 32; 50; 32; 49; 32; 51; 54; 50; 56; 56; 48; 32].
Proof. vm_compute. reflexivity. Qed.

(** test/test_fish.b98 *)
Example smoke_test_fish_b98 : prints STD_98
  [34; 72; 83; 73; 70; 34; 52; 40; 57; 56; 32; 54; 53; 55; 32; 52; 51; 50; 49; 48; 67;
   64; 58; 67; 46; 46; 46; 46; 84; 46; 46; 46; 78; 41; 64; 10; 32; 62; 79; 56; 56; 43; 46;
   92; 118; 32; 32; 32; 32; 32; 32; 32; 118; 32; 32; 32; 32; 46; 60; 32; 77; 97; 98; 99;
   102; 101; 100; 46; 77; 10; 68; 123; 50; 51; 50; 53; 52; 49; 60; 32; 32; 32; 32; 32; 32;
   32; 35; 32; 32; 32; 32; 32; 46; 32; 78; 76; 76; 76; 46; 82; 82; 46; 118; 118; 84; 10; 62;
   46; 32; 118; 62; 64; 32; 32; 32; 70; 32; 32; 82; 83; 32; 32; 70; 64; 32; 32; 32; 86; 94;
   35; 32; 32; 32; 32; 32; 32; 32; 32; 60; 84; 10; 32; 94; 57; 60; 32; 32; 32; 32; 32; 82;
   32; 32; 32; 32; 32; 32; 72; 32; 32; 32; 32; 32; 64; 40; 46; 125; 46; 46; 73; 46; 84; 84;
   46; 60; 10; 94; 46; 56; 64; 85; 32; 60; 32; 32; 46; 10; 32; 32; 32; 32; 32; 32; 70; 46;
   46; 70]
  [49; 32; 50; 32; 51; 32; 52; 32; 53; 32; 54; 32; 55; 32; 56; 32; 57; 32; 49; 48; 32;
   49; 49; 32; 49; 50; 32; 49; 51; 32; 49; 52; 32; 49; 53; 32; 49; 54; 32; 53; 32; 52; 32;
   51; 32; 50; 32; 49; 32].
Proof. vm_compute. reflexivity. Qed.

(** test/kk.b98 *)
Example smoke_kk_b98 : prints STD_98
  [53; 56; 32; 32; 32; 107; 107; 46; 118; 118; 118; 118; 118; 118; 118; 118; 118; 118;
   118; 118; 118; 118; 10; 32; 32; 32; 32; 32; 32; 32; 32; 50; 51; 52; 53; 54; 55; 56; 57;
   97; 98; 99; 100; 101; 102; 10; 32; 32; 32; 118; 46; 44; 33; 39; 60; 60; 60; 60; 60; 60;
   60; 60; 60; 60; 60; 60; 60; 60; 10; 32; 32; 32; 62; 110; 97; 44; 50; 52; 107; 107; 39;
   62; 62; 62; 62; 62; 62; 62; 62; 62; 62; 62; 62; 58; 35; 44; 95; 64]
  [33; 49; 50; 32; 10].
Proof. vm_compute. reflexivity. Qed.

(** test/k_quote.b98 *)
Example smoke_k_quote_b98 : prints STD_98
  [50; 107; 34; 118; 34; 50; 46; 64; 34; 51; 46; 64; 10; 32; 32; 32; 62; 49; 46; 64]
  [50; 32].
Proof. vm_compute. reflexivity. Qed.

