(** * The project's smoke tests of ><> and *><> (test/smoketest.sh:123-137) run
    on the model.  These are tests of the model, not proofs of properties; the
    one that prints a fraction (test_div.fish) is outside the model. *)

From Coq Require Import ZArith List Bool.
From Verif Require Import Base FishModel.
Import ListNotations.
Open Scope Z_scope.

Definition fish_prints (star : bool) (data expect : bytes) : Prop :=
  match fish_program star 1000000 data [] with
  | Ok (o, _) => o = expect
  | Bad _ => False
  end.

(** test/test_fish.fish *)
Example smoke_test_fish_fish : fish_prints false
  [32; 49; 92; 10; 47; 32; 50; 58; 42; 36; 118; 10; 92; 43; 47; 49; 50; 32; 60; 59; 10;
   32; 32; 62; 110; 110; 110; 110; 94]
  [49; 50; 51; 52].
Proof. vm_compute. reflexivity. Qed.

(** test/quine.fish *)
Example smoke_quine_fish : fish_prints false
  [34; 114; 48; 48; 103; 111; 108; 63; 33; 59; 52; 48; 46]
  [34; 114; 48; 48; 103; 111; 108; 63; 33; 59; 52; 48; 46].
Proof. vm_compute. reflexivity. Qed.

(** test/test_stack.fish *)
Example smoke_test_stack_fish : fish_prints false
  [49; 50; 51; 52; 53; 32; 51; 91; 32; 32; 114; 32; 32; 93; 32; 32; 114; 110; 110; 110;
   110; 110; 59]
  [49; 50; 53; 52; 51].
Proof. vm_compute. reflexivity. Qed.

(** test/test_shift.fish *)
Example smoke_test_shift_fish : fish_prints false
  [49; 50; 51; 52; 32; 125; 32; 110; 110; 110; 110; 32; 49; 50; 51; 52; 32; 123; 32; 110;
   110; 110; 110; 59]
  [51; 50; 49; 52; 49; 52; 51; 50].
Proof. vm_compute. reflexivity. Qed.

(** test/test_string.fish *)
Example smoke_test_string_fish : fish_prints false
  [34; 104; 101; 108; 108; 111; 44; 32; 119; 111; 114; 108; 100; 34; 114; 92; 10; 32; 32;
   32; 32; 32; 32; 32; 32; 32; 32; 111; 59; 33; 63; 108; 60]
  [104; 101; 108; 108; 111; 44; 32; 119; 111; 114; 108; 100].
Proof. vm_compute. reflexivity. Qed.

(** test/test_fact.fish *)
Example smoke_test_fact_fish : fish_prints false
  [97; 118; 10; 32; 62; 58; 63; 92; 126; 49; 49; 62; 42; 108; 49; 92; 10; 32; 45; 49; 58;
   47; 32; 59; 110; 92; 63; 45; 32; 47]
  [51; 54; 50; 56; 56; 48; 48].
Proof. vm_compute. reflexivity. Qed.

(** test/test_sqrt.fish *)
Example smoke_test_sqrt_fish : fish_prints false
  [56; 56; 42; 49; 91; 58; 62; 58; 114; 58; 64; 64; 58; 64; 44; 92; 59; 10; 32; 32; 32;
   93; 126; 36; 92; 33; 63; 61; 123; 58; 44; 50; 43; 47; 110]
  [56].
Proof. vm_compute. reflexivity. Qed.

(** test/test_starfish.sf *)
Example smoke_test_starfish_sf : fish_prints true
  [34; 72; 101; 108; 108; 111; 44; 32; 119; 111; 114; 108; 100; 33; 34; 114; 62; 79; 111;
   108; 63; 117; 33; 124; 59]
  [72; 101; 108; 108; 111; 44; 32; 119; 111; 114; 108; 100; 33].
Proof. vm_compute. reflexivity. Qed.

(** test/test_fisherman.sf *)
Example smoke_test_fisherman_sf : fish_prints true
  [34; 72; 105; 34; 114; 96; 59; 10; 32; 32; 108; 63; 33; 96; 111]
  [72; 105].
Proof. vm_compute. reflexivity. Qed.

(** test/test_dive.sf *)
Example smoke_test_dive_sf : fish_prints true
  [34; 72; 101; 108; 108; 111; 44; 32; 119; 111; 114; 108; 100; 33; 34; 114; 62; 79; 111;
   108; 63; 117; 33; 124; 59]
  [72; 101; 108; 108; 111; 44; 32; 119; 111; 114; 108; 100; 33].
Proof. vm_compute. reflexivity. Qed.

(** test/test_call.sf *)
Example smoke_test_call_sf : fish_prints true
  [60; 59; 67; 49; 48; 10; 118; 34; 73; 116; 32; 119; 111; 114; 107; 115; 33; 34; 10; 60;
   111; 82; 33; 63; 108]
  [73; 116; 32; 119; 111; 114; 107; 115; 33].
Proof. vm_compute. reflexivity. Qed.

(** test/test_stack.sf *)
Example smoke_test_stack_sf : fish_prints true
  [34; 72; 101; 108; 108; 111; 32; 34; 114; 48; 91; 34; 87; 111; 114; 108; 100; 34; 114;
   68; 118; 10; 111; 118; 33; 63; 108; 32; 32; 32; 32; 32; 32; 32; 32; 32; 32; 32; 32;
   32; 32; 32; 60; 10; 32; 73; 10; 111; 62; 108; 63; 33; 59]
  [72; 101; 108; 108; 111; 32; 87; 111; 114; 108; 100].
Proof. vm_compute. reflexivity. Qed.
