# Design

A formal model of cwesson/funge-plus-plus in Rocq (Coq 8.16.1) under `rocq/theories`, and proofs
of the properties listed in `properties.jsonl`.

## How the model is built

- One Gallina function per C++ function; each definition cites the lines of `/repo` it models.
- The modelled platform is x86-64 Linux with g++: signed 8-bit `char`, 32-bit `int`, 64-bit cells.
- Machine integers are `Z`. Every signed operation checks its range and yields the distinct outcome
  `Bad BadOverflow` when C++ leaves it undefined. Narrowing casts are written out (`to_i32`, `to_i8`).
- Every other undefined behaviour is also a distinct outcome: reading outside a container (`BadOob`),
  a null pointer (`BadNull`), freed memory (`BadFreed`), a bad shift, a division trap, a ctype
  function outside its domain, an uncaught exception (`BadThrow`).
- Loops without a static bound take a fuel `F : positive`; running out is `Bad BadFuel`. Theorems either
  hold for every fuel, or say how much is enough. "Never terminates" is stated as "`BadFuel` for every fuel".
- Input, random numbers, the clock, files and commands are components of the world state or oracles the
  theorems quantify over.
- Instructions are functions on the whole interpreter state (all universes, all IPs, input, output, log),
  so that "changes nothing else" is an equality of states.
- A property the code violates is kept as stated: a theorem with the suffix `_refuted` gives the
  counterexample (or the violation for all states), and one with the suffix `_partial` the part that holds. Its status is
  `partial`.

### Files

| file | contents |
|---|---|
| `Base.v` | outcomes, machine integers, fuel loops |
| `VectorModel.v`, `RangeModel.v`, `TextModel.v` | Vector, VectorRange, text streams |
| `StackModel.v`, `FieldModel.v` | Stack, StackStack, Field |
| `World.v`, `IpModel.v`, `LoadModel.v` | interpreter state, instruction pointer, instruction tables, fingerprint loading, IP and universe creation |
| `FingModel.v`, `CoreModel.v`, `UniModel.v` | fingerprint instructions, core instructions, string mode, ticks, scheduler, start of a program |
| `OptModel.v`, `DebugModel.v` | command line and file kinds, the debugger |
| `ThreadModel.v`, `NativeModel.v` | interleaving models of universe threads and of native threading |
| `DblModel.v`, `FishModel.v` | IEEE doubles, the languages ><> and \*><> |
| `FloatSpec.v`, `FloatProofs.v` | what a cell means as a double and which double is nearest to a real number; the model's operations meet that |
| `FileModel.v` | .beq and .fmv files, starting programs |
| `LibModel.v`, `LibTexts.v`, `LibRun.v`, `LibDyn.v` | calling instructions of libraries written in Funge, the text of the shipped libraries, rules for stepping through them |
| `Smoke.v`, `FishSmoke.v` | the project's own smoke tests run on the model (tests, not proofs) |
| `*Proofs.v`, `Effects.v`, `FishSafe.v`, `States.v` | lemmas, and concrete states for examples |
| `Props*.v` | the property theorems; beside each an example that meets its hypotheses and `Print Assumptions` |

## Trusted base

- Coq 8.16.1's kernel (the build also passes `coqchk`).
- `Print Assumptions` reports "Closed under the global context" for every property theorem except those
  that speak about real numbers. These depend on axioms of the standard library's real numbers and
  logic: `ClassicalDedekindReals.sig_not_dec`, `ClassicalDedekindReals.sig_forall_dec`,
  `FunctionalExtensionality.functional_extensionality_dep` and `Classical_Prop.classic`. They are the theorems of
  `PropsFloat.v` and `PropsFishFloat.v` (C115 to C122), `C124_real_partial`, `C124_real_format_partial`, `C124_general_partial`, `C124_zero_partial`, and `C90_sqrt_partial` and `C90_sqrt_negative`.
- Imported are the standard library and, for these theorems, Flocq, whose lemmas rest on the same
  axioms and add none. `vcheck` lists
  seven `Coq.ssr.ssrunder.*` entries: these are fields of a module type of the standard library
  (loaded indirectly with the standard library); no theorem depends on them.
- No `Admitted`, `Axiom`, `Parameter`, functors, module types or plugins of our own.
- The faithfulness of the model to the C++ source, as described in the comments. The smoke tests of
  `/repo/test` evaluate on the model to the expected outputs, which is evidence but not proof.

## What is modelled

- `Vector.cpp`, `VectorRange.cpp`, `Stack.cpp`, `StackStack.cpp`, `InstructionPointer.cpp`,
  `FungeState*.cpp`, `FingerprintStrategy.cpp`, the five Befunge strategies: all functions.
- `Field.cpp`: everything but observers.
- `FungeRunner.cpp`, `FungeUniverse.cpp`, `FungeMultiverse.cpp`: all but the destructors; the
  threads in two separate transition systems (`ThreadModel.v`, `NativeModel.v`).
- `Funge.cpp`: option parsing, file kinds, universe set-up and `.fmv` files; the main function (`MainModel.v`), for programs that create no second universe.
- `FungeDebugger.cpp`, `Defunge.cpp`: breakpoints, watch traps, backtraces, the prompt and all
  commands; not selecting an IP of another universe.
- `FishStrategy.cpp`, `StarfishStrategy.cpp`: all instructions; printing a NaN is not modelled.
- Fingerprints: BASE BITW BOOL CPLI DIRF FING FISH FIXP FRTH HRTI IIPC JSTR LONG MODE MVRS NFUN ORTH PERL
  REFC STRN SUBR TOYS, the instructions A D F I M N P Q R S V of FPDP, FPSP, FPRT with the conversions %%, %f, %g, %s, %ld, %li, %lu, %lo, %lx and %lX, their flags - 0 + and space, widths and precisions, and the loading of DBUG; the shipped libraries MODU, NULL, ROMA and TERM, and the instructions libraries use to act on their caller.

## What is not modelled

- FPRT's flag #, widths and precisions from 2^20 up, precisions with g, and the conversions e and a, FPDP's B C E G H K L T X Y (functions of the C library), the range check of FPDP's R in the gap of 2^-1074 just below
  2^-1022, CPLI's D and V, FIXP's trigonometry and non-exact powers, DBUG's instructions, FungeLib files loaded by FING, by `-l` or by libraries (loading by `(` is modelled in `LibLoadModel.v`, C125, their parser in C65, calls in C110 and following).
- Terminal modes, reading directories as files, the contents of messages on standard error.
- The C++ allocator: allocations up to 2^32 elements succeed, larger ones throw; the C stack is
  unlimited.
- Threads: operations on shared variables are atomic and sequentially consistent; in the sequential
  model (`World.v`) a tick is atomic; `waitAll` scans a fixed set of universes; the native model has
  one universe and an atomic semaphore.
- ><> and \*><>: all NaNs are one NaN; the debugger and the other universes are not part of that model, the private
  state of the strategy is carried beside the interpreter state.
- The debugger's locks: a prompt is one critical section.

## Findings

The theorems suffixed `_refuted` (and a few exact characterisations such as `C34_forever`, `C51_G_endless`,
`C66_blank_line`) establish these defects of the code:

- Reading a Vector from text without `)` never ends; -2^63 does not survive printing and reading (C05).
- Removing a stack under a selection leaves it dangling (C07); children get their parents' stacks in reverse order (C08, C67).
- Erasing cells can make the reported bounds exclude non-blank cells (C10); 1-D file output writes one cell (C13).
- The Befunge-93 torus is 81 by 26 and not reversible at the seam (C16).
- `s` and `.` truncate to 8 and 32 bits, `j` and `y` truncate their count to 32 bits (C22, C23, C26, C32).
- `0k` skips one cell, not one instruction (C27); `&` at end of input fails (C33).
- An IP that moves away and back within one tick through `k` is queued twice (C36, C39).
- Native threading never notifies the waiting main thread (C38); a transferred IP is read after it was deleted (C72); waitAll
  can return while an IP is running (C73).
- Creating a third universe of the same name loops forever (C40).
- Loading DBUG binds nothing, and unloading it, or unloading twice, removes other meanings (C41, C42, C44); children lose shadowed
  meanings (C43).
- `-l` truncates names (C45); a universe made by MVRS B has all permissions and DIRF asks for none (C46).
- `g` and `p` use the universe the IP was created in (C47); MVRS copies one row and column too many (C48).
- TOYS copies with a trailing zero size copy cells (C49); FRTH with the largest count overflows (C50).
- SUBR with a negative count is undefined (C52); BASE reads outside its table for negative numbers and accepts the digit equal to the base (C54).
- IIPC A dereferences a null or deleted parent (C55); LONG S adds (C56); MODE flags do not reach new stacks (C57).
- ><> `[` with a negative count, `{` and `}` on an empty stack, \*><> `R` without a call and `]` after `D` are undefined (C58, C60, C75, C77, C78);
  `&` does not restore, `R` removes the data stack (C59, C60).
- An empty option value compares a null pointer (C61); `.bf` files do not run as Befunge-93 (C62).
- The debugger's prompt loops forever at end of input (C69), lists every IP with the selected one's position (C71).
- FISH: an unbound character turns a diving IP round (C84), L and R on an empty stack, and u and } after D, are undefined (C85, C86), r is not noticed by the
  fisherman (C87).
- Shifts of BITW by 64 or more are undefined (C88); FIXP D truncates its bound to 32 bits (C90); LONG Z misreads negative numbers (C91).
- JSTR G leaves what JSTR P wrote in reverse order (C92).
- Debugger: `peek` of a stack that does not exist is undefined (C95); `list` and `get` without all their arguments read an uninitialised character, do not
  finish when the size reaches into a higher dimension, and use IPs that have ended (C96).
- NFUN X, Y and Z along a new dimension leave the universe one dimension too small, and B is bound but not implemented (C98).
- TOYS: M of a block onto itself erases it (C101), J and O leave cells outside the recorded extent where they are (C102), F, G and S with a trailing zero in
  the size transfer cells (C103), T with a negative dimension builds a vector of that size before checking it, and U leaves the wrong arrow with
  -finvert-hl (C105).
- **Native destructor joins a deleted thread** (C107): the destructor of a universe loops over the threads that are left without popping them (src/FungeUniverse.cpp:58-62). If an IP ends the universe before the universe's thread first tests `running`, its thread object is left in the queue, is joined and deleted, and is then joined again after deletion.
- A .beq file's Dimensions line does not decide the dimensions, and a block that ends early repeats its last line (C108).
- A final newline in a .fmv file makes the launcher open the directory itself; white space at the end of a line (a carriage return, for one) passes an extra empty argument; a .fmv file named without a directory looks in `/`; one that lists itself recurses for ever (C109).
- MODU M gives 2 for -4 modulo 2 and -1 for -1 modulo 3, and U gives |b| instead of 0 for exact divisions (C110).
- TERM D and U with 0 write a sequence that moves the cursor by one line (C112).
- Dynamic instructions: Q pushes as many coordinates as the caller has dimensions, but G, P, L, D and S take as many as the library has, so a library cannot save and restore the state of a two-dimensional IP; the number of dimensions of a library depends on its text (C114).
- FIXP Q gives 2^27 for 2^54 - 1, whose root lies below, and is undefined for negative numbers (C90).
- FPDP: F and I do not give back integers beyond 2^53 (C116); R with text that is no number, with a number too large, or with one below 2^-1022 that is not exactly a double ends the interpreter (C119).
- FPSP: every instruction that pushes a number reads eight bytes of a four-byte object (C120).
- ><> `n` is undefined for whole numbers beyond 64 bits, infinities and NaNs (C122).
- PERL: the shell runs commands in back quotes and replaces variables inside the Perl code (C123).
- FPRT: the format is passed to snprintf as it is, so that `%d` with I, `%n`, or a second conversion is undefined; long results are cut silently (C124).
- Fingerprint files: a name starting with a slash (or with `../`) opens files outside the installation, even without permission to use files; a 0 in the name cuts the extension off; a library has all permissions; every IP that loads or inherits a library opens it again, and the third one hangs in the search for a free universe name (C125).
- DIRF: M where a file is in the way or the parent is missing, and R of a directory with entries, end the interpreter instead of reflecting (C126).
- `~` drops a carriage return even if no newline follows it (C127).
- `o` as bytes writes a newline after each row, so `i` as bytes reads it as a cell (C128).
- `i` pushes a corner that includes the storage offset, which `o` adds again; the size it pushes leaves out a last line without newline, so that writing a file of one such line back keeps only its first character (C128).
- The value of an expression that needs more than 32 bits is printed modulo 2^32: 8 to the 11th power is printed as 0 (C130, C23).
- Whole numbers above 2^53 are rounded in ><> programs: an expression with value 2^53 + 1 prints 2^53 (C132, C74).

## The properties one by one

Each entry: how it is modelled and proved, the theorems, and what is missing or false of the code.

- **C01 Vector arithmetic is coordinatewise** (proved). Vector as list Z with literal set/normalize loops and overflow as UB; prove the coordinate view of every operation by loop invariants. Theorems: `C01_add`, `C01_sub`, `C01_reverse`, `C01_left`, `C01_right`, `C01_set`.
- **C02 Vector comparison is a strict total order compatible with equality** (proved). Literal loops; induction on the index; order laws from the zero-padded comparison. Theorems: `C02_eq`, `C02_lt`, `C02_le`, `C02_strict_order`.
- **C03 Equal Vectors hash equally** (proved). 64-bit hash fold; canonical-form lemma for normalised vectors. Theorems: `C03_hash`.
- **C04 VectorRange enumerates a box exactly once** (proved). Odometer model; induction on dimensions against a 6-line recursive list of box cells. Theorems: `C04_enumerates`, `C04_box_exact`, `C04_box_once`. Corners within +-2^62 so that the step arithmetic cannot overflow.
- **C05 Vector text I/O round-trips and reading terminates** (partial). Stream model with fail state; round trip by induction on decimal digits; hang shown for all fuels. Theorems: `C05_roundtrip_partial`, `C05_terminates_partial`, `C05_refuted`, `C05_min_refuted`. Finding: reading a text without ')' never ends; the coordinate -2^63 cannot be read back. Proved for all other vectors and all texts with ')'.
- **C06 Stack obeys its discipline for every operation history** (proved). Refinement to a deque specification over operation lists. Theorems: `C06_history`.
- **C07 Stack-stack selection never dangles under D/I/{/}** (partial). Invariant over operation lists; refuted where it fails. Theorems: `C07_partial`, `C07_refuted`. Finding: removing a stack while a lower one is selected leaves the selection out of range.
- **C08 A child IP starts with its parent's stacks** (partial). Characterise the copy (reverse); refutation plus the single-stack case. Theorems: `C08_partial`, `C08_copy_reverses`, `C08_refuted`. Finding: the copy holds the stacks in reverse order.
- **C09 Funge-space is a total map: reads return the last write** (proved). Fold over write histories compared with a last-write specification. Theorems: `C09_history`, `C09_write`.
- **C10 Reported bounds contain every non-space cell** (partial). Refutation by witness; invariant under the hypothesis that row/column zero stays populated. Theorems: `C10_nonzero_partial`, `C10_no_erase_partial`, `C10_refuted`. Finding: erasing a cell can shrink the bounds past 0, so that later cells with a zero coordinate are outside.
- **C11 Loading source text puts each character at its line and column** (proved). Invariant of the parse loop over a list of lines. Theorems: `C11_text`, `C11_formfeed_refuted`. Texts made of lines, as stated; with form feeds blank lines are dropped (finding).
- **C12 File output followed by file input restores the region** (proved). Compose dump and parse characterisations. Theorems: `C12_roundtrip`.
- **C13 File output writes the whole requested region in any dimension** (partial). Characterise dump for 1-D (refuted) and 2-D. Theorems: `C13_2d_partial`, `C13_1d_refuted`. Finding: a one-dimensional region writes at most its first cell.
- **C14 Lahey-space wrapping re-enters on the far side of the same line** (proved). Model next with UB and a loop bound; prove existence of the exit iteration. Theorems: `C14_lahey`, `C14_terminates`, `C14_outside`. Any dimension, any bounds and any delta; fuel 2^70 of the model's walk is proved never to run out.
- **C15 Lahey-space movement is reversible** (proved). From C14. Theorems: `C15_retrace`, `C15_step`. Any dimension and any number of steps.
- **C16 The Befunge-93 torus is 80 by 25** (partial). Refuted by boundary witness; proved 81x26 bound. Theorems: `C16_stays_refuted`, `C16_reverse_refuted`, `C16_stays_partial`, `C16_interior_partial`. False of the code: the wrap comparisons are off by one, so an IP reaches column 80 and row 25, and stepping back from there does not return. Proved: it stays in 0..80 x 0..25, and reverses away from the seam.
- **C17 SGML strings collapse each run of white space to one cell** (proved). Run of string-state over a list of cells vs a collapse specification. Theorems: `C17_open`, `C17_sgml`, `C17_collapsed_total`, `C17_multispace`, `C17_char_cells_refuted`. SGML and multispace strings of byte-valued (0..255) cells of any length, with tick counts. With -fcells=char bytes above 127 become negative cells, on which isspace is undefined (C17_char_cells_refuted).
- **C18 C-style strings decode escapes** (proved). Same, vs a decoding specification. Theorems: `C18_cstring`. All texts, including escaped quotes; one tick per pushed value.
- **C19 Arithmetic instructions compute exactly or are undefined** (proved). Instruction semantics on the whole interpreter state, stack seen as top-first list. Theorems: `C19_arith`, `C19_not`, `C19_division`. All operand values, missing operands included; the undefined cases are characterised exactly.
- **C20 Stack instructions permute only the top of the stack** (proved). As C19. Theorems: `C20_stack_ops`, `C20_digits`. The frame is equality of the whole interpreter state up to the selected stack.
- **C21 p then g reads back the value at the same storage-relative address** (proved). As C19 + C09. Theorems: `C21_put`, `C21_get`, `C21_roundtrip`. For an IP still in the universe it was created in (Home); for moved IPs see C47.
- **C22 s then ' transfers a full cell** (partial). Truncation characterisation; refutation. Theorems: `C22_refuted`, `C22_partial`. False of the code: s stores a char and ' fetches an int. Proved for values -128..127.
- **C23 . prints the popped value** (partial). Truncation characterisation; refutation. Theorems: `C23_refuted`, `C23_partial`, `C23_empty`, `C23_unique`. False of the code beyond 32 bits (the value is cast to int). Proved for 32-bit values against an independent decimal specification.
- **C24 { and } are inverse** (proved). Loop lemmas for moving n cells; composition theorem. Theorems: `C24_begin`, `C24_end`, `C24_inverse`. All stacks, counts (except -2^63), storage offsets and dimensions, for ordinary (no MODE flag) stacks.
- **C25 u transfers cells one at a time and is undone by the opposite count** (proved). As C24. Theorems: `C25_under`, `C25_undo`, `C25_single`. All stacks and counts except -2^63.
- **C26 j jumps exactly n cells** (partial). Iteration of next. Theorems: `C26_partial`, `C26_lahey_partial`, `C26_refuted`. Proved for every count strictly between -2^31 and 2^31 (torus and Lahey-space; total in Lahey-space from every in-bounds position). Refuted beyond: 2^32 j is 0 j (the count is truncated to int) and -2^31 j is undefined behaviour.
- **C27 k executes the next instruction n times, or skips it when n is zero** (partial). Loop lemma for skipping; refutation of the zero case. Theorems: `C27_times`, `C27_negative`, `C27_zero_partial`, `C27_zero_refuted`. N>0 and n<0 proved for every layout of spaces and comments of byte-valued cells. 0k proved only when the instruction is the next cell; refuted otherwise ('0k 5' executes the 5).
- **C28 ; always finds its end in Lahey-space** (proved). Periodicity of Lahey orbits. Theorems: `C28_comment`, `C28_frame`. Termination uses the theorem that a Lahey-space walk returns to its starting cell.
- **C29 Direction instructions set and turn the delta** (proved). Direct symbolic execution. Theorems: `C29_set`, `C29_absolute`, `C29_reflect`, `C29_turn`, `C29_turns_inverse`, `C29_turn_order`, `C29_if`, `C29_compare`, `C29_away`. Every direction instruction, for every delta and dimension count; 2-D turns are the rotations and mutually inverse.
- **C30 Unimplemented and failing instructions reflect** (proved). tick unfolding. Theorems: `C30_failing`, `C30_unimplemented`, `C30_core_failures`. Every failing instruction bounces; the core instructions that fail do so without any other change.
- **C31 The instruction set is the documented one** (proved). Finite table vs documented character lists, all other Z by case split. Theorems: `C31_fresh`, `C31_always`. Every IP, new or alive at any moment of any run, has for every cell value that is not an upper-case letter exactly the documented meaning; letters are unbound until a fingerprint is loaded. Fish standards are not in this model.
- **C32 y pushes one requested cell and nothing else** (partial). Count lemma for the pushed list. Theorems: `C32_partial`, `C32_refuted`, `C32_queue_refuted`. C32_partial: for every argument that fits a 32-bit int and a stack in normal mode, y with n>0 leaves exactly the n-th cell of (system information ++ stack), and with n<=0 the whole information, changing only the stacks and the clock. Refuted beyond: the argument is narrowed to int (2^32 behaves as 0), and in queue mode the cells of the program are lost.
- **C33 & reads a decimal number** (partial). Input-list loop; refutation at end of input. Theorems: `C33_reads_partial`, `C33_none`, `C33_refuted`. False of the code when the input ends right after the digits. Proved with a terminator, including overflow.
- **C34 q stops every IP of the universe with its exit code** (proved). Scheduler model. Theorems: `C34_quit`, `C34_tick`, `C34_drain`, `C34_forever`. Funge threading with atomic ticks: the tick that executes q, the silent removal of the stopped IPs afterwards, and for any schedule of all universes a stopped IP never moves again. The state after q is that of a queue without duplicates (see C39).
- **C35 t creates one child with reversed delta that runs before the parent resumes** (proved). Clone model. Theorems: `C35_thread`, `C35_fresh`, `C35_disabled`, `C35_scheduled`. For IPs whose loaded fingerprints are built-in (not FungeLib files).
- **C36 Scheduling is round-robin and fair** (partial). Queue invariant with abstract tick. Theorems: `C36_fifo`, `C36_requeue`, `C36_fair_partial`, `C36_fair_single`, `C36_fair_universes_partial`, `C36_refuted`. Every queue is first in, first out for all executions. Fairness proved for programs in one universe and for all programs that execute nothing through k; refuted for an IP that moves to another universe and back in one tick (2kJ of MVRS), which is then queued twice.
- **C37 No lost wakeup between adding an IP and the universe thread** (proved). Small-step interleaving model, inductive invariant. Theorems: `C37_wakeup`, `C37_no_sleep`, `C37_waiter`, `C37_runs`, `C37_again`, `C37_return`. Transition system of all universe threads and any other threads with the semaphore, mutexes and condition variables step by step. Safety for every reachable state; liveness for every fair infinite run in which ticks end: a queued IP is ticked (again and again if it stays), a waiter returns.
- **C38 Native threading terminates when all IPs end** (partial). Stuck reachable state. Theorems: `C38_partial`, `C38_refuted`. Refuted: nobody notifies the universe's condition variable in native mode, so a main thread that went to sleep before the IPs ended is never woken (only a spurious wake-up helps). Proved: when it does return, no IP is running or the universe was killed.
- **C39 An IP is executed by one universe at a time** (partial). Reachable bad interleaving. Theorems: `C39_partial`, `C39_refuted`. With atomic ticks: proved for all executions in which nothing is executed through k; refuted by 2kJ.
- **C40 Every created universe gets a fresh name** (partial). Loop on set of names; refutation for all fuels. Theorems: `C40_partial`, `C40_file_partial`, `C40_refuted`, `C40_distinct`. First and second universe of a name get fresh names and existing ones are untouched; names stay distinct in every run; a third of the same name never terminates (C40_refuted).
- **C41 Loading a fingerprint shadows, unloading restores** (partial). Semantic-stack model. Theorems: `C41_partial`, `C41_load_partial`, `C41_unload`, `C41_nested_partial`, `C41_core`, `C41_refuted`. Proved for all built-in fingerprints but DBUG, for which it is refuted: loading DBUG binds nothing and unloading it takes other meanings away. Core meanings never change (C41_core), for all programs. Fingerprints from files are the subject of C125.
- **C42 Unloading a fingerprint that is not loaded has no effect** (partial). Witness. Theorems: `C42_partial`, `C42_refuted`. Holds for fingerprints the IP never loaded; refuted for one loaded and unloaded before: a second unload succeeds and removes meanings given by other fingerprints.
- **C43 A child IP inherits the parent's instruction meanings** (partial). Witness + restricted positive theorem. Theorems: `C43_partial`, `C43_histories`, `C43_new`, `C43_refuted`. Holds for IPs that load fingerprints and only unload the most recently loaded one; refuted for other orders.
- **C44 A loaded fingerprint provides its instructions** (partial). Witness (DBUG) + all others. Theorems: `C44_partial`, `C44_refuted`. Holds for all built-in fingerprints but DBUG, refuted for DBUG.
- **C45 Fingerprint names and numbers correspond** (partial). Byte arithmetic. Theorems: `C45_file`, `C45_injective`, `C45_option_partial`, `C45_refuted`, `C45_load`. Names of up to four characters below 128 name the fingerprint ( loads; -l keeps only the last four bytes of longer names and sign-extends bytes above 127 (C45_refuted).
- **C46 A universe without permission never executes or touches files** (partial). Preservation over all modelled instructions; multi-universe witness. Theorems: `C46_partial`, `C46_refuted`, `C46_directories_refuted`. False of the code: a universe created with MVRS B has all permissions, and DIRF needs none. Proved for all programs and executions that create no universe (commands, files, IPs).
- **C47 After moving to another universe an IP reads and writes that universe** (partial). Witness. Theorems: `C47_partial`, `C47_J`, `C47_get`, `C47_put`, `C47_left`, `C47_refuted`. G and p act on the Funge-space the IP was created in, so after J to another universe they act on the one it left (C47_left for all states, C47_refuted concretely); an IP that stays keeps its own.
- **C48 MVRS F and P copy exactly the requested area** (partial). Count via C04; witness. Theorems: `C48_partial`, `C48_P_exact`, `C48_F_exact`, `C48_refuted`. Exact account: the cells from 0 to size inclusive are copied, so the requested area is copied, but one further row and column too, for every size (C48_refuted).
- **C49 TOYS copy and move transfer exactly the requested block** (partial). Loop invariant over the range of C04. Theorems: `C49_partial`, `C49_zero_partial`, `C49_refuted`. Nonzero sizes of either sign, disjoint blocks: exactly the block is copied (M and V blank the source) and nothing else changes; a zero before a nonzero size, or all zero, copies nothing; a trailing zero size (3 by 0) copies 3 cells (C49_refuted).
- **C50 FRTH L (roll) and P (pick) follow Forth** (partial). Symbolic execution over lists. Theorems: `C50_partial`, `C50_roll_order`, `C50_refuted`. All of D O R P L (also with negative counts) for every stack and every count but the largest ones; C50_refuted: with the count INT64_MAX, P and L compute count+1, which overflows.
- **C51 STRN P then G reads back the string; string ops agree with list operations** (proved). List specifications. Theorems: `C51_strings`, `C51_refuses`, `C51_P`, `C51_G`, `C51_roundtrip`, `C51_G_endless`, `C51_V_throws`. STRN's A, N, C, F, L, R and M compute the corresponding list operation on the zero-terminated strings on the stack, refuse out-of-range operands, and G reads back what P wrote. G without a zero in the way never returns and V on a string that is no number throws (both stated).
- **C52 SUBR call and return resume after the call** (partial). Symbolic execution. Theorems: `C52_partial`, `C52_call_partial`, `C52_return_partial`, `C52_enters`, `C52_J`, `C52_AO`, `C52_refuted`. Proved for every non-negative count: C enters the target travelling east with its arguments on the stack and the caller's position and delta below them; R, from any state with such a return address, restores position and delta so the next move is the caller's. A negative count is undefined behaviour (C52_refuted). J jumps one past its target (C52_J).
- **C53 REFC references are unique and dereference to their vector** (proved). Invariant of the reference map, oracle random source. Theorems: `C53`, `C53_R`, `C53_R_ends`, `C53_D`, `C53_history`. C53: the reference R gives dereferences to its vector after any execution of any set of IPs, and no later R gives it again. C53_R_ends: R succeeds as soon as random() brings an unused number (for a random source that only repeats used numbers it searches forever).
- **C54 BASE output read back in the same base gives the same number** (partial). Digit induction. Theorems: `C54_partial`, `C54_print_partial`, `C54_read_partial`, `C54_unary_partial`, `C54_read_unary_partial`, `C54_safe_partial`, `C54_unique`, `C54_refuted`, `C54_digit_refuted`. Bases 2 to 32 and base 1 with positive numbers round trip for all non-negative numbers; no table is overrun for non-negative numbers in any base; every negative number the base does not divide reads outside the table (C54_refuted); the digit equal to the base is accepted (C54_digit_refuted).
- **C55 IIPC addresses other IPs safely** (partial). Symbolic execution; null parent is UB. Theorems: `C55_G`, `C55_L`, `C55_P`, `C55_refuses`, `C55_I`, `C55_A_partial`, `C55_D`, `C55_sleeps`, `C55_refuted`. G, L and P act on exactly the two stacks involved; an ID outside the universe is refused; a sleeping IP wakes exactly when its stack was operated on, over every history of the other IPs. A gives the parent's ID only while the parent exists: without one it dereferences null, after the parent stopped it reads a deleted object (C55_refuted). L does not count as an operation.
- **C56 LONG S subtracts** (partial). 128-bit integers; refutation. Theorems: `C56_partial`, `C56_S`, `C56_refuted`. A, M, D and O are proved for all pairs of 128-bit numbers; S adds (C56_S, for all pairs), so it does not subtract (C56_refuted). third_party/bigint is absent from the checkout and modelled as two's complement 128-bit arithmetic.
- **C57 MODE toggles are involutions that reach every stack** (partial). Mode invariant; refutation for new stacks. Theorems: `C57_toggle`, `C57_reach`, `C57_partial`, `C57_refuted`. C57_toggle/C57_reach: the flag is toggled in the universe and given to every stack of every IP of it. C57_partial: toggling twice restores the interpreter if every stack had its universe's flags. C57_refuted: a stack made by { after MODE Q does not have the flag.
- **C58 ><> [ and ] are inverse** (proved). List lemma. Theorems: `C58_create`, `C58_create_too_few`, `C58_destroy`, `C58_destroy_last`, `C58_inverse`, `C58_negative_refuted`. For every count that is a whole number up to 2^53, all stacks and registers; the topmost stack is selected, as always in ><>. A negative count is undefined behaviour (C58_negative_refuted).
- **C59 ><> & stores and restores** (partial). Refutation. Theorems: `C59_store_partial`, `C59_empty`, `C59_restore_refuted`, `C59_fraction_refuted`. Refuted: the second & empties the register without pushing the value back, for every stack; fractions are cut off. Proved: the first & moves a whole number to the register.
- **C60 *><> C and R preserve the data stack** (partial). Refutation. Theorems: `C60_call_partial`, `C60_return_partial`, `C60_data_refuted`, `C60_unmatched_refuted`. Refuted: R removes the data stack instead of the return stack, for every stack; R without a call reads outside the list of stacks. Proved: C jumps and saves its position, R jumps back to it.
- **C61 Option parsing is deterministic per flag** (partial). Executable option parser on byte strings. Theorems: `C61_settings`, `C61_refused_partial`, `C61_refuted`, `C61_unknown`. Each documented option sets exactly its setting and bad values are refused; an option with an empty value such as -std= compares a null pointer (C61_refuted); unknown options are accepted silently (C61_unknown).
- **C62 A .bf file runs as Befunge-93** (partial). Witness. Theorems: `C62_partial`, `C62_refuted`. The format loaded follows the extension for every path; a .bf file without -std keeps the Funge-98 settings instead of those of -std=be93 (C62_refuted).
- **C63 The debugger backtrace is the last ten positions** (proved). Invariant. Theorems: `C63_backtrace`, `C63_printed`. Over all histories of instructions, prompts with any commands, traps and ended IPs.
- **C64 Pushing and popping vectors and strings round-trips** (proved). List induction. Theorems: `C64_vector`, `C64_string`, `C64_layout`. Strings of non-NUL chars.
- **C65 FungeLib files bind one plane per letter** (proved). Loop invariant. Theorems: `C65_planes`.
- **C66 A tick only runs one non-skipped instruction** (proved). Skip-loop lemma. Theorems: `C66_tick`, `C66_block`, `C66_undefined`, `C66_blank_line`. Includes the converse: a tick on a wholly blank path does not terminate with any fuel (the interpreter hangs).
- **C67 The child of t gets a copy of its parent's stacks** (partial). Symbolic execution of t; the copy constructor of the stack-stack as in C08; witness with two stacks. Theorems: `C67_reversed`, `C67_partial`, `C67_refuted`. False of the code: the child of t gets the stacks in reverse order. Proved: contents copied, reversed; a copy when there is one stack.
- **C68 The debugger stops an IP exactly where asked** (proved). Sorted-set facts for the breakpoint set; case analysis of the note/prompt functions for all states; command dispatch. Theorems: `C68_breakpoints`, `C68_prompt`, `C68_commands`.
- **C69 The debugger's prompt can always be left** (partial). Loop lemma over the list of input lines; at end of input, induction on fuel shows the prompt never returns. Theorems: `C69_partial`, `C69_refuted`. Any number of ignored lines followed by run, step or quit leave the prompt; at the end of the input the prompt repeats forever, for every state that stops (C69_refuted).
- **C70 Looking at a program in the debugger does not change it** (proved). Frame theorem per command, then induction over the commands of a session. Theorems: `C70_command`, `C70_session`. All commands other than quit, setdelta and setpos, on every state on which they are defined; choosing another universe is not modelled.
- **C71 The thread command lists every IP with its own position** (partial). Fold over the thread map; witness with two IPs. Theorems: `C71_partial`, `C71_refuted`. Right when the selected IP is the only live one; with two live IPs every line shows the selected IP's position, and selecting an ended IP reads freed memory (C71_refuted).
- **C72 No IP is used after it was deleted** (partial). Invariant of the thread transition system (who owns, who has freed); reachable bad state as witness. Theorems: `C72_partial`, `C72_refuted`. Proved for all schedules without transfers between universes. Refuted with a transfer: the old universe's thread reads the IP after the new universe deleted it.
- **C73 Waiting for all universes returns only when all have ended** (partial). Invariant over the scan of waitAll; reachable bad state as witness. Theorems: `C73_partial`, `C73_refuted`. Proved when IPs are added only by their own universe's thread while waiting. Refuted when an IP moves from a universe not yet visited to one already passed in the scan.
- **C74 ><> arithmetic is exact on whole numbers** (partial). IEEE 754 arithmetic from the standard library (SpecFloat) on bit patterns; exactness lemmas for whole numbers up to 2^53; symbolic execution of the instructions. Theorems: `C74_integer`, `C74_zero`, `C74_too_few`, `C74_digit`, `C74_print`, `C74_beyond_refuted`. Proved for whole numbers up to 2^53 with a result of that kind. Beyond 2^53 sums are rounded (C74_beyond_refuted). Fractions are the subject of C121 and C122.
- **C75 ><> stack shuffling keeps the cells** (partial). Symbolic execution over lists; witness on the empty stack. Theorems: `C75_shuffle`, `C75_too_few`, `C75_length`, `C75_empty_refuted`. Proved for all stacks; refuted for { and } on an empty stack, which read outside a temporary array.
- **C76 An error ends a ><> program** (proved). Case analysis of the error handler for all states. Theorems: `C76_error`. For every state and every error of an instruction, both languages; in *><> an unknown character is no error while diving (C83).
- **C77 One register per stack** (partial). Invariant (one register per stack) preserved by every instruction of a run, by induction over its ticks. Theorems: `C77_registers`, `C77_star_refuted`. Proved for ><>: all programs, inputs and steps. Refuted for *><>: ] after a call removes the only register.
- **C78 ><> programs cannot touch foreign memory** (partial). The same invariant excludes every memory error of the model but the two named; witnesses by evaluation. Theorems: `C78_memory_partial`, `C78_shift_refuted`, `C78_star_refuted`. Proved for ><>: every memory error of every run is { or } on an empty stack, which is one. Refuted for *><>: R without a call, ] after D.
- **C79 ><> strings push their characters** (proved). Induction over the text; each character is one tick. Theorems: `C79_string`. All texts of codes up to 2^53, both quotes, both languages, string style multispace (the style of .fish and .sf files).
- **C80 ><> control flow** (proved). Symbolic execution of ?, !, . and ;. Theorems: `C80_skip`, `C80_conditional`, `C80_jump`, `C80_end`. Both languages, all states; the tested number is a whole number up to 2^53.
- **C81 ><> arrows and mirrors** (proved). Symbolic execution of the arrows and mirrors; a mirror twice is the identity. Theorems: `C81_turn`, `C81_twice`. All directions without a component of -2^63, diving or not, MODE hover off.
- **C82 ><> g reads what p wrote** (proved). Funge-space read-after-write (C09) under the double-to-integer conversions. Theorems: `C82_get`, `C82_put`, `C82_round_trip`. All coordinates and numbers up to 2^53, all stacks, any number of dimensions; cells are not 8-bit and the storage offset is the origin, as always in ><>.
- **C83 *><> diving passes everything but movement** (proved). Case analysis of the instruction table under the dive flag. Theorems: `C83_dive`, `C83_pass`. All states and characters; the movements themselves are C81, C83_dive and C87.
- **C84 FISH diving passes everything but movement** (partial). As C83 for the fingerprint, with the fingerprint table; witness for an unbound character. Theorems: `C84_dive`, `C84_pass_partial`, `C84_movements`, `C84_unknown_refuted`. Proved: U and O, and passing of every bound non-movement. Refuted: an unbound character turns a diving IP round. C84_movements lists what counts as movement.
- **C85 FISH mirrors and shuffles** (partial). Symbolic execution over lists. Theorems: `C85_mirror`, `C85_shuffle`, `C85_conditional`, `C85_empty_refuted`. Proved for all stacks; refuted for L and R on an empty stack, which read outside a temporary array.
- **C86 FISH stack selection** (partial). Selection index arithmetic; witnesses for the unsafe uses. Theorems: `C86_select`, `C86_back`, `C86_under_refuted`. Proved: selection and its inverse. Refuted: with the bottom stack selected u and } read outside the list of stacks.
- **C87 The fisherman casts and reels in** (partial). Symbolic execution of the fisherman with its remembered direction. Theorems: `C87_cast`, `C87_reel`, `C87_resume_partial`, `C87_resume_refuted`. Proved when the present direction was set by an instruction the fisherman is told of. Refuted after r, which it is not told of.
- **C88 Bitwise operators and shifts** (partial). Letters of BITW, BOOL, FIXP, ORTH, TOYS executed through the whole dispatch; results characterised by Z.testbit, shifts by an independent predicate Shifted. Theorems: `C88_bits`, `C88_not`, `C88_shift_partial`, `C88_shift_undefined`, `C88_refuted`. Proved: all bitwise operators, and shifts by fewer than 64 places. Refuted: BITW's shifts by 64 or more or by negative counts are undefined in C++.
- **C89 Complex integers** (proved). complex_op is the textbook formula; complex_steps lists the intermediate products; equivalence of "fits" and "defined". Theorems: `C89_arith`, `C89_overflow`, `C89_print`, `C89_text_unique`. All operands; C89_text_unique says that the printed text determines the number.
- **C90 Fixed-point helpers** (partial). Values by formula; square root by its two inequalities; random numbers by range with the generator as an arbitrary stream. Theorems: `C90_unary`, `C90_sqrt_partial`, `C90_sqrt_negative`, `C90_power`, `C90_random_partial`, `C90_random_refuted`, `C90_sqrt_refuted`. Proved for all operands, square roots for 0 to 2^52. Refuted: the square root of 2^54-1 comes out as 2^27 because the operand is rounded to a double first; negative operands are undefined; D's bound is truncated to 32 bits, and is undefined for 2^31.
- **C91 Long integers: unary operations, shifts and text** (partial). Two cells as one 128-bit number (predicate Stands); decimal texts by the independent predicate decimal. Theorems: `C91_unary`, `C91_extend`, `C91_shift`, `C91_print`, `C91_parse`, `C91_negative_refuted`. Proved for all numbers and all unsigned texts. Refuted: a leading minus is read as the digit -3, so that -5 becomes -25.
- **C92 String vectors** (partial). Positions by an arithmetic progression of coordinates (Along); induction over the count. Theorems: `C92_put`, `C92_get`, `C92_refuted`. Proved: both transfers, any number of dimensions, any count whose cells have 64-bit coordinates; for P the step is not null and cells are not 8-bit. Refuted: G after P leaves the cells in reverse order.
- **C93 The file name chooses the language** (proved). Paths as directory, stem and extension (Named); the table of languages written out independently of prepare. Theorems: `C93_extension`, `C93_dotless`, `C93_fish`. All paths. C93_extension gives every setting of the resulting configuration; C93_fish compares with -std.
- **C94 Debugger commands that act change exactly what they name; failing instructions are trapped** (proved). Lookup and replacement of one IP (Ip, with_ip); quit by induction over the universes; the tick with the debugger compared with the tick without. Theorems: `C94_setpos`, `C94_setdelta`, `C94_quit`, `C94_trap`, `C94_off`. All states, IPs and vectors that fit in 64 bits; setdelta in hover mode when the sum fits.
- **C95 peek shows the stacks as they would be popped** (partial). The order of popping is pop_n, the value of the n-th pop; induction over the cells and stacks. Theorems: `C95_all`, `C95_cell_partial`, `C95_refuted`. Proved for every stack that exists. Refuted: asking for a stack that does not exist reads outside the list of stacks.
- **C96 list and get print the rectangle of cells asked for; universe lists the universes** (partial). screen is the rectangle written as two nested ranges; induction over rows and columns; non-termination by an invariant. Theorems: `C96_list_partial`, `C96_get_partial`, `C96_universe`, `C96_refuted`, `C96_deep_refuted`, `C96_ended_refuted`. Proved: the rectangle for any two ascending dimensions while every listed IP exists. Refuted: arguments left out read an uninitialised character; a size reaching into a higher dimension never finishes; after an IP has ended it is used although deleted.
- **C97 ORTH reads and writes the plane without storage offset, and sets single components** (proved). Points by their coordinates (Plane); one step of execute from any state in which the letter has the ORTH meaning. Theorems: `C97_get`, `C97_put`, `C97_delta`, `C97_position`, `C97_skip`, `C97_print`. All states and operands; V and W outside hover mode.
- **C98 NFUN flies along higher dimensions and makes room for them** (partial). Unit vectors by their coordinates (unit_vec); Dims_delta_stack says what may change; the refutation holds for every new dimension. Theorems: `C98_fixed`, `C98_if`, `C98_axis_partial`, `C98_axis_refuted`, `C98_B_refuted`. Proved: directions and dimensions of A V L H C D I M R; the direction of X Y Z. Refuted: X Y Z along a new dimension leave the universe one dimension too small; B is bound but not implemented.
- **C99 HRTI measures elapsed time in whole microseconds** (proved). The clock is an arbitrary sequence of readings; bounds instead of the quotient in the statement. Theorems: `C99_mark`, `C99_elapsed`, `C99_unmarked`, `C99_second`, `C99_granularity`. All clocks that do not run backwards past the mark.
- **C100 FING moves meanings between letters** (proved). Meanings are the stacks of each character; pointwise equations. Theorems: `C100_drop`, `C100_copy`, `C100_swap`, `C100_swap_twice`, `C100_invalid`, `C100_copied_letter`. All states and operands.
- **C101 TOYS block copies are exact even when source and destination overlap** (partial). The block is the set of offsets (in_block); the copying order is a list of points and the proof is an induction over it in which a source cell is never overwritten before it is read. Theorems: `C101_partial`, `C101_itself_refuted`. Proved: all sizes and displacements of the side the instruction is meant for, and copies onto itself. Refuted: M of a block onto itself erases it.
- **C102 TOYS J and O shift the column or row of the IP** (partial). A line is a set of positions (Line); Further says that one position is the other displaced; the extent is a hypothesis, and refuted without it. Theorems: `C102_shift_partial`, `C102_zero`, `C102_refuted`. Proved when the recorded extent contains the non-blank cells of the line. Refuted: the recorded extent can miss cells (C10), which then stay.
- **C103 TOYS F, G and S transfer blocks between stack and space** (partial). points enumerates the offsets in the order of the stack; spot adds an offset to a corner. Theorems: `C103_take`, `C103_give`, `C103_fill`, `C103_roundtrip`, `C103_zero_partial`, `C103_refuted`. Proved for all blocks with non-zero sizes, and sizes that are zero in a dimension below a non-zero one. Refuted: a size 3 by 0 transfers three cells.
- **C104 TOYS arithmetic** (proved). Arithmetic of Z, with 64-bit bounds as the condition for a defined result; sum and product as folds. Theorems: `C104_unary`, `C104_copies`, `C104_butterfly`, `C104_fold`. All stacks and operands.
- **C105 TOYS looks and moves relative to the IP** (partial). Left, right and behind by their coordinates (beside); the random sequence is arbitrary. Theorems: `C105_look`, `C105_store`, `C105_axis_partial`, `C105_axis_refuted`, `C105_step`, `C105_random_partial`, `C105_random_refuted`, `C105_wait`. Refuted: T with a negative dimension makes a vector of that size before the check; with -finvert-hl the arrow left by U points the other way.
- **C106 An idle universe sleeps** (proved). ThreadModel.v; a count of looks, arrivals and kills along a run with the invariant looks + spare <= arrivals + kills (spare: the semaphore is set or about to be set). Theorems: `C106`. ThreadModel: looks <= IPs queued + kills, for every run of the model.
- **C107 A killed universe ends** (partial). ThreadModel.v: killed state kept by every step, the semaphore is set whenever the thread of a killed universe asks for it, rank (IPs left, phase) falls with each own step, fair schedules let it step; NativeModel.v: invariant plus an explicit run of the universe thread, and a model of the destructor loop with a witness schedule for the use after free. Theorems: `C107_kill`, `C107_ends`, `C107_native`, `C107_destroy_partial`, `C107_destroy_refuted`. Ending is proved in full for both threading models (fairness, ending ticks and a closed universe are hypotheses of C107_ends). Refuted part: with native threads the destructor never pops the threads it joins, so it uses a deleted thread object whenever one is left; C107_destroy_partial gives the exact condition, C107_destroy_refuted a schedule that meets it.
- **C108 The blocks of a .beq file land where their control lines say** (partial). FileModel.v models parseBeq, splitString, stoul/stoi and the constructor; PropsFile.v writes the text of a list of blocks independently and proves by induction over blocks, lines and characters where each lands. Two refutations. Theorems: `C108_partial`, `C108_cases`, `C108_refuted`, `C108_short_refuted`. Placement is proved for every well-formed file. Refuted: the Dimensions header does not decide the dimensions of the universe (the constructor of Field overrides it), and a block that ends early repeats its last line or shows its own control line.
- **C109 Starting a program, and the programs a .fmv file lists** (partial). FileModel.v models createUniverse, parseFMV and FungeMultiverse::create for all formats; PropsStart.v proves the exact change to the world for one program and, by induction over the entries, for a list and, by induction over the depth, for lists of lists. Four refutations by witnesses (one by induction on the nesting). Theorems: `C109_start`, `C109_missing`, `C109_starts`, `C109_partial`, `C109_nested`, `C109_text`, `C109_newline_refuted`, `C109_blank_refuted`, `C109_here_refuted`, `C109_self_refuted`. Proved for program files (other than fish) and for .fmv files that list program files or, to any depth, other .fmv files (C109_nested), with any white space before and between the words of a line. Refuted: a final newline or blank line makes the launcher ask for the directory itself, white space at the end of a line passes an extra empty argument, a .fmv file named without directory looks in the root directory, and one that lists itself never finishes.
- **C110 MODU computes the three remainders it documents, and touches nothing else** (partial). LibModel.v models opening a library and calling one of its instructions (a fresh IP in the library universe that shares the stacks of the caller, until the universe is idle); LibTexts.v holds the text of the shipped libraries. LibRun.v gives small rules for the instructions libraries use and proves by simulation that a run by the rules is what the interpreter does; PropsLib.v steps through MODU with symbolic numbers and settles the arithmetic. Refutation by witnesses and determinism. Theorems: `C110_open`, `C110_R`, `C110_zero`, `C110_M`, `C110_floor_partial`, `C110_U`, `C110_unsigned_partial`, `C110_refuted`. R and the zero divisor are proved in full. M and U are proved to compute modu_m and modu_u for all numbers with |a|+|b| < 2^63, and the exact conditions under which these are the documented remainders are C110_floor_partial and C110_unsigned_partial. Refuted: exact divisions (M with a negative quotient, U always) give the divisor instead of 0, and M leaves small numbers of the other sign uncorrected. How ( finds the library file is not part of these theorems.
- **C111 ROMA pushes the values of Roman digits and prints numbers as Roman numerals** (proved). PropsRoma.v: symbolic run of ROMA by the rules of LibRun.v; induction over the thousands, one lemma for each decimal digit; an independent reader of Roman numerals gives the number back. Theorems: `C111_open`, `C111_values`, `C111_print`, `C111_reading`. The numeral is specified digit by digit (roman) and shown to read back as the number (C111_reading). How ( finds the library file is not part of these theorems.
- **C112 TERM writes the control sequences for what it is asked to do** (partial). PropsTerm.v: the digit loop by induction over the digits, the print loop by induction over the characters above the zero; the effect on the cursor through a small model of a terminal, with a refutation for zero lines. Theorems: `C112_open`, `C112_fixed`, `C112_down`, `C112_up`, `C112_goto`, `C112_lines_partial`, `C112_lines_refuted`. The sequences written are proved for all arguments (positions from 0; INT64_MIN lines overflow). Refuted: moving by 0 lines writes CSI 0 A or CSI 0 B, which terminals take as one line; the meaning of a sequence is a small terminal model in PropsTerm.v.
- **C113 Every instruction of NULL reflects and does nothing else** (proved). LibDyn.v extends the simulation of LibRun.v with the calling IP as part of the configuration; PropsDyn.v runs the two instructions of each letter. Theorems: `C113_open`, `C113`. Deltas with a coordinate INT64_MIN overflow when reversed and are excluded. How ( finds the library file is not part of these theorems.
- **C114 Library code acts on the calling IP as its instructions say** (partial). LibDyn.v gives one rule for each dynamic instruction (Dyn), independent of the monad, and proves the model follows them; PropsDyn.v composes them by induction over the word. Refutations: general for two-dimensional callers, and a concrete program. Theorems: `C114_word`, `C114_put`, `C114_stop`, `C114_restore_partial`, `C114_restore_refuted`, `C114_lost_refuted`, `C114_dims_refuted`. The effects of words of Q, L, D, S, F, B, R, G, N, M, E, K and O are proved for libraries of three or more dimensions; P and X are proved one at a time (C114_put, C114_stop), not inside words. Giving back what Q pushed is proved for callers with as many dimensions as the library and refuted for two-dimensional callers, which is what most programs are.
- **C115 FPDP arithmetic is correctly rounded** (proved). FloatSpec.v states nearest, ties to even, on the bits of a cell in real numbers; FloatProofs.v relates the executable operations to it through Flocq; PropsFloat.v runs the instruction. Theorems: `C115_arith`, `C115_nan`, `C115_zero`. For all numbers, including subnormal ones and overflow. NaN results are proved to be some NaN, their bits are not modelled.
- **C116 FPDP converts integers to doubles and back** (partial). As C115; whole parts by their inequalities; the round trip by exactness of integers below 2^53. Theorems: `C116_F`, `C116_I`, `C116_I_undefined`, `C116_roundtrip_partial`, `C116_roundtrip_refuted`. F and I are characterised for all operands. The round trip holds up to 2^53 and is refuted beyond.
- **C117 FPDP negation, absolute value and square root** (proved). As C115. Theorems: `C117_exact`, `C117_sqrt`.
- **C118 FPDP prints six correct decimals** (proved). The text is described by its digits; the number of millionths is the closest to the exact value, ties to even, by the division lemma. Theorems: `C118_print`. For all numbers. What P prints for an infinity is modelled but not stated; the sign of a NaN is not modelled.
- **C119 FPDP reads decimal text** (partial). The grammar of decimal numbers is stated as a decomposition of the text; the parser is run over it by induction over the digits; rounding as C115. The range check of strtod compares the number read with the double as fractions of integers. Theorems: `C119_read_partial`, `C119_hex_partial`, `C119_exact`, `C119_infinite`, `C119_nan`, `C119_large`, `C119_small_refuted`, `C119_running_refuted`. Proved for decimal and hexadecimal numbers from 2^-1022 up, for 0, for every number that is exactly a double, for inf and nan. Refuted: text that is no number, a number that is too large, and a smaller number that is not exactly a double end the interpreter with an exception. Missing: the gap of 2^-1074 just below 2^-1022.
- **C120 FPSP works on single precision numbers** (partial). I and P as C116 and C118 with the bits of a binary32; the rest by running the instruction on an arbitrary stack. Theorems: `C120_I_partial`, `C120_P_partial`, `C120_refuted`, `C120_R_refuted`. I and P are proved. Every other instruction is refuted for all operands: it reads eight bytes from an object of four.
- **C121 ><> arithmetic on fractions is correctly rounded** (proved). FloatSpec.v as the specification; the operations through Flocq (FloatProofs.v), comparison through its comparison of reals. Theorems: `C121_arith`, `C121_zero`, `C121_compare`. For all numbers, with fractions, subnormal ones and overflow.
- **C122 ><> n prints numbers to six significant digits** (partial). The text is a decimal number in the grammar of C119 whose value has six significant digits and is the closest to the exact value; by the decimal exponent of a fraction and the division lemma. Theorems: `C122_whole`, `C122_fraction`, `C122_large_refuted`, `C122_special_refuted`. Proved for all whole numbers of 64 bits and all fractions. Refuted for larger whole numbers, infinities and NaNs: converting them to an integer is undefined.
- **C123 PERL hands its text to Perl** (partial). The double quotes of the POSIX shell as an inductive relation between quoted and meant text; the quoting function is shown to be read back by induction over the code. Theorems: `C123_partial`, `C123_commands_refuted`, `C123_variables_refuted`, `C123_signal_refuted`, `C123_other`. Proved for code without dollar sign and back quote and for normal exits; the shell's double quotes are specified in PropsPerl.v. Refuted: a command in back quotes is run by the shell, a variable is replaced by the shell, and a Perl ended by a signal looks like the number 0.
- **C124 FPRT makes the text its format describes** (partial). Literal formats as an inductive relation; the formatter is run over them, and over flags, widths and precisions, by induction; the filled field is specified by its length and where the gap is; numbers as C118. Theorems: `C124_integer_partial`, `C124_unsigned_partial`, `C124_string_partial`, `C124_real_partial`, `C124_integer_format_partial`, `C124_unsigned_format_partial`, `C124_string_format_partial`, `C124_real_format_partial`, `C124_general_partial`, `C124_zero_partial`, `C124_infinity_partial`, `C124_plain_partial`, `C124_long_refuted`, `C124_wrong_refuted`, `C124_second_refuted`. Proved for formats with literal text, %% and one of %ld, %li, %lu, %lo, %lx, %lX, %s, %f that fits the instruction, with the flags - 0 + and space, a width and a precision below 2^20, and finite numbers; for %g without precision, and for infinite doubles with %f and %g without precision. Missing: the flag #, %e, %a, %g with a precision, NaN. Refuted: results beyond 1023 bytes are cut without an error, and a conversion that does not fit, such as %d with I, or a second one is undefined.
- **C125 A fingerprint file binds exactly its instructions** (partial). LibLoadModel.v models `(`, `)` and `t` with files on top of CoreModel.v; the effect of `(` and `)` on every meaning by induction over the instructions the file defines; calls by C110 and its like. Theorems: `C125_load_partial`, `C125_again`, `C125_unload`, `C125_restores`, `C125_builtin`, `C125_call`, `C125_modu`, `C125_outside_refuted`, `C125_third_refuted`, `C125_threads_refuted`, `C125_permission_refuted`, `C125_other`. Proved for ASCII names of up to eight characters that do not start with a slash, while at most two universes of the file exist. Refuted: a name that starts with a slash opens a file anywhere, whatever the permissions; the third IP that loads the same file, or is cloned from one that has, never comes back; a library may run commands and use files when its program may not. FING's and MVRS's own ways of loading are not covered.
- **C126 DIRF changes directories, makes and removes them as asked** (partial). DirModel.v models pathname resolution, mkdir, rmdir and chdir on a finite tree; each instruction by unfolding, histories by induction with the invariant that entries are in directories. Theorems: `C126_C`, `C126_M_partial`, `C126_R_partial`, `C126_undo`, `C126_files`, `C126_M_refuted`, `C126_R_refuted`, `C126_execute`. Proved against a model of a POSIX file system without symbolic links and permissions, for every name made of entries and slashes, relative or absolute; C126_files for all texts and all histories. Refuted: M where a file is or whose directory is missing, and R of a directory that is not empty, do not reflect but end the interpreter by an uncaught exception.
- **C127 Characters pass through unchanged, and commands are run as given** (partial). Each instruction by unfolding on an arbitrary state; copying by induction over the input. Theorems: `C127_out`, `C127_in`, `C127_in_return`, `C127_end`, `C127_echo`, `C127_return_refuted`, `C127_execute`. Proved for all inputs without carriage returns. Refuted: a carriage return in the input is dropped even when no newline follows it.
- **C128 Files written with o and read with i hold what the program meant** (partial). The instructions are run on an arbitrary state down to Field::parse and Field::dump, whose effect is proved by induction over the text (FieldProofs.v, BinaryProofs.v) and over the rows (DumpProofs.v, BinaryProofs.v). Theorems: `C128_o`, `C128_o_binary`, `C128_i`, `C128_i_binary`, `C128_missing`, `C128_copy`, `C128_binary_refuted`, `C128_offset_refuted`, `C128_lastline_refuted`. Proved for two dimensions, texts without vertical tab and form feed, and regions of at least one cell. Refuted: bytes written with o do not come back with i as the same cells, the newlines after the rows being read as cells; the vectors pushed by i name another place if the storage offset is not zero, and leave out a last line that has no newline. Other dimensions: see C13.
- **C129 Simple whole programs print exactly what they should** (proved). An invariant of the world names the column, direction, mode, stack, input and output; each instruction maps it to the next (theorems of the instructions), the loops by induction over the input or the text. Theorems: `C129_cat`, `C129_print`. Whole runs from the bytes of the program file to the output and exit code, for inputs and texts of every length.
- **C130 Every arithmetic expression in postfix form prints its value** (partial). By induction over the expression, with the invariant of C129: the code of an expression leaves its value on the stack or reaches an undefined operation. Theorems: `C130_expr_partial`, `C130_undefined`, `C130_wide_refuted`. Proved for values of 32 bits. Refuted: a value that needs more than 32 bits is printed wrongly (see C23).
- **C131 Simple whole ><> and *><> programs print exactly what they should** (proved). As C129, with an invariant of the ><> runner whose cells are doubles that stand for whole numbers (C74); loops by induction over the input or the text. Theorems: `C131_cat`, `C131_print`. Whole runs from the bytes of the program file to the output and exit code, for inputs and texts of every length, in both dialects.
- **C132 Every arithmetic expression in postfix form prints its value in ><>** (partial). By induction over the expression, with the invariant of C131. Theorems: `C132_expr_partial`, `C132_large_refuted`. Proved for expressions whose intermediate results are whole numbers of at most 2^53 in size, and for divisions by zero. Refuted beyond: 2^53 + 1 is printed as 2^53 (see C74).
- **C133 Structured programs with variables, conditionals and loops, translated to one row of Befunge-98, run as the language says** (proved). Invariant: row 0 is the program, row 1 the variables, and the bounds of the space contain the whole row although cells are written and erased. Every piece of code is entered and left at its ends; by induction over the derivation of a terminating execution, and for endless programs by induction over the number of iterations and the statement. Theorems: `C133_program`, `C133_endless`, `C133_undefined`. A translator for a While language is part of the statement; programs that end, that never end and that come to an undefined operation, from the bytes of the program file to the output and exit code. The limits named in the property are those found in C19 and C23.
- **C134 A program that splits into two IPs prints the two threads interleaved instruction by instruction** (proved). Each IP is described by its own predicate (Ip) beside one for the world (Wd); a step of the IP at the head of the queue keeps the other IP unchanged; simultaneous induction over the code of both threads, then over what is left of the longer one. The interleaving is a function of the texts each instruction prints (turns), the texts are given by Shows. Theorems: `C134_two`. From the bytes of the program file to the output and exit code; the expressions are those of C130, whose limits apply.
- **C135 funge++ -std=be98 FILE prints what the program in the file prints, and returns its exit code** (proved). The invariant of C129, C130, C133 and C134 holds for every name, argument list and environment in the configuration; launched proves it of the world createUniverse makes from the file, parsed computes the configuration the options give, and the programs are then run by the lemmas of those properties. Theorems: `C135_refused`, `C135_missing`, `C135_cat`, `C135_print`, `C135_expr`, `C135_program`, `C135_endless`, `C135_undefined`, `C135_two`. From the command line to the output and exit code. fungemain (MainModel.v) joins the modelled parts; waiting for all universes is the run of the first one, because these programs create no other. The option -std=be98 is fixed; other options are the subject of C61 and C62.
