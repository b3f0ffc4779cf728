{
 "claims": [
  {
   "property": "C01",
   "status": "proved",
   "theorems": [
    "C01_add",
    "C01_sub",
    "C01_reverse",
    "C01_left",
    "C01_right",
    "C01_set"
   ],
   "note": ""
  },
  {
   "property": "C02",
   "status": "proved",
   "theorems": [
    "C02_eq",
    "C02_lt",
    "C02_le",
    "C02_strict_order"
   ],
   "note": ""
  },
  {
   "property": "C03",
   "status": "proved",
   "theorems": [
    "C03_hash"
   ],
   "note": ""
  },
  {
   "property": "C04",
   "status": "proved",
   "theorems": [
    "C04_enumerates",
    "C04_box_exact",
    "C04_box_once"
   ],
   "note": "corners within +-2^62 so that the step arithmetic cannot overflow"
  },
  {
   "property": "C05",
   "status": "partial",
   "theorems": [
    "C05_roundtrip_partial",
    "C05_terminates_partial",
    "C05_refuted",
    "C05_min_refuted"
   ],
   "note": "finding: reading a text without ')' never ends; the coordinate -2^63 cannot be read back. Proved for all other vectors and all texts with ')'."
  },
  {
   "property": "C06",
   "status": "proved",
   "theorems": [
    "C06_history"
   ],
   "note": ""
  },
  {
   "property": "C07",
   "status": "partial",
   "theorems": [
    "C07_partial",
    "C07_refuted"
   ],
   "note": "finding: removing a stack while a lower one is selected leaves the selection out of range"
  },
  {
   "property": "C08",
   "status": "partial",
   "theorems": [
    "C08_partial",
    "C08_copy_reverses",
    "C08_refuted"
   ],
   "note": "finding: the copy holds the stacks in reverse order"
  },
  {
   "property": "C09",
   "status": "proved",
   "theorems": [
    "C09_history",
    "C09_write"
   ],
   "note": ""
  },
  {
   "property": "C10",
   "status": "partial",
   "theorems": [
    "C10_nonzero_partial",
    "C10_no_erase_partial",
    "C10_refuted"
   ],
   "note": "finding: erasing a cell can shrink the bounds past 0, so that later cells with a zero coordinate are outside"
  },
  {
   "property": "C11",
   "status": "proved",
   "theorems": [
    "C11_text",
    "C11_formfeed_refuted"
   ],
   "note": "texts made of lines, as stated; with form feeds blank lines are dropped (finding)"
  },
  {
   "property": "C12",
   "status": "proved",
   "theorems": [
    "C12_roundtrip"
   ],
   "note": ""
  },
  {
   "property": "C13",
   "status": "partial",
   "theorems": [
    "C13_2d_partial",
    "C13_1d_refuted"
   ],
   "note": "finding: a one-dimensional region writes at most its first cell"
  },
  {
   "property": "C14",
   "status": "proved",
   "theorems": [
    "C14_lahey",
    "C14_terminates",
    "C14_outside"
   ],
   "note": "Any dimension, any bounds and any delta; fuel 2^70 of the model's walk is proved never to run out."
  },
  {
   "property": "C15",
   "status": "proved",
   "theorems": [
    "C15_retrace",
    "C15_step"
   ],
   "note": "Any dimension and any number of steps."
  },
  {
   "property": "C16",
   "status": "partial",
   "theorems": [
    "C16_stays_refuted",
    "C16_reverse_refuted",
    "C16_stays_partial",
    "C16_interior_partial"
   ],
   "note": "False of the code: the wrap comparisons are off by one, so an IP reaches column 80 and row 25, and stepping back from there does not return. Proved: it stays in 0..80 x 0..25, and reverses away from the seam."
  },
  {
   "property": "C17",
   "status": "proved",
   "theorems": [
    "C17_open",
    "C17_sgml",
    "C17_collapsed_total",
    "C17_multispace",
    "C17_char_cells_refuted"
   ],
   "note": "SGML and multispace strings of byte-valued (0..255) cells of any length, with tick counts. With -fcells=char bytes above 127 become negative cells, on which isspace is undefined (C17_char_cells_refuted)."
  },
  {
   "property": "C18",
   "status": "proved",
   "theorems": [
    "C18_cstring"
   ],
   "note": "All texts, including escaped quotes; one tick per pushed value."
  },
  {
   "property": "C19",
   "status": "proved",
   "theorems": [
    "C19_arith",
    "C19_not",
    "C19_division"
   ],
   "note": "All operand values, missing operands included; the undefined cases are characterised exactly."
  },
  {
   "property": "C20",
   "status": "proved",
   "theorems": [
    "C20_stack_ops",
    "C20_digits"
   ],
   "note": "The frame is equality of the whole interpreter state up to the selected stack."
  },
  {
   "property": "C21",
   "status": "proved",
   "theorems": [
    "C21_put",
    "C21_get",
    "C21_roundtrip"
   ],
   "note": "For an IP still in the universe it was created in (Home); for moved IPs see C47."
  },
  {
   "property": "C22",
   "status": "partial",
   "theorems": [
    "C22_refuted",
    "C22_partial"
   ],
   "note": "False of the code: s stores a char and ' fetches an int. Proved for values -128..127."
  },
  {
   "property": "C23",
   "status": "partial",
   "theorems": [
    "C23_refuted",
    "C23_partial",
    "C23_empty",
    "C23_unique"
   ],
   "note": "False of the code beyond 32 bits (the value is cast to int). Proved for 32-bit values against an independent decimal specification."
  },
  {
   "property": "C24",
   "status": "proved",
   "theorems": [
    "C24_begin",
    "C24_end",
    "C24_inverse"
   ],
   "note": "All stacks, counts (except -2^63), storage offsets and dimensions, for ordinary (no MODE flag) stacks."
  },
  {
   "property": "C25",
   "status": "proved",
   "theorems": [
    "C25_under",
    "C25_undo",
    "C25_single"
   ],
   "note": "All stacks and counts except -2^63."
  },
  {
   "property": "C26",
   "status": "partial",
   "theorems": [
    "C26_partial",
    "C26_lahey_partial",
    "C26_refuted"
   ],
   "note": "Proved for every count strictly between -2^31 and 2^31 (torus and Lahey-space; total in Lahey-space from every in-bounds position). Refuted beyond: 2^32 j is 0 j (the count is truncated to int) and -2^31 j is undefined behaviour."
  },
  {
   "property": "C27",
   "status": "partial",
   "theorems": [
    "C27_times",
    "C27_negative",
    "C27_zero_partial",
    "C27_zero_refuted"
   ],
   "note": "n>0 and n<0 proved for every layout of spaces and comments of byte-valued cells. 0k proved only when the instruction is the next cell; refuted otherwise ('0k 5' executes the 5)."
  },
  {
   "property": "C28",
   "status": "proved",
   "theorems": [
    "C28_comment",
    "C28_frame"
   ],
   "note": "Termination uses the theorem that a Lahey-space walk returns to its starting cell."
  },
  {
   "property": "C29",
   "status": "proved",
   "theorems": [
    "C29_set",
    "C29_absolute",
    "C29_reflect",
    "C29_turn",
    "C29_turns_inverse",
    "C29_turn_order",
    "C29_if",
    "C29_compare",
    "C29_away"
   ],
   "note": "Every direction instruction, for every delta and dimension count; 2-D turns are the rotations and mutually inverse."
  },
  {
   "property": "C30",
   "status": "proved",
   "theorems": [
    "C30_failing",
    "C30_unimplemented",
    "C30_core_failures"
   ],
   "note": "Every failing instruction bounces; the core instructions that fail do so without any other change."
  },
  {
   "property": "C31",
   "status": "proved",
   "theorems": [
    "C31_fresh",
    "C31_always"
   ],
   "note": "Every IP, new or alive at any moment of any run, has for every cell value that is not an upper-case letter exactly the documented meaning; letters are unbound until a fingerprint is loaded. Fish standards are not in this model."
  },
  {
   "property": "C32",
   "status": "partial",
   "theorems": [
    "C32_partial",
    "C32_refuted",
    "C32_queue_refuted"
   ],
   "note": "C32_partial: for every argument that fits a 32-bit int and a stack in normal mode, y with n>0 leaves exactly the n-th cell of (system information ++ stack), and with n<=0 the whole information, changing only the stacks and the clock. Refuted beyond: the argument is narrowed to int (2^32 behaves as 0), and in queue mode the cells of the program are lost."
  },
  {
   "property": "C33",
   "status": "partial",
   "theorems": [
    "C33_reads_partial",
    "C33_none",
    "C33_refuted"
   ],
   "note": "False of the code when the input ends right after the digits. Proved with a terminator, including overflow."
  },
  {
   "property": "C34",
   "status": "proved",
   "theorems": [
    "C34_quit",
    "C34_tick",
    "C34_drain",
    "C34_forever"
   ],
   "note": "Funge threading with atomic ticks: the tick that executes q, the silent removal of the stopped IPs afterwards, and for any schedule of all universes a stopped IP never moves again. The state after q is that of a queue without duplicates (see C39)."
  },
  {
   "property": "C35",
   "status": "proved",
   "theorems": [
    "C35_thread",
    "C35_fresh",
    "C35_disabled",
    "C35_scheduled"
   ],
   "note": "For IPs whose loaded fingerprints are built-in (not FungeLib files)."
  },
  {
   "property": "C36",
   "status": "partial",
   "theorems": [
    "C36_fifo",
    "C36_requeue",
    "C36_fair_partial",
    "C36_fair_single",
    "C36_fair_universes_partial",
    "C36_refuted"
   ],
   "note": "Every queue is first in, first out for all executions. Fairness proved for programs in one universe and for all programs that execute nothing through k; refuted for an IP that moves to another universe and back in one tick (2kJ of MVRS), which is then queued twice."
  },
  {
   "property": "C37",
   "status": "proved",
   "theorems": [
    "C37_wakeup",
    "C37_no_sleep",
    "C37_waiter",
    "C37_runs",
    "C37_again",
    "C37_return"
   ],
   "note": "Transition system of all universe threads and any other threads with the semaphore, mutexes and condition variables step by step. Safety for every reachable state; liveness for every fair infinite run in which ticks end: a queued IP is ticked (again and again if it stays), a waiter returns."
  },
  {
   "property": "C38",
   "status": "partial",
   "theorems": [
    "C38_partial",
    "C38_refuted"
   ],
   "note": "Refuted: nobody notifies the universe's condition variable in native mode, so a main thread that went to sleep before the IPs ended is never woken (only a spurious wake-up helps). Proved: when it does return, no IP is running or the universe was killed."
  },
  {
   "property": "C39",
   "status": "partial",
   "theorems": [
    "C39_partial",
    "C39_refuted"
   ],
   "note": "With atomic ticks: proved for all executions in which nothing is executed through k; refuted by 2kJ."
  },
  {
   "property": "C40",
   "status": "partial",
   "theorems": [
    "C40_partial",
    "C40_file_partial",
    "C40_refuted",
    "C40_distinct"
   ],
   "note": "first and second universe of a name get fresh names and existing ones are untouched; names stay distinct in every run; a third of the same name never terminates (C40_refuted)"
  },
  {
   "property": "C41",
   "status": "partial",
   "theorems": [
    "C41_partial",
    "C41_load_partial",
    "C41_unload",
    "C41_nested_partial",
    "C41_core",
    "C41_refuted"
   ],
   "note": "Proved for all built-in fingerprints but DBUG, for which it is refuted: loading DBUG binds nothing and unloading it takes other meanings away. Core meanings never change (C41_core), for all programs. Fingerprints from files are the subject of C125."
  },
  {
   "property": "C42",
   "status": "partial",
   "theorems": [
    "C42_partial",
    "C42_refuted"
   ],
   "note": "Holds for fingerprints the IP never loaded; refuted for one loaded and unloaded before: a second unload succeeds and removes meanings given by other fingerprints."
  },
  {
   "property": "C43",
   "status": "partial",
   "theorems": [
    "C43_partial",
    "C43_histories",
    "C43_new",
    "C43_refuted"
   ],
   "note": "Holds for IPs that load fingerprints and only unload the most recently loaded one; refuted for other orders."
  },
  {
   "property": "C44",
   "status": "partial",
   "theorems": [
    "C44_partial",
    "C44_refuted"
   ],
   "note": "Holds for all built-in fingerprints but DBUG, refuted for DBUG."
  },
  {
   "property": "C45",
   "status": "partial",
   "theorems": [
    "C45_file",
    "C45_injective",
    "C45_option_partial",
    "C45_refuted",
    "C45_load"
   ],
   "note": "names of up to four characters below 128 name the fingerprint ( loads; -l keeps only the last four bytes of longer names and sign-extends bytes above 127 (C45_refuted)"
  },
  {
   "property": "C46",
   "status": "partial",
   "theorems": [
    "C46_partial",
    "C46_refuted",
    "C46_directories_refuted"
   ],
   "note": "False of the code: a universe created with MVRS B has all permissions, and DIRF needs none. Proved for all programs and executions that create no universe (commands, files, IPs)."
  },
  {
   "property": "C47",
   "status": "partial",
   "theorems": [
    "C47_partial",
    "C47_J",
    "C47_get",
    "C47_put",
    "C47_left",
    "C47_refuted"
   ],
   "note": "g and p act on the Funge-space the IP was created in, so after J to another universe they act on the one it left (C47_left for all states, C47_refuted concretely); an IP that stays keeps its own"
  },
  {
   "property": "C48",
   "status": "partial",
   "theorems": [
    "C48_partial",
    "C48_P_exact",
    "C48_F_exact",
    "C48_refuted"
   ],
   "note": "exact account: the cells from 0 to size inclusive are copied, so the requested area is copied, but one further row and column too, for every size (C48_refuted)"
  },
  {
   "property": "C49",
   "status": "partial",
   "theorems": [
    "C49_partial",
    "C49_zero_partial",
    "C49_refuted"
   ],
   "note": "nonzero sizes of either sign, disjoint blocks: exactly the block is copied (M and V blank the source) and nothing else changes; a zero before a nonzero size, or all zero, copies nothing; a trailing zero size (3 by 0) copies 3 cells (C49_refuted)"
  },
  {
   "property": "C50",
   "status": "partial",
   "theorems": [
    "C50_partial",
    "C50_roll_order",
    "C50_refuted"
   ],
   "note": "All of D O R P L (also with negative counts) for every stack and every count but the largest ones; C50_refuted: with the count INT64_MAX, P and L compute count+1, which overflows."
  },
  {
   "property": "C51",
   "status": "proved",
   "theorems": [
    "C51_strings",
    "C51_refuses",
    "C51_P",
    "C51_G",
    "C51_roundtrip",
    "C51_G_endless",
    "C51_V_throws"
   ],
   "note": "STRN's A, N, C, F, L, R and M compute the corresponding list operation on the zero-terminated strings on the stack, refuse out-of-range operands, and G reads back what P wrote. G without a zero in the way never returns and V on a string that is no number throws (both stated)."
  },
  {
   "property": "C52",
   "status": "partial",
   "theorems": [
    "C52_partial",
    "C52_call_partial",
    "C52_return_partial",
    "C52_enters",
    "C52_J",
    "C52_AO",
    "C52_refuted"
   ],
   "note": "Proved for every non-negative count: C enters the target travelling east with its arguments on the stack and the caller's position and delta below them; R, from any state with such a return address, restores position and delta so the next move is the caller's. A negative count is undefined behaviour (C52_refuted). J jumps one past its target (C52_J)."
  },
  {
   "property": "C53",
   "status": "proved",
   "theorems": [
    "C53",
    "C53_R",
    "C53_R_ends",
    "C53_D",
    "C53_history"
   ],
   "note": "C53: the reference R gives dereferences to its vector after any execution of any set of IPs, and no later R gives it again. C53_R_ends: R succeeds as soon as random() brings an unused number (for a random source that only repeats used numbers it searches forever)."
  },
  {
   "property": "C54",
   "status": "partial",
   "theorems": [
    "C54_partial",
    "C54_print_partial",
    "C54_read_partial",
    "C54_unary_partial",
    "C54_read_unary_partial",
    "C54_safe_partial",
    "C54_unique",
    "C54_refuted",
    "C54_digit_refuted"
   ],
   "note": "bases 2 to 32 and base 1 with positive numbers round trip for all non-negative numbers; no table is overrun for non-negative numbers in any base; every negative number the base does not divide reads outside the table (C54_refuted); the digit equal to the base is accepted (C54_digit_refuted)"
  },
  {
   "property": "C55",
   "status": "partial",
   "theorems": [
    "C55_G",
    "C55_L",
    "C55_P",
    "C55_refuses",
    "C55_I",
    "C55_A_partial",
    "C55_D",
    "C55_sleeps",
    "C55_refuted"
   ],
   "note": "G, L and P act on exactly the two stacks involved; an ID outside the universe is refused; a sleeping IP wakes exactly when its stack was operated on, over every history of the other IPs. A gives the parent's ID only while the parent exists: without one it dereferences null, after the parent stopped it reads a deleted object (C55_refuted). L does not count as an operation."
  },
  {
   "property": "C56",
   "status": "partial",
   "theorems": [
    "C56_partial",
    "C56_S",
    "C56_refuted"
   ],
   "note": "A, M, D and O are proved for all pairs of 128-bit numbers; S adds (C56_S, for all pairs), so it does not subtract (C56_refuted). third_party/bigint is absent from the checkout and modelled as two's complement 128-bit arithmetic."
  },
  {
   "property": "C57",
   "status": "partial",
   "theorems": [
    "C57_toggle",
    "C57_reach",
    "C57_partial",
    "C57_refuted"
   ],
   "note": "C57_toggle/C57_reach: the flag is toggled in the universe and given to every stack of every IP of it. C57_partial: toggling twice restores the interpreter if every stack had its universe's flags. C57_refuted: a stack made by { after MODE Q does not have the flag."
  },
  {
   "property": "C58",
   "status": "proved",
   "theorems": [
    "C58_create",
    "C58_create_too_few",
    "C58_destroy",
    "C58_destroy_last",
    "C58_inverse",
    "C58_negative_refuted"
   ],
   "note": "For every count that is a whole number up to 2^53, all stacks and registers; the topmost stack is selected, as always in ><>. A negative count is undefined behaviour (C58_negative_refuted)."
  },
  {
   "property": "C59",
   "status": "partial",
   "theorems": [
    "C59_store_partial",
    "C59_empty",
    "C59_restore_refuted",
    "C59_fraction_refuted"
   ],
   "note": "Refuted: the second & empties the register without pushing the value back, for every stack; fractions are cut off. Proved: the first & moves a whole number to the register."
  },
  {
   "property": "C60",
   "status": "partial",
   "theorems": [
    "C60_call_partial",
    "C60_return_partial",
    "C60_data_refuted",
    "C60_unmatched_refuted"
   ],
   "note": "Refuted: R removes the data stack instead of the return stack, for every stack; R without a call reads outside the list of stacks. Proved: C jumps and saves its position, R jumps back to it."
  },
  {
   "property": "C61",
   "status": "partial",
   "theorems": [
    "C61_settings",
    "C61_refused_partial",
    "C61_refuted",
    "C61_unknown"
   ],
   "note": "each documented option sets exactly its setting and bad values are refused; an option with an empty value such as -std= compares a null pointer (C61_refuted); unknown options are accepted silently (C61_unknown)"
  },
  {
   "property": "C62",
   "status": "partial",
   "theorems": [
    "C62_partial",
    "C62_refuted"
   ],
   "note": "the format loaded follows the extension for every path; a .bf file without -std keeps the Funge-98 settings instead of those of -std=be93 (C62_refuted)"
  },
  {
   "property": "C63",
   "status": "proved",
   "theorems": [
    "C63_backtrace",
    "C63_printed"
   ],
   "note": "over all histories of instructions, prompts with any commands, traps and ended IPs"
  },
  {
   "property": "C64",
   "status": "proved",
   "theorems": [
    "C64_vector",
    "C64_string",
    "C64_layout"
   ],
   "note": "Strings of non-NUL chars."
  },
  {
   "property": "C65",
   "status": "proved",
   "theorems": [
    "C65_planes"
   ],
   "note": ""
  },
  {
   "property": "C66",
   "status": "proved",
   "theorems": [
    "C66_tick",
    "C66_block",
    "C66_undefined",
    "C66_blank_line"
   ],
   "note": "Includes the converse: a tick on a wholly blank path does not terminate with any fuel (the interpreter hangs)."
  },
  {
   "property": "C67",
   "status": "partial",
   "theorems": [
    "C67_reversed",
    "C67_partial",
    "C67_refuted"
   ],
   "note": "False of the code: the child of t gets the stacks in reverse order. Proved: contents copied, reversed; a copy when there is one stack."
  },
  {
   "property": "C68",
   "status": "proved",
   "theorems": [
    "C68_breakpoints",
    "C68_prompt",
    "C68_commands"
   ],
   "note": ""
  },
  {
   "property": "C69",
   "status": "partial",
   "theorems": [
    "C69_partial",
    "C69_refuted"
   ],
   "note": "any number of ignored lines followed by run, step or quit leave the prompt; at the end of the input the prompt repeats forever, for every state that stops (C69_refuted)"
  },
  {
   "property": "C70",
   "status": "proved",
   "theorems": [
    "C70_command",
    "C70_session"
   ],
   "note": "All commands other than quit, setdelta and setpos, on every state on which they are defined; choosing another universe is not modelled."
  },
  {
   "property": "C71",
   "status": "partial",
   "theorems": [
    "C71_partial",
    "C71_refuted"
   ],
   "note": "right when the selected IP is the only live one; with two live IPs every line shows the selected IP's position, and selecting an ended IP reads freed memory (C71_refuted)"
  },
  {
   "property": "C72",
   "status": "partial",
   "theorems": [
    "C72_partial",
    "C72_refuted"
   ],
   "note": "Proved for all schedules without transfers between universes. Refuted with a transfer: the old universe's thread reads the IP after the new universe deleted it."
  },
  {
   "property": "C73",
   "status": "partial",
   "theorems": [
    "C73_partial",
    "C73_refuted"
   ],
   "note": "Proved when IPs are added only by their own universe's thread while waiting. Refuted when an IP moves from a universe not yet visited to one already passed in the scan."
  },
  {
   "property": "C74",
   "status": "partial",
   "theorems": [
    "C74_integer",
    "C74_zero",
    "C74_too_few",
    "C74_digit",
    "C74_print",
    "C74_beyond_refuted"
   ],
   "note": "Proved for whole numbers up to 2^53 with a result of that kind. Beyond 2^53 sums are rounded (C74_beyond_refuted). Fractions are the subject of C121 and C122."
  },
  {
   "property": "C75",
   "status": "partial",
   "theorems": [
    "C75_shuffle",
    "C75_too_few",
    "C75_length",
    "C75_empty_refuted"
   ],
   "note": "Proved for all stacks; refuted for { and } on an empty stack, which read outside a temporary array."
  },
  {
   "property": "C76",
   "status": "proved",
   "theorems": [
    "C76_error"
   ],
   "note": "For every state and every error of an instruction, both languages; in *><> an unknown character is no error while diving (C83)."
  },
  {
   "property": "C77",
   "status": "partial",
   "theorems": [
    "C77_registers",
    "C77_star_refuted"
   ],
   "note": "Proved for ><>: all programs, inputs and steps. Refuted for *><>: ] after a call removes the only register."
  },
  {
   "property": "C78",
   "status": "partial",
   "theorems": [
    "C78_memory_partial",
    "C78_shift_refuted",
    "C78_star_refuted"
   ],
   "note": "Proved for ><>: every memory error of every run is { or } on an empty stack, which is one. Refuted for *><>: R without a call, ] after D."
  },
  {
   "property": "C79",
   "status": "proved",
   "theorems": [
    "C79_string"
   ],
   "note": "All texts of codes up to 2^53, both quotes, both languages, string style multispace (the style of .fish and .sf files)."
  },
  {
   "property": "C80",
   "status": "proved",
   "theorems": [
    "C80_skip",
    "C80_conditional",
    "C80_jump",
    "C80_end"
   ],
   "note": "Both languages, all states; the tested number is a whole number up to 2^53."
  },
  {
   "property": "C81",
   "status": "proved",
   "theorems": [
    "C81_turn",
    "C81_twice"
   ],
   "note": "All directions without a component of -2^63, diving or not, MODE hover off."
  },
  {
   "property": "C82",
   "status": "proved",
   "theorems": [
    "C82_get",
    "C82_put",
    "C82_round_trip"
   ],
   "note": "All coordinates and numbers up to 2^53, all stacks, any number of dimensions; cells are not 8-bit and the storage offset is the origin, as always in ><>."
  },
  {
   "property": "C83",
   "status": "proved",
   "theorems": [
    "C83_dive",
    "C83_pass"
   ],
   "note": "All states and characters; the movements themselves are C81, C83_dive and C87."
  },
  {
   "property": "C84",
   "status": "partial",
   "theorems": [
    "C84_dive",
    "C84_pass_partial",
    "C84_movements",
    "C84_unknown_refuted"
   ],
   "note": "Proved: U and O, and passing of every bound non-movement. Refuted: an unbound character turns a diving IP round. C84_movements lists what counts as movement."
  },
  {
   "property": "C85",
   "status": "partial",
   "theorems": [
    "C85_mirror",
    "C85_shuffle",
    "C85_conditional",
    "C85_empty_refuted"
   ],
   "note": "Proved for all stacks; refuted for L and R on an empty stack, which read outside a temporary array."
  },
  {
   "property": "C86",
   "status": "partial",
   "theorems": [
    "C86_select",
    "C86_back",
    "C86_under_refuted"
   ],
   "note": "Proved: selection and its inverse. Refuted: with the bottom stack selected u and } read outside the list of stacks."
  },
  {
   "property": "C87",
   "status": "partial",
   "theorems": [
    "C87_cast",
    "C87_reel",
    "C87_resume_partial",
    "C87_resume_refuted"
   ],
   "note": "Proved when the present direction was set by an instruction the fisherman is told of. Refuted after r, which it is not told of."
  },
  {
   "property": "C88",
   "status": "partial",
   "theorems": [
    "C88_bits",
    "C88_not",
    "C88_shift_partial",
    "C88_shift_undefined",
    "C88_refuted"
   ],
   "note": "Proved: all bitwise operators, and shifts by fewer than 64 places. Refuted: BITW's shifts by 64 or more or by negative counts are undefined in C++."
  },
  {
   "property": "C89",
   "status": "proved",
   "theorems": [
    "C89_arith",
    "C89_overflow",
    "C89_print",
    "C89_text_unique"
   ],
   "note": "All operands; C89_text_unique says that the printed text determines the number."
  },
  {
   "property": "C90",
   "status": "partial",
   "theorems": [
    "C90_unary",
    "C90_sqrt_partial",
    "C90_sqrt_negative",
    "C90_power",
    "C90_random_partial",
    "C90_random_refuted",
    "C90_sqrt_refuted"
   ],
   "note": "Proved for all operands, square roots for 0 to 2^52. Refuted: the square root of 2^54-1 comes out as 2^27 because the operand is rounded to a double first; negative operands are undefined; D's bound is truncated to 32 bits, and is undefined for 2^31."
  },
  {
   "property": "C91",
   "status": "partial",
   "theorems": [
    "C91_unary",
    "C91_extend",
    "C91_shift",
    "C91_print",
    "C91_parse",
    "C91_negative_refuted"
   ],
   "note": "Proved for all numbers and all unsigned texts. Refuted: a leading minus is read as the digit -3, so that -5 becomes -25."
  },
  {
   "property": "C92",
   "status": "partial",
   "theorems": [
    "C92_put",
    "C92_get",
    "C92_refuted"
   ],
   "note": "Proved: both transfers, any number of dimensions, any count whose cells have 64-bit coordinates; for P the step is not null and cells are not 8-bit. Refuted: G after P leaves the cells in reverse order."
  },
  {
   "property": "C93",
   "status": "proved",
   "theorems": [
    "C93_extension",
    "C93_dotless",
    "C93_fish"
   ],
   "note": "All paths. C93_extension gives every setting of the resulting configuration; C93_fish compares with -std."
  },
  {
   "property": "C94",
   "status": "proved",
   "theorems": [
    "C94_setpos",
    "C94_setdelta",
    "C94_quit",
    "C94_trap",
    "C94_off"
   ],
   "note": "All states, IPs and vectors that fit in 64 bits; setdelta in hover mode when the sum fits."
  },
  {
   "property": "C95",
   "status": "partial",
   "theorems": [
    "C95_all",
    "C95_cell_partial",
    "C95_refuted"
   ],
   "note": "Proved for every stack that exists. Refuted: asking for a stack that does not exist reads outside the list of stacks."
  },
  {
   "property": "C96",
   "status": "partial",
   "theorems": [
    "C96_list_partial",
    "C96_get_partial",
    "C96_universe",
    "C96_refuted",
    "C96_deep_refuted",
    "C96_ended_refuted"
   ],
   "note": "Proved: the rectangle for any two ascending dimensions while every listed IP exists. Refuted: arguments left out read an uninitialised character; a size reaching into a higher dimension never finishes; after an IP has ended it is used although deleted."
  },
  {
   "property": "C97",
   "status": "proved",
   "theorems": [
    "C97_get",
    "C97_put",
    "C97_delta",
    "C97_position",
    "C97_skip",
    "C97_print"
   ],
   "note": "All states and operands; V and W outside hover mode."
  },
  {
   "property": "C98",
   "status": "partial",
   "theorems": [
    "C98_fixed",
    "C98_if",
    "C98_axis_partial",
    "C98_axis_refuted",
    "C98_B_refuted"
   ],
   "note": "Proved: directions and dimensions of A V L H C D I M R; the direction of X Y Z. Refuted: X Y Z along a new dimension leave the universe one dimension too small; B is bound but not implemented."
  },
  {
   "property": "C99",
   "status": "proved",
   "theorems": [
    "C99_mark",
    "C99_elapsed",
    "C99_unmarked",
    "C99_second",
    "C99_granularity"
   ],
   "note": "All clocks that do not run backwards past the mark."
  },
  {
   "property": "C100",
   "status": "proved",
   "theorems": [
    "C100_drop",
    "C100_copy",
    "C100_swap",
    "C100_swap_twice",
    "C100_invalid",
    "C100_copied_letter"
   ],
   "note": "All states and operands."
  },
  {
   "property": "C101",
   "status": "partial",
   "theorems": [
    "C101_partial",
    "C101_itself_refuted"
   ],
   "note": "Proved: all sizes and displacements of the side the instruction is meant for, and copies onto itself. Refuted: M of a block onto itself erases it."
  },
  {
   "property": "C102",
   "status": "partial",
   "theorems": [
    "C102_shift_partial",
    "C102_zero",
    "C102_refuted"
   ],
   "note": "Proved when the recorded extent contains the non-blank cells of the line. Refuted: the recorded extent can miss cells (C10), which then stay."
  },
  {
   "property": "C103",
   "status": "partial",
   "theorems": [
    "C103_take",
    "C103_give",
    "C103_fill",
    "C103_roundtrip",
    "C103_zero_partial",
    "C103_refuted"
   ],
   "note": "Proved for all blocks with non-zero sizes, and sizes that are zero in a dimension below a non-zero one. Refuted: a size 3 by 0 transfers three cells."
  },
  {
   "property": "C104",
   "status": "proved",
   "theorems": [
    "C104_unary",
    "C104_copies",
    "C104_butterfly",
    "C104_fold"
   ],
   "note": "All stacks and operands."
  },
  {
   "property": "C105",
   "status": "partial",
   "theorems": [
    "C105_look",
    "C105_store",
    "C105_axis_partial",
    "C105_axis_refuted",
    "C105_step",
    "C105_random_partial",
    "C105_random_refuted",
    "C105_wait"
   ],
   "note": "Refuted: T with a negative dimension makes a vector of that size before the check; with -finvert-hl the arrow left by U points the other way."
  },
  {
   "property": "C106",
   "status": "proved",
   "theorems": [
    "C106"
   ],
   "note": "ThreadModel: looks <= IPs queued + kills, for every run of the model."
  },
  {
   "property": "C107",
   "status": "partial",
   "theorems": [
    "C107_kill",
    "C107_ends",
    "C107_native",
    "C107_destroy_partial",
    "C107_destroy_refuted"
   ],
   "note": "Ending is proved in full for both threading models (fairness, ending ticks and a closed universe are hypotheses of C107_ends). Refuted part: with native threads the destructor never pops the threads it joins, so it uses a deleted thread object whenever one is left; C107_destroy_partial gives the exact condition, C107_destroy_refuted a schedule that meets it."
  },
  {
   "property": "C108",
   "status": "partial",
   "theorems": [
    "C108_partial",
    "C108_cases",
    "C108_refuted",
    "C108_short_refuted"
   ],
   "note": "Placement is proved for every well-formed file. Refuted: the Dimensions header does not decide the dimensions of the universe (the constructor of Field overrides it), and a block that ends early repeats its last line or shows its own control line."
  },
  {
   "property": "C109",
   "status": "partial",
   "theorems": [
    "C109_start",
    "C109_missing",
    "C109_starts",
    "C109_partial",
    "C109_nested",
    "C109_text",
    "C109_newline_refuted",
    "C109_blank_refuted",
    "C109_here_refuted",
    "C109_self_refuted"
   ],
   "note": "Proved for program files (other than fish) and for .fmv files that list program files or, to any depth, other .fmv files (C109_nested), with any white space before and between the words of a line. Refuted: a final newline or blank line makes the launcher ask for the directory itself, white space at the end of a line passes an extra empty argument, a .fmv file named without directory looks in the root directory, and one that lists itself never finishes."
  },
  {
   "property": "C110",
   "status": "partial",
   "theorems": [
    "C110_open",
    "C110_R",
    "C110_zero",
    "C110_M",
    "C110_floor_partial",
    "C110_U",
    "C110_unsigned_partial",
    "C110_refuted"
   ],
   "note": "R and the zero divisor are proved in full. M and U are proved to compute modu_m and modu_u for all numbers with |a|+|b| < 2^63, and the exact conditions under which these are the documented remainders are C110_floor_partial and C110_unsigned_partial. Refuted: exact divisions (M with a negative quotient, U always) give the divisor instead of 0, and M leaves small numbers of the other sign uncorrected. How ( finds the library file is not part of these theorems."
  },
  {
   "property": "C111",
   "status": "proved",
   "theorems": [
    "C111_open",
    "C111_values",
    "C111_print",
    "C111_reading"
   ],
   "note": "The numeral is specified digit by digit (roman) and shown to read back as the number (C111_reading). How ( finds the library file is not part of these theorems."
  },
  {
   "property": "C112",
   "status": "partial",
   "theorems": [
    "C112_open",
    "C112_fixed",
    "C112_down",
    "C112_up",
    "C112_goto",
    "C112_lines_partial",
    "C112_lines_refuted"
   ],
   "note": "The sequences written are proved for all arguments (positions from 0; INT64_MIN lines overflow). Refuted: moving by 0 lines writes CSI 0 A or CSI 0 B, which terminals take as one line; the meaning of a sequence is a small terminal model in PropsTerm.v."
  },
  {
   "property": "C113",
   "status": "proved",
   "theorems": [
    "C113_open",
    "C113"
   ],
   "note": "Deltas with a coordinate INT64_MIN overflow when reversed and are excluded. How ( finds the library file is not part of these theorems."
  },
  {
   "property": "C114",
   "status": "partial",
   "theorems": [
    "C114_word",
    "C114_put",
    "C114_stop",
    "C114_restore_partial",
    "C114_restore_refuted",
    "C114_lost_refuted",
    "C114_dims_refuted"
   ],
   "note": "The effects of words of Q, L, D, S, F, B, R, G, N, M, E, K and O are proved for libraries of three or more dimensions; P and X are proved one at a time (C114_put, C114_stop), not inside words. Giving back what Q pushed is proved for callers with as many dimensions as the library and refuted for two-dimensional callers, which is what most programs are."
  },
  {
   "property": "C115",
   "status": "proved",
   "theorems": [
    "C115_arith",
    "C115_nan",
    "C115_zero"
   ],
   "note": "For all numbers, including subnormal ones and overflow. NaN results are proved to be some NaN, their bits are not modelled."
  },
  {
   "property": "C116",
   "status": "partial",
   "theorems": [
    "C116_F",
    "C116_I",
    "C116_I_undefined",
    "C116_roundtrip_partial",
    "C116_roundtrip_refuted"
   ],
   "note": "F and I are characterised for all operands. The round trip holds up to 2^53 and is refuted beyond."
  },
  {
   "property": "C117",
   "status": "proved",
   "theorems": [
    "C117_exact",
    "C117_sqrt"
   ],
   "note": ""
  },
  {
   "property": "C118",
   "status": "proved",
   "theorems": [
    "C118_print"
   ],
   "note": "For all numbers. What P prints for an infinity is modelled but not stated; the sign of a NaN is not modelled."
  },
  {
   "property": "C119",
   "status": "partial",
   "theorems": [
    "C119_read_partial",
    "C119_hex_partial",
    "C119_exact",
    "C119_infinite",
    "C119_nan",
    "C119_large",
    "C119_small_refuted",
    "C119_running_refuted"
   ],
   "note": "Proved for decimal and hexadecimal numbers from 2^-1022 up, for 0, for every number that is exactly a double, for inf and nan. Refuted: text that is no number, a number that is too large, and a smaller number that is not exactly a double end the interpreter with an exception. Missing: the gap of 2^-1074 just below 2^-1022."
  },
  {
   "property": "C120",
   "status": "partial",
   "theorems": [
    "C120_I_partial",
    "C120_P_partial",
    "C120_refuted",
    "C120_R_refuted"
   ],
   "note": "I and P are proved. Every other instruction is refuted for all operands: it reads eight bytes from an object of four."
  },
  {
   "property": "C121",
   "status": "proved",
   "theorems": [
    "C121_arith",
    "C121_zero",
    "C121_compare"
   ],
   "note": "For all numbers, with fractions, subnormal ones and overflow."
  },
  {
   "property": "C122",
   "status": "partial",
   "theorems": [
    "C122_whole",
    "C122_fraction",
    "C122_large_refuted",
    "C122_special_refuted"
   ],
   "note": "Proved for all whole numbers of 64 bits and all fractions. Refuted for larger whole numbers, infinities and NaNs: converting them to an integer is undefined."
  },
  {
   "property": "C123",
   "status": "partial",
   "theorems": [
    "C123_partial",
    "C123_commands_refuted",
    "C123_variables_refuted",
    "C123_signal_refuted",
    "C123_other"
   ],
   "note": "Proved for code without dollar sign and back quote and for normal exits; the shell's double quotes are specified in PropsPerl.v. Refuted: a command in back quotes is run by the shell, a variable is replaced by the shell, and a Perl ended by a signal looks like the number 0."
  },
  {
   "property": "C124",
   "status": "partial",
   "theorems": [
    "C124_integer_partial",
    "C124_unsigned_partial",
    "C124_string_partial",
    "C124_real_partial",
    "C124_integer_format_partial",
    "C124_unsigned_format_partial",
    "C124_string_format_partial",
    "C124_real_format_partial",
    "C124_general_partial",
    "C124_zero_partial",
    "C124_infinity_partial",
    "C124_plain_partial",
    "C124_long_refuted",
    "C124_wrong_refuted",
    "C124_second_refuted"
   ],
   "note": "Proved for formats with literal text, %% and one of %ld, %li, %lu, %lo, %lx, %lX, %s, %f that fits the instruction, with the flags - 0 + and space, a width and a precision below 2^20, and finite numbers; for %g without precision, and for infinite doubles with %f and %g without precision. Missing: the flag #, %e, %a, %g with a precision, NaN. Refuted: results beyond 1023 bytes are cut without an error, and a conversion that does not fit, such as %d with I, or a second one is undefined."
  },
  {
   "property": "C125",
   "status": "partial",
   "theorems": [
    "C125_load_partial",
    "C125_again",
    "C125_unload",
    "C125_restores",
    "C125_builtin",
    "C125_call",
    "C125_modu",
    "C125_outside_refuted",
    "C125_third_refuted",
    "C125_threads_refuted",
    "C125_permission_refuted",
    "C125_other"
   ],
   "note": "Proved for ASCII names of up to eight characters that do not start with a slash, while at most two universes of the file exist. Refuted: a name that starts with a slash opens a file anywhere, whatever the permissions; the third IP that loads the same file, or is cloned from one that has, never comes back; a library may run commands and use files when its program may not. FING's and MVRS's own ways of loading are not covered."
  },
  {
   "property": "C126",
   "status": "partial",
   "theorems": [
    "C126_C",
    "C126_M_partial",
    "C126_R_partial",
    "C126_undo",
    "C126_files",
    "C126_M_refuted",
    "C126_R_refuted",
    "C126_execute"
   ],
   "note": "Proved against a model of a POSIX file system without symbolic links and permissions, for every name made of entries and slashes, relative or absolute; C126_files for all texts and all histories. Refuted: M where a file is or whose directory is missing, and R of a directory that is not empty, do not reflect but end the interpreter by an uncaught exception."
  },
  {
   "property": "C127",
   "status": "partial",
   "theorems": [
    "C127_out",
    "C127_in",
    "C127_in_return",
    "C127_end",
    "C127_echo",
    "C127_return_refuted",
    "C127_execute"
   ],
   "note": "Proved for all inputs without carriage returns. Refuted: a carriage return in the input is dropped even when no newline follows it."
  },
  {
   "property": "C128",
   "status": "partial",
   "theorems": [
    "C128_o",
    "C128_o_binary",
    "C128_i",
    "C128_i_binary",
    "C128_missing",
    "C128_copy",
    "C128_binary_refuted",
    "C128_offset_refuted",
    "C128_lastline_refuted"
   ],
   "note": "Proved for two dimensions, texts without vertical tab and form feed, and regions of at least one cell. Refuted: bytes written with o do not come back with i as the same cells, the newlines after the rows being read as cells; the vectors pushed by i name another place if the storage offset is not zero, and leave out a last line that has no newline. Other dimensions: see C13."
  },
  {
   "property": "C129",
   "status": "proved",
   "theorems": [
    "C129_cat",
    "C129_print"
   ],
   "note": "Whole runs from the bytes of the program file to the output and exit code, for inputs and texts of every length."
  },
  {
   "property": "C130",
   "status": "partial",
   "theorems": [
    "C130_expr_partial",
    "C130_undefined",
    "C130_wide_refuted"
   ],
   "note": "Proved for values of 32 bits. Refuted: a value that needs more than 32 bits is printed wrongly (see C23)."
  },
  {
   "property": "C131",
   "status": "proved",
   "theorems": [
    "C131_cat",
    "C131_print"
   ],
   "note": "Whole runs from the bytes of the program file to the output and exit code, for inputs and texts of every length, in both dialects."
  },
  {
   "property": "C132",
   "status": "partial",
   "theorems": [
    "C132_expr_partial",
    "C132_large_refuted"
   ],
   "note": "Proved for expressions whose intermediate results are whole numbers of at most 2^53 in size, and for divisions by zero. Refuted beyond: 2^53 + 1 is printed as 2^53 (see C74)."
  },
  {
   "property": "C133",
   "status": "proved",
   "theorems": [
    "C133_program",
    "C133_endless",
    "C133_undefined"
   ],
   "note": "A translator for a While language is part of the statement; programs that end, that never end and that come to an undefined operation, from the bytes of the program file to the output and exit code. The limits named in the property are those found in C19 and C23."
  },
  {
   "property": "C134",
   "status": "proved",
   "theorems": [
    "C134_two"
   ],
   "note": "From the bytes of the program file to the output and exit code; the expressions are those of C130, whose limits apply."
  },
  {
   "property": "C135",
   "status": "proved",
   "theorems": [
    "C135_refused",
    "C135_missing",
    "C135_cat",
    "C135_print",
    "C135_expr",
    "C135_program",
    "C135_endless",
    "C135_undefined",
    "C135_two"
   ],
   "note": "From the command line to the output and exit code. fungemain (MainModel.v) joins the modelled parts; waiting for all universes is the run of the first one, because these programs create no other. The option -std=be98 is fixed; other options are the subject of C61 and C62."
  }
 ]
}