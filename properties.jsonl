{"id": "C01", "title": "Vector arithmetic is coordinatewise", "statement": "Adding, subtracting, reversing and turning Vectors acts on coordinates exactly as on infinite zero-padded integer tuples (left: (x,y)->(y,-x), right: (x,y)->(-y,x), other coordinates untouched), for operands of different lengths; the only undefined case is a coordinate leaving the signed 64-bit range.", "quantifier": "all pairs of Vectors of any number of dimensions and any 64-bit coordinates", "why_tests_cant": "Unbounded dimensions and 2^64 values per coordinate; normalisation drops trailing zeros in the middle of the update loop, so the interesting cases depend on which coordinates cancel.", "anchors": [{"file": "src/Vector.cpp", "symbols": ["operator+=", "operator-=", "reverse", "left", "right", "set", "normalize"]}]}
{"id": "C02", "title": "Vector comparison is a strict total order compatible with equality", "statement": "operator== holds exactly when all zero-padded coordinates agree; operator< is irreflexive, transitive and total modulo ==, decided by the highest dimension that differs; operator<= is (< or ==). std::set<Vector> (breakpoints, watchpoints) relies on it.", "quantifier": "all triples of Vectors of any lengths", "why_tests_cant": "Order axioms quantify over triples of unbounded vectors.", "anchors": [{"file": "src/Vector.cpp", "symbols": ["operator<", "operator<=", "operator=="]}, {"file": "src/include/FungeDebugger.h", "symbols": ["breakpoints", "watchpoints"]}]}
{"id": "C03", "title": "Equal Vectors hash equally", "statement": "Whenever two Vectors built through the API compare ==, Vector::hash gives the same value, so the unordered_map that is Funge-space finds a cell whatever zero-padding the address was written with.", "quantifier": "all pairs of Vectors obtained by any sequence of API operations", "why_tests_cant": "A hash/equality mismatch only shows for particular representations; no finite set of addresses covers it.", "anchors": [{"file": "src/Vector.cpp", "symbols": ["hash::operator()", "normalize"]}, {"file": "src/include/Field.h", "symbols": ["field"]}]}
{"id": "C04", "title": "VectorRange enumerates a box exactly once", "statement": "Iterating a VectorRange from its begin until it equals its end visits exactly the cells of the axis-aligned box spanned by the two corners (either orientation per axis), each once, dimension 0 fastest, and always terminates.", "quantifier": "all corner pairs in any number of dimensions, ascending or descending per axis", "why_tests_cant": "Box sizes, dimensions and orientations are unbounded; early or missed termination depends on the odometer state.", "anchors": [{"file": "src/VectorRange.cpp", "symbols": ["VectorRange", "operator++", "begin", "end"]}]}
{"id": "C05", "title": "Vector text I/O round-trips and reading terminates", "statement": "Reading back the text printed for a Vector gives an equal Vector, and reading any text terminates.", "quantifier": "all Vectors; all input texts", "why_tests_cant": "Unbounded values; termination over all malformed inputs cannot be tested.", "anchors": [{"file": "src/Vector.cpp", "symbols": ["operator<<", "operator>>"]}]}
{"id": "C06", "title": "Stack obeys its discipline for every operation history", "statement": "For any history of push, pop, clear and mode changes, a Stack behaves as a double-ended sequence: push adds at the back (front when inverted), pop and peek take from the back (front when in queue mode), popping an empty stack yields 0 and leaves it empty, get(n) is the value the n-th next pop would return, and the age counter equals the number of pushes, pops and clears.", "quantifier": "all operation sequences interleaved with all mode changes", "why_tests_cant": "The mode can change between any two operations; histories are unbounded.", "anchors": [{"file": "src/Stack.cpp", "symbols": ["push", "pop", "peek", "get", "clear", "age", "setMode"]}]}
{"id": "C07", "title": "Stack-stack selection never dangles under D/I/{/}", "statement": "Starting from a fresh stack-stack, any sequence of creating, removing, and selecting stacks leaves the selected stack in range, so the next stack instruction touches a real stack.", "quantifier": "all sequences of stack-stack operations", "why_tests_cant": "Needs an invariant over unbounded histories; the bad interleavings are rare.", "anchors": [{"file": "src/StackStack.cpp", "symbols": ["top", "second", "push", "pop", "insert", "remove", "increment", "decrement"]}]}
{"id": "C08", "title": "A child IP starts with its parent's stacks", "statement": "The stack-stack of an IP created by `t` holds the same stacks in the same order as its parent's at the moment of the split.", "quantifier": "all stack-stacks of any depth and contents", "why_tests_cant": "Depends on the unbounded number and contents of stacks.", "anchors": [{"file": "src/StackStack.cpp", "symbols": ["StackStack(const StackStack&)"]}, {"file": "src/FungeRunner.cpp", "symbols": ["FungeRunner(const FungeRunner&)"]}]}
{"id": "C09", "title": "Funge-space is a total map: reads return the last write", "statement": "After any history of writes, reading a cell returns the last value written to that address (reduced to a signed byte when cells are chars), or a space if never written; writes never affect other addresses.", "quantifier": "all write histories, all addresses, both cell sizes", "why_tests_cant": "Histories and address space are unbounded.", "anchors": [{"file": "src/Field.cpp", "symbols": ["put", "get"]}]}
{"id": "C10", "title": "Reported bounds contain every non-space cell", "statement": "After any history of writes, every non-space cell lies within [min,max] in every dimension; wrap-around and `y` rely on this.", "quantifier": "all write histories including erasures, all cells", "why_tests_cant": "The bound is recomputed only for some dimensions on erasure; failure needs a specific history.", "anchors": [{"file": "src/Field.cpp", "symbols": ["put", "min", "max"]}]}
{"id": "C11", "title": "Loading source text puts each character at its line and column", "statement": "Loading text places the character in line y, column x at (x,y) relative to the start point, with LF, CR and CRLF all ending a line, spaces leaving the existing cell untouched, and nothing else modified; the returned size is the extent of the text.", "quantifier": "all texts made of lines, all start points, all prior contents", "why_tests_cant": "Unbounded text sizes and prior contents.", "anchors": [{"file": "src/Field.cpp", "symbols": ["parse", "increment", "reset"]}]}
{"id": "C12", "title": "File output followed by file input restores the region", "statement": "Writing a rectangular region with `o` in text mode and loading the file with `i` into blank space reproduces every byte-valued cell of the region.", "quantifier": "all regions of two-dimensional space with byte-valued cells that are not line breaks", "why_tests_cant": "Region sizes and contents are unbounded; trailing-space trimming interacts with loading.", "anchors": [{"file": "src/Field.cpp", "symbols": ["dump", "parse"]}, {"file": "src/Unefunge98Strategy.cpp", "symbols": ["instructionFileIn", "instructionFileOut"]}]}
{"id": "C13", "title": "File output writes the whole requested region in any dimension", "statement": "`o` with a one-dimensional region of n cells writes those n cells (up to trailing-space trimming), as it does row by row in two dimensions.", "quantifier": "all region sizes, one and two dimensions", "why_tests_cant": "Holds or fails for a whole family of sizes.", "anchors": [{"file": "src/Field.cpp", "symbols": ["dump"]}]}
{"id": "C14", "title": "Lahey-space wrapping re-enters on the far side of the same line", "statement": "In Lahey topology, stepping an IP that is inside the bounds either moves by its delta, or, if that leaves the bounds, lands on the farthest in-bounds point reachable by walking backwards along its delta; the step always terminates and never changes the delta.", "quantifier": "all bounds, positions and deltas in any number of dimensions", "why_tests_cant": "Unbounded space and deltas; the wrap loop could fail to terminate only for particular geometry.", "anchors": [{"file": "src/InstructionPointer.cpp", "symbols": ["next", "inField"]}]}
{"id": "C15", "title": "Lahey-space movement is reversible", "statement": "From any in-bounds position with unchanged bounds, stepping, reflecting and stepping again returns to the starting position; hence `r` retraces the path.", "quantifier": "all bounds, in-bounds positions and deltas", "why_tests_cant": "A statement about every geometry.", "anchors": [{"file": "src/InstructionPointer.cpp", "symbols": ["next", "reflect"]}]}
{"id": "C16", "title": "The Befunge-93 torus is 80 by 25", "statement": "In torus topology an IP that starts inside columns 0..79 and rows 0..24 with a cardinal delta always stays there, and stepping, reflecting and stepping again returns to the start.", "quantifier": "all positions in the playfield, all four cardinal deltas, all numbers of steps", "why_tests_cant": "Only the boundary cells expose a violation.", "anchors": [{"file": "src/InstructionPointer.cpp", "symbols": ["next"]}]}
{"id": "C17", "title": "SGML strings collapse each run of white space to one cell", "statement": "In SGML string mode the values pushed are the string's cells with every maximal run of white space reduced to its first cell, and the redundant white space takes no tick; in multispace mode every cell is pushed.", "quantifier": "all strings of byte-valued cells of any length", "why_tests_cant": "All strings.", "anchors": [{"file": "src/FungeStateString.cpp", "symbols": ["execute"]}]}
{"id": "C18", "title": "C-style strings decode escapes", "statement": "In C string mode a backslash pushes the decoded following cell (0 a b t n v f r e decoded, anything else itself, so an escaped quote does not end the string), and other cells are pushed unchanged.", "quantifier": "all strings", "why_tests_cant": "All strings.", "anchors": [{"file": "src/FungeStateString.cpp", "symbols": ["execute", "escape"]}]}
{"id": "C19", "title": "Arithmetic instructions compute exactly or are undefined", "statement": "+ - * / % ` ! pop their operands (0 for missing ones) and push the exact integer result (truncated quotient, remainder with the dividend's sign, division and remainder by zero give 0); the only undefined executions are signed 64-bit overflows, including -2^63/-1.", "quantifier": "all stacks and all operand values", "why_tests_cant": "2^128 operand pairs.", "anchors": [{"file": "src/Unefunge93Strategy.cpp", "symbols": ["instructionAdd", "instructionSubtract", "instructionMultiply", "instructionDivide", "instructionRemainder", "instructionGreater", "instructionNot"]}]}
{"id": "C20", "title": "Stack instructions permute only the top of the stack", "statement": "$ : \\ n affect only the top one or two cells (or clear the stack), treating missing cells as 0, and leave everything else in the interpreter unchanged.", "quantifier": "all stacks and states", "why_tests_cant": "All stacks.", "anchors": [{"file": "src/Unefunge93Strategy.cpp", "symbols": ["instructionPop", "instructionDuplicate", "instructionSwap"]}, {"file": "src/Unefunge98Strategy.cpp", "symbols": ["instructionClear"]}]}
{"id": "C21", "title": "p then g reads back the value at the same storage-relative address", "statement": "`p` stores the value at vector+storage offset, `g` at the same vector then pushes that value (as a signed byte with char cells); no other cell changes.", "quantifier": "all vectors, storage offsets, values and prior field contents, any dimension", "why_tests_cant": "Unbounded.", "anchors": [{"file": "src/Unefunge93Strategy.cpp", "symbols": ["instructionGet", "instructionPut"]}, {"file": "src/util/FungeUtilities.cpp", "symbols": ["popVector"]}]}
{"id": "C22", "title": "s then ' transfers a full cell", "statement": "`s` writes the popped value into the next cell and `'` on that cell pushes the same value.", "quantifier": "all 64-bit values", "why_tests_cant": "Truncation shows only for large values.", "anchors": [{"file": "src/Unefunge98Strategy.cpp", "symbols": ["instructionFetch", "instructionStore"]}]}
{"id": "C23", "title": ". prints the popped value", "statement": "`.` prints the decimal representation of the popped cell followed by a space.", "quantifier": "all 64-bit values", "why_tests_cant": "Truncation shows only for large values.", "anchors": [{"file": "src/Unefunge93Strategy.cpp", "symbols": ["instructionNumOut"]}]}
{"id": "C24", "title": "{ and } are inverse", "statement": "n{ moves the top n cells in order to a new stack, saves the storage offset on the old stack and sets it to the next cell; n} after a body that leaves the new stack as it was restores the stacks and storage offset exactly; negative n pushes/discards |n| zeros.", "quantifier": "all stacks, n, storage offsets, dimensions", "why_tests_cant": "All n and stacks.", "anchors": [{"file": "src/Unefunge98Strategy.cpp", "symbols": ["instructionBegin", "instructionEnd"]}]}
{"id": "C25", "title": "u transfers cells one at a time and is undone by the opposite count", "statement": "n u moves n cells from the second stack to the top one reversing their order (negative n the other way), and -n u undoes it when enough cells exist; with a single stack it reflects.", "quantifier": "all stacks and counts", "why_tests_cant": "All n and stacks.", "anchors": [{"file": "src/Unefunge98Strategy.cpp", "symbols": ["instructionUnder"]}]}
{"id": "C26", "title": "j jumps exactly n cells", "statement": "n j advances the IP n+1 cells in total (n may be negative) along its line and leaves the delta and stacks unchanged apart from the popped count.", "quantifier": "all 32-bit counts, positions, deltas and bounds", "why_tests_cant": "All n.", "anchors": [{"file": "src/Unefunge98Strategy.cpp", "symbols": ["instructionJumpForward"]}]}
{"id": "C27", "title": "k executes the next instruction n times, or skips it when n is zero", "statement": "n k with n>0 executes the next instruction (skipping spaces and ;...; sections) n times in place; 0 k skips that instruction.", "quantifier": "all counts, all layouts of spaces and comments between k and the instruction", "why_tests_cant": "Layouts are unbounded.", "anchors": [{"file": "src/Unefunge98Strategy.cpp", "symbols": ["instructionIterate"]}]}
{"id": "C28", "title": "; always finds its end in Lahey-space", "statement": "In Lahey-space from an in-bounds position, `;` skips to the next semicolon on the line and terminates (at the latest back at itself), executing nothing in between.", "quantifier": "all bounds, positions, deltas and contents", "why_tests_cant": "Termination over all geometries.", "anchors": [{"file": "src/Unefunge98Strategy.cpp", "symbols": ["instructionJumpOver"]}]}
{"id": "C29", "title": "Direction instructions set and turn the delta", "statement": "< > ^ v h l x set the delta, r reverses it, [ and ] turn it by 90 degrees about the Z axis and are mutually inverse, _ | m w choose by the popped cells, ? picks one of the 2*d unit vectors; nothing else changes.", "quantifier": "all deltas, stacks, dimensions and random choices", "why_tests_cant": "All deltas and oracle values.", "anchors": [{"file": "src/Unefunge93Strategy.cpp", "symbols": ["instructionWest", "instructionEast", "instructionIf", "instructionGoAway"]}, {"file": "src/Befunge93Strategy.cpp", "symbols": ["instructionNorth", "instructionSouth", "instructionIf"]}, {"file": "src/Befunge98Strategy.cpp", "symbols": ["instructionLeft", "instructionRight", "instructionCompare"]}, {"file": "src/Trefunge98Strategy.cpp", "symbols": ["instructionHigh", "instructionLow", "instructionIf"]}, {"file": "src/Unefunge98Strategy.cpp", "symbols": ["instructionAbsolute", "instructionReflect"]}]}
{"id": "C30", "title": "Unimplemented and failing instructions reflect", "statement": "A tick on a cell with no bound semantic, or whose instruction fails, reverses the delta and takes one step, changing nothing else (beyond what the failing instruction popped) in the Funge standards.", "quantifier": "all cell values, states", "why_tests_cant": "All 64-bit cell values.", "anchors": [{"file": "src/FungeRunner.cpp", "symbols": ["tick"]}, {"file": "src/Unefunge93Strategy.cpp", "symbols": ["errorHandler"]}, {"file": "src/FungeStateNormal.cpp", "symbols": ["execute"]}]}
{"id": "C31", "title": "The instruction set is the documented one", "statement": "For each standard and dimension, a fresh IP has semantics bound for exactly the characters documented (plus space and tab) and for no other cell value.", "quantifier": "all 64-bit cell values, all standards and dimensions", "why_tests_cant": "All 64-bit cell values.", "anchors": [{"file": "src/Unefunge93Strategy.cpp", "symbols": ["Unefunge93Strategy"]}, {"file": "src/Unefunge98Strategy.cpp", "symbols": ["init"]}, {"file": "src/FungeRunner.cpp", "symbols": ["loadStrategies"]}, {"file": "doc/notes.txt", "symbols": []}]}
{"id": "C32", "title": "y pushes one requested cell and nothing else", "statement": "n y with n>0 pushes exactly one cell, the n-th of the system information (or, beyond it, the (n - size)-th stack cell), leaving the rest of the stack unchanged; n<=0 pushes it all.", "quantifier": "all stacks, n, environments, arguments and dimensions", "why_tests_cant": "Sizes of environment, stack and dimensions are unbounded.", "anchors": [{"file": "src/Unefunge98Strategy.cpp", "symbols": ["pushSysInfo", "instructionSysInfo"]}]}
{"id": "C33", "title": "& reads a decimal number", "statement": "`&` skips non-digits, reads the maximal run of digits, pushes its value and leaves the following input unread; with no digits left it reflects.", "quantifier": "all inputs", "why_tests_cant": "All inputs.", "anchors": [{"file": "src/Unefunge93Strategy.cpp", "symbols": ["instructionNumIn"]}]}
{"id": "C34", "title": "q stops every IP of the universe with its exit code", "statement": "`q` stops all IPs of the universe, none executes an instruction afterwards, and the exit code reported is the popped value as an int.", "quantifier": "all sets of IPs and schedules", "why_tests_cant": "All sets of threads.", "anchors": [{"file": "src/Unefunge98Strategy.cpp", "symbols": ["instructionQuit"]}, {"file": "src/FungeUniverse.cpp", "symbols": ["killAll", "operator()"]}]}
{"id": "C35", "title": "t creates one child with reversed delta that runs before the parent resumes", "statement": "`t` adds exactly one IP with a fresh ID, at the cell behind the parent with reversed delta and the same storage offset, scheduled before the parent's next tick; the parent is unchanged; with concurrency disabled it reflects and no IP is created.", "quantifier": "all states", "why_tests_cant": "All states.", "anchors": [{"file": "src/Unefunge98Strategy.cpp", "symbols": ["instructionThread"]}, {"file": "src/FungeRunner.cpp", "symbols": ["FungeRunner(const FungeRunner&)"]}, {"file": "src/FungeUniverse.cpp", "symbols": ["cloneRunner", "addRunner"]}]}
{"id": "C36", "title": "Scheduling is round-robin and fair", "statement": "With Funge threading, between two consecutive ticks of an IP every other IP that stays alive in the universe is ticked exactly once, for any behaviour of the instructions (spawning, stopping).", "quantifier": "all executions, all numbers of IPs", "why_tests_cant": "A property of all infinite schedules.", "anchors": [{"file": "src/FungeUniverse.cpp", "symbols": ["operator()", "addRunner"]}]}
{"id": "C37", "title": "No lost wakeup between adding an IP and the universe thread", "statement": "Whenever an IP is queued in a running universe and its thread sleeps on the semaphore, the semaphore is set, so the IP eventually runs; a waiter on the universe is woken when its last IP ends.", "quantifier": "all interleavings of adders, universe thread and waiter", "why_tests_cant": "Schedules are unbounded.", "anchors": [{"file": "src/FungeUniverse.cpp", "symbols": ["operator()", "addRunner", "wait", "killAll"]}, {"file": "src/util/include/FungeSem.h", "symbols": ["acquire", "release"]}]}
{"id": "C38", "title": "Native threading terminates when all IPs end", "statement": "With -fthreads=native, after every IP has ended the waiting main thread is woken and the program exits.", "quantifier": "all interleavings", "why_tests_cant": "A liveness property of schedules.", "anchors": [{"file": "src/FungeUniverse.cpp", "symbols": ["operator()", "wait", "isRunning"]}]}
{"id": "C39", "title": "An IP is executed by one universe at a time", "statement": "An IP transferred between universes is never queued twice nor executed by two universe threads concurrently.", "quantifier": "all interleavings of two universe threads", "why_tests_cant": "Only particular interleavings expose it.", "anchors": [{"file": "src/FungeUniverse.cpp", "symbols": ["transferRunner", "operator()"]}, {"file": "src/fingerprint/FingerprintMVRS.cpp", "symbols": ["execute"]}]}
{"id": "C40", "title": "Every created universe gets a fresh name", "statement": "Creating a universe whose name is taken terminates and registers it under a new unused name, leaving existing universes registered.", "quantifier": "all sets of existing names", "why_tests_cant": "The number of same-named universes is unbounded.", "anchors": [{"file": "src/FungeMultiverse.cpp", "symbols": ["create"]}]}
{"id": "C41", "title": "Loading a fingerprint shadows, unloading restores", "statement": "Loading a fingerprint binds exactly its instructions, and unloading it next restores every instruction's previous meaning; core (non-uppercase) instructions never change meaning whatever is loaded, unloaded or swapped.", "quantifier": "all histories of loads and unloads", "why_tests_cant": "Histories are unbounded.", "anchors": [{"file": "src/FingerprintStrategy.cpp", "symbols": ["load", "unload"]}, {"file": "src/Fingerprint.cpp", "symbols": ["activate"]}, {"file": "src/FungeStateNormal.cpp", "symbols": ["pushSemantic", "popSemantic"]}]}
{"id": "C42", "title": "Unloading a fingerprint that is not loaded has no effect", "statement": "`)` with a fingerprint that is not currently loaded reflects and leaves all instruction meanings unchanged.", "quantifier": "all load histories", "why_tests_cant": "Histories are unbounded.", "anchors": [{"file": "src/FingerprintStrategy.cpp", "symbols": ["unload"]}]}
{"id": "C43", "title": "A child IP inherits the parent's instruction meanings", "statement": "After `t`, every instruction means the same in the child as in the parent.", "quantifier": "all load/unload/swap histories of the parent", "why_tests_cant": "Histories are unbounded.", "anchors": [{"file": "src/FingerprintStrategy.cpp", "symbols": ["FingerprintStrategy(const FingerprintStrategy&, FungeRunner&)"]}, {"file": "src/Unefunge98Strategy.cpp", "symbols": ["Unefunge98Strategy(const Unefunge98Strategy&, FungeRunner&)"]}]}
{"id": "C44", "title": "A loaded fingerprint provides its instructions", "statement": "After a successful load every instruction listed by the fingerprint is bound to that fingerprint.", "quantifier": "all built-in fingerprints, all prior states", "why_tests_cant": "All prior states.", "anchors": [{"file": "src/Fingerprint.cpp", "symbols": ["activate"]}, {"file": "src/fingerprint/FingerprintDBUG.cpp", "symbols": ["activate"]}]}
{"id": "C45", "title": "Fingerprint names and numbers correspond", "statement": "The number `(` computes from a pushed name, the number `-l` computes from the same name, and the file name derived from the number all denote the same name.", "quantifier": "all names of up to 8 bytes", "why_tests_cant": "All names.", "anchors": [{"file": "src/Unefunge98Strategy.cpp", "symbols": ["instructionLoad"]}, {"file": "src/FingerprintStrategy.cpp", "symbols": ["intToStr"]}, {"file": "src/Funge.cpp", "symbols": ["fungemain"]}]}
{"id": "C46", "title": "A universe without permission never executes or touches files", "statement": "A program started with -fno-execute never runs an external command and with -fno-concurrent never creates an IP, whatever the program does.", "quantifier": "all programs, inputs and executions", "why_tests_cant": "All programs.", "anchors": [{"file": "src/Unefunge98Strategy.cpp", "symbols": ["instructionExecute", "instructionFileIn", "instructionFileOut", "instructionThread"]}, {"file": "src/fingerprint/FingerprintPERL.cpp", "symbols": ["execute"]}, {"file": "src/fingerprint/FingerprintMVRS.cpp", "symbols": ["execute"]}, {"file": "src/FungeUniverse.cpp", "symbols": ["allowExecute", "allowFilesystem", "allowConcurrent"]}]}
{"id": "C47", "title": "After moving to another universe an IP reads and writes that universe", "statement": "After MVRS J or G, `g` and `p` act on the same Funge-space the IP executes from.", "quantifier": "all universes and programs", "why_tests_cant": "Needs the reference captured at construction over all histories.", "anchors": [{"file": "src/fingerprint/FingerprintMVRS.cpp", "symbols": ["execute"]}, {"file": "src/FungeStrategy.cpp", "symbols": ["FungeStrategy"]}]}
{"id": "C48", "title": "MVRS F and P copy exactly the requested area", "statement": "MVRS F/P with size (w,h) copies w*h cells.", "quantifier": "all sizes", "why_tests_cant": "All sizes.", "anchors": [{"file": "src/fingerprint/FingerprintMVRS.cpp", "symbols": ["copySpace"]}]}
{"id": "C49", "title": "TOYS copy and move transfer exactly the requested block", "statement": "TOYS C/K (and M/V) with positive sizes copy exactly the w*h block to a disjoint destination (blanking the source when moving) and change nothing else; a zero size copies nothing.", "quantifier": "all block sizes, positions, contents, dimensions", "why_tests_cant": "All sizes and contents.", "anchors": [{"file": "src/fingerprint/FingerprintTOYS.cpp", "symbols": ["execute", "sizeToRange", "copySpace"]}, {"file": "src/VectorRange.cpp", "symbols": ["operator++"]}]}
{"id": "C50", "title": "FRTH L (roll) and P (pick) follow Forth", "statement": "n L moves the n-th cell below the top to the top preserving the others' order; n P copies it; R rotates three, O copies the second, D pushes the depth.", "quantifier": "all stacks and counts", "why_tests_cant": "All stacks.", "anchors": [{"file": "src/fingerprint/FingerprintFRTH.cpp", "symbols": ["execute"]}]}
{"id": "C51", "title": "STRN P then G reads back the string; string ops agree with list operations", "statement": "STRN P writes a NUL-terminated string to Funge-space that G reads back unchanged; A N L R M F C agree with concatenation, length, prefix, suffix, substring, search and comparison.", "quantifier": "all strings without NUL, all addresses", "why_tests_cant": "All strings.", "anchors": [{"file": "src/fingerprint/FingerprintSTRN.cpp", "symbols": ["execute"]}, {"file": "src/util/FungeUtilities.cpp", "symbols": ["pushString", "popString"]}]}
{"id": "C52", "title": "SUBR call and return resume after the call", "statement": "SUBR C enters the target cell travelling east with its arguments on the stack, and R returns to the cell after the call with the caller's delta and the results on the stack.", "quantifier": "all argument counts, positions, deltas, dimensions", "why_tests_cant": "All states.", "anchors": [{"file": "src/fingerprint/FingerprintSUBR.cpp", "symbols": ["execute"]}]}
{"id": "C53", "title": "REFC references are unique and dereference to their vector", "statement": "Each R gives a reference distinct from all earlier ones and D on it pushes the referenced vector, for any history and any random choices.", "quantifier": "all histories and random choices", "why_tests_cant": "Random choices.", "anchors": [{"file": "src/fingerprint/FingerprintREFC.cpp", "symbols": ["execute"]}]}
{"id": "C54", "title": "BASE output read back in the same base gives the same number", "statement": "For a base from 1 to 32, reading the digits BASE prints for a non-negative number in that base yields the number, and printing never reads outside its tables.", "quantifier": "all numbers and bases", "why_tests_cant": "All numbers.", "anchors": [{"file": "src/fingerprint/FingerprintBASE.cpp", "symbols": ["printNum", "printBase", "readNum", "readBase"]}]}
{"id": "C55", "title": "IIPC addresses other IPs safely", "statement": "IIPC G L P act on the addressed IP's stack only, A gives the parent's ID, and a dormant IP (D) wakes exactly when its stack is manipulated.", "quantifier": "all sets of IPs", "why_tests_cant": "All states.", "anchors": [{"file": "src/fingerprint/FingerprintIIPC.cpp", "symbols": ["execute"]}]}
{"id": "C56", "title": "LONG S subtracts", "statement": "LONG A adds and LONG S subtracts 128-bit numbers.", "quantifier": "all pairs of 128-bit numbers", "why_tests_cant": "2^256 pairs.", "anchors": [{"file": "src/fingerprint/FingerprintLONG.cpp", "symbols": ["execute"]}]}
{"id": "C57", "title": "MODE toggles are involutions that reach every stack", "statement": "Toggling a MODE flag twice restores the interpreter's behaviour, and a flag applies to every stack of every IP in the universe, including stacks created later.", "quantifier": "all states and histories", "why_tests_cant": "All histories.", "anchors": [{"file": "src/fingerprint/FingerprintMODE.cpp", "symbols": ["execute"]}, {"file": "src/FungeUniverse.cpp", "symbols": ["toggleMode", "updateMode"]}, {"file": "src/StackStack.cpp", "symbols": ["push"]}]}
{"id": "C58", "title": "><> [ and ] are inverse", "statement": "In ><>, x[ moves x cells to a new stack and ] returns the remaining cells; with nothing in between the stack is restored.", "quantifier": "all stacks and counts", "why_tests_cant": "All stacks.", "anchors": [{"file": "src/FishStrategy.cpp", "symbols": ["instructionCreateStack", "instructionRemoveStack"]}]}
{"id": "C59", "title": "><> & stores and restores", "statement": "In ><>, & moves the top cell to the register and the next & puts it back.", "quantifier": "all stacks", "why_tests_cant": "All stacks.", "anchors": [{"file": "src/FishStrategy.cpp", "symbols": ["instructionRegister"]}]}
{"id": "C60", "title": "*><> C and R preserve the data stack", "statement": "In *><>, C calls and R returns to the cell after the call, leaving the data stack to the program.", "quantifier": "all stacks", "why_tests_cant": "All stacks.", "anchors": [{"file": "src/StarfishStrategy.cpp", "symbols": ["instructionCall", "instructionReturn"]}, {"file": "src/StackStack.cpp", "symbols": ["insert", "remove"]}]}
{"id": "C61", "title": "Option parsing is deterministic per flag", "statement": "Each -f/-fno- switch sets exactly its own feature and the last one wins; an invalid -std or -f value yields EINVAL; unaffected settings keep their defaults.", "quantifier": "all argument lists", "why_tests_cant": "All argument lists.", "anchors": [{"file": "src/Funge.cpp", "symbols": ["fungemain"]}]}
{"id": "C62", "title": "A .bf file runs as Befunge-93", "statement": "Running a .bf file without -std uses the same topology, string style and cell size as -std=be93.", "quantifier": "all argument lists without those options", "why_tests_cant": "All argument lists.", "anchors": [{"file": "src/Funge.cpp", "symbols": ["createUniverse"]}]}
{"id": "C63", "title": "The debugger backtrace is the last ten positions", "statement": "The backtrace of an IP always holds its most recent positions, newest first, at most ten.", "quantifier": "all executions", "why_tests_cant": "Unbounded executions.", "anchors": [{"file": "src/FungeDebugger.cpp", "symbols": ["tick"]}]}
{"id": "C64", "title": "Pushing and popping vectors and strings round-trips", "statement": "popVector after pushVector returns the vector (restricted to the universe's dimensions) and popString after pushString returns the string (without NUL bytes), leaving the rest of the stack unchanged, outside queue and invert modes.", "quantifier": "all vectors, strings, dimensions and stacks", "why_tests_cant": "All values.", "anchors": [{"file": "src/util/FungeUtilities.cpp", "symbols": ["pushVector", "popVector", "pushString", "popString"]}]}
{"id": "C65", "title": "FungeLib files bind one plane per letter", "statement": "Loading a FungeLib file puts the lines after '=X' on plane X-'A' starting at the origin and reports exactly the letters declared.", "quantifier": "all FungeLib texts", "why_tests_cant": "All texts.", "anchors": [{"file": "src/Field.cpp", "symbols": ["parseFungeLib", "hasPlanes"]}]}
{"id": "C66", "title": "A tick only runs one non-skipped instruction", "statement": "A tick executes skipped cells (spaces, comments) without consuming the tick and then exactly one instruction, and it terminates whenever a non-skipped cell lies on the IP's path.", "quantifier": "all field contents, positions and deltas", "why_tests_cant": "Unbounded runs of blanks.", "anchors": [{"file": "src/FungeRunner.cpp", "symbols": ["tick"]}, {"file": "src/Unefunge93Strategy.cpp", "symbols": ["instructionSkip"]}]}
{"id": "C67", "title": "The child of t gets a copy of its parent's stacks", "statement": "The IP created by `t` starts with the same stacks as its parent, in the same order and with the same contents; the parent's are unchanged.", "quantifier": "all stack stacks", "why_tests_cant": "All stack contents and numbers of stacks; single-stack tests do not show the order.", "anchors": [{"file": "src/FungeRunner.cpp", "symbols": ["FungeRunner(const FungeRunner&)"]}, {"file": "src/StackStack.cpp", "symbols": ["StackStack(const StackStack&)"]}]}
{"id": "C68", "title": "The debugger stops an IP exactly where asked", "statement": "With debugging on, before each instruction the prompt appears if and only if the IP is new, was told to step, has been stopped, or stands on a breakpoint (equal in every dimension to one that was set); otherwise nothing is printed and nothing changes. run and step set that state for the selected IP only.", "quantifier": "all breakpoint sets, positions, IPs and histories", "why_tests_cant": "Every set of breakpoints and every run.", "anchors": [{"file": "src/FungeDebugger.cpp", "symbols": ["tick", "addBreakpoint"]}, {"file": "src/Defunge.cpp", "symbols": ["debug", "runCommand", "stepCommand"]}]}
{"id": "C69", "title": "The debugger's prompt can always be left", "statement": "Lines that are no commands are ignored; run, step and quit leave the prompt, and so does the end of the input.", "quantifier": "all inputs", "why_tests_cant": "Arbitrary inputs, including ones that end.", "anchors": [{"file": "src/Defunge.cpp", "symbols": ["debug"]}]}
{"id": "C70", "title": "Looking at a program in the debugger does not change it", "statement": "Commands other than run, step, quit, setdelta and setpos change nothing in the universe, its IPs or its Funge-space; a stop at the prompt in which none of quit, setdelta and setpos is typed leaves the program exactly as it was, apart from the input read and the output written.", "quantifier": "all sequences of commands and all program states", "why_tests_cant": "All command sequences.", "anchors": [{"file": "src/Defunge.cpp", "symbols": ["debug", "readCommand", "backtraceCommand", "threadCommand", "breakCommand"]}]}
{"id": "C71", "title": "The thread command lists every IP with its own position", "statement": "The thread command prints for every IP its number, position and current instruction, marks the selected one, and shows IPs that ended as ended; any listed IP can be selected.", "quantifier": "all sets of IPs", "why_tests_cant": "Any number of IPs, live or ended.", "anchors": [{"file": "src/Defunge.cpp", "symbols": ["threadCommand", "printIP"]}]}
{"id": "C72", "title": "No IP is used after it was deleted", "statement": "No thread accesses an IP after the universe running it has deleted it; an IP is queued in at most one universe, and there once.", "quantifier": "all interleavings of all threads, any number of universes and IPs", "why_tests_cant": "Schedules are unbounded; the race needs a particular interleaving.", "anchors": [{"file": "src/FungeUniverse.cpp", "symbols": ["operator()", "transferRunner", "addRunner", "killAll"]}]}
{"id": "C73", "title": "Waiting for all universes returns only when all have ended", "statement": "FungeMultiverse::waitAll, on which the program's exit depends, returns only when no universe has a running IP.", "quantifier": "all interleavings, any number of universes", "why_tests_cant": "Schedules are unbounded.", "anchors": [{"file": "src/FungeMultiverse.cpp", "symbols": ["waitAll"]}, {"file": "src/FungeUniverse.cpp", "symbols": ["wait", "isRunning", "transferRunner"]}]}
{"id": "C74", "title": "><> arithmetic is exact on whole numbers", "statement": "In ><>, + - * , % and the comparisons give the mathematical result on whole numbers up to 2^53 whenever that result is such a number; dividing by 0 or having too few cells is an error that leaves the program to the error handler; digits push their value and n prints a whole number in decimal.", "quantifier": "all whole numbers up to 2^53 and all stacks", "why_tests_cant": "2^106 pairs of operands.", "anchors": [{"file": "src/FishStrategy.cpp", "symbols": ["instructionAdd", "instructionSub", "instructionMult", "instructionDiv", "instructionModu", "instructionOutInt"]}]}
{"id": "C75", "title": "><> stack shuffling keeps the cells", "statement": "In ><>, : ~ $ @ r { } rearrange the cells of the selected stack as documented, lose and invent none but the copied or dropped one, and report an error instead of acting on too few cells.", "quantifier": "all stacks", "why_tests_cant": "All stacks.", "anchors": [{"file": "src/FishStrategy.cpp", "symbols": ["instructionDuplicate", "instructionSwap3", "instructionShiftLeft", "instructionShiftRight", "instructionReverse"]}]}
{"id": "C76", "title": "An error ends a ><> program", "statement": "In ><>, an unknown character or a failing instruction stops every IP of the universe with exit code 1 and has no other effect.", "quantifier": "all states and errors", "why_tests_cant": "All states.", "anchors": [{"file": "src/FishStrategy.cpp", "symbols": ["errorHandler"]}, {"file": "src/FungeUniverse.cpp", "symbols": ["killAll"]}]}
{"id": "C77", "title": "One register per stack", "statement": "Whenever a ><> or *><> program is about to execute an instruction there are exactly as many registers as stacks, and at least one.", "quantifier": "all programs, inputs and numbers of steps", "why_tests_cant": "All executions.", "anchors": [{"file": "src/FishStrategy.cpp", "symbols": ["instructionCreateStack", "instructionRemoveStack", "instructionRegister"]}, {"file": "src/StarfishStrategy.cpp", "symbols": ["instructionCall", "instructionReturn"]}]}
{"id": "C78", "title": "><> programs cannot touch foreign memory", "statement": "No ><> or *><> program makes the interpreter access memory outside its containers.", "quantifier": "all programs, inputs and numbers of steps", "why_tests_cant": "All executions.", "anchors": [{"file": "src/FishStrategy.cpp", "symbols": ["FishStrategy"]}, {"file": "src/StarfishStrategy.cpp", "symbols": ["StarfishStrategy"]}]}
{"id": "C79", "title": "><> strings push their characters", "statement": "In ><> and *><>, text between two equal quotes pushes the code of every character in order and does nothing else; the other quote and all instructions are ordinary characters in it.", "quantifier": "all texts and stacks", "why_tests_cant": "All texts.", "anchors": [{"file": "src/FishStrategy.cpp", "symbols": ["instructionString"]}, {"file": "src/FungeStateString.cpp", "symbols": ["execute"]}]}
{"id": "C80", "title": "><> control flow", "statement": "In ><>, ! jumps over one cell, ? pops a number and jumps over one cell exactly if it is 0, . goes on from the popped coordinates, and ; ends the IP without touching the exit code.", "quantifier": "all states", "why_tests_cant": "All states.", "anchors": [{"file": "src/FishStrategy.cpp", "symbols": ["instructionTrampoline", "instructionConditional", "instructionJump", "instructionEnd"]}]}
{"id": "C81", "title": "><> arrows and mirrors", "statement": "In ><>, the arrows set the direction and the five mirrors reflect it as drawn; a mirror hit twice restores the direction.", "quantifier": "all directions", "why_tests_cant": "All directions.", "anchors": [{"file": "src/FishStrategy.cpp", "symbols": ["instructionMirror1", "instructionMirror2", "instructionMirrorVert", "instructionMirrorHori", "instructionMirrorAll"]}]}
{"id": "C82", "title": "><> g reads what p wrote", "statement": "In ><>, p stores a whole number in the given cell and changes no other cell, and g of that cell gives it back exactly.", "quantifier": "all cells, whole numbers up to 2^53 and stacks", "why_tests_cant": "All cells and numbers.", "anchors": [{"file": "src/FishStrategy.cpp", "symbols": ["instructionGet", "instructionPut"]}]}
{"id": "C83", "title": "*><> diving passes everything but movement", "statement": "In *><>, u makes the IP dive, however often it is executed, and O ends it; a diving IP passes every cell but arrows, mirrors, fisherman, u and O without effect, even unknown characters.", "quantifier": "all states and characters", "why_tests_cant": "All states.", "anchors": [{"file": "src/StarfishStrategy.cpp", "symbols": ["instructionDive", "instructionRise"]}, {"file": "src/FungeStateNormal.cpp", "symbols": ["execute"]}]}
{"id": "C84", "title": "FISH diving passes everything but movement", "statement": "With the FISH fingerprint, U makes the IPs of the universe dive, however often it is executed, and O ends it; a diving IP passes every cell but movements without effect.", "quantifier": "all states and characters", "why_tests_cant": "All states.", "anchors": [{"file": "src/fingerprint/FingerprintFISH.cpp", "symbols": ["execute"]}, {"file": "src/FungeStateNormal.cpp", "symbols": ["execute"]}]}
{"id": "C85", "title": "FISH mirrors and shuffles", "statement": "H M N V of FISH reflect the direction like _ / \\ | of ><>; S T L R rearrange the stack as documented, on every stack; C pops a cell and jumps over the next instruction exactly if it is 0.", "quantifier": "all stacks and directions", "why_tests_cant": "All stacks.", "anchors": [{"file": "src/fingerprint/FingerprintFISH.cpp", "symbols": ["execute"]}]}
{"id": "C86", "title": "FISH stack selection", "statement": "D and I of FISH select the stack below and above and fail at the ends; they undo each other, and every other instruction keeps working whichever stack is selected.", "quantifier": "all stacks of stacks", "why_tests_cant": "All stacks of stacks.", "anchors": [{"file": "src/fingerprint/FingerprintFISH.cpp", "symbols": ["execute"]}, {"file": "src/StackStack.cpp", "symbols": ["increment", "decrement"]}]}
{"id": "C87", "title": "The fisherman casts and reels in", "statement": "` of *><> and F of FISH turn a horizontally moving IP down and up in turn; executed by a vertically moving IP they resume the horizontal direction the IP had.", "quantifier": "all states", "why_tests_cant": "All histories of directions.", "anchors": [{"file": "src/StarfishStrategy.cpp", "symbols": ["instructionFisherman", "fishermanChange"]}, {"file": "src/fingerprint/FingerprintFISH.cpp", "symbols": ["execute", "fishermanChange"]}]}
{"id": "C88", "title": "Bitwise operators and shifts", "statement": "A, O, X and N of BITW and BOOL, and the bitwise operators of FIXP and ORTH, combine their operands bit by bit; the shifts L and R of BITW and H of TOYS move every bit by the given number of places, for any number of places.", "quantifier": "all operands and stacks", "why_tests_cant": "All pairs of 64-bit operands.", "anchors": [{"file": "src/fingerprint/FingerprintBITW.cpp", "symbols": ["execute"]}, {"file": "src/fingerprint/FingerprintBOOL.cpp", "symbols": ["execute"]}, {"file": "src/fingerprint/FingerprintFIXP.cpp", "symbols": ["execute"]}, {"file": "src/fingerprint/FingerprintORTH.cpp", "symbols": ["execute"]}, {"file": "src/fingerprint/FingerprintTOYS.cpp", "symbols": ["execute"]}]}
{"id": "C89", "title": "Complex integers", "statement": "A, S and M of CPLI replace two complex integers by exactly their sum, difference and product when the result and every intermediate value fit a cell, and are undefined otherwise; O prints a text that determines the number.", "quantifier": "all operands and stacks", "why_tests_cant": "All quadruples of 64-bit numbers.", "anchors": [{"file": "src/fingerprint/FingerprintCPLI.cpp", "symbols": ["execute"]}]}
{"id": "C90", "title": "Fixed-point helpers", "statement": "N, S and V of FIXP give the negation, the sign and the absolute value; Q gives the integer square root; P gives the power rounded as documented; R and D give a number within the bound, for every bound.", "quantifier": "all operands", "why_tests_cant": "All operands.", "anchors": [{"file": "src/fingerprint/FingerprintFIXP.cpp", "symbols": ["execute"]}]}
{"id": "C91", "title": "Long integers: unary operations, shifts and text", "statement": "B and N of LONG give absolute value and negation; E extends the sign; L and R shift; P prints the number in decimal; Z reads back the number from its decimal text, including negative ones.", "quantifier": "all long integers and texts", "why_tests_cant": "All 128-bit numbers.", "anchors": [{"file": "src/fingerprint/FingerprintLONG.cpp", "symbols": ["execute"]}]}
{"id": "C92", "title": "String vectors", "statement": "P of JSTR stores the popped cells at the address and on in steps of the vector, changing nothing else; G fetches the cells found there; G after P gives the cells back.", "quantifier": "all counts, addresses, steps and stacks", "why_tests_cant": "All counts, addresses and vectors.", "anchors": [{"file": "src/fingerprint/FingerprintJSTR.cpp", "symbols": ["execute"]}]}
{"id": "C93", "title": "The file name chooses the language", "statement": "The extension of the file's own name, whatever dots its directories or the rest of the name contain, chooses language and file format as documented; -std wins over it; a .fish or .sf file runs with the settings -std=fish or -std=sfish gives.", "quantifier": "all paths, option lists and environments", "why_tests_cant": "All paths and argument lists.", "anchors": [{"file": "src/Funge.cpp", "symbols": ["createUniverse", "fungemain"]}]}
{"id": "C94", "title": "Debugger commands that act change exactly what they name; failing instructions are trapped", "statement": "setpos moves the selected IP, which may be another than the executing one, to the typed position; setdelta gives it the typed delta (added to its delta in hover mode); quit stops every waiting IP of every universe and ends every universe with exit code 1; each changes nothing else. With -g an instruction that fails stops the IP at the prompt, where it stands, before the failure is handled; one that does not fail does not. Without -g the debugger is not noticed.", "quantifier": "every state, every selected IP, every typed vector, every number of universes and IPs, every instruction", "why_tests_cant": "which IP and what else changes depends on the whole state; there are unboundedly many states and vectors", "anchors": ["src/Defunge.cpp: setposCommand, setdeltaCommand, quitCommand", "src/FungeDebugger.cpp: trap, tick", "src/FungeRunner.cpp: tick", "src/FungeMultiverse.cpp: killAll"]}
{"id": "C95", "title": "peek shows the stacks as they would be popped", "statement": "peek prints one line per stack, the top stack first, with the cell that would be popped last on the left; peek c s prints the cell that would be the c-th popped from the s-th stack (0 if there is none), peek c that of the top stack; invert and queue mode included.", "quantifier": "every stack stack, every contents and mode, every c and s", "why_tests_cant": "stacks are unbounded and the modes interact with the order", "anchors": ["src/Defunge.cpp: peekCommand", "src/Stack.cpp: get", "doc/defunge.md"]}
{"id": "C96", "title": "list and get print the rectangle of cells asked for; universe lists the universes", "statement": "list s d prints, row by row, the cells of the universe that lie within s of the selected IP in the two dimensions named by d; get v s d those around v. Exactly the cells with an IP, a breakpoint, a watchpoint, the centre and the selected IP are highlighted. All arguments are optional. universe prints the name of every universe with a mark on the selected IP's.", "quantifier": "every Funge-space, every centre, size and pair of dimensions, every set of breakpoints and IPs", "why_tests_cant": "Funge-space is unbounded in every dimension", "anchors": ["src/Defunge.cpp: listCommand, getCommand, printField, universeCommand", "doc/defunge.md"]}
{"id": "C97", "title": "ORTH reads and writes the plane without storage offset, and sets single components", "statement": "With ORTH, G pushes and P writes the cell at (x, y) with all other coordinates 0, ignoring the storage offset; V and W set the first and second component of the delta, X and Y those of the position, leaving all other components; Z skips the next instruction exactly if it pops 0; S prints a string and a new line. Nothing else changes.", "quantifier": "every state, Funge-space, number of dimensions and operands", "why_tests_cant": "Funge-space, the delta and the operands are unbounded", "anchors": ["src/fingerprint/FingerprintORTH.cpp"]}
{"id": "C98", "title": "NFUN flies along higher dimensions and makes room for them", "statement": "A V L H C D I M R set the delta to the unit vector of the fourth, fifth or sixth dimension with the documented sign, X Y Z to that of the popped dimension, and the universe then has at least the dimension flown along and never fewer than before; the stack loses exactly the operands. Every instruction NFUN binds is implemented.", "quantifier": "every state, every number of dimensions, every operand", "why_tests_cant": "the number of dimensions is unbounded", "anchors": ["src/fingerprint/FingerprintNFUN.cpp", "doc/NFUN.md"]}
{"id": "C99", "title": "HRTI measures elapsed time in whole microseconds", "statement": "M marks the time, E forgets the mark, T pushes the number of whole microseconds since the mark and fails without changing anything if there is none, S pushes the microseconds since the last full second, G pushes 1. Each reads the clock at most once and changes nothing else.", "quantifier": "every clock and every state", "why_tests_cant": "the result depends on the clock, which a test does not control", "anchors": ["src/fingerprint/FingerprintHRTI.cpp"]}
{"id": "C100", "title": "FING moves meanings between letters", "statement": "Y takes away the current meaning of a letter, Z puts the current meaning of one letter on top of those of another, which from then on behaves like it, X exchanges the current meanings of two letters and applied twice restores all meanings; a letter is given as 0..25 or A..Z; anything else fails and changes no meaning. No other letter changes.", "quantifier": "every state, every set of loaded fingerprints, every operand", "why_tests_cant": "the meanings of a letter are an unbounded stack and depend on the history of loads", "anchors": ["src/fingerprint/FingerprintFING.cpp", "src/InstructionPointer.cpp"]}
{"id": "C101", "title": "TOYS block copies are exact even when source and destination overlap", "statement": "After C, K, M or V every cell of the destination holds the value the corresponding source cell had before the instruction, also when the two blocks overlap, if the block goes to the side for which the instruction is meant (low order: C and M; high order: K and V); M and V leave blanks in the source cells that are not destination cells; nothing else changes.", "quantifier": "every state, every number of dimensions, every non-zero size of either sign, all positions that do not overflow", "why_tests_cant": "the outcome depends on the order of the copies over arbitrary blocks and displacements", "anchors": ["src/fingerprint/FingerprintTOYS.cpp", "src/VectorRange.cpp"]}
{"id": "C102", "title": "TOYS J and O shift the column or row of the IP", "statement": "J moves every cell of the column of the IP by the popped amount along y, O every cell of its row along x; cells that nothing is moved into become blank; all other lines keep their contents.", "quantifier": "every universe, every position of the IP, every amount of either sign", "why_tests_cant": "lines of arbitrary length, gaps and displacements", "anchors": ["src/fingerprint/FingerprintTOYS.cpp", "src/Field.cpp"]}
{"id": "C103", "title": "TOYS F, G and S transfer blocks between stack and space", "statement": "F fills a block with successive cells of the stack, the cell nearest the low corner first along the lowest dimension, G pushes the cells of a block so that F with the same size reproduces it at another place, S fills a block with one value; the stack loses exactly the operands and the transferred cells; a block of size zero transfers nothing.", "quantifier": "every state, every number of dimensions, every size and position that do not overflow, every stack", "why_tests_cant": "blocks of every shape and sign; stacks of every length", "anchors": ["src/fingerprint/FingerprintTOYS.cpp", "src/VectorRange.cpp"]}
{"id": "C104", "title": "TOYS arithmetic", "statement": "D subtracts one, I adds one, N negates the top of the stack; A replaces a value and a count by that many copies (none for a negative count); B replaces a and b by their sum and difference; E and P replace the whole stack by its sum and its product (0 and 1 for an empty stack). Results outside 64 bits are undefined.", "quantifier": "every stack, every operand", "why_tests_cant": "stacks of every length, all 64-bit operands", "anchors": ["src/fingerprint/FingerprintTOYS.cpp"]}
{"id": "C105", "title": "TOYS looks and moves relative to the IP", "statement": "L and R push the cell to the left and right of the IP, Q stores behind it; T sets the direction along the popped dimension and fails if there is none; X, Y and Z move one cell along their dimension; U draws a direction and leaves behind the arrow for it; W blocks with an unchanged stack until the cell reaches the value, goes on when it has that value and turns round when it is larger.", "quantifier": "every state, position, direction, number of dimensions, operand and random number", "why_tests_cant": "all positions and directions; all random sequences; waiting is for an unbounded time", "anchors": ["src/fingerprint/FingerprintTOYS.cpp", "src/InstructionPointer.cpp"]}
{"id": "C106", "title": "An idle universe sleeps", "statement": "With the default threading, a universe's thread looks at its queue of IPs at most once per IP put into the universe and once per killAll: without new work it does not look again, so an idle universe does not spin.", "quantifier": "every interleaving of the steps of any number of threads and universes, of any length", "why_tests_cant": "busy waiting shows only as load, and a bound on the number of wake-ups has to hold for every schedule", "anchors": ["src/FungeUniverse.cpp:FungeUniverse::operator()", "src/FungeUniverse.cpp:FungeUniverse::addRunner", "src/FungeUniverse.cpp:FungeUniverse::killAll", "src/util/include/FungeSem.h"]}
{"id": "C107", "title": "A killed universe ends", "statement": "killAll stops every IP of the universe; in every fair schedule in which the ticks of its IPs end and no further IP is put into it, the thread of a killed universe ends, so that the destructor's join returns; with native threads a kill wakes the universe's thread and whoever waits for it, and the thread ends as soon as no IP is running; the destructor then releases what is left.", "quantifier": "every fair infinite schedule, every reachable state at the time of the kill, both threading models", "why_tests_cant": "termination of a thread under every fair schedule, and a use after free that needs an IP to end the universe before the universe thread first looks at its queue", "anchors": ["src/FungeUniverse.cpp:FungeUniverse::killAll", "src/FungeUniverse.cpp:FungeUniverse::~FungeUniverse", "src/FungeUniverse.cpp:FungeUniverse::operator()"]}
{"id": "C108", "title": "The blocks of a .beq file land where their control lines say", "statement": "Loading a .beq file whose control lines give Lines, Origin and Coord puts every character of every block at the block's corner plus its column and line, in any number of dimensions, the last block winning where blocks overlap; every other point stays blank; and the universe has the number of dimensions the file declares.", "quantifier": "All lists of blocks of any size and number, all corners, coordinates left out or not, all versions and declared dimensions, with or without a final newline, all cell sizes, all points of the space.", "why_tests_cant": "The project has one small .beq sample; the property ranges over every arrangement and overlap of blocks and every point of an unbounded space.", "anchors": ["src/Field.cpp: Field::parseBeq, splitString, Field::Field"]}
{"id": "C109", "title": "Starting a program, and the programs a .fmv file lists", "statement": "Starting a program file makes exactly one new universe, holding what the file says and the program's arguments, with one IP at the origin going east on an empty stack, and changes no other universe or IP; a file that cannot be opened is reported and starts nothing. A .fmv file starts one such universe for each line, in order, with the line's arguments after those of the command line, and stops at the first file that cannot be opened; names are relative to the directory of the .fmv file; white space between and around the words of a line does not matter, and lines may name further .fmv files.", "quantifier": "All paths, file contents, configurations, argument lists, lists of entries of any length, and states of the multiverse they are started in.", "why_tests_cant": "It ranges over every list of programs and over every multiverse they may be added to, including failures in the middle of a list.", "anchors": ["src/Funge.cpp: createUniverse, parseFMV", "src/FungeMultiverse.cpp: FungeMultiverse::create", "src/FungeUniverse.cpp: FungeUniverse::FungeUniverse, createRunner"]}
{"id": "C110", "title": "MODU computes the three remainders it documents, and touches nothing else", "statement": "The library MODU, written in Funge, offers M (signed-result modulo, of floored division), R (remainder of C) and U (unsigned-result modulo). Each takes a divisor and a dividend, leaves the remainder, gives 0 for divisor 0, ends, and changes nothing but the selected stack of the calling IP.", "quantifier": "all dividends and divisors, all stacks below them, all states of the interpreter in which the library is loaded and idle, any number of earlier calls", "why_tests_cant": "The instruction is itself a program run by the interpreter: its result must be right for every pair of numbers and every state of the caller, and the exact quotients where it fails are a thin set.", "anchors": ["fing/MODU.fl", "src/fingerprint/FingerprintFungeLib.cpp: FingerprintFungeLib::execute", "src/fingerprint/FingerprintDynamic.cpp: FingerprintDynamic::execute", "src/FungeUniverse.cpp: createRunner, wait"]}
{"id": "C111", "title": "ROMA pushes the values of Roman digits and prints numbers as Roman numerals", "statement": "The library ROMA, written in Funge, offers I, V, X, L, C, D and M, which push 1, 5, 10, 50, 100, 500 and 1000, and P, which takes a number and prints its Roman numeral followed by a blank (0 for numbers that are not positive). The numeral reads back as the number. Each call ends and changes nothing but the selected stack of the calling IP and the output.", "quantifier": "all numbers, all stacks below them, all states of the interpreter in which the library is loaded and idle", "why_tests_cant": "The loop over the thousands has no bound, and each of the thousand combinations of digits takes its own path through the library.", "anchors": ["fing/ROMA.fl", "src/fingerprint/FingerprintFungeLib.cpp: FingerprintFungeLib::execute"]}
{"id": "C112", "title": "TERM writes the control sequences for what it is asked to do", "statement": "The library TERM, written in Funge, clears the screen (C), to the end of the line (L) and of the screen (S), moves the cursor home (H), to a position (G), and by any number of lines down (D) or up (U), negative numbers meaning the other direction and 0 none. Each call writes exactly the control sequence for this, takes its arguments, ends and changes nothing else.", "quantifier": "all line counts and positions, all stacks below them, all states of the interpreter in which the library is loaded and idle", "why_tests_cant": "Numbers are turned into decimal digits by a loop in the library; the sequence must be right for every number of digits and for both signs and zero.", "anchors": ["fing/TERM.fl", "src/fingerprint/FingerprintFungeLib.cpp: FingerprintFungeLib::execute"]}
{"id": "C113", "title": "Every instruction of NULL reflects and does nothing else", "statement": "With the library NULL loaded, each of the letters A to Z reverses the direction of the calling IP and changes nothing else: no stack contents, no output, no cell, no other IP.", "quantifier": "all letters, all states of the interpreter in which the library is loaded and idle, all deltas", "why_tests_cant": "The effect must be right for every delta and the absence of other effects for every state.", "anchors": ["fing/NULL.fl", "src/fingerprint/FingerprintDynamic.cpp: FingerprintDynamic::execute", "src/fingerprint/FingerprintFungeLib.cpp: FingerprintFungeLib::execute"]}
{"id": "C114", "title": "Library code acts on the calling IP as its instructions say", "statement": "Code of a library reads and sets position, delta and storage offset of the IP that called it (Q, L, D, S), steps it forward and back (F, B), reflects it (R) and reads its Funge-space (G, N) and modes (M). A word of such instructions has exactly the combined effect of its instructions on the stack and the calling IP and changes nothing else. What Q pushes can be given back to S, D and L.", "quantifier": "all words of dynamic instructions, all libraries that contain them, all states of the interpreter in which the library is loaded and idle", "why_tests_cant": "Words are of any length, and vectors pushed by one IP are popped by another whose number of dimensions may differ.", "anchors": ["src/fingerprint/FingerprintDynamic.cpp: FingerprintDynamic::execute", "src/util/FungeUtilities.cpp: pushVector, popVector", "src/fingerprint/FingerprintFungeLib.cpp: FingerprintFungeLib::execute"]}
{"id": "C115", "title": "FPDP arithmetic is correctly rounded", "statement": "FPDP A, S, M and D replace the two cells on top, read as doubles, by the double nearest to their exact sum, difference, product or quotient, ties to even, by an infinity if the exact result is too large, and by a NaN where IEEE 754 says so; dividing a number by zero gives an infinity of the right sign.", "quantifier": "all pairs of 64-bit cells, all stacks and states", "why_tests_cant": "2^128 pairs of operands; rounding errors show only on rare pairs.", "anchors": ["src/fingerprint/include/FingerprintFloat.h: FingerprintFloat::execute", "src/FingerprintStrategy.cpp"]}
{"id": "C116", "title": "FPDP converts integers to doubles and back", "statement": "FPDP F replaces an integer by the nearest double; I replaces a double by its whole part, rounding towards zero; F followed by I gives the integer back.", "quantifier": "all 64-bit integers and all doubles", "why_tests_cant": "The round trip first fails beyond 2^53.", "anchors": ["src/fingerprint/include/FingerprintFloat.h: FingerprintFloat::execute"]}
{"id": "C117", "title": "FPDP negation, absolute value and square root", "statement": "FPDP N and V are exact; Q gives the double nearest to the square root and a NaN for negative numbers.", "quantifier": "all doubles", "why_tests_cant": "Claims about the nearest double quantify over all doubles.", "anchors": ["src/fingerprint/include/FingerprintFloat.h: FingerprintFloat::execute"]}
{"id": "C118", "title": "FPDP prints six correct decimals", "statement": "FPDP P removes a double and prints its sign, the whole part, a point and six digits that are the closest to its exact value, ties to even, and a space.", "quantifier": "all finite doubles, all states", "why_tests_cant": "Up to 308 digits of whole part; a wrong last digit shows on few values.", "anchors": ["src/fingerprint/include/FingerprintFloat.h: FingerprintFloat::execute"]}
{"id": "C119", "title": "FPDP reads decimal text", "statement": "FPDP R removes a null-terminated text and pushes the double nearest to the number it starts with, after white space: sign, decimal or (after 0x) hexadecimal digits with or without a point, exponent, or inf or nan in any case. Text that holds no such number does not stop the program.", "quantifier": "all texts, all stacks below it", "why_tests_cant": "Unboundedly many digits and exponents.", "anchors": ["src/fingerprint/include/FingerprintFloat.h: FingerprintFloat::execute"]}
{"id": "C120", "title": "FPSP works on single precision numbers", "statement": "FPSP does with single precision numbers, kept in the lower half of a cell, what FPDP does with doubles.", "quantifier": "all instructions of FPSP, all operands", "why_tests_cant": "Reading beyond an object often goes unnoticed when run.", "anchors": ["src/fingerprint/include/FingerprintFloat.h: FingerprintFloat::TToStack", "src/FingerprintStrategy.cpp"]}
{"id": "C121", "title": "><> arithmetic on fractions is correctly rounded", "statement": "In ><> and *><>, + - * , give the double nearest to the exact result for all numbers, ties to even, or an infinity if it is too large; = ( ) compare exact values; dividing by zero of either sign is an error.", "quantifier": "all pairs of doubles, all stacks and states", "why_tests_cant": "2^128 pairs of operands.", "anchors": ["src/FishStrategy.cpp: FishStrategy::instructionAdd, instructionSub, instructionMult, instructionDiv, instructionEqual"]}
{"id": "C122", "title": "><> n prints numbers to six significant digits", "statement": "n prints a whole number in full, and any other number as the decimal number with six significant digits closest to it, ties to even.", "quantifier": "all doubles", "why_tests_cant": "A wrong last digit, exponent or layout shows on few values.", "anchors": ["src/FishStrategy.cpp: FishStrategy::instructionOutInt"]}
{"id": "C123", "title": "PERL hands its text to Perl", "statement": "With permission to execute, E and I of PERL run one command, perl -e with exit(eval{code}) as its argument, for whatever code is on the stack, and push the number with which Perl exits, E as decimal text and I as a number. S pushes 1. Without permission E and I fail and run nothing.", "quantifier": "every code text, stack, state and answer of system()", "why_tests_cant": "Whether a quoted text reaches Perl unchanged depends on every character in it and on the rules of the shell; tests try a few harmless texts.", "anchors": ["src/fingerprint/FingerprintPERL.cpp: FingerprintPERL::execute, FingerprintPERL::perl"]}
{"id": "C124", "title": "FPRT makes the text its format describes", "statement": "D, F, I, L and S of FPRT pop their argument and a format and push the text printf makes of them: ordinary characters stay, %% becomes %, and one conversion is replaced by the argument, with the sign its flags ask for filled up to its width, and with the digits its precision asks for.", "quantifier": "every format, argument, stack and state", "why_tests_cant": "Formats come from the running program, so the property ranges over all format strings, including those whose conversions do not fit the argument and those with long results.", "anchors": ["src/fingerprint/FingerprintFPRT.cpp: FingerprintFPRT::execute"]}
{"id": "C125", "title": "A fingerprint file binds exactly its instructions", "statement": "If the installation has a file NAME.fl, `(` with NAME on the stack opens it as a universe of its own and gives exactly the instructions the file defines a new meaning, before any built-in fingerprint of that name; executing one runs the code of the file on the stack of the caller; `)` restores the previous meanings. Without such a file the built-in fingerprints are used. Only files of the installation are opened, and a library may do no more than the program that loads it.", "quantifier": "every name, file, program state, number of IPs and history of loading", "why_tests_cant": "Names, files and states are unbounded; the failures need particular names or a third IP.", "anchors": ["src/FingerprintStrategy.cpp: load, loadFL, unload, intToStr", "src/fingerprint/FingerprintFungeLib.cpp: factory, execute", "src/FungeMultiverse.cpp: create", "src/Unefunge98Strategy.cpp: instructionLoad, instructionUnload"]}
{"id": "C126", "title": "DIRF changes directories, makes and removes them as asked", "statement": "C makes the directory named on the stack the working directory, M makes a directory of that name, R removes it if it is empty; what cannot be done reflects. No file is ever created, replaced or lost, and R undoes M.", "quantifier": "every name, file system, stack and history of DIRF instructions", "why_tests_cant": "File systems and histories are unbounded; the failures depend on what else is on the disk.", "anchors": ["src/fingerprint/FingerprintDIRF.cpp: FingerprintDIRF::execute"]}
{"id": "C127", "title": "Characters pass through unchanged, and commands are run as given", "statement": "Text written with , after being read with ~ comes out exactly as it went in, whatever its length; at the end of the input ~ reflects. = with permission runs the text on the stack once, exactly as it is, and pushes what the command returned.", "quantifier": "all states in which the instructions have their usual meaning, all stacks, inputs and texts", "why_tests_cant": "Inputs and stacks are unbounded, and a test cannot show that nothing else changes.", "anchors": ["src/Unefunge93Strategy.cpp: instructionCharIn, instructionCharOut", "src/Unefunge98Strategy.cpp: instructionExecute"]}
{"id": "C128", "title": "Files written with o and read with i hold what the program meant", "statement": "o writes exactly the named region to the named file: as text each row without trailing blanks and ended by a newline, as bytes every cell. i puts the characters of the file at the named place, as text by line and column, as bytes in one row; blanks leave what is there. What o wrote as text, i puts elsewhere cell for cell. The vectors i pushes can be given to o to write the file back. A file that cannot be read reflects. No other file and no other cell changes.", "quantifier": "all two-dimensional programs, stacks, file names, file contents, regions, storage offsets and flags", "why_tests_cant": "Regions and files are unbounded and the other files and cells are infinitely many.", "anchors": ["src/Unefunge98Strategy.cpp: instructionFileIn, instructionFileOut", "src/Field.cpp: parse, dump, increment"]}
{"id": "C129", "title": "Simple whole programs print exactly what they should", "statement": "The program #@~, prints its input exactly and ends with exit code 0 when the input ends. The program consisting of a text backwards in quotes followed by >:#,_@ prints the text and nothing else and ends with exit code 0, whatever its input. From the bytes of the program file to everything printed.", "quantifier": "all inputs without carriage returns; all texts of bytes from 32 up without quotes and without adjacent blanks", "why_tests_cant": "Inputs and texts are unbounded; the result depends on loading, moving, wrapping, string mode, reflection and the ending of the last IP together.", "anchors": ["src/Funge.cpp: createUniverse", "src/FungeUniverse.cpp: operator()", "src/FungeRunner.cpp: tick", "src/Field.cpp: parse", "src/InstructionPointer.cpp: next"]}
{"id": "C130", "title": "Every arithmetic expression in postfix form prints its value", "statement": "The postfix code of an arithmetic expression over the digits 0 to f and + - * / % ` !, followed by .@, prints the decimal value of the expression and a blank and ends with exit code 0. If some operation overflows, the run is undefined.", "quantifier": "all expressions of any size and nesting", "why_tests_cant": "There are infinitely many expressions; intermediate results of every nesting depth lie on the stack together.", "anchors": ["src/Unefunge93Strategy.cpp: instructionAdd, instructionSubtract, instructionMultiply, instructionDivide, instructionRemainder, instructionGreater, instructionNot, instructionNumOut", "src/FungeUniverse.cpp: operator()", "src/FungeRunner.cpp: tick"]}
{"id": "C131", "title": "Simple whole ><> and *><> programs print exactly what they should", "statement": "The ><> (and *><>) program i:0(?;o prints its input exactly, whatever bytes it is made of, and ends with exit code 0 when the input ends. The program consisting of a text backwards in double quotes followed by >o< prints the text, every blank included, and then ends with exit code 1, because there is nothing left to print.", "quantifier": "all inputs; all texts of bytes from 32 up without double quotes; ><> and *><>", "why_tests_cant": "Inputs and texts are unbounded; the result depends on loading, wrapping, string mode, conversion between characters and doubles, skipping, turning and the ending by error together.", "anchors": ["src/Funge.cpp: createUniverse", "src/FungeRunner.cpp: tick", "src/FishStrategy.cpp: instructionIn, instructionOutChar, instructionConditional, instructionEnd, errorHandler", "src/FungeStateString.cpp: execute", "src/Field.cpp: parse"]}
{"id": "C132", "title": "Every arithmetic expression in postfix form prints its value in ><>", "statement": "The postfix code of an arithmetic expression over the digits 0 to f and + - * , % = ( ), followed by n;, prints the decimal value of the expression and ends with exit code 0, if every intermediate result is a whole number. If the first operation that is not defined divides by zero, nothing is printed and the exit code is 1.", "quantifier": "all expressions of any size and nesting; ><> and *><>", "why_tests_cant": "There are infinitely many expressions; intermediate results of every nesting depth lie on the stack together, all of them as doubles.", "anchors": ["src/FishStrategy.cpp: instructionAdd, instructionSub, instructionMult, instructionDiv, instructionModu, instructionOutInt, errorHandler", "src/FungeRunner.cpp: tick"]}
{"id": "C133", "title": "Structured programs with variables, conditionals and loops, translated to one row of Befunge-98, run as the language says", "statement": "Take a program of a small language with 16 variables, assignment, reading of characters, printing of numbers and characters, sequence, if-else and while. Translate it to one row of Befunge-98: variables are cells of row 1 reached with p and g, conditionals and loops are jumps with j over computed distances, forwards and backwards. If the program ends without reading beyond its input, running the translation prints exactly what the program prints and ends with exit code 0. If the program never ends, neither does the run. If the program comes to a division or an arithmetic operation that C++ leaves undefined, so does the run. Variables start as 32, the value of a blank cell. Arithmetic is 64-bit, printed numbers must fit in 32 bits, and the input has no carriage returns.", "quantifier": "all programs of the language of any size and nesting whose row has at most 2147483647 characters; all numbers of loop rounds; all inputs", "why_tests_cant": "There are infinitely many programs and each may run through its loops any number of times; the result depends on loading, on the bounds of Funge-space while cells are written and erased, on wrapping, on jumps in both directions, on self-addressed storage and on arithmetic together.", "anchors": ["src/Unefunge98Strategy.cpp: instructionJumpForward", "src/Unefunge93Strategy.cpp: instructionGet, instructionPut", "src/Field.cpp: put, get, parse", "src/FungeRunner.cpp: tick"]}
{"id": "C134", "title": "A program that splits into two IPs prints the two threads interleaved instruction by instruction", "statement": "Take two lists of arithmetic expressions. Write on one row: t, then code that computes and prints the values of the first list, then @; and after it, written backwards from the end of the row, the same for the second list. Running the file splits the IP; the parent runs eastwards through the first part, the child goes round the edge of the program and runs westwards through the second. The output is the two threads' outputs interleaved: the threads take turns, one instruction each, the child first, and when one has ended the other continues alone. The run ends with exit code 0.", "quantifier": "all pairs of lists of expressions of any length whose arithmetic is defined and whose values fit in 32 bits, on rows of at most 2147483647 characters; all inputs", "why_tests_cant": "The order of the output depends on the lengths of all pieces of code of both threads, and there are infinitely many pairs; it rests on loading, splitting, the queue of IPs, the order of ticks, Lahey wrapping, termination of one IP while another runs, and arithmetic together.", "anchors": ["src/Unefunge98Strategy.cpp: instructionThread", "src/FungeUniverse.cpp: operator(), cloneRunner, addRunner", "src/InstructionPointer.cpp: next, reflect", "src/FungeRunner.cpp: FungeRunner(const FungeRunner&), tick"]}
{"id": "C135", "title": "funge++ -std=be98 FILE prints what the program in the file prints, and returns its exit code", "statement": "Run funge++ -std=be98 FILE ARGS, where FILE is not an option and does not end in .fmv, .beq or .fl. If the file cannot be opened, the interpreter stops with that error and names the file; a command line with a value that is not allowed or without a file is refused before anything runs. If the file holds the cat program of C129, the interpreter prints its input; if it holds a text in backwards quotes and the printing loop, the text; if it holds the code of an expression of C130, its value; if it holds the translation of a structured program of C133, what that program prints; if it holds the two threads of C134, their outputs in turns. Each of these runs returns 0. If the structured program never ends, neither does the interpreter; if it comes to an operation C++ does not define, so does the interpreter. The name of the file, its arguments, the environment and the other files make no difference.", "quantifier": "all file names of programs, all lists of further arguments, all environments, all file systems, all inputs, and all texts, expressions, structured programs and pairs of threads within the limits of C129, C130, C133 and C134", "why_tests_cant": "Names, arguments, environments and programs are unbounded, and the claim joins option parsing, opening and loading the file, creating the universe and the whole run.", "anchors": ["src/Funge.cpp: fungemain, createUniverse", "src/FungeMultiverse.cpp: create, waitAll", "src/FungeUniverse.cpp: FungeUniverse, createRunner, operator()"]}
