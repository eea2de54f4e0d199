# A machine-checked model of abrt/satyr in Rocq

## 1. What is modelled and how

The C code in /repo (library `lib/`, headers `include/`) is transcribed by hand, function by
function, into total Gallina functions.  Nothing in /repo is compiled or run: the tie between
the model and the code is the line citation in the comment above each definition.

Conventions

* **Bytes and C strings.**  A byte is an `ascii`; a C string is `str := list ascii`.  A `char *`
  that walks through a string is modelled by the *suffix* it points to; the empty list is the
  position of the terminating NUL.  Reading `*p` at `[]` yields NUL.  Moving past the terminator
  is undefined behaviour and is a distinct outcome (`UB`) of the model, not an assumption.
  A `char *` field that may be NULL is an `option str`.
* **Outcomes.**  `res A := Ok a | Fail | UB`: success, the error return of the function, and
  undefined behaviour or a failed assertion.
* **Integers.**  `uint32_t`/`uint64_t`/`int` fields are `Z`/`N`; wrap-around is written into the
  model where the C code can wrap (comparison functions, address arithmetic).  Lengths, loop
  indices and counters bounded by memory are `nat`.
* **Linked lists** are Gallina lists.  Where pointer identity matters (removing *that* frame, the
  crash-thread pointer) nodes carry an identity.
* **Floats.**  Distances are abstract values where only data movement matters (matrix, parts,
  clustering); exact rationals for the numeric laws; Flocq binary32 for rounding claims.
* **Loops** are structural recursion or recursion on fuel; running out of fuel is an outcome that
  the theorems exclude.
* **Allocation** never fails (g_malloc aborts).  `free` is modelled only where the property is
  about double frees or aliasing.

Layout of `rocq/theories`: a `*Model.v` file holds definitions with citations only, a `*Spec.v`
file the independent specification, a `*Proofs.v` file the lemmas, and a `P_*.v` file only the property theorems,
each closed by `exact`, with `Print Assumptions` and the non-vacuity examples.

## 2. Trusted base

* Coq 8.16.1's kernel (and `vm_compute` in it).
* The reading of the C code (citations), in particular of libc/glib primitives: `strchr`,
  `strncmp`, `strtoul`, `isdigit` ("C" locale), `g_strndup`, `g_string_append_printf` of `%u`,
  `%s`, `%x`.
* json-c: the library's parser is trusted to implement the JSON grammar of `JsonSpec.v`, with
  `json_object_get_int` saturating at 2^31-1 and `json_object_get_int64` at 2^63-1.
* SHA-1 is not modelled: duplicate and backtrace hashes are modelled as the text being hashed.
* Axioms: see section 5 (per theorem; printed by `Print Assumptions` in the `P_*.v` files).

Not modelled: what external libraries do (libelf, libdw, elfutils, libunwind, the demangler and libopcodes: their results are
parameters the theorems quantify over), the rpm library (C81 models the lookups), opening of core files and modules
(`core_unwind.c` `open_coredump`, `touch_module`), the Ruby interpreter and its ffi library (C83 models the binding), and the Python bindings except for what C69 and later
properties name (the interpreter itself is trusted: `PyList_Append`, `PyList_SetSlice` and reference counts do what the Python
manual says), `satyr.c` (command line) except for C73, freeing of memory except where stated, log output. `tools/coverage.py` lists the functions of `lib/` that no
definition cites.

## 3. Plan per property
* **C01** Reported text positions are the true positions. Model the four position functions and location arithmetic; spec: `advance (1,0) prefix`. Induction on the text.
* **C02** Integer parsers accept exactly the numerals in range. Model strtoul/strtoull on the copied digit run; spec: value of a digit string by positional notation. The functions that only skip numbers skip exactly the longest run of digits.
* **C03** Cursor primitives never leave the string. Model every primitive on suffixes with the `UB` outcome; prove a uniform contract `input = consumed ++ rest`; refute for sr_skip_char_limited.
* **C04** JSON string escaping is faithful. Independent JSON grammar (`JsonSpec.v`, inductive) with proof of unambiguity through an executable parser; prove the escape output denotes the input.
* **C05** Re-indenting never changes a JSON document's meaning. Prove by induction over the JSON grammar that inserting blanks after newlines preserves the value.
* **C06** User names in home directories are never reported. Direct model; spec by cases on the shape of the path.
* **C07** os-release files are parsed line by line as KEY=value. Model the pointer loop; spec: map over split lines. Round trip for quoting.
* **C08** Adjacent-duplicate removal and binary-to-hex helpers are exact. Direct.
* **C09** Levenshtein distance is the minimum number of edits. Model the two-diagonal array algorithm with `option` cells (uninitialised = None); refinement to the textbook recurrence; the recurrence equals the minimum over inductively defined edit scripts.
* **C10** Damerau-Levenshtein distance is the minimum with adjacent transpositions. Same with the transposition rule.
* **C11** Scaled edit distance lies in [0,1] and is 0 exactly for equal threads. Corollaries over Q; then Flocq binary32 division (monotone rounding).
* **C12** Jaccard distance is 1 - |A∩B| / |A∪B| over distinct frames. Model the counting loops; spec with finite sets (`NoDup` representatives).
* **C13** Jaro-Winkler similarity bounds. Refutations by computation plus bounds under the no-repetition guard.
* **C14** Distance matrix behaves as a symmetric map. Model array and index function; prove injectivity and bounds.
* **C15** Splitting a comparison into parts loses and duplicates nothing. Model the splitting loop; prove the concatenation of parts is the row-major list of pairs.
* **C16** Computing parts separately and merging equals computing at once. Model compute/merge over an arbitrary thread type and distance function.
* **C17** Clustering produces a permutation with one merge level per gap. Model the agglomeration loop over abstract float operations; invariant: clusters partition the indices.
* **C18** Cutting a dendrogram partitions the objects. Model; spec: split at levels > t.
* **C19** Cut clusters are exactly the average-linkage clusters at that level. Exact rational arithmetic; invariant relating dendrogram segments and groups; reducibility (monotone heights) of average linkage.
* **C20** Thread editing operations remove exactly what they say. Explicit memory (HeapModel.v): cells with next pointers, `UB` for access to freed cells.
* **C21** Duplicate hash depends only on the first n significant frames. Model of the hashed text for each frame type.
* **C22** Backtrace hash distinguishes different stacktraces. Injectivity under separator-free guard; refutations.
* **C23** gdb normalization only removes or canonically renames frames. Model all passes; subsequence and postcondition lemmas; idempotence proved or refuted.
* **C24** core normalization only removes or canonically renames frames. Same for core.
* **C25** kernel oops normalization strips suffixes and boilerplate frames. Same for koops; binary search correctness against sorted list.
* **C26** Unknown functions are paired consistently across two threads. Model and prove pairing facts.
* **C27** Optimised thread keeps the diagnostic frames in order. Model and prove.
* **C28** Crash thread selection follows its documented priority. Model and prove a decision-table spec.
* **C29** Quality ratings are proportions. Counting induction; Q bounds.
* **C30** Frame comparison functions are consistent orders. Model with 32-bit truncation; prove order laws under no-wrap guards and refute without. Frames of any types are ordered by type first; the comparison used by distances is characterised for every frame type, with core frames identified by name, place or fingerprint and gdb frames by known name and library.
* **C31** Core stacktraces survive JSON. Printer bytes -> grammar derivation -> reader; guards made boolean.
* **C32** Python stacktraces survive JSON. As C31.
* **C33** Ruby stacktraces survive JSON. As C31.
* **C34** JavaScript stacktraces survive JSON. As C31.
* **C35** Java stacktraces survive JSON. As C31.
* **C36** Kernel oopses survive JSON. As C31; memory errors of the module reader as UB outcome.
* **C37** Operating system and package records survive JSON. As C31.
* **C38** Complete reports survive JSON. As C31, composed.
* **C39** JSON readers are total and type-safe. Reader functions total by construction; contract lemmas.
* **C40** Ruby backtrace parser is safe and inverts the Ruby format. The parser with explicit indices for its backward scans; a grammar as specification, accepted texts characterised by iff; formatted traces are read back. The location (line and column of messages) is in C82.
* **C41** JavaScript backtrace parser is safe and inverts the V8 format. As C40; the accepted texts are characterised by iff, written frames are read back.
* **C42** Python backtrace parser reads only its input and inverts the traceback format. As C40; the accepted texts and the texts that are over-read are both characterised by iff, formatted tracebacks are read back.
* **C43** Java exception parser: cause chain ordering and safety. As C40; an inductive grammar of frames, lines, exceptions and causes, accepted texts characterised by iff; printed chains of any length are read back.
* **C44** gdb thread summary format round-trips. Function by function; an inductive grammar of lists, read texts characterised by iff, undefined only beyond 2^31 lines; round trip for names without newlines whose spaces are not ambiguous, counterexamples for the others.
* **C45** gdb frame headers parse back; parser stays inside the text. Every parser is modelled with UB for reads behind the terminator; a relational grammar of names (runs, operators, templates, nested parentheses), calls and headers; for each parser both the accepted texts and the texts that lead outside are characterised by iff; round trip for usual lines.
* **C46** Kernel oops parsing. Function by function (addresses, functions, the three frame forms, timestamps, taint flags, module lists with the growing array, instruction-pointer and stack words, the line loop); a relational grammar of oopses; every parser characterised by iff, every text read to its end without stepping outside of it; round trips for frame lines and module lists.
* **C47** NEVRA strings split correctly. Round trip both ways; double free refutation.
* **C48** Package sort and uniq keep every package exactly once. Any sorting algorithm meeting the qsort contract; uniq by induction.
* **C49** DSO list parsing yields exactly the well-formed lines. Model with suffixes; spec per line.
* **C50** Address lookups return the covering module. Direct with wrap-around; guards.
* **C51** Call graph extension computes the reachable functions. Model with fuel; invariant: set of addresses = reachable set; buffer size refutation.
* **C52** Copies are deep and equal. Explicit memory; footprints of copy and original are disjoint. The core crash-thread pointer is a borrowed pointer.
* **C53** Converting a gdb stacktrace to a core stacktrace. Model with UB for NULL dereference; refutation for every non-empty thread.
* **C54** Short text shows the first frames. Direct.
* **C55** Report type names round-trip and the right parser is chosen. Finite case analysis over names, all strings.
* **C56** System release parsing. Direct.
* **C57** Freeing releases a structure's memory exactly once. Explicit memory, footprints.
* **C58** Metadata of a problem directory. A directory is a function from file names to contents (missing, unreadable, text); composition of C47-C49, C56 and number parsing.
* **C59** eu-unstrip output. The parser is modelled as a loop over cursors; totality for every text, and the entries for every list of printed lines by induction.
* **C60** Reasons. Each type's function is modelled; the sentence is specified by relations (first named exception, last frame, first frame left after normalization).
* **C61** gdb threads and stack traces. The loops over frames and threads with fuel (shown to suffice); inductive grammars; exactness of both results by induction on the length; round trip for traces of any size.
* **C62** gdb shared libraries and whole gdb traces. The section search over all places, sscanf as in C59, the line loop with fuel; exactness of results and of the texts that lead outside; round trip for lists of any length, alone and after the threads.
* **C63** unwind tables. What libelf/libdw return for a file is a record the theorems quantify over (sections, segments, the sequence of CFI entries); the section contents are bytes and reading outside of them is UB. Exactness against a relation on section contents; memory addresses; JSON.
* **C64** procedure linkage tables. Same file record; exactness slot by slot for tables of any size; distinct addresses; lookup.
* **C65** unwinding. What elfutils and libunwind report (modules, frames, threads, notes, return values) are parameters; frames, threads, signals and whole traces are characterised exactly by relations, for elfutils, for gdb's trace with a core dump, and for libunwind.
* **C66** files. The answers of open, lseek, read, write and close are parameters; reading is characterised exactly, writing by the list of states the file goes through, which gives the crash-point property and the read-back theorem.
* **C67** problem directories. A directory is a function from names to missing, unreadable or a text; the report is characterised by a relation over the files, composed from the specifications of C41-C47, C54, C58, C65 and C66; writing and reading back composes C31, C65 and C66 with any JSON library that gives the value a text denotes.
* **C68** lists, packages and reports in memory. The memory, ownership and footprints of C20 and C52, with packages, consistency records, operating systems, custom entries and reports added; each function is proved by induction over the list with a frame condition (which cells change), sorting for every qsort that sorts, merging by the invariant that the entries before the cursor are done.
* **C69** Python lists and C lists. A Python heap of reference-counted objects (list, wrapper with attributes, other) beside the memory of C20 and C68; the prepare, wrap and dup functions of python/ are functions on the pair. The linking loop is proved by induction over the list with the cells already linked as invariant; the refuted cases are runs of the model.
* **C70** lifetimes of Python objects. decref with destructors as a fuelled recursive function on the same pair; destroying a thread or a stack trace is proved by induction over its items, with the exact set of freed cells.
* **C71** attributes of Python objects. Python values (None, bool, int, str as code points, others) and the memory of C20; the tables of attributes as data, offsetof as a lookup whose result is undefined behaviour when the type is not that of the member, CPython's UTF-8 conversions as functions proved equivalent to the relation of RFC 3629. Reading and assigning are proved for all entries of the tables at once from facts about the tables checked by computation.
* **C72** distances and dendrograms in Python. The methods over the matrices of C14, the parts of C16 and the dendrograms of C17, with Python's conversion of arguments, exceptions as values, and part objects as a store with links that the merge rewrites. Histories by induction on the calls; the links by induction on the list with the invariant that the chain built so far is not touched again; the values from C14, C16 and C17.
* **C73** the command line program. satyr.c as a function from the argument vector and a record of what the system answers (files, core dumps, writing, time) to what is printed, said and written and the exit status. Dispatch by cases on the vector; the file of debug normalize by induction on its text against an inductive grammar; normalization specialised to frames without a source file; the rest from C21, C23, C35 and C67.
* **C74** reports in Python. py_report.c on the objects and memory of C69 with None as an object; the printer is a parameter. Linking from C69's packages and footprints; wrapping by counting the references of None exactly; the destructor by induction over the attributes with multiplicities, then C68's sr_report_free; auth by induction on the list against a declarative dictionary.
* **C75** methods of frames, threads and stack traces in Python. The methods link the lists as in C69-C70, then read the structure member by member through the pointers into a value of Types.v; that reading yields the value the owned tree describes is proved by induction over frames, threads and libraries; comparing, hashing and printing are then C30, C16, C31, C33. Two threads are linked one after the other, so separate footprints are required, and the case of shared frames is refuted.
* **C76** what unwinding opens. The functions of C65 run in a process state: open files, Elf handles with their files, Dwfl handles with their Elf handle, memory blocks, traced processes. Closing or freeing what is not open, or what is still used, is UB. A state assertion lists what is open and allocated up to order of memory; each operation has a lemma; loops over modules, frames and threads are by induction; the whole functions follow by composition on every path. The result is related to C65's function, and a sequence of runs is by induction on the sequence.
* **C77** creating objects. The parsers (C40 to C46, C61, C62) and JSON readers (C33 to C36) are functions on values; a placing function puts a value into the memory of C55 and the wrapping functions of C58 make the objects. Placing is proved, by induction over the lists, to build an owned structure of the value from exactly the new cells. The constructors follow by composition with the lemmas of C58, from_json also with those of freeing.
* **C78** str(). The specification is a list of pieces (fixed text, decimal number, hexadecimal number) for each type, and what it means for a text to be made of them. The printing functions are proved to write these pieces, induction giving the digits; the members come from memory by the lemmas of C75. The round trips compose with those of the parsers (C40, C41, C43, C47) and the constructors of C77.
* **C79** Methods particular to a type. Normalization is modelled a second time, on memory: names are cut in place and frames unlinked and freed; it is proved to leave the frames that the list version (C25) leaves, by induction with the frames already passed as a generalised prefix. The Python method copies, normalizes the copy, moves its frames to the original, frees what is left of the copy and wraps the frames; the proof follows the footprints through the eight steps. The other methods read what C75's lemmas read.
* **C80** Methods of a gdb stack trace that rebuild its threads. Naming libraries is modelled a second time, on memory, and proved to leave the frames that the list version (C29) leaves; a relation between the cells before and after composes over frames and threads. Giving up the list of threads is an induction over threads whose objects may or may not have other references, with the cells that go stated as a predicate; the copy, the new objects and the old ones are kept apart by footprints and numbers of objects. Normalization in memory is a parameter, with the hypothesis that it turns a stack trace of this value into the other without touching what is not its own.
* **C81** Looking packages up in the RPM database. librpm is a record of its answers; packages are built in the memory of HeapModel.v and what is done to librpm's objects is logged. The cells a partly filled package occupies are described exactly, so each way out of header_to_rpm_info is a computation followed by the freeing lemma of C68. Induction over the headers with the list found so far as invariant.
* **C82** Where and why a text is refused. The parsers of C40 and C41 once more, with the location; forgetting the location gives the parsers without (a refinement, so what C40 and C41 say about accepted texts carries over). A relation per reason says what stands before and after the place; induction over the frames with the lines read so far as invariant.
* **C83** Ruby objects behave as values. The methods as steps on blocks of memory and a table of objects; the specification is the same history on a list of values without memory. A simulation: every object's block holds its value, every block in use has one owner, the block a copied crash thread points into is in use exactly as long as the report it came from; undefined behaviour is characterised exactly.
* **C84** Error messages of the JSON readers. The readers once more, with every message they set, in order; proved to give what the readers of the round trips give. The specification is a table of wanted members per type with two meanings, a predicate that says which documents fit and the first complaint; both are proved equivalent for any table, every complaint to be true of the document, and the readers to follow their tables. A report is a list of stages, each with a complaint that stops and complaints that do not.
* **C85** Where and why Java texts are refused. The parsers of C43 with the location; proved to be those parsers when the location is forgotten. The specification says for which reason and at which rest of the text an exception goes wrong, on the relations of C43; it is proved to exclude every reading and to be unique. Places are a relation on the text read so far that counts characters, with the two exceptions as its own rules; without them it is proved to be the true position.
* **C86** Where and why Python texts are refused. The parsers of C42 with the location, and what sr_strstr_location leaves in it when it finds nothing; proved to be those parsers when the location is forgotten. The specification gives the reason as a relation on the text, on the relations of C42, and the place as the position of the first frame with the columns the frames count for; both are proved unique and to hold exactly when the error is given. Against the true position the line is compared in a theorem of its own.
* **C87** Where and why gdb texts are refused. The parsers of C45 with the location, and proved to be those parsers when the location is forgotten. The specification gives the reason as a relation on the text, on the relations of C45, together with the characters counted; it is proved unique and to hold exactly when the error is given. A theorem of its own compares the characters counted with the text before the fault: they are a beginning of the text unless a crash frame precedes.
* **C88** Distances of three threads. About the model of C09-C13, in exact arithmetic. Levenshtein by composing edit scripts; Jaccard by counting one representative of every frame of the three threads, and the inequality of Steinhaus; exchanging frames by induction over the loops, and for edit distances by the minimality of the scripts.
* **C89** Hashes, summary and reason after JSON. Composes the models of C21, C22, C54 (texts), C31-C36 (JSON), C38 (reasons) and C28 (crash threads). What comes back is known exactly from C31-C36; normalization is shown not to look at anything clipped (it commutes with reading back), then each text is compared frame by frame. Distances: a distance depends on the outcomes of comparisons only (parametricity, by induction over the loops of C09-C13), and frames that fit compare as before.
* **C90** From text through JSON. Composes the exact descriptions of accepted texts (C40, C42, C44-C46) with C31-C36: each relation of the text specifications is shown to take its strings from the text, so the bytes stay those of the text, and its numbers within 32 or 64 bits; then what comes back is compared member by member.
* **C91** Chains of senders and receivers. Uses what comes back by C31-C36 and C89; reading back is shown to be idempotent on frames, so after one hop every condition of C89 holds; chains are by induction on their length; the crash thread of core dumps and the JavaScript platform are treated exactly. What readers accept is known from C39.
* **C92** Problem directories to JSON and back. Every part of a report (operating system, component, packages, stack trace, reason) is shown to consist of bytes of the files, from the specifications of C56-C58, C67 and the text formats (C40-C46); with the report's JSON of C38 the text is well-formed and comes back; what is lost is computed exactly.
* **C93** Groups that stand apart. Every run of the specification of average linkage (C19) keeps the invariant that groups hold only objects near to each other, since an average is at most the level only if some distance is; at the end two groups of one class would have been merged. Duplicates follow from the zero laws of C11 and C12 and the matrix of C16.
* **C94** The same crash at other addresses. Each modelled function commutes with forgetting the addresses (all but whether one is 0, and the address of a frame that has nothing else); moved stack traces are those that are equal after that. A gdb short text looks libraries up by address, so the libraries have to move along.
* **C95** Noninterference of the user's name. A text without an inner slash that is found in /home/USER/rest is found in /home/USER/ or in /rest, so for ordinary names every table lookup of the normalization has the same result for both users; each step then keeps the frames related, and anonymizing makes them equal. For texts the exact characterisations of C40 to C43 are used.
* **C96** From the characterisations of C09, C10 and C12. An edit script for threads that start with the same frame gives one of no higher cost for the rest, by cases on its first step; scripts can be reversed, which gives the same for the end. A frame taken out of, put into or changed in a thread is followed through the script by induction. For Jaccard, representatives of the larger threads are built from those of the smaller.

## 5. Axioms

Every theorem in the `P_*.v` files is followed by `Print Assumptions`; all are "Closed under the
global context" except those about rounding to single precision, `C11_rounded`, `C12_rounded`,
`C29_rounded` and `C29_rounded_constants`, which use the real numbers of the standard library and hence its axioms
`ClassicalDedekindReals.sig_not_dec`, `ClassicalDedekindReals.sig_forall_dec`,
`FunctionalExtensionality.functional_extensionality_dep` and `Classical_Prop.classic`.

## 6. Where the code does not do what the property says

Each has a theorem with suffix `_refuted` (a reachable witness), beside the guarded theorem.

* C10: for gdb frames (a missing library name matches any) Damerau-Levenshtein can return 0 for
  different threads; minimality holds for symmetric and transitive comparisons.
* C11, C12: a gdb thread with an unknown function `??` is at distance 1 from itself; the Jaccard
  distance of gdb threads is not symmetric; the core comparison is not transitive.
* C13: Jaro-Winkler exceeds 1 for repeated frames, is 0 for two identical one-frame threads.
* C14: matrices with 46341 or more objects overflow an `int`.
* C16: merging parts does not notice a missing part.
* C30: differences cut to 32 bits: equal results for different offsets or install times, cycles for
  line numbers 2^31 apart; Java threads are compared by name and first frame only.
* C52: a copied core stacktrace keeps pointing to the original's crash thread.
* C23, C24: a second normalization can change the result when a name carried two prefixes
  (`__GI___GI_x`) or two null frames were at an end.
* C26: the name given to a pair is not fresh with respect to names already in the threads.
* C28: when threads carry no tid, normalizing the stacktrace can lose the crash thread.
* C21: "frames after the n-th never matter" is true of the frames left by normalization; a frame further down in the original
  thread (an exit frame) can change which frames these are (`C21_later_frames_refuted`).
* C22: hash texts collide for fields containing ", ", for a field spelled "<unknown>", for kernel-oops taint flags (a "Flags:" line is
  written but never filled), for core function names, for a Python and a Ruby stacktrace, and for no thread against one empty thread.
* C54: a JavaScript frame without file name and a core frame with neither function name nor build id pass NULL to `%s`.
* C47: a NEVRA whose epoch is not a 32-bit number makes the parser return failure with freed release and architecture pointers
  left in its results; the callers free them again (C49: undefined behaviour on such a dso_list line).
* C48: sorting an empty package list reads outside its array; epochs 2^31 apart make the comparison wrap, so it is no order.
* C49: the last line of a dso_list without a final newline is ignored.
* C55: no abrt problem type is taken for JavaScript; "JavaScript" is taken for Java.
* C58: the interpreter's package is appended without merging, so it can be listed twice; an interpreter name with a bad epoch is a
  double free; DESKTOP_SESSION is missed when another variable's name ends with it earlier; a count of 0 is rejected when errno was set before.
* C50: a mapping or unwind range that ends exactly at 2^64 covers no address (its end wraps to 0).
* C51: the array for the call targets is allocated in bytes of the wrong size, seven bytes too small whenever all targets are
  distinct (the model takes the allocator's slack as a parameter); a call to address 0 hides the later targets.
* C53: building a core stacktrace from a gdb stacktrace dereferences NULL for every thread with frames.
* C59: a line with missing fields takes them from the following line.
* C37: the CPE of an operating system is written and not read; the consistency of a package is not written; the writer of an empty
  package list gives " ]"; reading a single package always reports success.
* C38: the flags of the user are looked up in the wrong object and lost; JavaScript stack traces are not read; the reporter is not
  escaped; a stack trace written as "{}" makes the report malformed; a report of a known type without stack trace, or with one of gdb,
  runs into NULL.
* C60: the reason text of a kernel oops is not in its JSON, so the reason changes when a stack trace is written and read.
* C41: a function name with a space (V8 writes `new Foo`, `async f`) is cut at the space when read.
* C42: a traceback without an exception line (the text ends after a frame) is read beyond its end.
* C43: what satyr writes for an exception with a cause is not read back (the line `...` lacks the space that the parser looks for); a
  suppressed exception of the outermost exception hides its cause; an exception with an empty message takes its first frame as message.
* C44: an empty function name, an empty library name, and a function name with a space but no library (`operator new`) are read back as something else.
* C46: after an instruction-pointer line ("RIP: ...") the frame parser has already stepped over the line end, so `parse_IP` skips the whole next line too and a frame there is lost; the number of an unclosed address `[1f+...` becomes the frame's address; `(0x1f` is a frame; a function name that starts like `0x1` is not read; `fun+/` is a function with offset and length 0.
* C45, C61: a text that ends with an operator name (`#1  a::operator+`) or with the opening parenthesis of a call is read beyond its end; with an address, a function whose name starts with `vtable` is no frame, and nor is `type name` where the name starts with `const`; `int (anonymous namespace)::f` is read as function `int`; the search for the next frame starts inside the current one, so a newline and `#` in a string argument ends the thread; in a trace without thread titles frame 0 becomes the crash frame only and is missing from the thread; a thread title with a quoted thread name ends the trace.
* C62: a library list whose last line has no newline is read beyond its end; after the list, an empty line and a line that starts with `No` or `Yes` ("No symbol table is loaded.") is taken for a library without addresses; a library without a name takes the whole next line as its name.
* C63: in a file whose executable segment does not start at file offset 0 (separate code segments), relative entries are recorded at wrong addresses (file offset plus base), so functions are not found; entries in the 64-bit format are recorded four bytes off; an entry that is cut off is read beyond the section; the JSON of an empty table is ` ]`.
* C64: a table whose size leaves a remainder of 1 to 10 bytes is read beyond its end.
* C65: when attaching to the dying process fails, an error message is set but an empty stack trace is returned instead of NULL.
* C65: from a gdb trace more than 256 frames of a thread can be kept: the signal handler frames that are skipped count as dropped frames.
* C65: a thread whose frames end in an error of elfutils (-1) is kept with the frames so far; the test that there are any is never true.
* C65: with libunwind, a thread that cannot be set up makes sr_parse_coredump write to the freed (NULL) stack trace; a failing register read leaves the instruction pointer uninitialized; the frame of __libc_start_main is kept, which elfutils drops.
* C66: sr_string_to_file truncates the file in place: when writing fails or is interrupted the old text is lost.
* C66: sr_string_to_file writes texts of more than 20000000 bytes, which sr_file_to_string refuses to read.
* C66: sr_file_to_string trusts the size lseek reports: of special files with size 0, and of files that grow, only the first part is returned, without an error.
* C67: of an unpackaged program whose dso_list has no packages sr_abrt_report_from_dir returns NULL without a message, and satyr.c then prints an uninitialised pointer.
* C67: a message can be set although a report is returned: a missing component is reported as an error and then ignored.
* C67: of an unknown type a report of type invalid without a stack trace is returned instead of an error; the JavaScript branch of the type is never reached.
* C67: a core dump without threads is written as malformed JSON (C31), which the report then cannot read.
* C67: when attaching to the dying process fails, the caller gets the text of a stack trace without frames and not NULL.
* C68: appending a list to itself makes it endless; counting it afterwards does not stop.
* C68: sr_rpm_package_sort reads the first element of an empty array when there are no packages.
* C68: sr_gdb_stacktrace_remove_threads_except_one dereferences a NULL thread.
* C68: sr_report_free never releases the reporter's name and version, which sr_report_from_json allocates.
* C69: assigning an empty list to frames (or threads) does not reset the pointer of the C structure, so the next call works on freed frames.
* C69: a frame object that is twice in a list, or in the lists of two threads, makes the linked list lose frames.
* C70: frames_to_python_list and its kin keep an extra reference to every item (PyList_Append adds one of its own), so the items are never destroyed.
* C70: threads_prepare_linked_list on a list with a foreign item drops a reference to the thread before it once too often and never drops the one to the item.
* C70: limit_frame_depth of a gdb stack trace built from Python objects frees the removed frames twice; of a parsed one it leaves kept frame objects dangling; without threads it dereferences NULL.
* C70: find_crash_frame stores its result in the stack trace without taking a reference; dup of such a stack trace calls the method of another type.
* C71: sr_py_setter_uint32 has no upper bound: 2^32+1 is stored as 1.
* C71: sr_py_setter_uint64 takes any integer modulo 2^64; 2^64-1 reads back as None.
* C71: a string with a NUL is cut there without an exception.
* C71: sr_py_setter_bool ignores an exception from the truth value and stores true.
* C71: assigning reporter_name or reporter_version of a new report frees the string constant that sr_report_init put there.
* C72: get_merge_level(i) accepts i = size-1 and i = size; there are size-1 levels (python/py_cluster.c:162).
* C72: get_distance(i, j) and set_distance(i, j) refuse i >= m, although the library takes a pair in either order.
* C72: merge_parts does not notice missing parts, and an object listed twice drops the parts between; the pairs are uninitialised.
* C72: merge_parts([]) returns NULL without setting an exception.
* C72: DistancesPart.create(n, 0) divides by zero; create(-2^31, k, 0) overflows.
* C72: DistancesPart(...) copies a list longer than len past the end of the buffer.
* C72: Distances(m, n) is not initialised; more than 46340 objects overflow an int.
* C73: abrt-report-dir says "Not implemented." and exits with status 0 (satyr.c:104-109).
* C73: abrt-print-report-from-dir prints error_message although sr_abrt_report_from_dir may fail without setting it; it is not initialised (satyr.c:92-98).
* C73: debug normalize discards the result of sr_skip_whitespace, so the library's name starts with a space (satyr.c:164-180).
* C73: debug normalize sets the source file to the empty text, so frames recognised by their file (abort, raise in libc) are not removed.
* C73: in debug normalize a line without a space takes the next line as part of the function's name.
* C73: debug unwind-from-hook accepts an empty tid or signal as 0 and wraps numbers that do not fit an int.
* C73: main with an empty argument vector reads argv[0], which is NULL.
* C74: report_to_python_obj and report_prepare_subobjects know no JavaScript and gdb stack traces: the attribute is None, to_json drops the stack trace and the destructor leaks it (python/py_report.c:271-296, 338-363).
* C74: stacktrace_prepare does not link the frames or threads of the stack trace object again, so changes to report.stacktrace.frames are not printed (python/py_report.c:217-238).
* C74: attributes can be deleted (T_OBJECT_EX); to_json and the destructor then read a null pointer.
* C74: sr_report_add_auth puts new entries first and the auth getter lets later ones win, so the oldest value of a key is shown.
* C75: the function tables of Python, kernel oops, Ruby and JavaScript stack traces have no cmp entry, so equals of such objects fails an assertion (lib/python_stacktrace.c:48, lib/generic_thread.c:155-162).
* C75: gdb frames have no append_to_str entry; short_string fails an assertion (lib/gdb_frame.c).
* C75: sr_py_base_thread_equals does not look for an exception set by the comparison: it returns False with TypeError pending (python/py_base_thread.c:188-221).
* C75: threads sharing a frame object: linking the second list relinks the first, so t.frames=[a] equals u.frames=[a,b].
* C75: sr_py_gdb_stacktrace inherits get_bthash, which links the threads but not the libs: stale or freed libraries are hashed (python/py_base_stacktrace.c:330-352).
* C75: the crash_thread pointer of a core stack trace is not updated when threads is assigned; to_short_text then reads a freed thread.
* C75: to_short_text returns NULL without an exception if the stack trace has no crash thread (python/py_base_stacktrace.c:259-302).
* C75: find_address reads the address as a long: addresses from 2^63 raise OverflowError, and -1 gives None.
* C76: core_handle_free closes the file only if its descriptor is greater than 0, so a core dump opened as descriptor 0 stays open (lib/core_unwind.c:126).
* C76: open_coredump frees the handle but not the list of segments when dwfl_getmodules returns -1 after some modules (lib/core_unwind.c:256-261).
* C76: sr_core_stacktrace_from_core_hook_prepare does not detach from the process when a later step fails, and has closed standard input (lib/core_unwind_elfutils.c:261-305).
* C76: sr_parse_coredump with libunwind reads *error_msg although it allows error_msg to be NULL (lib/core_unwind_libunwind.c:137-141).
* C77: a frame or thread constructor, and that of gdb stack traces, creates the object before it parses and does not release it when the text is refused (python/py_gdb_frame.c:176-205 and the other frame files, python/py_gdb_thread.c:109-155, python/py_java_thread.c:109-146, python/py_gdb_stacktrace.c:276-321).
* C77: from_json does not release the object it made when the text is refused (python/py_base_stacktrace.c:415-447, 449-479).
* C77: sr_py_koops_frame_new does not check the result of sr_koops_frame_parse, and its object then wraps NULL (python/py_koops_frame.c:137-158).
* C78: line numbers of Java, JavaScript, Python and Ruby frames, and the block level of Ruby frames, are unsigned but printed with %d (python/py_js_frame.c:159-192 and the other frame files).
* C78: str() of a Python frame leaves out the word "line", of a kernel oops frame prefixes the address with 0x, of a Java frame without a source omits the opening parenthesis, so the constructors do not read them back (python/py_python_frame.c:163-192, python/py_koops_frame.c:170-218, python/py_java_frame.c:166-206).
* C78: str() of threads and stack traces does not check PyList_Size of an attribute that Python code can replace or delete (python/py_core_thread.c:123-134 and the other thread and stack trace files).
* C79: frame.calls_func(name) of a gdb frame passes no file names, and sr_gdb_frame_calls_func without file names is false (python/py_gdb_frame.c:255-264, lib/gdb_frame.c:134-165).
* C79: the modules attribute of a kernel oops ignores that a string could not be made (python/py_koops_stacktrace.c:106-122).
* C79: format_funs of gdb and java threads does not link the Python list first (python/py_gdb_thread.c:231-235, python/py_java_thread.c:222-226).
* C80: stacktrace_rebuild_thread_python_list copies the list of threads without checking that there is one, so set_libnames of a stack trace without threads reads a null pointer (python/py_gdb_stacktrace.c:244-260, 505-518).
* C80: sr_gdb_thread_set_libnames reads the soname of a library that contains the address; it may be NULL (lib/gdb_thread.c:524-553).
* C80: normalize overwrites the pointer to the crash frame without freeing the frame (python/py_gdb_stacktrace.c:520-546).
* C81: header_to_rpm_info fails for a header without RPMTAG_EPOCH, which librpm does not store for a package without an epoch (lib/rpm.c:331-337).
* C81: header_get_string and header_get_uint32 do not release the tag container when headerGet fails (lib/rpm.c:280-287, 301-308).
* C82: sr_js_stacktrace_parse_v8 does not add the two columns of ": " before it skips the message (lib/js_stacktrace.c:165-184).
* C82: sr_js_stacktrace_parse and sr_js_frame_parse overwrite the reason the V8 parser gives (lib/js_stacktrace.c:234, lib/js_frame.c:369).
* C82: sr_ruby_frame_parse subtracts four columns for ':in ' even when fewer were read, so the column can be negative (lib/ruby_frame.c:220-228).
* C82: sr_ruby_frame_parse counts strlen("block in") for "block in " (lib/ruby_frame.c:283-287).
* C82: sr_ruby_stacktrace_parse counts one line for the first frame and the message, however many they take (lib/ruby_stacktrace.c:228-229).
* C83: sr_core_stacktrace_dup copies the pointer to the crash thread, so that of Ruby's copy of a stack trace is freed with the report (lib/core_stacktrace.c:109-121, ruby/lib/satyr.rb:147-154).
* C83: sr_report_from_json can set a message and return a report all the same; Report.new then raises and never frees the report (lib/report.c:392-441, ruby/lib/satyr.rb:88-105).
* C83: the stack traces of reports of type ruby and javascript cannot be had from Ruby: the enumeration and the case of Report#stacktrace end at gdb (ruby/lib/satyr.rb:17-22, ruby/lib/satyr.rb:114-127).
* C83: the binding loads libsatyr.so.3, the library is built as libsatyr.so.4 (ruby/lib/satyr.rb:14, lib/Makefile.am:93); not part of the model.
* C84: json_check_type overwrites *error_message without freeing what is there; with two wrong values the first message is lost and leaks (lib/json_utils.c:56-63, lib/operating_system.c:142-145, lib/report.c:434).
* C84: desktop or variant of the wrong type, a stack trace that cannot be read and an authentication entry that is not a string leave a message although a report is returned (lib/operating_system.c:142-145, lib/report.c:404, lib/report.c:434); the caller cannot take a message for a failure, as the Ruby binding does.
* C84: when a mandatory member of the operating system is wrong the optional ones are read all the same, and their message replaces the reason of the refusal (lib/operating_system.c:134-145).
* C84: the user member is read only if there is a problem member (lib/report.c:365-390).
* C85: newlines among blanks are counted as columns, so that line numbers fall behind (lib/java_frame.c:280-281, lib/java_frame.c:331-332, lib/java_frame.c:500-504).
* C85: the location eats the character after the quotation mark behind a thread name instead of the quotation mark (lib/java_thread.c:331).
* C85: a blank line after the frames makes the parser refuse the whole text: past the blanks it expects a frame at the end of the text (lib/java_frame.c:329-335).
* C86: the line told for a text without a leading newline is one too far, and a leading newline is counted as a column that is then overwritten (lib/python_stacktrace.c:136-137, lib/python_stacktrace.c:186).
* C86: the lines of frames are not counted, since sr_location_add with one line and no column changes nothing, and the location of the frames is never reset, so that each frame's columns are added again for every frame below it (lib/python_frame.c:337, lib/python_frame.c:344, lib/python_stacktrace.c:195-208).
* C86: when the traceback header is missing the place told is behind the last i of the text, and the place of a syntax error is counted from the words invalid syntax, not from the start (lib/python_stacktrace.c:161-175).
* C87: the header of a crash frame is counted twice, since the search for its end starts again at the beginning of the frame with the location behind the header (lib/gdb_frame.c:326-332).
* C87: the closing parenthesis of a thread title is not counted, so that the column told for a missing colon is one short (lib/gdb_thread.c:381-393).
* C87: newlines in the template arguments of a function name are counted as columns (lib/gdb_frame.c:1086-1177).
* C87: what is wrong inside of a call, its address or its arguments is not told, the messages of the inner parsers are lost (lib/gdb_frame.c:1086-1177).
* C88: the scaled Levenshtein distance does not obey the triangle inequality: 1/3, 1/3 and 1 for the threads 12, 121 and 21 (lib/distance.c:268).
* C88: the Damerau-Levenshtein count does not obey it: 1, 1 and 3 for the threads 31, 13 and 123, since exchanged frames are not edited again (lib/distance.c:249-257).
* C89: a 64-bit kernel address is above 2^63 and is clipped by the reader, so the backtrace hash of a kernel oops, and the duplicate hash of a frame without function name, are not the sender's (lib/json_utils.c:41, lib/koops_frame.c:737-749).
* C89: the reason found in an oops text is not written, so the reason computed from the JSON is another one (lib/koops_stacktrace.c:550-631).
* C89: if no crash thread is marked the writer marks the first thread, although the thread found by its abort may be another (lib/core_stacktrace.c:281-284).
* C90: "at a.b(Unknown Source:12)" is read as line 12 without a file name; the writer writes the line only with a file name, so it is lost (lib/java_frame.c:521-541, 577-589).
* C90: the parser accepts an oops with more than 127 modules, which is written as JSON on which the reader writes beyond its array (lib/koops_stacktrace.c:696-722).
* C91: a core dump whose crash thread has no frames loses the mark at the first hop, and the writer of the second hop marks the first thread (lib/core_stacktrace.c:281-284, lib/core_thread.c:228-233).
* C92: a problem directory whose environ file has an escape character in DESKTOP_SESSION, or whose core_backtrace is a JSON object without threads, gives a report that is not JSON, without any error (lib/abrt.c:54-69).
* C93: three threads with the middle one equally far from both others: with sr_threads_compare and sr_distances_cluster_objects it joins whichever is listed first, so the same threads listed in the opposite order are grouped differently (lib/cluster.c:132-162).
* C94: the backtrace hash (sr_stacktrace_get_bthash) contains the addresses of frames and libraries, so the same crash of a program that is loaded elsewhere gets another one (lib/core_frame.c:349-363, lib/gdb_frame.c:1179-1193, lib/koops_frame.c:717-735).
* C94: a core frame with no build id, function name or fingerprint enters the duplication hash by its address alone, so the same crash loaded elsewhere is no duplicate (lib/core_frame.c:365-389).
* C95: sr_core_stacktrace_get_reason and the JSON of a core stack trace contain the path of the executable without anonymization, so the name of a user who runs a program from their home directory is told (lib/core_stacktrace.c:381-387).
* C95: the normalization searches whole paths for parts of library names, the user's name included: for a user libc-dev, a function abort in any program in their home directory counts as that of glibc, and the frames above it are dropped (lib/core_thread.c:151-165, lib/core_frame.c:122-156).
* C96: the Jaro-Winkler similarity can go down when the same frame is added to both threads: the window for matches and the weights depend on the lengths, and repeated frames match more than once (lib/distance.c:54-108).
