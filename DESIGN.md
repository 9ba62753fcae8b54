# Formal model of vita in Rocq (Coq 8.16.1)

The code modelled is the C library in /repo (`src/vita/**.c`, `inc/vita/**.h`).
Nothing of it is executed: every definition of the model cites the file and
lines it was read from, and every simplification is stated in that comment.

## Layout (rocq/theories)

| kind | files | content |
| --- | --- | --- |
| base | `Base.v`, `BaseFacts.v` | outcomes, size_t wrap, memory blocks, C strings |
| models | `*Model.v` | one Gallina function per C function, no proofs |
| specifications | `*Spec.v` | what a user expects, over plain lists/numbers, without using the models |
| proofs | `*Proofs.v` | lemmas |
| properties | `Props*.v` | only theorem statements (`exact lemma`), non-vacuity examples, `Print Assumptions` |

## Modelling decisions

- **Outcomes.** A call returns `Ok x`, `Abort` (the process exits: failed
  `assert`, `VT_DEBUG_ASSERT`, `VT_ENFORCE`, allocation failure), `UB` (undefined
  behaviour: out-of-bounds or uninitialised read used in a decision, NULL
  dereference, division by zero, overlapping `memcpy`) or `NoFuel` (a loop did not
  finish within the given fuel). Theorems exclude `NoFuel` by exhibiting enough
  fuel; non-termination is stated as "NoFuel for every fuel".
- **Build mode.** Parameter `dbg : bool`. `VT_DEBUG_ASSERT` and `assert` act only
  when `dbg = true` (in the default CMake build NDEBUG is not set); `VT_ENFORCE` always acts.
- **Machine integers.** `size_t` values are `Z` with explicit `mod 2^64` where the
  C code computes. Other widths likewise.
- **Memory.** A heap block is a list of cells `option Z` (`None` =
  uninitialised, `Some b` = byte 0..255). Access outside `[0, length)` is `UB`.
  Copying uninitialised cells is allowed, deciding on them is `UB`.
- **Allocation.** Requests above `alloc_max = 2^48` bytes (more than the user
  address space of x86-64) fail, and the code then prints and exits: `Abort`. Smaller
  requests are assumed to succeed; a real failure only adds `Abort` (proved for containers
  and the allocator in C181, where the policy below may answer NULL).
  `assert(bytes > 0)` acts in debug; release `calloc(1,0)` gives an empty block,
  release `realloc(p,0)` gives NULL hence exit.
- **Addresses.** In most models a container owns its block and no addresses occur.
  `HeapModel.v` has a system heap (address to block) with an arbitrary *policy* that
  chooses the address of each new block and whether `realloc` moves; `AllocModel.v` puts
  the tracking allocator on it and `ContModel.v` puts headers and storage of vectors,
  lists and strings there. C22, C101 and C102 prove that any program on the shared heap
  gives the same results as the models without addresses, for every policy.
- **memcpy onto itself** (identical pointers, in `vt_gswap`) is modelled as a
  no-op, partial overlap as `UB`.
- **NULL arguments**: functions are modelled at non-NULL arguments unless NULL is
  a documented or internally produced value. `NullModel.v` (C191) models nothing but
  what happens to pointers, for every function and every combination of NULL arguments.
- **libc** functions (`strstr`, `strlen`, `strncmp`, `memcmp`, ctype in the C
  locale, `snprintf` of integers, `strtol`-family, `mktime`, `localtime`, `strftime`,
  `sscanf` with the formats used, ...) are modelled by their contract; those contracts
  are part of the trusted base.
- **Time** (`DtModel.v`). Proleptic Gregorian calendar, a time zone with a constant
  offset (any offset); `DstModel.v` has zones with daylight saving. The value of the clock
  is an argument (`DtBuild.v`).
- **File system** (`FsModel.v`, `PathModel.v`). A finite map from paths to directories
  and regular files with contents; `mkdir`, `rmdir`, `remove`, `stat`, `opendir`,
  `fopen`, `fread`, `fwrite` by their POSIX contract on it. No hard links; symbolic links only in `SymModel.v`; no permissions (but for `PermModel.v`),
  no limits of open files or of path lengths (but for `DescModel.v` and `LimModel.v`), no medium errors; other processes only in `RaceModel.v`, `LiveModel.v` and `LiveRm.v`.
- **Command line** (`ArgModel.v`). Option variables are separate cells; no two options
  share a variable. A floating point option is recorded by the text given to `strtod`.
- **Logging and debugging** (`LogModel.v`). A process state with the destination names,
  whether stderr is open and the list of (destination, text) written; formatted messages
  and the time text are arguments.
- **Sockets** (`SockModel.v`, `NetModel.v`). What each system call answers is an argument, so
  theorems quantify over every answer; little-endian machine; `inet_addr` by the contract of
  the C library (numbers in C notation, one to four parts).
- **Typed accessors** (`TypedModel.v`). Little-endian two's complement; `float` and
  `double` elements are bit patterns.
- **Floating point** (`FloatModel.v`). Flocq's IEEE 754 binary32/binary64 with rounding
  to nearest even; each C operation is one rounded operation in the type of its operands
  (`FLT_EVAL_METHOD` 0, no contraction to fused operations, no `-ffast-math`). NaN
  payloads follow Flocq's default and no theorem depends on them.

## Trusted base

1. The kernel of Coq 8.16.1.
2. What `Print Assumptions` lists for each property theorem (printed by the build under
   each theorem), see "Assumptions per theorem".
3. The reading of the C code into the models (cited line by line), the contracts of the
   C library and of the system calls, and the decisions above.

### Assumptions per theorem

Every property theorem not named here: closed under the global context (no axioms).

With the standard library axioms `ClassicalDedekindReals.sig_forall_dec`, `ClassicalDedekindReals.sig_not_dec`, `Classical_Prop.classic`, `FunctionalExtensionality.functional_extensionality_dep` (real numbers of the standard library, used by Flocq):
C58_diff_refuted, C58_diff_partial, C58_days_partial, C190_six, C190_back, C190_enough_double, C190_enough_float, C190_enough_long_double, C190_sixteen, C190_back_refuted, C141_find_refuted, C141_find_f32_partial, C141_find_f64_partial, C105_clamp_id, C106_order_refuted, C107_is_close_refuted, C107_is_close_partial, C107_is_close_sound_partial, C107_is_close_complete_partial, C107_is_close_sym_partial, C108_map_to_refuted, C108_map_to_low_partial, C108_map_to_mono_partial, C108_map_to_accurate_partial, C109_sqrt, C109_isqrt, C110_special_refuted, C110_special_partial, C123_float_option_refuted, C123_float_option_partial, C111_read_float, C111_read_double, C111_read_long_double, C111_read_integers, C111_other_text, C112_print_float, C112_print_double, C112_print_long_double, C112_buffer, C112_buffer_float, C112_buffer_long_double, C113_round_trip_refuted, C113_large_float_partial, C113_large_double_partial, C113_large_long_double_partial, C113_multiples_partial, C113_near_partial, C134_normal_range, C135_samples, C135_no_deviation, C135_pairs, C135_two, C202_return_refuted, C202_return_partial, C202_fuel, C124_random_float, C124_small_bound, C125_uniform_refuted, C125_uniform_partial, C125_rounded_partial.

With the standard library axioms `ClassicalDedekindReals.sig_forall_dec`, `FunctionalExtensionality.functional_extensionality_dep` (real numbers of the standard library, used by Flocq):
C190_text, C190_text_long, C190_appendf.

## What is modelled

| source | model | left out |
| --- | --- | --- |
| container/common.c, vec.c | VecModel.v, VecAlias.v, TypedModel.v, RealModel.v, ContModel.v | |
| container/plist.c | PlistModel.v, ContModel.v | |
| container/str.c | StrModel.v, StrModel2.v, StrAlias.v, AliasPop.v, AliasPath.v, ContModel.v, CtypeModel.v (bytes from 128 on) | the formatted text is an argument (which text a format gives: FmtModel.v), a string passed to itself except in StrAlias.v, AliasPop.v and AliasPath.v |
| container/span.c | SpanModel.v, TypedModel.v | |
| container/hashmap.c, algorithm/search.c | | empty files |
| allocator/mallocator.c | HeapModel.v, AllocModel.v, PrintModel.v (`vt_mallocator_print_stats`) | |
| core/core.c | Base.v, SpanModel.v | |
| core/conv.c | NumModel.v, FtextModel.v | locales |
| core/compiler.c, version.c | | constants |
| algorithm/comparison.c, math/math.c | NumModel.v, FloatModel.v, RandModel.v, NormModel.v | whether the loop of `vt_math_random_f32_normal` accepts a pair (C202) |
| time/datetime.c | DtModel.v, DtBuild.v (debug builds, the clock), DstModel.v (daylight saving) | |
| system/path.c, fileio.c | FsModel.v, PathModel.v, RenameModel.v (`vt_path_rename`), LocModel.v (program location, working directory), WriteModel.v (a full disk), OwnModel.v (objects made and destroyed), SymModel.v (symbolic links), RaceModel.v (several processes), LiveModel.v (a file changed while it is read), LiveRm.v, LiveElse.v (a directory removed or listed while others work; readdir gives the contents at the opening), AliasPath.v (a string filled from its own text), PermModel.v (unreadable directories), DescModel.v (limit of open files), LimModel.v (limit of path lengths), CrashModel.v (a killed program) | links outside SymModel.v, relative paths while the working directory itself is moved |
| util/argopt.c | ArgModel.v, PrintModel.v (`vt_argopt_print_help`), OwnModel.v | |
| util/log.c, debug.c | LogModel.v, NameModel.v (file names as pointers), ProcModel.v (writes of several processes) | |
| printf as used by str.c, fileio.c, log.c, debug.c, argopt.c, mallocator.c | FmtModel.v (d i u x X c s f F %), MsgModel.v (all messages) | lf, e, g, a, `#`, p, n |
| steps of threads in datetime.c, math.c | ThreadModel.v (shared `struct tm` and seed, each read and write one step) | weak memory |
| network/sockets.c | SockModel.v, NetModel.v (`inet_addr`, streams, descriptors), ConnModel.v (ends of connections, datagrams) | |
| inc/vita/core/core.h (loop macros, source file name) | LoopModel.v | |
| Windows branch of system/path.c, fileio.c | WinModel.v (separator, text mode), WinLines.v, WinNum.v and SetProofs.v (files of lines, tables and settings, saving what was loaded), WinFsModel.v (drives, shares, directory calls) | upper and lower case of names, reserved names, `\\?\`, program location |
| pointer parameters of all functions | NullModel.v (checks, dereferences and calls in order; conditions on other things may go either way) | what is stored behind the pointers |
| archive/mat.c | MatModel.v | NULL matrices; the file is not built by the project, its macros are taken as calloc, realloc and free |

Also not modelled: other Windows branches, wide characters, threads elsewhere, signals, real out-of-memory outside the containers and the allocator (there: C181), what appears on a terminal beyond the
sequence of texts; the missing `va_end` before the return of log.c:51, undefined by the
letter of the C standard and taken as harmless.  printf conversions that do not fit the
argument's type (log.c:50, mallocator.c:77, 108, 128) are undefined in C179 and taken as
harmless in the other properties.  A `%s` without an argument (datetime.c:156, 167) is
modelled as undefined everywhere (C136).

## How the model was checked against the code

The code may not be built or run here, so the model is compared with what the project's
authors recorded about it: UpstreamTests1.v and UpstreamTests2.v replay the assertions of
`/repo/tests/src` (vec, plist, span, core, str, conv, math, datetime, path, fileio,
argopt, mallocator, log) on the model, call by call, and every assertion holds there by
computation. MatTest.v does the same with archive/test_mat.c, and WikiTest.v
with the programs of README.md and docs/wiki (three of them do not do what the text says: the README's
downloader is undefined, the wiki's creation of a string in two steps ends the program, and the wiki's
list example prints less than shown). Not replayed: the socket tests, `vt_path_get_cwd` and the program location,
the clock, sliding over a C array, and tests that only print.

## Plan per property
- **C01** Vector behaves as a sequence — Byte-level model of the vector (block of cells, len, capacity, elsize, size_t wrap). Spec: lists of elements with list edits. Simulation per operation, induction over the op list.
- **C02** Out-of-range vector access is stopped in debug builds — Debug-mode model, result `Abort` for every index >= len, without memory effect.
- **C03** Vector memory safety in debug builds for arbitrary calls — Invariant (len<=cap, block size = cap*elsize) + no `UB` for arbitrary op lists in debug mode, induction.
- **C04** Oversized vector requests are rejected — False: the product n*elsize wraps. Witness theorem `_refuted`; `_partial` under the no-wrap hypothesis.
- **C05** Vector removal strategies — Direct from the byte-level model; permutation statement for the fast strategy.
- **C06** Vector search finds the first occurrence — Loop over elements with memcmp; first-index characterisation.
- **C07** Forward sliding enumerates every element once — Slider state machine, iterate n calls, induction on the remaining length, any number of sweeps.
- **C08** Backward sliding enumerates every element once in reverse — False (index len-slider-2): witness; `_partial`: what the code yields exactly.
- **C09** Appending is amortised constant time — Cost-instrumented push_back trace; potential-function argument (capacity triples).
- **C10** Vector duplicate is equal and independent — Duplicate model returns a new block; independence by frame over op lists on the pair.
- **C11** Vector resize keeps the common prefix — Direct.
- **C12** Pointer list behaves as a sequence of pointers — Pointer-valued version of C01 (blocks of pointer cells).
- **C13** Pointer list element removal and search — Direct, first-occurrence characterisation.
- **C14** Span is a live view — Span = (block, offset, len, elsize) over shared memory; get/set laws.
- **C15** Span over an index range — False at from=0 (debug abort): `_refuted`; `_partial` for from>0.
- **C16** 2D index mapping is a bijection — size_t arithmetic with wrap, Euclid.
- **C17** 3D index mapping is a bijection — size_t arithmetic with wrap, Euclid.
- **C18** Core memory helpers — Direct over blocks.
- **C19** Allocator statistics are exact — Allocator state machine over an abstract heap (fresh pointer oracle); invariant by induction over op lists.
- **C20** Allocator tracks exactly the live blocks — Same invariant.
- **C21** Destroying the allocator releases everything exactly once — Same model, destroy loop; log of frees is a permutation of the live set.
- **C22** Containers with an allocator never leak — Container lifetimes on top of the allocator machine.
- **C23** Strings stay terminated and within capacity — Byte-level string model; `rep` invariant over op lists.
- **C24** String editing matches sequence editing — Refinement of byte-level string ops to list edits.
- **C25** Substring search — libc strstr by contract (leftmost match); function logic proved over it.
- **C26** Counting occurrences — Loop model; spec = greedy non-overlapping count.
- **C27** Removing the first occurrence — Refinement to cut at leftmost occurrence.
- **C28** Removing the last occurrence — False (position measured from the end; no-match path passes NULL on): `_refuted`; `_partial` = exact condition under which it works.
- **C29** Removing all occurrences — Termination measure (length) for non-empty substring, result free of it; empty substring diverges: `_refuted` + `_partial`.
- **C30** Removing characters — Refinement to filter.
- **C31** Replacing all occurrences — Loop invariant: processed prefix ++ remaining suffix; spec = recursive left-to-right replacement.
- **C32** Replacing the first occurrence — Refinement; too-long substring aborts (`_refuted` for the unchanged part, `_partial`).
- **C33** Replacing the last occurrence — Loop to the last occurrence; no-match path is UB (`_refuted`, `_partial`).
- **C34** Replacing characters — Refinement to map.
- **C35** Stripping whitespace — Maximal prefix/suffix; all-strippable strings read out of bounds (`_refuted`, `_partial`).
- **C36** Splitting yields the non-empty pieces — Loop model; separator-only text is UB (`_refuted`, `_partial`).
- **C37** Joining and splitting are inverse — Join refinement and round trip.
- **C38** Text between two markers — Search for right marker starts at the beginning (`_refuted`, `_partial`).
- **C39** Popping the part before the first separator — Direct refinement.
- **C40** Popping the part after the last separator — Direct refinement.
- **C41** String comparison — Direct.
- **C42** Case conversion — Byte map in the C locale.
- **C43** Numeric check — Direct.
- **C44** Length revalidation — Direct.
- **C45** Views cannot be modified — False for several mutators (`_refuted`), `_partial` for those that check.
- **C46** Unsigned number text round trip — Digit printer/parser models, induction on digits.
- **C47** Signed number text round trip — False for negatives (`_refuted`), `_partial` for non-negatives.
- **C48** Palindrome test — mod 2^64 reversal; digit-count argument shows wrap cannot give a false positive.
- **C49** Greatest common divisor and least common multiple — Loop/recursion models with int64 range and division-by-zero outcome.
- **C50** Pseudo random range — LCG step with wrap, range lemma.
- **C51** Minimum, maximum and clamp — Direct on Z (integer instances); floats in C105, C106.
- **C52** Leap years follow the Gregorian calendar — False at century years (`_refuted`), `_partial` 1901..2099.
- **C53** Days in month and year — As C52.
- **C54** Date text round trip — Printer/parser at fixed positions.
- **C55** Date text validation — False (separators unchecked) (`_refuted`), `_partial` = exact acceptance set.
- **C56** Datetime creation clamps fields — Direct.
- **C57** Seconds arithmetic — mktime/localtime with a constant-offset zone modelled as proleptic Gregorian day count; round trip by arithmetic.
- **C58** Datetime differences — Truncated division; for vt_datetime_diff an analysis of the rounding errors (DtSplit.v): the fraction of a float is a float, a float below 1 times 24 or 60 stays below 24 or 60, and the errors of the five roundings add up to less than a second.
- **C59** Path basename — List of bytes; last separator. False for a single leading separator (`_refuted`), `_partial`.
- **C60** Stepping up a path — Model with out-of-bounds outcome.
- **C61** Path building — Fold over components.
- **C62** Tilde expansion — `~` alone aborts (`_refuted`, `_partial`).
- **C63** Creating nested directories — Abstract file-system tree; loop invariant over components.
- **C64** Directory listing — Finite tree with listing order given by the tree; post-order listing.
- **C65** Recursive directory removal — Same tree.
- **C66** File write/read round trip — Abstract map from names to byte lists; fopen modes.
- **C67** Reading into a caller buffer — Same.
- **C68** Command line parsing is faithful — Argument loop model; spec as a relation over the argument vector.
- **C69** Help detection — Direct.
- **C70** Re-assigning a C-string option is safe — False (heap overflow) (`_refuted`, `_partial`).
- **C71** Log routing — State machine of level destinations; log = list of (destination, record).
- **C72** Checks terminate the program — Direct on the check model.
- **C73** Timed receive — poll/recv outcomes as inputs of the model.
- **C74** Storing a vector's own element — Vector model with the argument pointing into the own storage (`VecAlias.v`); False when storage moves (`_refuted`), `_partial` otherwise.
- **C75** Pointer list iteration — As C07 on list slots.
- **C76** Pointer list duplicate — Duplicate model with its own block.
- **C77** Allocator memory contents — Contents of blocks on the heap model across malloc/realloc/free of the allocator.
- **C78** Foreign blocks are not counted — Same state machine, pointers outside the records.
- **C79** String iteration — As C07 on strings.
- **C80** Reading numbers from text — Digit parser model, all widths.
- **C81** Out-of-range numbers are rejected — False: values wrap (`_refuted`); `_partial` = the exact value returned.
- **C82** Week day and year day — Day-count arithmetic; false before 1970 (`_refuted`), `_partial` from 1970 on.
- **C83** Pretty date text — Layout of the text computed from the fields.
- **C84** Parsed dates carry their week day — False (`_refuted`), `_partial` = fields that are left.
- **C85** Time stamps name valid dates — Inverse of the day count, by Euclidean division over 400-year cycles.
- **C86** Calendar arithmetic normalises — Normalisation by mktime's contract, compared with an independent carry specification.
- **C87** Nested creation succeeds when it can — False for single names (`_refuted`), `_partial` as C63.
- **C88** Removing one entry — Abstract file system, frame: all other entries unchanged.
- **C89** Creating one directory — Same; false for existing files (`_refuted`).
- **C90** Bad option tables are rejected — Table validation before the argument loop.
- **C91** Debug output falls back to stderr — False from the second message on (`_refuted`), since stderr gets closed.
- **C92** The wait is limited — Conversion of uint32_t to int; false from 2^31 on.
- **C93** Starting sockets — All answers of socket/setsockopt/bind/listen/connect; set of open sockets.
- **C94** Ports in network byte order — htons on 16 bits; false above 65535.
- **C95** Replying to a sender — Address record filled by recvfrom passed on unchanged.
- **C96** Sending — Direct over all answers.
- **C97** Emptiness and apply — Direct; apply as a fold over elements with index.
- **C98** Backward iteration of lists and strings — False (last two elements skipped); `_partial` = exact sequence visited.
- **C99** Copying and filling memory — Direct over blocks.
- **C100** Path queries — Direct over the abstract file system.
- **C101** Containers behave as independent values — Simulation between the shared-heap machine (every address policy) and separate values, induction over programs.
- **C102** Destroying the allocator releases its containers — Same machine, destroy at any point; frame for foreign blocks.
- **C103** Typed containers hold numbers — Little-endian encoding lemmas on top of C01, induction over typed calls.
- **C104** Element type mismatches are caught — False: no size check (`_refuted`), `_partial` = what is stored.
- **C105** Clamping floating point numbers — Case analysis on Flocq comparisons, NaN included.
- **C106** Smaller and larger of two floats — False for NaN (`_refuted`), `_partial` for numbers.
- **C107** Closeness — False (`_refuted`); `_partial` = exact condition on the rounded difference.
- **C108** Mapping ranges — False at the upper end (`_refuted`); `_partial`: monotone rounding, relative-error analysis of five operations.
- **C109** Fast square roots — Bit-level analysis of the first guess (per exponent parity, polynomial bounds), then three Newton steps with standard-model rounding errors.
- **C110** Square roots of special values — Witnesses by computation; zeros and NaNs by case analysis.
- **C111** Reading decimal fractions — Integer rounding to nearest even of numerator/denominator via Flocq's binary_normalize, with an odd-rounding sticky bit.
- **C112** Printing floats — Exact integer arithmetic on mantissa and exponent; error bound of rounded division.
- **C113** Float text round trip — Witnesses by computation; spacing of floats versus half a millionth for the exact cases.
- **C114** A string's own text as argument — Reads of the argument become reads of the storage at that moment; equal to the separate-copy call where the bytes read are still the same.
- **C115** Temporaries are released — Ledger of live objects; every branch of the functions is followed, destroying a dead object is undefined behaviour; the result is a permutation of the start plus what is returned.
- **C116** Freeing a directory listing — The slide_front loop of vt_path_dir_free over the slider state of the list.
- **C117** Refilling a list of strings — Composition of the refilling functions with vt_path_dir_free.
- **C118** Failed extraction leaves nothing — Case analysis on the positions of the marks.
- **C119** Help text — Loop invariant of the width computation; the padded fields as lists of spaces plus the name.
- **C120** Statistics table — C19 gives the numbers; decimal printing and padding of one row.
- **C121** Adopted blocks — Witness by computation; vt_mallocator_realloc of an unknown block re-establishes the allocator invariant with one block more.
- **C122** Renaming — POSIX rename on the tree as a map from paths to entries; prefix arithmetic on paths.
- **C123** Floating point options — Composition of C68 and C111.
- **C124** Random floats below a bound — Monotonicity of rounding and exactness of the conversions.
- **C125** Random floats in an interval — Overflow by computation for every factor; monotonicity of rounding otherwise.
- **C126** The program's location — The block after vt_str_create_capacity is known byte by byte; readlink overwrites its start.
- **C127** The working directory — The components of the text getcwd returns are the names of the directory.
- **C128** Debug checks only stop — Relation: left aborted or equal; preserved by bind and by every check; one lemma per function with a debug parameter.
- **C129** Log records in both builds — The same relation for vt_log, given that opening succeeds or that messages stay off.
- **C130** String memory safety in debug builds — Where the expected effect (C24) is undefined, every operation is shown to stop, by cases on the failed condition.
- **C131** Pointer list memory safety in debug builds — As C130, from the refinement of C12.
- **C132** Appending to a string is amortised constant time — Capacity after each append follows from C24; sum over the appends.
- **C133** Appending to a pointer list is amortised constant time — As C09: the capacity is n times a power of three.
- **C134** Normal samples stay near the mean — The coordinates lie on a grid of 2^-24, so W is at least 2^-48 and -2 log W at most 67.3; the roundings are bounded one by one.
- **C135** Normal samples do not depend on the parameters — The draw does not mention the parameters; induction over the calls.
- **C136** Calendar queries are defined for every date — The undefined call is reached exactly when mktime is negative; the days do not enter mktime.
- **C137** The current time as a date and as text — From C54, C83 and C85; the year of a time from the order of times (C57).
- **C138** A write that reports success stored the text — Limited room is writing a shorter text; then the lemma on writing of C66.
- **C139** One record is one line — Every record is a text without line feed followed by one; induction over the calls.
- **C140** A record can be read back — The layout is cut at fixed lengths, ']' and ':'; the first occurrence is unique.
- **C141** Searching floats — Bit patterns of numbers that are no zero and not NaN are equal iff the numbers compare equal (Flocq).
- **C142** Order and spelling of options do not matter — From C68: the effect is a function of the last texts.
- **C143** Replacing back — The pieces between occurrences are unique; replacing joins them again.
- **C144** Doing it twice — The result contains nothing that the second call would change.
- **C145** Any sequence of calls leaves a proper tree — Provenance of characters through str.c, then each system call preserves the invariant; induction over the calls.
- **C146** Built paths come apart again — From the lemmas of C59 to C61 on the joined text.
- **C147** Vectors of long doubles — C103 on 16-byte objects, then forgetting the padding commutes with every list operation.
- **C148** Searching long doubles — Witness by computation; with one padding the map from numbers to objects is injective.
- **C149** Seconds in summer — Zone = standard offset, saving, when in force; mktime with tm_isdst 0 reads standard time. Reduction to the constant-offset lemmas by shifting the time.
- **C150** Adding to a date in summer — As C149: the result is what localtime gives for the moved standard time.
- **C151** Differences across the seasons — As C149, twice.
- **C152** Week day in summer — As C149; week day and year day depend only on the day number.
- **C153** Invalid years count as 1900 — Day number of the year; dby is monotone, so a negative year lies centuries before 1900.
- **C154** Days of a month of an invalid date — Case analysis of the function.
- **C155** Invalid dates have no week day — C54 lemmas: the answer depends only on the second, whose date is valid.
- **C156** Stripping control symbols — C35 specification; a text that starts and ends with a symbol that is not white space is not changed.
- **C157** Recognising numbers — The accepted texts are those over digits and dot; decomposition at the first dot.
- **C158** Numeric addresses — Reading of one decimal number up to a dot; bytes assembled low first; C78 lemmas for the port.
- **C159** Bad addresses are noticed — The parser accepts exactly the texts of an inductive grammar (one to four C numbers with dots).
- **C160** A stream loses nothing — Invariant of the pair (bytes under way, answers) over the list of events, every answer being possible.
- **C161** No socket is forgotten — Invariant: the list of descriptors of the system is the list the program holds.
- **C162** Redirecting keeps the name of the file — Simulation: while the buffer is untouched the process with a pointer is the process of LogModel.v with the text.
- **C163** Recursive removal stays inside the directory — Resolution is monotone when entries are removed; every listed text names an entry below the directory through real directories. Agreement with PathModel.v on file systems without links.
- **C164** Links can be removed — Case distinction on what stat answers.
- **C165** Matrices behave as tables — Representation relation between block and table; simulation of every call.
- **C166** Resizing a matrix keeps the places — Witness 2x2 to 2x3; renumbering lemma for realloc.
- **C167** Matrices of any size are safe — Witness 2^32 x 2^32; C165 for the rest.
- **C168** Typed access to a matrix — Witness; C165's relation with the encoding of TypedSpec.v.
- **C169** A vector as a matrix — Relation between vector and function of row and column on top of vrep.
- **C170** Paths on Windows — The proofs of PathProofs.v with the other separator; witnesses by computation.
- **C171** Files on Windows — crlf is the identity without line feeds; write_read of FsMain2.v.
- **C172** Loop macros — Induction on the number of steps; witnesses by induction on fuel.
- **C173** The name of the source file — Induction on the path.
- **C174** Changing a container while sliding over it — Lists and vectors with a cursor as a state machine; invariant: the items answered so far are the elements before the cursor.
- **C175** Records of several processes stay whole — Contents as merges of the writes of each process; a buffered record is one write if it fits.
- **C176** A command line is the sequence of its assignments — Induction on the arguments; the README program by computation on symbolic texts.
- **C177** Threads do not disturb each other — Steps of threads on the shared struct tm and seed; a schedule of whole calls is a schedule of steps in pairs.
- **C178** Formatted text is what the format says — The reader of formats is a machine; induction on the items of a format.
- **C179** Every message the library prints is well defined — Table of all formats with the C types of their arguments; decided by computation on the types, lifted to all values by C178.
- **C180** Blocks the allocator does not own are refused — No step before the C library can end the call; a foreign block turns into an owned one of a smaller start heap.
- **C181** Running out of memory — A policy may answer NULL. Relation between a run and the run with refusals, indexed by the number of requests made; compositional over every call.
- **C182** Processes in the same directories — Each system call is one step; invariant per process: the directories made so far are there. The model of one process is the schedule of that process alone.
- **C183** Nested directories on Windows — Which volume a text names is a function; every system call on Windows is the POSIX call on that volume with the translated text; simulation of the loop, then C63.
- **C184** Recursive removal on Windows — The same simulation for listing and removal, then C65.
- **C185** Renaming on Windows — Case distinction on MoveFile; C122 for the effect.
- **C186** Directories that may not be read — Simulation of the loop with and without unreadable directories; the invariant says what is listed, what is missing and why.
- **C187** Removing where directories may not be read — From C186 and the effect of removing one entry.
- **C188** Texts beyond ASCII — Unfold each loop with the guard; the first byte outside the set stops it.
- **C189** UTF-8 texts stay well-formed — No character of UTF-8 starts inside another, so a well-formed text occurs between characters only; then by cases over the calls of C24.
- **C190** Floating point numbers in formatted text — The quotient is the nearest integer of Flocq; the digits by induction on their number; the number printed lies between the midpoints next to the double.
- **C191** NULL arguments — Every function reduced to its actions on pointers; the outcomes of all combinations of arguments are computed, up to a depth of calls after which nothing changes any more.
- **C192** A killed program leaves a proper tree — The states a call goes through are listed next to the call; the last one is the call's result, and each is a result of a shorter sequence of system calls.
- **C193** Interrupted writes — Opening and writing the first k characters is a write of a shorter text.
- **C194** Interrupted directory calls can be made again — The directories made so far exist, so the second run makes the others; a listing of what is left is complete.
- **C195** Replacing a file through a temporary one — Until the rename only the temporary name changes; rename is one system call.
- **C196** Formatted integers, characters and texts — What printf means is stated without the formatter, as relations between value, digits and padding; the formatter is shown to compute a text so related, and two such texts to be equal.
- **C197** Texts of dates of any year — The year field alone depends on the year; all other fields have fixed length.
- **C198** A file of lines — The file is the concatenation of the lines with their line feeds; the split of such a text is computed from the law of vt_str_split.
- **C199** Texts of dates sort in the order of time — All fields have fixed length and stand in the order of their weight; the order of seconds is that of the fields (C57).
- **C200** Random numbers do not start over — The generator is linear modulo 3 * 5 * 17 * 257 * 65537, its multiplier is 0 modulo 17 and has order 65536 modulo 65537; 32768 calls apart two states differ by a multiple of 65535, which shows in the numbers at once or one call later.
- **C201** Programs started at different times get different numbers — Equal numbers mean states that differ by nearly a multiple of 2^30; a search over all such differences finds none that stays so for two more calls.
- **C202** Every call for a normal sample returns — A loop that comes back to its state without an end has none; the states return after 32768 rounds (C200).
- **C203** Adding and taking away — vt_datetime_op adds seconds, or months before the day is normalised (C57, C86); equal seconds are the same date (C57); two shifts of months are one.
- **C204** Adding keeps the order — From C203: seconds move by the same amount; months compare before days.
- **C205** A table in a file — The lines are the joined rows (C198); each line, as a string of its own, is split by the law of vt_str_split.
- **C206** Copying a file — What is written is the C string at the start of what was read (C66).
- **C207** A table of numbers in a file — Digits are never the separator, so C205 applies to the texts of the numbers; C46 and C80 convert back.
- **C208** Listing with few open files — A directory too deep for the number of files behaves as one that may not be read (C186), with the depth as permission; whole listings by a separate induction.
- **C209** Removing with few open files — As C208, from C187.
- **C210** Files when none can be opened — By cases on the number of files.
- **C211** Listing long paths — Induction over the recursion next to the unlimited one: the listing is the whole listing without the entries whose directory has too long a text.
- **C212** Removing long paths — The first name at which a text becomes too long is in the listing; its removal fails, and the loop stops there or before.
- **C213** Making long paths — The loop of C63, which does nothing from the first text on that is too long.
- **C214** The end of a connection is noticed — The answers of poll and recv are computed from the state of the connection; receiving until 0 by induction on the calls.
- **C215** Datagrams stay whole — By computation of one call from the queue.
- **C216** A file of lines on Windows — A line in text mode is, byte for byte, the line and a carriage return elsewhere: reduced to C198.
- **C217** A table in a file on Windows — Reduced to C205: the last field with a carriage return.
- **C218** Saving what was loaded — Induction on the number of times; the iterated text translation in closed form.
- **C219** A table of numbers in a file on Windows — C217 and C80: a text with a carriage return is no number.
- **C220** A file of settings — C198 and C39: the leftmost separator ends the key.
- **C221** A file of settings on Windows — Reduced to C220: the value with a carriage return.
- **C222** Reading a file that is being replaced — The file may change between the three system calls; the bytes read are a beginning of what the opened file holds.
- **C223** Reading a file that is being written — Induction over the read calls: each byte is that of the file at its place at some moment.
- **C224** Reading a file that grows — Every read call sees the content at the size query followed by more.
- **C225** Popping into the string itself — Both functions with one string in both roles; the wrapped subtraction gives the position written to.
- **C226** The base name in place — Equality of the two models: the byte overwritten by clearing is in front of what is read.
- **C227** Extracting in place — The resizing always calls realloc.
- **C228** Removing a string's own text — After one removal the string ends where the pointer points, and the empty text is found for ever.
- **C229** Reading into a buffer while the file changes — The read calls deliver at most what is asked for; each byte by induction over the calls.
- **C230** Removing a directory while others work stays inside it — An invariant kept by every step of the others and by every removal below the directory; all listed texts lie below it.
- **C231** Removing a directory while others remove — An undisturbed listing is complete; each place removed stays gone, so the directory is empty in the end.
- **C232** Doubling the percent signs — The reader of formats gives the text of a doubled one; every other format wants an argument or is undefined.
- **C233** Replacing single bytes — The pieces between single bytes, joined, are the text changed byte by byte; no piece contains the byte.
- **C234** Others working elsewhere do not disturb — A simulation: every system call of the function gives the same on file systems that agree at and below the directory.
- **C235** Any text in one line — After the first replacement every % is followed by a 2, so the occurrences of %0A are the line feeds.
