# Formal model of zlatko-michailov/abc: design

Every claim lives in `properties.jsonl` (ids C01..). This file says, per claim, what is modelled and
how it is proved; `MANIFEST.json` maps claims to theorem names. The theorems are in the files
`rocq/theories/*_Props.v`.

## Trusted base

* Coq 8.16.1's kernel (including `vm_compute`, used to evaluate concrete witnesses and finite tables).
* What `Print Assumptions` reports after each theorem. The `*_Props.v` files print it for every
  theorem. The target is "Closed under the global context" everywhere; any standard-library axiom
  that is used is listed in the section "Axioms in use" below.
* The correspondence between the Gallina definitions and the C++ text. Each model definition carries
  the file and lines it follows. The C++ is read as text only; nothing is extracted or executed.
* The semantics given to the language and platform: fixed-width integers (explicit wrap-around),
  libstdc++ stream behaviour (below), atomics as sequentially consistent steps, POSIX calls as
  parameters (outcomes chosen by an environment).

## Structure

* `Base.v`: bytes, C strings, fixed width arithmetic. `ListMem.v`: lists of bytes as memory.
* `<Area>_Model.v`: definitions only, following the code function by function with citations.
* `<Area>_Spec.v`: the small independent specification (what a user sees; no reference to proofs).
* `<Area>_Proofs.v` and other files of the area: lemmas.
* `<Area>_Props.v`: the theorems, with a concrete `Example` meeting the hypotheses next to them and
  `Print Assumptions`.

| area | source in /repo/src | claims |
|------|---------------------|--------|
| `Ascii` | ascii.h | C01 |
| `Streambuf` | buffer_streambuf | C02, C60 |
| `Timestamp` | timestamp.h | C16-C18 |
| `Table` | table / line / log streams, diag | C19-C22, C61 |
| `Json` (also `_Writer`, `_Safety`, `_Final`) | json streams | C03-C09 |
| `Http` (several files) | http streams | C10-C15, C62 |
| `Socket` | socket.h, socket_streambuf | C23, C24, C58 |
| `Multifile` | multifile.h | C25-C27 |
| `Shutdown`, `Endpoint` | endpoint.h | C28-C32, C65, C66 |
| `Cache` (also `_World`, `_Wrap`) | vmem_pool: mapped pages, handles | C33, C34 |
| `Open` | vmem_pool: constructor | C37 |
| `Linked` (also `_Runs`) | vmem_linked, free list of vmem_pool | C35, C36, C40, C44 |
| `Cont` (also `_Steps`, `_Erase`, `_Runs`, `_Inner`) | vmem_container, list, stack, iterators | C35, C36, C38-C43 |
| `Map` | vmem_map | C45-C47, C67 |
| `Vstring` | vmem_string streams | C48 |
| `Nolog` | the unchecked uses of the log in vmem iterators | C49 |
| `Ttt`, `Connect4`, `Equations` | samples | C50-C54, C59 |
| `Tls` (also `_Records`, `_Listen`) | openssl_socket.h | C83-C88 |
| `Gpio` | gpio_line.x.h, gpio_ultrasonic.x.h | C89-C91 |
| `Emulator` | gpio_pwm_emulator.x.h | C92-C95 |
| `Smbus` | smbus.h, motion tracker, pwm | C55-C57, C63, C64 |
| `Suite` | test.h | C106, C107 |
| `Paths` | main.cpp of the samples | C108 |
| `Sensors` | gpio_chip, gpio_smbus_grayscale | C109, C110 |
| `Ref` | vmem_iterator (deref), vmem_container (front, back) | C111 |
| `Alias` | vmem_container (insert of an item of a list) | C112 |
| `Track` | motion tracker (place, heading, speed) | C113, C114 |
| `Life` | line_ostream (life of several lines, moves, <<) | C115 |
| `Pools` | vmem_pool objects (move constructor, destructor) with page handles | C116 |
| `Equal` | test_context::are_equal of blobs and of strings (src/test.h) | C117 |
| `Entry` | debug_line_ostream and diag_line_ostream: the properties in front of an entry (src/log.h) | C118 |
| `Solver` | equations_endpoint: requests to the equation solver from bytes to bytes (samples/basic/equations.h) | C119 |
| `Motion` | gpio_smbus_motion: setup, measurements, values, calibration | C120 |

A claim that is false of the code is kept in full in `properties.jsonl`; the development then contains
`..._refuted` (a concrete history/input on which the faithful model violates it, by computation) and
`..._partial` (the strongest general statement that holds, with the missing part named in the note).

## Modelling conventions

* A `char` is a byte, `Z` in [0,255] (0xFF is -1 as a signed char; comparisons in the code are against
  ASCII constants only, so the unsigned view is exact except where noted).
* Streams: state = remaining input / emitted output plus eof, fail, bad bits with the libstdc++ rules:
  `peek` on a non-good stream sets failbit and returns EOF; `peek` at the end sets eofbit; `get` at the
  end sets eofbit and failbit; nothing is consumed on a non-good stream.
* Memory safety: a write outside an array is a distinct outcome of the model (a flag or an error
  result), never silently dropped.
* Loops whose termination is in question take fuel; running out of fuel is a distinct outcome. A
  termination claim exhibits fuel from the input; a non-termination claim says every fuel runs out.
* Undefined behaviour (null dereference, division by zero, out-of-range index) is a distinct outcome.

## Plan per property

| id | model | method |
|----|-------|--------|
| C01 | ascii.h functions over lists of bytes | induction; equivalence with equality of mapped prefixes |
| C02 | buffer_streambuf get/put areas over a byte memory | invariants over arbitrary operation sequences |
| C03 | json_ostream put calls, json_istream get_token on byte lists | structural induction over JSON trees: reader consumes exactly the writer's text |
| C04 | get_token with fuel | refuted (unterminated string diverges for every fuel); partial: fuel bound on inputs whose strings are terminated and fit |
| C05 | get_token with an out-of-bounds flag | refuted (escape at full buffer, value offset 8 vs 2); partial: safe for strings without escapes that leave 6 spare bytes |
| C06 | json_state levels and get_token | invariant over call histories: returned brackets form a prefix of a nested word |
| C07 | reader/writer on a non-good stream | case analysis and induction over calls |
| C08 | json_ostream | refuted (quotes are not escaped; property without value; ...); partial for an explicit sub-language |
| C09 | skip_value with fuel | induction over trees, shares C03 lemmas |
| C10 | http streams | induction over headers; refuted corner cases listed |
| C11 | put_* of http_ostream | invariant on the emitted characters for every argument |
| C12 | get_* of http_istream with buffer index bookkeeping | invariant on gcount <= size-1 for every input |
| C13 | http_state automaton | refinement to a grammar automaton |
| C14 | get_body/get_bytes | refuted at EOF; partial when enough bytes remain |
| C15 | split_resource, get_resource_parameter | refuted on malformed query; partial for well-formed queries |
| C16 | timestamp::reset_date with int32/int16 arithmetic | spec = civil calendar independent of the code; refuted (Feb 29, 2070-02-28, from 2100); partial: exact set of right days by periodicity and a finite table |
| C17 | reset, reset_time | arithmetic for all non-negative counts; refuted for negative ones |
| C18 | comparison operators | lexicographic order arithmetic |
| C19 | line_ostream with vsnprintf contract | refuted; partial when the total fits |
| C20 | line_ostream + table | induction over operations |
| C21 | put_binary and the loops in log.h | induction over chunks; parse-back function as spec; refuted extra line for multiples of 16 |
| C22 | log_ostream/log_filter | induction over message histories |
| C23 | socket_streambuf put side | invariant sent ++ pending = written |
| C24 | socket_streambuf get side | refuted (no EOF; 0xFF looks like EOF); partial for available bytes < 0xFF |
| C25 | multifile path buffer | arithmetic + list lemmas; refuted at the boundary length; partial |
| C26 | file system map name -> content, clock | refuted (same second truncates); partial with distinct seconds |
| C27 | filebuf put area abstraction | refuted (double count / undercount); partial |
| C28, C29 | transition system: threads with check/inc/process/dec steps | refuted by a schedule; partial: invariants over all schedules |
| C30 | path construction | refuted ("..") ; partial: resources without ".." |
| C31 | decimal printing, chunk loop | induction; parse of the printed number |
| C32 | is_file_request, get_content_type_from_path | spec by suffix after last dot |
| C33, C34 | the page cache array with lock/keep counters and handles | invariants over all histories |
| C35, C36 | free list stored in pages, alloc/free, container erase | refuted by histories; partial for page-handle histories |
| C37 | file of bytes, init sequence with crash points | case analysis over crash points; byte-level header check; refuted (crash between the two pages; debug log) |
| C38, C39, C41, C42, C43, C44 | pages as records in a store, chains, containers with balance flags | representation invariant (chain of pages with item arrays), refinement to lists; refuted corner cases (erase() results, one item per page, splice into an empty chain) |
| C40 | clear/splice | refuted (free list empty); partial |
| C45, C46, C47 | map levels over the container model | refuted by histories; partial: insert-only histories whose first key is the smallest, and all histories on one page that keep the greatest key |
| C48 | string streambuf over the container abstraction | induction over characters; refuted for 0xFF |
| C49 | unchecked uses of the log in iterators and the functions that reach them | refuted for every item size; partial: histories within one page |
| C50, C51 | board bit operations | invariant + complete finite enumeration of cells |
| C52 | slow_find_best_move_for as written | complete game-tree computation lifted to all opponents |
| C53 | connect-four bit packing and scan loops | invariant over all move sequences |
| C54 | determinants over the rationals/reals | algebra; refuted for the zero matrix |
| C55, C56 | smbus calls with an environment choosing ioctl results | refuted without log / with interleavings; partial with log / single thread |
| C57 | integer arithmetic of the PWM registers | refuted (division by zero); partial with explicit range |
| C58 | descriptor ownership automaton | invariant over histories |
| C59 | endpoint_game seats | invariant over histories |
| C60 | move constructor of buffer_streambuf | refuted; partial for a fresh buffer |
| C61 | diag / test indentation | refuted for severity 0; partial otherwise |
| C62 | http protocol predicates | equivalence with a grammar |
| C63 | calibration sums in 16 bits | refuted; partial while sums fit; bound |
| C64 | thread and condition variable of the motion tracker | transition system; refuted (lost notification); partial |
| C65 | listener thread and start() | transition system; refuted; partial |
| C66 | request parsing with bounded arrays | invariant for all inputs; refuted for a long root |
| C67 | key lookup on a full page | refuted: memory behind the page decides; partial: memory that does not look like a key |
| C68 | requests of both game servers, all bytes | all paths of `serve` for reachable states; refuted by bodies and headers |
| C69 | create_game and claim_player over all request lines and JSON bodies | reply and change for reachable states; refuted for the id 0 |
| C70 | replies of both game servers | every list of calls is a complete response; refuted by silent requests |
| C71 | get_moves with the JSON writer and the HTTP writer | reply for reachable states equals the moves played |
| C72 | game_endpoint of both samples over the HTTP, JSON, board models | invariant and step relation over all histories; refuted by requests |
| C73 | accept_move over all request lines and JSON bodies | reply and change for reachable states; refuted for fractions |
| C74, C76, C77, C78 | car_endpoint: requests, sensor thread, writes to wheels | invariant and exact effect of every event; refuted by histories and races |
| C75, C82 | the same programs access by access, any interleaving | invariants with knowledge about flags; refuted by interleavings |
| C79, C80, C81 | replies of the car over all request lines and JSON bodies | reply and change for reachable states; refuted for fractions, untyped bodies, races |
| C83, C84 | TLS sockets over an environment that answers for OpenSSL and the peers | invariant over histories (verification flags, trusted authorities, handshakes); refuted by histories |
| C85, C86 | the same with a trace of descriptors and records, reference counts | invariants with ghost references; refuted by close() and throwing constructors |
| C87 | the accepting loop over a list of clients | induction; refuted |
| C88 | strncpy and sizes | list lemmas; refuted |
| C89, C90 | measure_distance with expect_level, over every signal and every duration of operations | invariants of the waiting loop, integer bounds; refuted by signals |
| C91 | descriptors of lines over histories | counting invariant; refuted |
| C92, C93, C94 | the emulator's thread, turn by turn, over every duty cycle and notification as functions of time | bounds per turn; refuted by times |
| C95 | constructors of the emulator | case analysis; refuted |
| C96, C97, C98 | slow engine of connect four over the board of C53, every depth of search | induction over the depth: a score says exactly within how many moves who can force a win; invariant of games it plays |
| C99, C100, C101 | fast engines of both games over an ideal map of scores, every random number | one definition of the choice for both games, lemmas about sums of weights; invariant of sessions; refuted by sessions and studies computed in the model |
| C102 | scores of the fast engines in the real map, any history of visits | invariant of insertions with the place of the returned iterator; writes through it; agreement with the ideal map; refuted with the sizes of tic-tac-toe |
| C103, C104, C105 | loops over the calls of lists and maps, on the models of C38-C47 | invariants of the loops over the layout of pages; refuted by lists and maps computed in the model |
| C106, C107 | test_suite::run over methods that do anything | the loops against an inductive account of the calls; refuted by suites |
| C108 | paths in the mains of the samples, arrays with any contents | exact result for every argv[0]; refuted |
| C109, C110 | chips and grayscale sensors, the system answers anything | case analysis, the bus of C55; refuted by answers |
| C111 | references from iterators, on the histories of handles of C33 | the two handles of deref leave the page mapped; if few pages are asked for, locking never evicts (counting); refuted by histories |
| C112 | insertion of items given by reference, on the lists of C38 | equal to inserting what the reference reads when it is copied; that is computed for each case; refuted by lists |
| C113 | calculations of the motion tracker over the real numbers | compared to the motion given by its derivatives; induction on the readings; refuted for accelerated turns and odd clocks |
| C114 | setters of the motion tracker | runs from two places stay apart by a constant; refuted by a call within a round |
| C115 | lines of one table, from construction to destruction | simulation of a book of texts; refuted by four short programs |
| C116 | several pool objects, moved and destroyed while handles are alive | invariant on owners of files and mappings; simulation of the unmoved pool; refuted by four short programs |
| C117 | verdict and messages of comparisons | induction on the number of whole pieces of 16 bytes; dump lines read back; refuted by blobs of 5 and 20 bytes |
| C118 | entries of debug and diagnostic logs | an independent reader applied to what the lines wrote; numbers of any width; refuted by a newline in a message |
| C119 | requests to the equation solver | JSON values of the specification on one side, bytes of requests and responses on the other; exact arithmetic ties the response to solutions of the system; refuted by overflow and by a string without its end |
| C120 | values of the motion sensor | the bus of C55, induction over the channels and the rounds; refuted by failing messages and without a log |

## What is modelled, and simplifications

Every model file opens with a comment that names what it follows and what it leaves out. In short:

* Streams (C02-C15): the input is a finite list of bytes, the output a list of bytes; `std::istream` and
  `std::ostream` state bits as above. HTTP: logging and `reset` are left out; the evaluation order of
  the operands of `get_crlf() && ...` is a parameter where it matters (C10_crlf_refuted).
* Tables and logs (C19-C22): `vsnprintf` by its contract (length it would have written, truncation).
* Multifile (C25-C27): `std::filebuf` is represented by every possible buffering; opening succeeds.
* Sockets (C23, C24, C58): the system answers every call with any result. One-byte sends succeed (C23).
* TLS sockets (C83-C88): OpenSSL is represented by what its manual pages promise of the functions called
  (reference counts, verification flags, handshakes, alerts; the list is in `Tls_Model.v`); it answers every
  call in every way allowed. Bytes of records are not represented. This contract is trusted.
* Endpoint (C28-C32, C65, C66): input of a connection is a finite byte list; symbolic links are
  ignored; the stream state is shared by reader and writer as in the code; the counter of requests is
  unbounded; steps of threads interleave arbitrarily and are sequentially consistent; spurious
  wake-ups are not assumed.
* Page cache (C33, C34): `mmap` gives fresh addresses or fails; counters have their widths; log,
  `msync` and the check counters are left out.
* Opening (C37): `lseek` and `mmap` succeed; the copy of the 33 bytes of a root page is one step.
* Chains, containers, maps, strings (C35-C49): every lock of a page succeeds (the condition is C33/C34);
  the pool is ready; pages are a total function of their position, and the theorems show that only
  pages of the file are used; the state of a container lies outside of pages; one type of items
  per memory; all accesses outside of a page are a distinct outcome (`COob`), except that a lookup of a
  map reads one key behind a full page, which is a parameter of the model (C67).
* Game servers (C68-C73): one definition for both samples over the operations of a board; requests are
  processed one after the other; an engine makes any move at any time for its seat; `std::rand`,
  `std::atof` and uninitialised arrays are arbitrary; log and learning are left out.
* Car (C74-C82): handlers and sensor thread as programs whose steps are single accesses of members,
  lines and registers, in program order and sequentially consistent; writes to the hardware succeed; the
  sensors say anything; the position of the tracker is any text; time and the log are left out.
* Games and equations (C50-C54, C59, C96-C101): both engines of both games; the scores of the fast ones are an ideal map
  (C102 compares it with the real one), `std::rand` gives any number, the lock and the log are left out. Equations: over every field; with `double` for the refutation; the requests are in C119.
* Lines and the ultrasonic sensor (C89-C91): the signal is any function of time, every operation takes any
  time; the clock stays below 2^63 nanoseconds; the log is left out.
* PWM emulator (C92-C95): other threads appear as functions of time (duty cycle, quit flag, notifications), any
  functions; the mutex has no other user; the log is left out.
* Test suites (C106, C107): a method is any function of the state of the program; the log is the list of its lines.
* Paths of the samples (C108): arrays are lists of bytes; what is done with the paths is left out.
* Chips and grayscale sensors (C109, C110): open, ioctl and close are answered by the environment.
* References (C111): a reference is the number of a mapping; where in the page the item is, and the log, are left out.
* Items given by reference (C112): the item is read at the moment of the copy; its page stays mapped (C111 is about that).
* Motion tracker (C113, C114): double is the real numbers, without rounding, overflow, infinities; a division by zero is an outcome of its own. The loads of a round are one step, the stores are one step. Angles use the constant 3.14159265 of the code on both sides.
* Life of lines (C115): all lines have one size and one table; texts are shorter than the size (C19, C20 are about longer ones); << is sputn of a text, the rest of formatting is left out.
* Moved pools (C116): the constructor of a pool is one step that succeeds; positions of new handles are given; descriptors are not used again; the handles that free_page() uses itself are left out.
* Comparisons (C117): a message is the severity and text given to put_any; category, tag and the comparison of other values are left out.
* Log entries (C118): time, thread number and formatted message are inputs; printf is what the C standard says for the formats in use; times are not negative.
* Equation solver (C119): the double operations, std::atof and what %.16lg prints are parameters; the loop over the headers is shared with the game servers, whose text is the same; the log is left out.
* Motion sensor (C120): rational numbers stand for double; the members of the structs are lists; sleeping and the texts of the log are left out; a failing message is any failing ioctl.
* Hardware (C55-C57, C63, C64): ioctl and locks with any results; integer register arithmetic.

## Not modelled

Real floating point formatting and parsing (`snprintf("%.16lg")`, `strtod`): number tokens are carried
as their text. OpenSSL, real sockets and real files: replaced by environments that choose outcomes.
Wide-character instantiations. `boneyard/`, the browser part of the samples, moving of vmem containers, multi-threaded use of
a pool, machines that are not little endian.

## Axioms in use

All theorems except those of C113 and C114 are "Closed under the global context". The theorems of C113 and C114
(`Track_Props`) are about the real numbers of the standard library. `Print Assumptions` lists for them:

* `ClassicalDedekindReals.sig_forall_dec`
* `ClassicalDedekindReals.sig_not_dec`
* `FunctionalExtensionality.functional_extensionality_dep`
* `Classical_Prop.classic` (not for all of them)

`coqchk -o` lists other axioms of the files of the standard library that are loaded (`ssrunder` and the like); no theorem
here uses them.