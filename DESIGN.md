# Design of the verification of lk_socks5

The program is C; nothing is built or run. Every function that matters for a
property is transcribed by hand into a total, computable Gallina function. This
document says, per property, what is modelled and how the statement is proved,
and what has to be trusted.

## 1. Method

* **Model files** (`*_Model.v`) contain definitions only. Each definition carries
  a comment citing the file and lines it transcribes and the simplifications.
* **Specifications** are independent of the model: abstract sequences for queues
  and buffers, multisets for heaps, finite maps for the hash table, RFC encoders
  for SOCKS5 / DNS / HTTP, "is a prefix of" for byte streams, and so on.
* **Proof files** hold the lemmas; **`*_Props.v`** hold the final theorems, each
  followed by `Print Assumptions` and by an `Example` that meets its hypotheses.
* **Undefined behaviour is an outcome.** Functions return
  `res A := Ok a | Fault f | NoFuel` where `Fault` distinguishes NULL
  dereference, out-of-bounds access, use after free, failed assertion (abort),
  deadlock and unbounded recursion. Absence of a fault is proved, never assumed.
* **The environment is an input.** Results of `recv`, `send`, OpenSSL, `epoll`,
  allocation and the clock are arguments of the model (a list of results, or one
  input of a state machine per call), so the theorems quantify over all of them.
* **Loops** are either structural, or run on fuel with `NoFuel` as an explicit
  outcome that the theorems exclude, or are turned into single steps of a machine
  whose every reachable state is covered by an invariant (so that programs that
  never stop are covered as well).
* **Machine arithmetic.** Values are `Z`; conversions and wrap-around are written
  out where a property is about them. `char` is signed, the target is
  little-endian x86-64 Linux (`EVENT_EPOLL`; C108 is about the other back end), and `assert`/`sassert` are active.
* **False properties.** When the code violates a property, the file proves
  `…_refuted` (a concrete witness evaluated in the model) and, when it makes
  sense, `…_partial`: the strongest version found to be true. The manifest calls
  these properties `partial` and names both theorems.

## 2. Trusted base

* The Coq 8.16.1 kernel (including `vm_compute` conversion) and the standard library.
* The transcription from C to Gallina (comments cite the lines).
* The models of the C library and kernel calls that appear in the model files
  (`inet_addr`, `snprintf("%d.%d.%d.%d")`, `strlen`, `memcpy`, `recv`, `send`,
  `epoll_wait`, `SSL_read`, `strtod` …): only their interface is assumed, as documented.
* Axioms: none of our own. See section 5 for the output of `Print Assumptions`.

Not modelled: OpenSSL internals, signal
delivery below the level of "a handler ran between two steps", hardware, and
threads (the program is single threaded per process; the mutex
in the allocator is modelled only as a flag that can be left locked).

## 3. Plan per property

| id | model | how |
|----|-------|-----|
| C01, C02 | pointer-level heap of list nodes; each C statement is one read or write | representation predicate for circular lists, preserved by each operation; induction on histories |
| C03–C06 | allocator on top of the pointer-level queues, with object headers, payloads and the lock flag | invariant relating queues, live set and payloads; refutations by running the model |
| C07, C08 | byte-accurate buffers with offsets | refinement to a bounded FIFO; induction on operations and on chains |
| C09 | byte-accurate ring buffer with pointers | refinement to a bounded queue by an invariant with one or two pieces, over all safe histories; refutation for every capacity and by trace |
| C10–C12 | array heap with back pointers | heap-order invariant through sift loops; permutation and index consistency; refutation for arbitrary deletion |
| C13–C15 | timers on top of the heap model, expiry loop with callbacks as programs | ghost history of armings; invariant; refutations by trace |
| C16, C17, C94 | pointer-level tree with parent links and side tags, explicit stacks with their bounds | representation predicate with contexts (zippers), preserved by every statement sequence; general refutations (leaf, direct successor, stack) and a trace (stale side tag) |
| C18 | buckets as sequences (queues are covered by C01), FNV-1a computed | refinement to a finite map by induction on histories |
| C19, C82 | growable array and list at pointer level | induction on pushes |
| C20 | search loop over a memory with bytes after the string | refutation for matches past the end; exactness when the search cannot run past the end |
| C21–C24, C77 | trie in a node heap, construction with the explicit stack, search | trie invariant; the failure links of every completed construction lead to proper suffixes (invariant of the stack loop); from this a relation kept by every byte; exact condition for C22; refutations by trace |
| C110 | the release of the trie with its own stack; freed nodes are remembered and their use is a fault | invariant of the loop; every allocated node hangs in the trie |
| C25–C27 | header building, header check with segmentation | composition of client and server models |
| C28–C35 | both handshake parsers as byte machines in the receive loop, storage with bounds, address formatting and `inet_addr` | invariants over all byte strings and splits; RFC encoder as the specification |
| C36–C39 | relay as a machine with one step per I/O call | invariants over all schedules with ghost streams; the streams also with callbacks set arbitrarily (`Relay_Any_Props.v`) |
| C40–C48 | name encoder, packet builder, response checker/analyser, cache | RFC encoder/decoder as specification; induction |
| C49–C53, C83 | request line / header / body parsers over the buffer model | specification by printing; refutations by trace; for C50 an exact characterisation of the completing segmentations |
| C54–C60, C84–C86 | routing, path building with `snprintf` return values, content type through the hash-table model, file send loop, response heads, keep-alive sessions on top of the parser model, block ownership | exact characterisation of the path builder; lexical path resolution as specification; invariant of the send loop; induction on requests; end-to-end refutations evaluated through parser and server |
| C61 | send loops over result lists | induction |
| C62–C65 | event table with slot numbers, dispatch loop with callbacks that release, allocate and re-use connections (ghost generation per address, ghost bit for a stale clear); cached interest against a kernel table | invariants over all batches and all callback behaviour; exact condition for lost events; refutations by trace |
| C66, C67 | callback bookkeeping of the TLS layer for arbitrary application callbacks; error queue of the library with the clearing loop | induction over the waits, exact conditions; refutations for all parameters |
| C68, C89–C93 | life cycle of client connection, upstream connection, session and DNS query: a finite machine with one step per callback body; results of calls and reports of the kernel are labels; message contents abstracted to "the buffer holds bytes" | a set of states is computed in Coq and checked to contain the initial state, to be closed under every allowed label and to satisfy the property (`checked_run`, induction over traces of any length); refutations by trace |
| C69–C71, C87, C88 | master loop as a machine whose steps interleave with signals, child exits, fork results and commands; signal handlers run between any two steps unless blocked | invariant over all traces; refutations by trace |
| C72–C76 | configuration record filled from a JSON tree, listener table with socket results as input, log record with `snprintf` semantics | arithmetic and induction; member-by-member specification |
| C95–C98 | the vendored JSON parser at byte level on a NUL-terminated text (two passes over strings, UTF-16 escapes, `strtod` in the "C" locale reduced to the conversion to `int`, depth counter) | RFC 8259 grammar with meaning as inductive relations; induction on the grammar for reading, independence of what follows for cut-off texts, a counting argument for the output buffer; a wider grammar (Json_Lax_Spec.v) for everything that is accepted, by induction on the fuel |
| C99–C101 | composition of the parser with the configuration record (C72, C73) and with the key matcher (C21); read buffer of the key file | composition of the theorems; refutations for all cut-off files |
| C102–C104 | accept loop on an edge-triggered listener with queue, descriptor accounts and call results as labels; the timer model for the first wait | invariant over all traces (smooth part), descriptor accounting by permutation, refutation for every kind of trouble and every time |
| C105 | module initialisation reduced to the global pointers it sets, on top of the key-file model | case analysis; refutations for every environment of the kind |
| C106 | the parser automaton run over any segmentation; grammar of a request head in Http_Spec.v | invariant on the bytes consumed so far; refutation by counting spaces on the first line |
| C107 | composition of the parser, router, path, head and file-send models | theorem from request bytes to response bytes; refutation by evaluation |
| C108 | sets as functions on descriptors, queue of connections, open descriptors of the process; one round up to the batch handed to the table of C62–C65 | invariant relating the sets to the history; general stuck theorem; refutations |
| C109 | the machine of C13–C15 with every event stamped with true time by the environment | deadlines are never more than the slack behind the reading (from C14); general law for steps; refutations by trace |
| C111 | the two texts as printf writes them, buffers of 128 bytes, answers of gmtime_r and localtime_r as input | calendar with a reader for IMF-fixdate as specification; round trip; induction over the rounds; composition with C107 |
| C112 | application, client, two TLS queues (records upwards), server and target, interleaved in any way; client before the relay, then the relay of C28; server as the session machine followed by the relay | invariant with exact byte account over all steps; per-phase invariant for applications that wait; failures as the only reason to close |
| C121 | the model of C112 | relay: from every state both buffers can be emptied; draining by induction on the bytes in the queues; rank of the handshake phases as a measure; byte account of C112 at the end; stuck state of an application that does not wait |
| C113 | a process as a list of statements with a signal possible between any two; context and shared table as blocks that are absent, present or released; handler with waitpid and errno | invariant by the statements still to come; exact description of the two periods in which a crash is possible; traces for both; the second SIGINT from the master model of C70 |
| C114 | loop of a worker (test, timers, wait, callbacks) on the timer model; time passing in the wait; EINTR | what is left of waiting, wakes and tests as a measure; bound of all deadlines by the longest delay |
| C115 | stat, open and the reads as inputs; buffer, int conversions, C string at the end | induction over the reads; composition with C97 and C99 |
| C116 | the model of C113 | pending signals kept up to the first wait; trace for the window before the blocking |
| C122–C123 | web connection with callbacks, interest, timer, what is unsent; TLS layer of Ssl_Model; results of all calls as inputs | TLS: invariant on callbacks and bytes, continuation constructed for each kind of state; plain: invariant, a waiting connection with unsent bytes is silent; timer: invariant over all histories, two phases |
| C124 | datagrams with senders on top of the packet and cache models of C40–C48 | the first long enough datagram decides; records whose life is over stay, by induction over later histories |
| C125–C129 | the cipher functions around arbitrary block, key stream and tag functions; failures of library calls as inputs | induction over the message; explicit functions of an observer without the key for the negative ones |
| C130 | a hash table with the blocks of its entries and the set of live blocks; allocations are inputs | invariant: live = owned + rest, as a permutation without repetition; refinement of the map model of C18 |
| C131 | the objects a worker builds, which are live and which pointers are set; every call of the start-up may fail | invariant of start-up and work (pointers to live objects, parents of objects present), then each clean-up function takes away exactly its own objects |
| C132 | the masters that run and the bytes of the pid file; start (every step may fail), end, end of a worker, crash | invariant over histories (last event first): the file is that of the last writer since the last removal |
| C133 | pid file to buffer to strtol to kill; arguments as byte lists | strtol on every buffer: endless, or the number it begins with |
| C134 | results of the same functions | case analysis of the start-up; refuted by runs |
| C135 | cJSON's print buffer as a list of bytes, unwritten ones marked; allocation failures as inputs | per part: ends, keeps the text so far, succeeds if there is memory (`out`); induction over items; refuted by a run |
| C136 | the same; values by a relation `means`; texts by the grammar of C96 | the text of an item is in the grammar (induction over `means`), read back by C96; with doubles and INT_MIN (`Jdoc_Props`, relation `stands`): the texts of C167, and the parser reads a document with exactly the values that strtod gives for its number texts (`Jdoc_Proofs`) |
| C137 | the same, block of the caller | exact sizes from the invariant of C135 |
| C138 | doubles of either sign as multiples of 2^-1074, decimals as d * 10^q, compare_double in integers | two doubles differ by 2^-53 of the larger one; refuted by 0.1 + 0.2 |
| C139 | cJSON_Minify in place: a buffer, a read and a write position | invariant: written text, gap, rest; each round shortens the rest |
| C140 | the same | the rounds over a text are those over its tokens (`eats`), induction over the grammar; refuted by runs |
| C141 | cJSON items as addresses with next, prev and child; allocation as a set of addresses | each call keeps: the links are those of the forest of sequences (`rep`, `wf`); deletion by well-founded induction over the trees; refuted by runs |
| C142 | cJSON_Compare on trees, doubles as multiples of 2^-1074, infinities and NaN; the result counts the calls | induction over the nesting: answer = the relation `same`; refuted by runs and for every depth |
| C143 | queries that wait, with their datagrams, and the shared cache; parts of a lookup from C124 | simulation by the sequential model of C124: every event that ends a lookup is the whole lookup |
| C144 | sessions in blocks of memory, queries that point to them, every order of events; the block a session gets is an input | invariant between waiting sessions and live queries; the spec reads the waits off the events |
| C145 | SSL_write's demand for an identical repeat as a state with a distinct bad outcome; how much is encrypted before a wait is an input | invariant: the waiting bytes are the beginning of the buffer; relay invariants of C36 reused |
| C146, C147 | descriptor tables of all processes from the start on (lowest free number), names and inodes of the log files | invariant per process: where 1 and the log descriptors stand; the spec knows no descriptors |
| C148 | the relay with its two timers and a clock; erasing the timers gives the relay of C36 | invariant: for which past events each timer has been put off; the spec is the trace of bytes with times |
| C149 | memory as a map from addresses to items and strings; copying and deleting with any answers of malloc | ownership predicates with footprints (each block once); mutual induction over the value that is read; for references a weaker predicate (what a list keeps) |
| C150 | on the memory of C149: adding and replacing members, with names that may alias the item's own texts | list segments with footprints; the four positions of a replaced member; every failure and alias as a separate outcome |
| C151 | one lookup in time: sendto results, datagrams, timer, the callback | invariant over runs: what left and what is to be sent make up one query; the deadline is bounded by the bytes heard |
| C152 | the listening sockets of a machine: bind rule with SO_REUSEPORT, several instances, delivery by hash | the table of C74 is opened in order; membership in the group of a port |
| C153 | the shared table (size modulo 2^32, whole pages); all processes with the shared table, fork, wait, signals | exact case split on the size; invariants: one master up to 255 rows, two from 256 on, neither ends; a complete stop built by induction on the rows |
| C154 | on the memory of C149: the text of an item (given by block and offset, overlapping strcpy a distinct outcome); arrays with any answers of malloc | footprints; induction over the elements with the half-built array as invariant |
| C155 | on the memory of C149: detaching by name | list segments before and behind the member; then the deletion theorem of C149 |
| C156 | blocks of one web connection by number, refusals of the allocator and waits of the TLS shutdown as inputs; touching a released block a distinct outcome | permutation invariant for the blocks held; the list of allocations a connection asks for as specification; exact condition |
| C157 | requests as the allocations and frees they make, run on the pool of C03-C06 | live blocks up to order; capacity of each class from C03-C05; induction over the requests |
| C158 | two relays (C36-C39) under one thread | the session that runs keeps running while every call moves bytes; potential function for the bound |
| C159 | what printf holds back, forks and ends of processes | every process holds the same text back, so what is heard is a function of the history; the text held back is a suffix of what was printed |
| C160 | routing and path of `Web_Model`, then the record of `Conf_Model` | the slot of the path determines the record; symbolic run of the parser on a path with line breaks |
| C161 | `Http_Model` and `Web_Model`; the names of RFC 3986 as a separate spec | the answer is a function of the name with the bytes of the path; general refutations for queries and percent signs |
| C162 | `Peer_Model`: glibc's inet_addr on any text, the name server and the tunnel server of a configuration | a spec of dotted quads; reading them by induction over the digits; general refutations for names, lists, octal and short forms |
| C163 | the sending loop of `Web_Model` with the announced size and the content as separate inputs | invariant on what is sent before each test of the size; induction over whole buffers for the refutation |
| C164 | `session` of `Web_Model` on one request with its body | the body loop consumes exactly the announced bytes, so nothing is left for a second head; for chunks two runs of a head, the second on the bytes of the chunk |
| C165 | `Check_Model`: the macro `schk`, the formatted print of its record, and the lines of a head with an allocator that may refuse | a bound on the length of the head; induction over the lines; the record of a text without percent sign by induction over the text |
| C166 | `serve` of `Web_Model` on printed requests | the first buffer of a head only grows, so it begins with the status line; case analysis of the router |
| C167 | `Gtext_Model`: the layout of %g and %d on the digits of `Jsign_Model` | a grammar of JSON numbers with values as a separate spec; digits by induction, zeros at the end change the exponent only; bounds on the exponents of doubles |
| C168 | `Jprint_Model`, relation `means` | a text of integers is read as one value at any nesting (the depth the parser starts with is arbitrary in the lemma of C96); the text depends on the value only; refuted by 0.1 + 0.2 and 0.3; doubles with 17 digits: a number text has one reading in the grammar of C167, and 17 digits determine the double (C138) |
| C117–C120 | the two stored contexts, settings and certificate places as the TLS library documents them, all results of the library, the allocator and the files as inputs; objects counted | invariant over histories of connections in both roles; exact condition with the trace of refused settings; general refutations |

## 4. What each theorem says

Kept in `MANIFEST.json` (`theorems` and `note` per property).

## 5. Assumptions

`Print Assumptions` answers "Closed under the global context" for every theorem
named in the manifest: no axiom is used, neither of ours nor of the library.

A whole-library listing also shows seven axioms of `Coq.ssr.ssrunder`. They are
loaded with `ZifyBool` (part of `lia`); no theorem depends on them.
