{
 "claims": [
  {
   "property": "C01",
   "status": "proved",
   "theorems": [
    "C01_queues_are_sequences",
    "C01_other_queues_unchanged"
   ],
   "note": "Pointer-level model, any number of queues, any initial memory. Histories are those a caller may issue: inserting only unlinked elements, removing linked or previously removed ones."
  },
  {
   "property": "C02",
   "status": "proved",
   "theorems": [
    "C02_remove_twice"
   ],
   "note": "No link anywhere changes."
  },
  {
   "property": "C03",
   "status": "proved",
   "theorems": [
    "C03_alloc",
    "C03_free",
    "C03_pairwise_disjoint"
   ],
   "note": "Every placement of the regions, every history of allocations, frees of live blocks and in-bounds writes. 'No class exhausted' is the class of the request and class 0, which gates all allocations."
  },
  {
   "property": "C04",
   "status": "partial",
   "theorems": [
    "C04_overflow_refuted",
    "C04_exhausted_class_overflows",
    "C04_other_class_refuted",
    "C04_reported_partial"
   ],
   "note": "False: an exhausted class other than the smallest hands out its own list head and clears memory beyond the block table; an exhausted smallest class makes all classes fail. Proved: exhaustion of the smallest class and oversized requests are reported."
  },
  {
   "property": "C05",
   "status": "proved",
   "theorems": [
    "C05_capacity",
    "C05_allocs",
    "C05_cycle"
   ],
   "note": "Stated while the smallest class has room, since it gates every allocation."
  },
  {
   "property": "C06",
   "status": "partial",
   "theorems": [
    "C06_refuted",
    "C06_rejected_free_deadlocks",
    "C06_live_never_rejected_partial"
   ],
   "note": "False: the rejecting path returns with the mutex locked. Proved: a live block is never rejected."
  },
  {
   "property": "C07",
   "status": "proved",
   "theorems": [
    "C07_buffer_is_bounded_fifo"
   ],
   "note": "Every history of append/consume/clear refines a bounded FIFO and never faults."
  },
  {
   "property": "C08",
   "status": "proved",
   "theorems": [
    "C08_dump_is_concatenation",
    "C08_refused"
   ],
   "note": "For every chain whose allocation succeeds; when it fails the call returns NULL."
  },
  {
   "property": "C09",
   "status": "partial",
   "theorems": [
    "C09_partial",
    "C09_refuted_end",
    "C09_refuted_count",
    "C09_refuted_pull"
   ],
   "note": "Proved for every capacity and every history of safe calls (the calls that go wrong are described in terms of the bytes pushed and pulled so far). False otherwise: for every capacity, once as many bytes as the capacity have gone through, the next byte is lost and pulling it reads behind the buffer; a push while the bytes wrap around counts the whole free space; a pull up to the end of the memory leaves the read position there."
  },
  {
   "property": "C10",
   "status": "proved",
   "theorems": [
    "C10_minima_in_order",
    "C10_full_unchanged"
   ],
   "note": "All histories of insertions and removals of the minimum, any keys (ties included) and capacity."
  },
  {
   "property": "C100",
   "status": "partial",
   "theorems": [
    "C100_listed_keys_registered_partial",
    "C100_listed_keys_registered_refuted"
   ],
   "note": "Proved for files below 4096 bytes. False for every longer one: the buffer has no terminating zero and is read beyond its end."
  },
  {
   "property": "C101",
   "status": "partial",
   "theorems": [
    "C101_missing_reported_partial",
    "C101_broken_file_reported_refuted",
    "C101_refuted_entry"
   ],
   "note": "Only a missing file is reported. A cut-off file gives a server that starts and refuses everybody; an entry that is no string is a NULL read."
  },
  {
   "property": "C102",
   "status": "partial",
   "theorems": [
    "C102_partial",
    "C102_refuted",
    "C102_property_refuted"
   ],
   "note": "Proved as long as accept, allocation and socket options succeed (each callback ends and leaves nothing behind). False otherwise: the first trouble ends the callback, the listener is edge triggered, and the connections still waiting are not seen until another one arrives."
  },
  {
   "property": "C103",
   "status": "partial",
   "theorems": [
    "C103_partial",
    "C103_closed_once",
    "C103_refuted"
   ],
   "note": "Proved for descriptors above 0. False for descriptor 0 (program started without standard input): it is never closed."
  },
  {
   "property": "C104",
   "status": "partial",
   "theorems": [
    "C104_partial",
    "C104_refuted"
   ],
   "note": "Proved: never closed before 5 ms. False: the timer is armed with 5 in a unit of milliseconds, so a client that has not sent anything after 5 ms is cut off, at any time of arrival."
  },
  {
   "property": "C105",
   "status": "partial",
   "theorems": [
    "C105_partial",
    "C105_exact_partial",
    "C105_refuted",
    "C105_property_refuted",
    "C105_refuted_heap",
    "C105_refuted_early"
   ],
   "note": "Proved: with all initialisations successful nothing the worker follows is missing. False: the result of the initialisation is ignored; a server without a key file serves until the first web request or name lookup crashes it; a failed allocation of the timer heap is reported as success."
  },
  {
   "property": "C106",
   "status": "partial",
   "theorems": [
    "C106_partial",
    "C106_bare_cr_line_partial",
    "C106_bare_cr_header_partial",
    "C106_refuted",
    "C106_property_refuted"
   ],
   "note": "Proved for every segmentation: an accepted head is text, CR and LF only, ends with LF, is the start of the stream, and has a method of 1 to 16 characters; a line or header line whose CR is not followed by LF is refused (head arriving in one piece). False: without a version the first header is taken for it and the request is accepted with line breaks in its path."
  },
  {
   "property": "C107",
   "status": "partial",
   "theorems": [
    "C107_partial",
    "C107_pieces_partial",
    "C107_unreadable_partial",
    "C107_refuted",
    "C107_property_refuted"
   ],
   "note": "Proved from the bytes of the request (in one piece, or in any pieces in which it completes, C50) to the bytes of the response: status, type, length, and a prefix of the content, all of it when the response counts as finished; unreadable files get 403 without body. For paths below 1024 bytes that contain a dot and files below 2 GB. False without a dot: the worker crashes. That a response may be cut short is C58 and C122."
  },
  {
   "property": "C108",
   "status": "partial",
   "theorems": [
    "C108_partial",
    "C108_tidy_partial",
    "C108_table_partial",
    "C108_delivered",
    "C108_stuck",
    "C108_refuted",
    "C108_refuted_stray",
    "C108_refuted_oob",
    "C108_refuted_table"
   ],
   "note": "Proved for every history with descriptors below 1024: in a round that succeeds nobody is passed over; trouble comes only from a number closed while its connection was asking (never, if interest is dropped first). The program never drops its interest before closing, so false: every later round fails for everybody until the number is reused or all higher ones are gone; with reuse a new connection is told about events it has not asked for; descriptors above 1023 are written outside the sets; more than 768 ready connections overflow the table."
  },
  {
   "property": "C109",
   "status": "partial",
   "theorems": [
    "C109_partial",
    "C109_set_back_delays",
    "C109_refuted",
    "C109_refuted_early",
    "C109_refuted_blocks"
   ],
   "note": "Proved for a clock that is not set, in true time: a timer never fires early and at most the slack of one round late (for the histories of C14_due_timers_fire_partial). False if the clock is set: put back by D, every pending timer is at least D late (for every history); put forward, timers fire at once; put back by more than 24.8 days, the wait is negative and the worker blocks until a descriptor is ready."
  },
  {
   "property": "C11",
   "status": "proved",
   "theorems": [
    "C11_removal_exact"
   ],
   "note": "Every heap with consistent positions, in order or not."
  },
  {
   "property": "C110",
   "status": "proved",
   "theorems": [
    "C110_matcher_released"
   ],
   "note": "For key sets with fewer than 4096 symbols in total, the size of the fixed stack of the release."
  },
  {
   "property": "C111",
   "status": "partial",
   "theorems": [
    "C111_date_text",
    "C111_every_second",
    "C111_rounds",
    "C111_bounds",
    "C111_response_dated",
    "C111_log_exact",
    "C111_log_refuted"
   ],
   "note": "The Date text is proved for every second up to the year 9999 (gmtime_r as POSIX defines it, which answers every second), over all rounds and into the response head. The buffers are not overrun whatever the members are. The log text is right exactly in the years 2000 to 2999: a clock that was not set yet is logged as the year 2970."
  },
  {
   "property": "C112",
   "status": "proved",
   "theorems": [
    "C112_tunnel",
    "C112_any_application",
    "C112_stays_up",
    "C112_wrong_key",
    "C112_without_waiting_refuted",
    "C112_early_data_cut_off",
    "C112_early_data_refuted"
   ],
   "note": "The TLS connection is two queues of bytes, with record boundaries from client to server. C112_tunnel gives the exact account of all bytes under way; C112_any_application the same for every application, with the handshake as the only place where something can go wrong. Not part of the claim, and false: an application that does not wait for the answers loses its request; one that writes 12288 bytes before the server is reached is cut off."
  },
  {
   "property": "C113",
   "status": "partial",
   "theorems": [
    "C113_partial",
    "C113_no_crash_partial",
    "C113_errno",
    "C113_effect",
    "C113_master_end",
    "C113_second_stop",
    "C113_start_refuted",
    "C113_end_refuted",
    "C113_master_end_refuted",
    "C113_property_refuted"
   ],
   "note": "Proved: between start-up and end no signal and no statement crashes any process, and errno is kept; a signal changes the three flags and the marks of the workers that ended, nothing else (for distinct pids). A crash needs a signal in one of two periods: after the first handler is installed and before the context exists (NULL is followed, for every signal), or after the table or the context was released (use after free; in the master only SIGHUP and SIGPIPE, the others are blocked; in a worker a second SIGINT, which the master does send when another worker ends first). False in those periods. Re-entry of a handler by a second signal is not modelled (the handler blocks nothing but itself)."
  },
  {
   "property": "C114",
   "status": "partial",
   "theorems": [
    "C114_partial",
    "C114_woken",
    "C114_at_once_refuted",
    "C114_set_back_refuted",
    "C114_property_refuted"
   ],
   "note": "Proved for every history in which all armings succeed and the clock is not set back: after the signal there is at most one more wait, no longer than the longest delay (30 s in this program; 200 ms if no timer is pending), and the next test of the flag ends the loop; a signal during the wait ends it at once. False as stated: a signal between the test and the wait lets the worker sit out the wait, 30 s when nothing else happens. That callbacks return is not part of it."
  },
  {
   "property": "C115",
   "status": "partial",
   "theorems": [
    "C115_partial",
    "C115_config_partial",
    "C115_in_bounds_partial",
    "C115_over_read_partial",
    "C115_grown_refuted",
    "C115_descriptor_0_refuted",
    "C115_read_error_refuted",
    "C115_cut_config_refuted",
    "C115_huge_refuted",
    "C115_property_refuted"
   ],
   "note": "Proved for files below 2 GB that do not change, a descriptor above 0 and reads that do not fail: all of the file is read, however it is cut into pieces, and with C99 the values in effect are those of the file. False otherwise: a file that grew since stat overwrites the final NUL and the text is read past the buffer (the only way this happens); with standard input closed the file gets descriptor 0 and is ignored; after a read error the part that was read is taken for the file and the program runs with the built-in values; 2 GB abort."
  },
  {
   "property": "C116",
   "status": "partial",
   "theorems": [
    "C116_late_partial",
    "C116_first_partial",
    "C116_early_refuted",
    "C116_property_refuted"
   ],
   "note": "Proved for a SIGINT that comes after the signals are blocked (it is delivered at the first wait) and for one before the first handler (the program ends). False between the two: the flag is set, and the master goes to sleep without looking at it, for every number of workers."
  },
  {
   "property": "C117",
   "status": "partial",
   "theorems": [
    "C117_no_crash",
    "C117_exact",
    "C117_partial",
    "C117_refuted",
    "C117_property_refuted",
    "C117_for_ever_refuted"
   ],
   "note": "Exact, over every history: a connection has all settings if and only if no setting of its role was ever refused. False otherwise: the context is stored before it is set up, a refusal leaves it there, and from then on every connection of that role is made without the missing settings. Certificates and settings as the documentation of the library describes them."
  },
  {
   "property": "C118",
   "status": "partial",
   "theorems": [
    "C118_pairs",
    "C118_partial",
    "C118_mismatch_partial",
    "C118_renewed",
    "C118_refuted",
    "C118_mismatch_refuted"
   ],
   "note": "Proved for every history: each certificate shown has its own key and comes from the files, now or when the context was made; a renewed pair is used at once. If the type of key never changes, exactly the pair in the files is shown. False when it changes (RSA to EC): the old certificate is shown as well, and a new certificate with the old key is not refused."
  },
  {
   "property": "C119",
   "status": "proved",
   "theorems": [
    "C119_nothing_left"
   ],
   "note": "Every history and every combination of failures, ssl_init having succeeded."
  },
  {
   "property": "C12",
   "status": "partial",
   "theorems": [
    "C12_min_after_removal_refuted",
    "C12_refuted",
    "C12_min_after_removal_partial"
   ],
   "note": "False: the node that fills the gap is only sifted down. Proved: the order survives exactly when that node is not smaller than the parent of the removed one."
  },
  {
   "property": "C120",
   "status": "partial",
   "theorems": [
    "C120_refuted",
    "C120_property_refuted"
   ],
   "note": "False for every connection: no verify mode is ever set for the client, so it takes any server and sends its key."
  },
  {
   "property": "C121",
   "status": "partial",
   "theorems": [
    "C121_never_stuck_partial",
    "C121_without_waiting_refuted"
   ],
   "note": "Proved for applications that follow the protocol, with the relay's callbacks changed by the relay only: from every reachable state a continuation of calls that succeed delivers everything. ssl.c changes callbacks when a TLS call has to wait; that is left out here (C89, C91). False for an application that sends its request without waiting for the first answer: no continuation whatever brings the connection about."
  },
  {
   "property": "C122",
   "status": "partial",
   "theorems": [
    "C122_tls_partial",
    "C122_no_crash_partial",
    "C122_plain_partial",
    "C122_plain_no_crash",
    "C122_plain_silent",
    "C122_plain_refuted",
    "C122_property_refuted"
   ],
   "note": "TLS connections: proved from every reachable state, except that handshakes that had to wait for the socket to become writable are left out (they recurse for ever, C66); the client may end its sending before the answer is out. Plain connections: false. Their interest is readable only and nothing in webser.c changes it, so after a send that would block nothing is ever sent again (C122_plain_silent, for every reachable state) and the timer cuts the answer off; complete only if no send had to wait. Request parsing, the secret mode and failing allocations are not part of this model."
  },
  {
   "property": "C123",
   "status": "proved",
   "theorems": [
    "C123_armed",
    "C123_ends"
   ],
   "note": "Every history, failures included. Assumes that the timer heap takes the timer and that ev_opt succeeds; times themselves are not modelled."
  },
  {
   "property": "C124",
   "status": "partial",
   "theorems": [
    "C124_refuted",
    "C124_empty_refuted",
    "C124_first_partial",
    "C124_property_refuted"
   ],
   "note": "False: the socket takes datagrams from anybody and the sender is never compared, so one datagram from anybody decides a name, and if its life ends before the next pass over the cache (which removes the wrong entries, C48), for ever; an empty datagram from anybody ends the lookup. Proved: if the first datagram is the server's and at least as long as the query, the others do not matter. Lookups running at the same time: C143."
  },
  {
   "property": "C125",
   "status": "proved",
   "theorems": [
    "C125_cfb",
    "C125_gcm"
   ],
   "note": "All messages, all failures of the library. Trusted: what CFB8 and GCM compute (the block function, key stream and tag function are arbitrary); input and output buffers are different. The functions are exported but not used by the program."
  },
  {
   "property": "C126",
   "status": "partial",
   "theorems": [
    "C126_equal_refuted",
    "C126_gcm_refuted"
   ],
   "note": "False: the IV is a constant of the program. There is one function, the same for all keys, that tells from two CFB ciphertexts how far the messages agree, and one that computes a GCM message from its ciphertext, another ciphertext and that other message."
  },
  {
   "property": "C127",
   "status": "partial",
   "theorems": [
    "C127_accept_partial",
    "C127_refuted",
    "C127_property_refuted"
   ],
   "note": "Proved: accepted only with the right tag. False: the text is written to the caller's buffer before the tag is compared and stays there; changing the ciphertext by d changes it by d, for every message and every d."
  },
  {
   "property": "C128",
   "status": "partial",
   "theorems": [
    "C128_partial",
    "C128_short_refuted",
    "C128_device_refuted",
    "C128_property_refuted"
   ],
   "note": "Right if the device gives 16 bytes. False: a short read is taken for success (only -1 is checked) and the rest of the buffer keeps its old bytes; if the device cannot be opened, random() is used without srandom(), so the bytes are the same in every process."
  },
  {
   "property": "C129",
   "status": "partial",
   "theorems": [
    "C129_refuted",
    "C129_dec_refuted",
    "C129_property_refuted"
   ],
   "note": "False: after a call that worked, the library wants a new IV, which nothing sets; every further call returns -1 and writes nothing. Trusted: that behaviour of the library. Contexts after a rejected message are left out."
  },
  {
   "property": "C13",
   "status": "proved",
   "theorems": [
    "C13_no_spurious_fire",
    "C13_no_fault"
   ],
   "note": "All histories with callbacks that arm and cancel, as long as no arming was refused."
  },
  {
   "property": "C130",
   "status": "proved",
   "theorems": [
    "C130_hash_memory",
    "C130_create"
   ],
   "note": "All histories, all failing allocations. Hypotheses: the pool gives out blocks that are not live (C03) and the rest of the program returns only its own; empty keys and values are left out (they abort, see C18). The contents after each history are those of the map model of C18."
  },
  {
   "property": "C131",
   "status": "partial",
   "theorems": [
    "C131_partial",
    "C131_refuted_crash",
    "C131_refuted_sessions",
    "C131_refuted_close_twice",
    "C131_property_refuted"
   ],
   "note": "Proved: if every listener got its connection, all that was built is released, whatever else failed. False: if not, ev_exit follows a NULL connection, always; open connections are neither finished nor closed (a 'todo' in ev_exit), so TLS peers see a truncation at every stop or reload; every listener is closed twice. The contents of the objects are left out (C110, C130 for the matcher and the tables); a worker whose heap or event table is missing crashes before it can be stopped (C105)."
  },
  {
   "property": "C132",
   "status": "partial",
   "theorems": [
    "C132_whom",
    "C132_partial",
    "C132_no_stranger_partial",
    "C132_refuted"
   ],
   "note": "Proved for all histories (without a short write of the file): who is reached (the last one started, unless anyone has removed the file since). Proved: right if there is one instance at a time and no worker ends on its own; without crashes nobody but a running instance is signalled. False: a second instance that is started and ended, or whose start fails, removes the file of the first one, which then cannot be stopped or reloaded; after a crash, or a short write, a stranger is signalled. Trusted: SO_REUSEPORT lets a second instance of the same user listen (if it does not, that is the failing start). The descriptor of the file is positive."
  },
  {
   "property": "C133",
   "status": "partial",
   "theorems": [
    "C133_commands",
    "C133_partial",
    "C133_any",
    "C133_refuted"
   ],
   "note": "Proved: what happens with any content of the file; right if it is a number with white space around it, up to 31 bytes. False: without a number the signal goes to the caller's process group, with -1 to everybody, 4294967297 is process 1, 32 digits are read past the end of the buffer."
  },
  {
   "property": "C134",
   "status": "partial",
   "theorems": [
    "C134_partial",
    "C134_refuted"
   ],
   "note": "False: commands always end with status 0; a daemon's start ends with status 0 before the pid file, the logs and the listeners are tried. Proved: in the foreground the status is right; a daemon's start returns 0 if the daemon runs, and a failure that is reported is one."
  },
  {
   "property": "C135",
   "status": "partial",
   "theorems": [
    "C135_print_partial",
    "C135_buffered_partial",
    "C135_prealloc_partial",
    "C135_refuted"
   ],
   "note": "Proved for all items, all failing allocations. False: cJSON_PrintBuffered with a first size of 0 and hooks without realloc copies one byte from behind an empty block. Hypotheses: strings are C strings, texts of doubles have at most 25 bytes (true of IEEE doubles). Sizes are mathematical integers. Nobody in the program calls the printer; it is part of the library the program ships."
  },
  {
   "property": "C136",
   "status": "partial",
   "theorems": [
    "C136_numbers_partial",
    "C136_partial",
    "C136_refuted_deep",
    "C136_refuted_nan"
   ],
   "note": "Proved: the text is a JSON text of the value, it is read back as that value up to 1000 levels, and printing works if every allocation does and the text has at most INT_MAX - 2 bytes; numbers are ints other than INT_MIN in C136_partial; C136_numbers_partial has every int and every finite double (locale C): what is read back is a value the item stands for, numbers by the integer part of their decimal, since the model of the reader keeps no more; the doubles themselves are in C138. False: deeper values are printed but refused by the parser; NaN and infinity come back as null."
  },
  {
   "property": "C137",
   "status": "partial",
   "theorems": [
    "C137_numbers_partial",
    "C137_partial",
    "C137_refuted"
   ],
   "note": "Proved: it works exactly if there is one byte more than the text and its NUL need, also for values with doubles and INT_MIN. False: a buffer of exactly that size is always refused."
  },
  {
   "property": "C138",
   "status": "partial",
   "theorems": [
    "C138_text_partial",
    "C138_signed_partial",
    "C138_signed_17",
    "C138_signed_refuted",
    "C138_partial",
    "C138_17_digits",
    "C138_refuted"
   ],
   "note": "Proved: ints and doubles printed with 17 digits come back unchanged, those printed with 15 digits differ by at most 2^-52 of the larger one (2^-51 next to the smallest doubles). False: 0.1 + 0.2 is printed as 0.3, another double. Trusted: sprintf and sscanf round correctly. For doubles of either sign (C138_signed_partial) and from the double to the bytes of the text and back (C138_text_partial, with the text of C167); -0 counts as 0."
  },
  {
   "property": "C139",
   "status": "proved",
   "theorems": [
    "C139_memory"
   ],
   "note": "All texts. Nobody in the program calls cJSON_Minify; it is part of the library the program ships."
  },
  {
   "property": "C14",
   "status": "partial",
   "theorems": [
    "C14_due_timer_missed_refuted",
    "C14_refuted",
    "C14_some_timer_waits_partial",
    "C14_due_timers_fire_partial",
    "C14_equal_delays_refuted"
   ],
   "note": "False after a cancellation (C12), also if all delays are equal and the clock only moves forward. Proved: for histories that cancel or re-arm a pending timer only while at most five are pending or when none is due earlier (six pending timers suffice for a failure); and for all histories a run ends only if some armed timer is not due yet."
  },
  {
   "property": "C140",
   "status": "partial",
   "theorems": [
    "C140_partial",
    "C140_refuted",
    "C140_refuted_wrong_text"
   ],
   "note": "Proved for all JSON texts in which no quote follows two backslashes (texts with other numbers than integers: the value, not the parser). False: behind a string that ends in a backslash strings are taken inside out, so their blanks go and the value changes; [1 2] and [1/2], which are no JSON, become [12]. Comments are covered by C139 only."
  },
  {
   "property": "C141",
   "status": "partial",
   "theorems": [
    "C141_lists",
    "C141_refuted_twice",
    "C141_refuted_insert_null",
    "C141_refuted_two_arrays"
   ],
   "note": "Proved for every series of allowed calls: an item that is put somewhere belongs to nobody and does not contain the array. False without that: the calls answer true when an item is added twice or to two arrays, afterwards asking for the size never returns and deleting uses a released item; cJSON_InsertItemInArray follows a NULL item when the position is taken, where the other calls answer false. Names, values and references are left out; sizes are mathematical integers."
  },
  {
   "property": "C142",
   "status": "partial",
   "theorems": [
    "C142_ends",
    "C142_partial",
    "C142_near_partial",
    "C142_refuted_names",
    "C142_refuted_numbers",
    "C142_refuted_time"
   ],
   "note": "Proved: every comparison ends; the answer is right for objects without repeated names and integers below 2^52; for other numbers of at least 2^-969 equal means at most 2^-52 apart. False: with a name twice a value is not the same as itself and different values are the same; infinity (what 1e999 is read as) is the same as every finite number and not as itself; each level of nested objects doubles the time. Items that share parts (references) are left out. Nobody in the program calls it."
  },
  {
   "property": "C143",
   "status": "partial",
   "theorems": [
    "C143_partial",
    "C143_alone",
    "C143_refuted"
   ],
   "note": "Proved for every mixture in which nobody asks for a name that another session is waiting for: results and cache are those of the same lookups one after the other. Proved without that condition: a session that did not find its name in the cache gets what its own datagrams say. False in general: two sessions waiting for the same name both ask the server and may get different addresses (harmless). Sessions that end during their lookup are C101."
  },
  {
   "property": "C144",
   "status": "partial",
   "theorems": [
    "C144_partial",
    "C144_refuted",
    "C144_refuted_end",
    "C144_refuted_memory"
   ],
   "note": "Proved for every order of events in which no client leaves while its lookup is running. False: the query of a client that leaves keeps its pointer to the released session; if the memory goes to the next client, that client is connected to the first one's target (or its session is ended when the lookup fails), without a next client released memory is used. Which free block a new session gets is an input; the pool hands released blocks out again (C05). Allocation failures, TLS connections that close slowly and other uses of the released block are left out."
  },
  {
   "property": "C145",
   "status": "proved",
   "theorems": [
    "C145_relay",
    "C145_chain"
   ],
   "note": "For the relay (either direction, any callbacks installed) and for chains that are sent again after every wait. The contract of SSL_write (all bytes or wait; repeat with the same address and no fewer bytes) is trusted; the program leaves the library's write modes at their defaults. What ssl_write does to the callbacks is C65-C68."
  },
  {
   "property": "C146",
   "status": "partial",
   "theorems": [
    "C146_where",
    "C146_partial",
    "C146_not_to_clients",
    "C146_refuted",
    "C146_refuted_twice"
   ],
   "note": "Exact for every start and every history: where each write goes. Never to a connection, even with descriptors closed once too often. False: a write that is cut short loses the rest of the record; started without a standard output, every record is in the main log file twice and access records are there too. Trusted: open gives the lowest free number, appends are atomic. What printf keeps in its buffer, and records before the log files are open, are left out."
  },
  {
   "property": "C147",
   "status": "partial",
   "theorems": [
    "C147_partial",
    "C147_refuted",
    "C147_refuted_always"
   ],
   "note": "False, always: nothing in the running program opens the log files again, so a file that came later never gets a record until the program is ended and started. Proved: right as long as nobody moves the files."
  },
  {
   "property": "C148",
   "status": "partial",
   "theorems": [
    "C148_partial",
    "C148_ends",
    "C148_refuted"
   ],
   "note": "Proved: bytes that come in, and a send that empties the buffer, put off both timers by ten seconds; after ten seconds without a call the session is due to end. False: a send to a slow receiver that takes only part of the buffer puts off only the receiver's timer, so the session is cut ten seconds after the last receive although bytes have just been sent. The clock is the cached one and does not go back (C109)."
  },
  {
   "property": "C149",
   "status": "proved",
   "theorems": [
    "C149_copy",
    "C149_delete",
    "C149_apart",
    "C149_references"
   ],
   "note": "All heaps in which the item can be read, all answers of malloc. The type, valueint and valuedouble are one number. Recursion is as deep as the tree (the program sets no limit here; the parser makes at most 1000 levels); the stack is not modelled. C149_references: deleting a list with references in it releases what the list keeps and leaves what they refer to. Nobody in the program calls cJSON_Duplicate; cJSON_Delete is used for every configuration file."
  },
  {
   "property": "C15",
   "status": "partial",
   "theorems": [
    "C15_refused_arming_refuted",
    "C15_refused_arming_crash_refuted",
    "C15_refused_arming_partial",
    "C15_cancel_beyond_partial"
   ],
   "note": "False: cancelling a refused timer removes whichever timer stands at its stale position, or dereferences NULL. Proved: the refusal itself is harmless."
  },
  {
   "property": "C150",
   "status": "partial",
   "theorems": [
    "C150_add",
    "C150_add_const",
    "C150_new",
    "C150_reference",
    "C150_replace_partial",
    "C150_refuted_own_name",
    "C150_refuted_reference",
    "C150_refuted_refused",
    "C150_refuted_constant",
    "C150_property_refuted"
   ],
   "note": "Proved for all answers of malloc: cJSON_AddItemToObject, also with the item's own name, cJSON_AddItemToObjectCS and the calls that make the item themselves; adding a reference when no memory is refused (the item is as before, also after the object is deleted); and replacing when the given name is not the replacement's own text. False: cJSON_ReplaceItemInObject releases the replacement's name before it copies the given one, so giving item->string reads released memory, always; when it answers false the replacement has lost its name or got the new one; cJSON_AddItemReferenceToObject loses the reference when the name cannot be copied; cJSON_AddItemToObjectCS with the item's own name leaves a released name. Members with constant names are left out of the replacing theorem. The program does not call these functions."
  },
  {
   "property": "C151",
   "status": "partial",
   "theorems": [
    "C151_once",
    "C151_ends",
    "C151_timer",
    "C151_partial",
    "C151_refuted",
    "C151_property_refuted"
   ],
   "note": "False for every name: in no run does the query leave more than once, so if it or the reply is lost the lookup (and with it the session, socks5.c:122-127) fails after five seconds. Proved: a waiting lookup has a timer due within five seconds, anybody's datagrams can put it off at most once for each byte of the query, and a first datagram of sufficient length within the time decides (C43-C46 tell how, C124 by whom). A socket that is reported readable without a datagram puts the timer off too and is not counted. Memory, socket and timer are taken to be available."
  },
  {
   "property": "C152",
   "status": "partial",
   "theorems": [
    "C152_partial",
    "C152_reported",
    "C152_refuted_two_services",
    "C152_refuted_two_instances",
    "C152_refuted_zero",
    "C152_property_refuted"
   ],
   "note": "Proved: right if nobody listens on the ports and each is configured once (and not 0); a port held by another user, or without SO_REUSEPORT, is reported. False because SO_REUSEPORT is set on every listener: a port given to http and https, or to the tunnel and the web server, is opened twice and connections are split at random between plain and TLS; a second instance of the same user starts without a message and takes a share of the connections to every port; port 0 (or 65536, C72) listens anywhere. Trusted: the kernel's rule for sharing a port and that every socket of a port gets some connections. More than eight ports: C74."
  },
  {
   "property": "C153",
   "status": "partial",
   "theorems": [
    "C153_table",
    "C153_refuted_table",
    "C153_partial",
    "C153_stops_partial",
    "C153_kept",
    "C153_refuted_stop",
    "C153_property_refuted"
   ],
   "note": "Proved: exactly what process_init does with every number; for up to 255 workers every process but the first is a worker with the number of its row, ends with its next step once it has handled SIGINT, and a stop of everybody can be completed (C69, C71 tell when it is); a master never forgets an order to stop. False: the worker of row 255 has the number that stands for the master (0xff), so from 256 workers on it becomes a second master when it is told to stop, waits for its own end, and the program cannot be stopped by signals it handles: in no run without a kill or a failing fork does the master end. From 357913942 workers on the size of the table wraps around and its rows are written behind it. MAXPROCESS (128) is not used. Who sends a signal is left open."
  },
  {
   "property": "C154",
   "status": "partial",
   "theorems": [
    "C154_text_partial",
    "C154_others",
    "C154_array",
    "C154_refuted_own",
    "C154_refuted_shared"
   ],
   "note": "Proved for all answers of malloc: the arrays; and cJSON_SetValuestring when the given text is not part of the item's own. False: part of the item's own text is always copied with strcpy onto itself, which is undefined; and an item that a reference refers to shares its text with it, so a longer text leaves the reference with released memory and a shorter one changes the reference's value. A NULL text or a negative count is left out, as is what the numbers are (C138). The program does not call these functions."
  },
  {
   "property": "C155",
   "status": "proved",
   "theorems": [
    "C155_detach",
    "C155_delete"
   ],
   "note": "All objects whose members have names of their own, first, middle, last and only members. The recursion of cJSON_Delete is as deep as the member; the stack is not modelled. The program does not call these functions."
  },
  {
   "property": "C156",
   "status": "partial",
   "theorems": [
    "C156_partial",
    "C156_exactly",
    "C156_refuted_head",
    "C156_refuted_kept",
    "C156_property_refuted"
   ],
   "note": "Every sequence of requests, every answer of the allocator, plain and TLS. False: when the block for the head of an answer is refused, webser_rsp_hdrp releases the connection and webser_rsp releases it again (unless the TLS shutdown of the first has to wait); and when the buffer or the webser_t of a request after a kept-alive one is refused, net_free releases the webser_t that webser_keepalive released before, because c->data still points at it. These are exactly the cases in which released memory is touched. In all others the connection is closed once; buffers of earlier requests and bodies are left (C84). Left out: files, the blocks of the TLS object, and more than one block for a head (the lines are shorter than 4096 together)."
  },
  {
   "property": "C157",
   "status": "partial",
   "theorems": [
    "C157_partial",
    "C157_exactly",
    "C157_refuted",
    "C157_refuted_body",
    "C157_full",
    "C157_property_refuted"
   ],
   "note": "On the pool of C03-C06, from every state of it. Proved: requests without body on connections that are not kept leave the pool as it was, however many. False: every request whose connection is kept takes a buffer of the class up to 8192 bytes for good, and the first request that finds fewer than two of them left makes mem_pool_alloc take a list head for a block and clear memory behind the block table; 1024 such requests are always enough, and the exact number is proved. Every small body takes a block of the smallest class for good; when three of those are left, the next POST makes the server release its connection twice; with none or one left every request on a new connection is refused, for good. The requests come one after the other; other users of the pool only enter through the state at the start. The blocks of connections and events, TLS, and heads of more than one block are left out."
  },
  {
   "property": "C158",
   "status": "partial",
   "theorems": [
    "C158_partial",
    "C158_refuted",
    "C158_refuted_long"
   ],
   "note": "False: recv and send functions of a direction call one another until a call would block or fails, so a session whose source and sink never pause runs alone, for any number of calls, while the events of the other one wait. Proved: a callback makes at most three calls per byte it receives (and two per byte it found in the buffer), so it returns as soon as its source pauses. TLS read-ahead and the depth of the calls on the stack are not modelled."
  },
  {
   "property": "C159",
   "status": "partial",
   "theorems": [
    "C159_daemon",
    "C159_exactly",
    "C159_text",
    "C159_partial",
    "C159_refuted",
    "C159_refuted_late",
    "C159_refuted_early",
    "C159_refuted_key",
    "C159_property_refuted"
   ],
   "note": "A daemon prints its start exactly once; so does a program on a terminal whose configuration file ends with a newline. False otherwise: into a pipe or a file every worker that ends by itself prints the start again (w workers: w+1 times, and again with every reload), after the log records (those of the start itself too, C159_refuted_early), and if the program is killed nothing is printed. The whole configuration file is printed, the key with it (C159_refuted_key: for every file and key). Trusted: the buffer of printf is copied by fork and written out by exit only; how much is held back is an oracle."
  },
  {
   "property": "C16",
   "status": "partial",
   "theorems": [
    "C16_partial",
    "C16_add",
    "C16_refuted_head",
    "C16_refuted_stack"
   ],
   "note": "Proved for every history of insertions and possible deletions with at most 8191 keys inside. False otherwise: the key -1 is always found (it is the number of the head), and there is a tree of distinct keys on which the search for a key inside overflows its stack."
  },
  {
   "property": "C160",
   "status": "partial",
   "theorems": [
    "C160_partial",
    "C160_open_partial",
    "C160_pieces_partial",
    "C160_none",
    "C160_turned_away",
    "C160_refuted_memory",
    "C160_refuted_forged",
    "C160_property_refuted"
   ],
   "note": "Proved from the bytes of the request to the bytes of the record, for well-formed GET requests (in one piece, or in any pieces in which they are answered at all: C160_pieces_partial) with a path below 1024 bytes and every root and index of at most 255 bytes: if the whole line has at most 510 bytes, it is written as it should be and is one line. False otherwise: every request with a longer line (above 512 bytes, which a path of some 400 letters does) makes the server write bytes of its stack behind the record to the log and to standard output; and since a path may hold CR and LF, a client puts any line of visible characters into the log (C160_refuted_forged, for every such text). Records of failing checks are left out."
  },
  {
   "property": "C161",
   "status": "partial",
   "theorems": [
    "C161_forms",
    "C161_pieces",
    "C161_exact",
    "C161_refuted_query",
    "C161_refuted_percent",
    "C161_property_refuted"
   ],
   "note": "Proved from the bytes of the request: the form of the target (scheme, host, port), the version and all headers but Connection make no difference, nor do the pieces in which the request arrives, if it is answered at all (C161_pieces); the answer depends on the file system only through the one name that has the bytes of the path in it as they are. False for that reason: for every file that is sent for a path, the same path with a query is answered 400 (unless a file has the query in its name), and so is the path with a byte written as % and two digits."
  },
  {
   "property": "C162",
   "status": "partial",
   "theorems": [
    "C162_partial",
    "C162_refuted_name",
    "C162_refuted_absent",
    "C162_refuted_list",
    "C162_refuted_octal",
    "C162_refuted_short",
    "C162_refuted_range",
    "C162_refuted_hex",
    "C162_property_refuted"
   ],
   "note": "Proved for every document within the limits: an address of four decimal numbers is used as it stands, 8.8.8.8 if none is given, and the port is the configured one. False for other texts, which are taken without a word: every text that does not start with a digit (a host name), every number above 255, and an absent s5_local_serv_ip, become 255.255.255.255; of several addresses with spaces between them only the first is used; parts with a zero in front are octal, with 0x hexadecimal; missing parts are zeros. inet_addr is modelled after glibc (trusted). What the network does with datagrams to 255.255.255.255 is not modelled."
  },
  {
   "property": "C163",
   "status": "partial",
   "theorems": [
    "C163_shrunk",
    "C163_partial",
    "C163_refuted_any",
    "C163_refuted_grown",
    "C163_property_refuted"
   ],
   "note": "Proved for all results of send and read: a file that was cut never counts as finished (the connection is closed or waits); a finished answer is the beginning of the file, has at least the announced bytes and less than 16344 more. False for files that grow: buffers are filled without regard to the announced length, so for every old size and every longer content the rest of the last buffer is sent too (C163_refuted_any). From the request on (C163_refuted_grown): for every file and everything added to it, up to 16344 bytes in all, the reader takes what was added for the next answer on a connection that is kept."
  },
  {
   "property": "C164",
   "status": "partial",
   "theorems": [
    "C164_partial",
    "C164_too_long",
    "C164_refuted_any",
    "C164_refuted_length",
    "C164_refuted_huge",
    "C164_property_refuted"
   ],
   "note": "Proved for all bodies announced by a Content-Length below 2^31, for all contents and pieces: at most one answer; above 16344 bytes the connection is closed unread (C164_too_long). False for chunked bodies: Transfer-Encoding is ignored, so for every kept request whose first chunk's length arrives with the head and every request written into that chunk, the server gives two answers (C164_refuted_any). False if another header's name is a beginning of Content-Length, as with Content: text, which sets the length to 0 (C164_refuted_length). False for a length that is a multiple of 2^32, which is taken for 0 (C164_refuted_huge)."
  },
  {
   "property": "C165",
   "status": "proved",
   "theorems": [
    "C165_recorded",
    "C165_plain",
    "C165_harmful"
   ],
   "note": "For every head and every sequence of the allocator's answers: the head is stored completely, or the buffer for the payload or the head was refused and exactly the checks that failed are recorded. The macro makes the text of a condition a part of the format, so the records of four checks (Date, Connection, Content-Length, the additional header) would be undefined behaviour (C165_harmful); C165_recorded shows that these never fail, because all lines fit into the first buffer. C165_plain covers every check whose text has no percent sign, which are all others in the sources."
  },
  {
   "property": "C166",
   "status": "partial",
   "theorems": [
    "C166_partial",
    "C166_refuted_method",
    "C166_refuted_dots",
    "C166_property_refuted"
   ],
   "note": "Proved for GET with paths below 1024 bytes that contain a dot (or whose root does) and not ../: the answer begins with HTTP/1.1 and a status. False for every request without body whose method is not GET, HEAD among them, and for every path with ../ in it: the connection is closed without an answer."
  },
  {
   "property": "C167",
   "status": "proved",
   "theorems": [
    "C167_double",
    "C167_int",
    "C167_read_double",
    "C167_read_int"
   ],
   "note": "For every finite double and both attempts, and for every int; the longest text has 24 bytes; the program's own reader (parse_number) takes exactly the text, whatever follows it in the document, and gets every int back. The digits are those of C138 (trusted: sprintf rounds correctly); the layout of %g follows the C standard; locale C. Infinities and NaN are printed as null."
  },
  {
   "property": "C168",
   "status": "partial",
   "theorems": [
    "C168_partial",
    "C168_same_partial",
    "C168_doubles_17",
    "C168_doubles_int",
    "C168_refuted"
   ],
   "note": "Proved for values whose numbers are ints other than INT_MIN: any strings, any nesting (no limit of 1000 here), whatever the forms of the two texts. False of doubles: 0.1 + 0.2 and 0.3 are both printed as 0.3. Two doubles with the same text of 17 digits are the same double, and one with the text of an int is that int (C168_doubles_17, C168_doubles_int). Missing: raw items, which may hold any text; whole values with doubles of 17 digits."
  },
  {
   "property": "C17",
   "status": "partial",
   "theorems": [
    "C17_partial",
    "C17_refuted",
    "C17_refuted_leaf",
    "C17_refuted_direct",
    "C17_refuted_side"
   ],
   "note": "Proved at pointer level for the deletions that the code can do (node with a child, correct side tags, successor not a leaf child). False otherwise: deleting a leaf always crashes, so every non-empty tree of distinct keys has a key that cannot be deleted; a leaf as direct right successor crashes; after a deletion the side tag of the moved node is stale and the next deletion leaves a link to freed memory."
  },
  {
   "property": "C18",
   "status": "partial",
   "theorems": [
    "C18_finite_map_partial",
    "C18_empty_key_refuted"
   ],
   "note": "All histories, sizes, collisions and allocation failures for non-empty keys; inserting the empty key aborts the process."
  },
  {
   "property": "C19",
   "status": "proved",
   "theorems": [
    "C19_array",
    "C19_list"
   ],
   "note": "Allocator answers are inputs; blocks it hands out are distinct (C03)."
  },
  {
   "property": "C20",
   "status": "partial",
   "theorems": [
    "C20_found",
    "C20_partial",
    "C20_refuted",
    "C20_refuted_match",
    "C20_refuted_abort"
   ],
   "note": "Proved: an occurrence is reported and it is the first one; absence is reported if no end of the string starts the pattern. False otherwise: the search reads behind the string and can report a match that reaches behind it; a string shorter than the pattern stops the program."
  },
  {
   "property": "C21",
   "status": "proved",
   "theorems": [
    "C21_registered_key_accepted"
   ],
   "note": "For every key set whose construction succeeds (see C23)."
  },
  {
   "property": "C22",
   "status": "partial",
   "theorems": [
    "C22_accepts_only_texts_with_key_refuted",
    "C22_accepts_only_texts_with_key_partial",
    "C22_any_keys_partial",
    "C22_short_text_rejected",
    "C22_exact",
    "C22_single_key_exact"
   ],
   "note": "False in general: with key aaab the text aaaXab is accepted. Proved for key sets in which no key has the first symbol of a key strictly between its first and last symbol, up to the folding of bytes >= 128. This condition is exact for keys of two or more symbols none of which occurs in another (with some byte left unused), so in particular for every single key; the key shipped in env/config/auth.json does not meet it. For every key set whose matcher is built: an accepted text has the symbols of a key in order, perhaps with others between, also counting what was sent in refused attempts before; a text shorter than every key is refused."
  },
  {
   "property": "C23",
   "status": "partial",
   "theorems": [
    "C23_build_total_refuted",
    "C23_build_total_partial",
    "C23_build_outcomes",
    "C23_build_single_key_partial"
   ],
   "note": "False in general: keys bacd, ace make the construction dereference NULL. Proved for every single key and for sets in which no key has the first two symbols of a key at a later place, below the stack limit; for every other set below the limit it completes or dereferences NULL, nothing else."
  },
  {
   "property": "C24",
   "status": "partial",
   "theorems": [
    "C24_verdict_independent_refuted",
    "C24_verdict_independent_partial",
    "C24_any_keys_partial"
   ],
   "note": "False: a rejected attempt leaves the matcher in the middle of the trie, so half a key is accepted next and a valid key can be rejected. Proved for key sets as in C22: no attempt locks out a valid key, an accepted attempt resets. For every key set whose matcher is built: a key with enough symbols in front that occur in no key is accepted after any history."
  },
  {
   "property": "C25",
   "status": "proved",
   "theorems": [
    "C25_client_header",
    "C25_registered_key_accepted",
    "C25_other_magic_refused"
   ],
   "note": "Every key of 1..16 non-NUL bytes, every split of the header (with would-block results anywhere), for every key set whose matcher is built; 36 bytes with another magic number close the session."
  },
  {
   "property": "C26",
   "status": "partial",
   "theorems": [
    "C26_long_keys_authenticate_refuted",
    "C26_long_keys_authenticate_partial"
   ],
   "note": "False: the client copies only 16 bytes of the key, so a registered 20-byte key is refused. Proved for keys of 1..16 bytes."
  },
  {
   "property": "C27",
   "status": "partial",
   "theorems": [
    "C27_no_byte_lost_after_auth_refuted",
    "C27_no_byte_lost_after_auth_partial"
   ],
   "note": "False: a greeting received together with the header is dropped. Proved when the greeting arrives in later receives."
  },
  {
   "property": "C28",
   "status": "proved",
   "theorems": [
    "C28_greeting_any_split"
   ],
   "note": "Every greeting with 1..255 methods, every split of it and of the reply."
  },
  {
   "property": "C29",
   "status": "partial",
   "theorems": [
    "C29_greeting_bounds_refuted",
    "C29_greeting_bounds_partial"
   ],
   "note": "False: a greeting announcing zero methods makes the parser write behind the array. Proved for every other byte sequence."
  },
  {
   "property": "C30",
   "status": "proved",
   "theorems": [
    "C30_request_any_split"
   ],
   "note": "IPv4 and domain CONNECT requests, every split."
  },
  {
   "property": "C31",
   "status": "proved",
   "theorems": [
    "C31_only_connect_is_dialled",
    "C31_other_requests_are_closed",
    "C31_abandoned_sessions_end"
   ],
   "note": "Every valid run: names are resolved or addresses dialled only for VER=5 CMD=1 ATYP 1/3; complete requests of other kinds close the session."
  },
  {
   "property": "C32",
   "status": "partial",
   "theorems": [
    "C32_request_bounds_refuted",
    "C32_request_bounds_partial"
   ],
   "note": "False: a domain of length zero makes the parser write behind the array. Proved for all other byte sequences."
  },
  {
   "property": "C33",
   "status": "partial",
   "theorems": [
    "C33_ipv4_dialled_as_requested",
    "C33_domain_resolved_as_requested_refuted",
    "C33_domain_resolved_as_requested_partial",
    "C33_only_the_requested_is_dialled",
    "C33_inet_addr"
   ],
   "note": "Proved for every run: nothing else than an address or a name (up to its first NUL) of the request is dialled or looked up. Proved for IPv4 and for domains of 1..254 bytes without NUL; false for names with NUL (truncated) and of 255 bytes (read past the array)."
  },
  {
   "property": "C34",
   "status": "partial",
   "theorems": [
    "C34_connect_reply_refuted",
    "C34_connect_reply_partial"
   ],
   "note": "False: the address field of the reply holds two swapped octets and zeros and the port is byte-swapped. Proved: exactly one ten-byte success reply of type IPv4, then the relay."
  },
  {
   "property": "C35",
   "status": "partial",
   "theorems": [
    "C35_pipelined_handshake_refuted",
    "C35_pipelined_handshake_partial"
   ],
   "note": "False: a request in the same segment as the greeting is lost. Proved: the whole handshake in any segmentation in which no receive crosses a message boundary."
  },
  {
   "property": "C36",
   "status": "proved",
   "theorems": [
    "C36_relay_integrity",
    "C36_any_callbacks"
   ],
   "note": "All schedules, sizes and errors, including bytes buffered at hand-over; no run faults. The second theorem holds whichever callbacks are installed at any time, so also when the TLS layer puts back callbacks it has remembered."
  },
  {
   "property": "C37",
   "status": "proved",
   "theorems": [
    "C37_waiting_modes",
    "C37_no_lost_wakeup",
    "C37_callbacks_return"
   ],
   "note": "Over plain sockets with edge-triggered notification: when the relay rests and no event is pending, nothing can be moved; every callback returns; buffers stay in bounds."
  },
  {
   "property": "C38",
   "status": "proved",
   "theorems": [
    "C38_drained_before_close"
   ],
   "note": "Stated over the observable trace of recv/send results."
  },
  {
   "property": "C39",
   "status": "partial",
   "theorems": [
    "C39_half_close_refuted",
    "C39_refuted",
    "C39_half_close_partial"
   ],
   "note": "False: when the client closes its sending side while an answer waits for the client to become writable, the answer is dropped. Proved: at most one buffer is lost, and nothing if no send towards the closing side had to wait."
  },
  {
   "property": "C40",
   "status": "proved",
   "theorems": [
    "C40_qname_encoding"
   ],
   "note": "For every list of labels of 1..63 bytes without dots; the encoding decodes to these labels and no others."
  },
  {
   "property": "C41",
   "status": "partial",
   "theorems": [
    "C41_query_in_bounds_partial",
    "C41_query_in_bounds_refuted"
   ],
   "note": "Proved for every C string of at most 255 bytes. False as called by the SOCKS5 layer: a 255-byte name runs on into the port, the 256-byte copy is unterminated and read past its end."
  },
  {
   "property": "C42",
   "status": "proved",
   "theorems": [
    "C42_query_well_formed"
   ],
   "note": "Every name of at most 253 bytes made of valid labels."
  },
  {
   "property": "C43",
   "status": "partial",
   "theorems": [
    "C43_first_address_partial",
    "C43_labels_partial",
    "C43_first_address_refuted"
   ],
   "note": "Proved for compressed owners, also labels of bytes below 64 in front of a pointer, and preceding records with data; a preceding record without data makes the analyser lose its place."
  },
  {
   "property": "C44",
   "status": "partial",
   "theorems": [
    "C44_within_packet_refuted",
    "C44_within_packet_partial",
    "C44_response_total"
   ],
   "note": "Up to three bytes behind the packet are read when an address record is short; never more, and no fault in the 1500-byte buffer as long as three bytes are free."
  },
  {
   "property": "C45",
   "status": "partial",
   "theorems": [
    "C45_matches_question_refuted",
    "C45_refuted",
    "C45_basic_checks_partial"
   ],
   "note": "False: neither the identifier nor the question is compared. Proved: what is checked."
  },
  {
   "property": "C46",
   "status": "partial",
   "theorems": [
    "C46_uncompressed_refuted",
    "C46_uncompressed_never",
    "C46_uncompressed_partial"
   ],
   "note": "False for ordinary letters in an uncompressed owner (bytes >= 64 are taken for pointers): for every name with such a byte before its last character, an answer of one address record with the name written out fails (C46_uncompressed_never). Proved for owners with bytes below 64."
  },
  {
   "property": "C47",
   "status": "proved",
   "theorems": [
    "C47_recorded_for_this_domain",
    "C47_complete"
   ],
   "note": "All histories of answers, lookups and passes, including allocation failures and collisions."
  },
  {
   "property": "C48",
   "status": "partial",
   "theorems": [
    "C48_expiry_refuted",
    "C48_expiry_partial"
   ],
   "note": "False both ways: the comparison of the eviction pass is inverted. Proved: a record is lost only to a pass that runs before its expiry."
  },
  {
   "property": "C49",
   "status": "partial",
   "theorems": [
    "C49_partial",
    "C49_leading",
    "C49_refuted_empty_value",
    "C49_refuted_many"
   ],
   "note": "Proved for every request in origin or absolute form with at most 15 headers with non-empty values, with any blank lines before it and followed by any bytes. False for an empty header value (it swallows the next line) and for more than 15 headers (dropped silently)."
  },
  {
   "property": "C50",
   "status": "partial",
   "theorems": [
    "C50_exactly",
    "C50_same",
    "C50_refuted",
    "C50_split_line_never_completes",
    "C50_partial"
   ],
   "note": "False: the parser never receives again while bytes are pending. Proved exactly for requests without body, every segmentation and any would-block results: the request completes if and only if it came in one piece, or the request line in one and all headers in a second, and then it is understood as sent; every other segmentation is rejected or loops for ever. For the body see C52."
  },
  {
   "property": "C51",
   "status": "proved",
   "theorems": [
    "C51_header_table_bounds"
   ],
   "note": "Every input sequence: no out-of-bounds write at all, to the table or to a buffer."
  },
  {
   "property": "C52",
   "status": "partial",
   "theorems": [
    "C52_partial",
    "C52_refuted"
   ],
   "note": "Proved for bodies of 1..16344 bytes and every split, as long as the first receive does not bring more than the body; if it does, the request is rejected."
  },
  {
   "property": "C53",
   "status": "partial",
   "theorems": [
    "C53_recognised_by_prefix",
    "C53_partial",
    "C53_refuted"
   ],
   "note": "False: names are compared with the length of the received token, so every prefix matches. The exact rule is proved."
  },
  {
   "property": "C54",
   "status": "partial",
   "theorems": [
    "C54_partial",
    "C54_refuted"
   ],
   "note": "Proved for registered paths of at most 31 bytes (first registration wins). False for longer ones: webser_api_reg cuts them to sizeof(char*)-1 = 7 bytes, so the path is served as a file and an unregistered 7-byte path reaches the handler."
  },
  {
   "property": "C55",
   "status": "partial",
   "theorems": [
    "C55_partial",
    "C55_refuted",
    "C55_refuted_dotdot"
   ],
   "note": "Paths are resolved lexically (no symbolic links). Proved for request paths below 1024 bytes whose last segment is not '..'. False otherwise: only the first 1024 bytes are searched for '../' (end-to-end witness that serves /etc/passwd), and a final '/..' passes."
  },
  {
   "property": "C56",
   "status": "partial",
   "theorems": [
    "C56_exact",
    "C56_partial",
    "C56_check_partial",
    "C56_refuted"
   ],
   "note": "Checking the path never writes outside its buffer. Building it, exact: for roots of at most 255 bytes the only out-of-bounds write happens for paths that end in '/' with root+path > 2048 bytes; one request suffices."
  },
  {
   "property": "C57",
   "status": "partial",
   "theorems": [
    "C57_partial",
    "C57_refuted"
   ],
   "note": "Proved for every path that contains a dot, against a table keyed by the extension of the last segment. False: without any dot in the path the server dereferences NULL."
  },
  {
   "property": "C58",
   "status": "partial",
   "theorems": [
    "C58_partial",
    "C58_refuted_partial_send",
    "C58_refuted_large",
    "C58_refuted_directory",
    "C58_get_echo_partial",
    "C58_post_echo_partial"
   ],
   "note": "Proved for every sequence of send/read results: what is sent is a prefix of the file and the response ends exactly after the whole file; it is not aborted if sends take whole buffers. False: a partial send of the last buffer aborts the response (for every file below 16344 bytes and every split); sizes of 2 GB and more wrap; directories are announced and not sent. The head's Content-Length is tied to the length by C59_partial."
  },
  {
   "property": "C59",
   "status": "partial",
   "theorems": [
    "C59_partial",
    "C59_refuted"
   ],
   "note": "Proved for 200, 403, 404, 500 with every date, length and extra header. False for 400 (every missing file): the status line has no CRLF."
  },
  {
   "property": "C60",
   "status": "partial",
   "theorems": [
    "C60_partial",
    "C60_closes_partial",
    "C60_lost",
    "C60_refuted"
   ],
   "note": "Proved: any number of requests each in its own receive are answered in order; a request that does not ask for it closes the connection. False for requests received together: everything behind the first is dropped."
  },
  {
   "property": "C61",
   "status": "proved",
   "theorems": [
    "C61_send_chain",
    "C61_repeated_calls"
   ],
   "note": "One call and any number of repeated calls after would-block."
  },
  {
   "property": "C62",
   "status": "proved",
   "theorems": [
    "C62"
   ],
   "note": "Every reachable state of the event table, every valid batch, whatever the callbacks free or allocate: no callback runs for a connection other than the one (address and allocation) the event was reported for, and released memory is never touched."
  },
  {
   "property": "C63",
   "status": "partial",
   "theorems": [
    "C63_exact",
    "C63_partial",
    "C63_refuted"
   ],
   "note": "Proved as long as no release has cleared an entry through a slot number remembered from an earlier batch, in particular if callbacks release only connections of the same batch. False otherwise: the event of an unrelated connection is lost."
  },
  {
   "property": "C64",
   "status": "partial",
   "theorems": [
    "C64_granted",
    "C64_partial",
    "C64_refuted",
    "C64_refuted_again"
   ],
   "note": "Proved for histories in which a connection gets its descriptor once: registered is the last interest that was asked for and not refused, so without refusals the last one asked for. False after a refusal (nobody looks at the result) and for a connection that connects again on a new descriptor."
  },
  {
   "property": "C65",
   "status": "proved",
   "theorems": [
    "C65"
   ],
   "note": "Every reachable state and every batch of at most 768 records."
  },
  {
   "property": "C66",
   "status": "partial",
   "theorems": [
    "C66_handshake_partial",
    "C66_read_partial",
    "C66_write_partial",
    "C66_refuted_handshake",
    "C66_refuted_stale_callback",
    "C66_refuted_stale_interest"
   ],
   "note": "Proved for the first wait of a connection, with the exact condition (there is a callback for every direction waited for). False otherwise: the server's handshake leaves a callback that calls itself, and cached callbacks and interest come back after the application has replaced them."
  },
  {
   "property": "C67",
   "status": "partial",
   "theorems": [
    "C67_exact",
    "C67_partial",
    "C67_refuted"
   ],
   "note": "Proved: the calls return exactly if the error queue is empty, and it stays empty if the library leaves errors only with failing results and certificates load. False after a certificate failed to load: the next call on any connection loops for ever."
  },
  {
   "property": "C68",
   "status": "partial",
   "theorems": [
    "C68_server_partial",
    "C68_client_partial",
    "C68_refuted_dns",
    "C68_refuted_no_socket",
    "C68_refuted_handshake",
    "C68_refuted_read",
    "C68_refuted_write",
    "C68_refuted_client"
   ],
   "note": "Proved for every execution, of any length, of the session machine in which none of six accidents happens. Each accident breaks it: the client closing during a name lookup, no socket for the query, TLS waiting for the other direction in handshake, read or write, the client's handshake timeout."
  },
  {
   "property": "C69",
   "status": "partial",
   "theorems": [
    "C69_partial",
    "C69_refuted",
    "C69_finish"
   ],
   "note": "Proved over all interleavings of signals, exits and forks: the master ends only after a stop request with every worker gone, or because a fork failed at start-up; and a stop completes once the workers are dead. False in the second case: a failing second fork ends the master while worker 0 runs on."
  },
  {
   "property": "C70",
   "status": "partial",
   "theorems": [
    "C70_partial",
    "C70_progress_partial",
    "C70_refuted"
   ],
   "note": "Proved when fork succeeds: whenever the master sleeps, no worker is dead, and it gets there from every state. False: after a failed re-fork the worker stays dead until some other worker dies."
  },
  {
   "property": "C71",
   "status": "partial",
   "theorems": [
    "C71_partial",
    "C71_refuted",
    "C71_refuted_stranger"
   ],
   "note": "Proved: every live worker in front of the first dead one is signalled. False: the broadcast stops at the first dead pid, so later workers are never told and the master never ends; a stale pid may hit an unrelated process."
  },
  {
   "property": "C72",
   "status": "partial",
   "theorems": [
    "C72_partial",
    "C72_refuted",
    "C72_refuted_any",
    "C72_refuted_port",
    "C72_refuted_type"
   ],
   "note": "Proved: a document inside the limits is taken over member by member. False: more than 64 ports overrun the record (for every such list), ports above 65535 wrap, a non-string where a string is expected dereferences NULL."
  },
  {
   "property": "C73",
   "status": "partial",
   "theorems": [
    "C73_refuted"
   ],
   "note": "False for every parser and every unreadable or malformed file: start-up reports success with defaults and no listener."
  },
  {
   "property": "C74",
   "status": "partial",
   "theorems": [
    "C74_partial",
    "C74_exact",
    "C74_text_partial",
    "C74_failure_reported_partial",
    "C74_refuted"
   ],
   "note": "Proved for at most eight configured ports (the size of the listener table), from the text of the file to the open ports; a port that cannot be opened makes start-up fail. False beyond: exactly the first eight are opened and nothing is reported."
  },
  {
   "property": "C75",
   "status": "partial",
   "theorems": [
    "C75_exact",
    "C75_partial",
    "C75_refuted",
    "C75_refuted_nul"
   ],
   "note": "Exact: records up to 510 bytes are written as they are, 511 and 512 end in NULs, longer ones make the logger write bytes behind the buffer."
  },
  {
   "property": "C76",
   "status": "partial",
   "theorems": [
    "C76_partial",
    "C76_refuted"
   ],
   "note": "Proved: logged exactly if level <= threshold; errors are labelled as such. False: info and debug labels are swapped, for every message."
  },
  {
   "property": "C77",
   "status": "partial",
   "theorems": [
    "C77_text_with_key_accepted_refuted",
    "C77_text_with_key_accepted_partial",
    "C77_any_keys_partial"
   ],
   "note": "False in general: keys ababc, xy reject the text ababxy. Proved for key sets as in C22, and for every key set if no symbol before the key is the first symbol of a key."
  },
  {
   "property": "C78",
   "status": "partial",
   "theorems": [
    "C78_no_access_without_key_refuted",
    "C78_no_access_without_key_partial",
    "C78_any_keys_partial"
   ],
   "note": "False in general through the matcher (C22). Proved for key sets as in C22, over all runs. For every key set: the symbols of a registered key must appear in order in what was received behind the magic number and what was sent as keys in refused attempts before."
  },
  {
   "property": "C79",
   "status": "partial",
   "theorems": [
    "C79_answer_section_refuted",
    "C79_answer_section_partial"
   ],
   "note": "False: the analyser ignores the record counts and takes a glue address from the additional section. Proved when the first address of the packet lies in the answer section."
  },
  {
   "property": "C80",
   "status": "partial",
   "theorems": [
    "C80_ttl_partial",
    "C80_ttl_refuted"
   ],
   "note": "Proved up to 2147483 s after any history; above, the conversion to int wraps."
  },
  {
   "property": "C81",
   "status": "partial",
   "theorems": [
    "C81_record_any_answer_refuted",
    "C81_record_any_answer_partial"
   ],
   "note": "False for the empty name (a SOCKS5 domain starting with a zero byte): the answer aborts the process."
  },
  {
   "property": "C82",
   "status": "proved",
   "theorems": [
    "C82_array_release",
    "C82_list_release"
   ],
   "note": ""
  },
  {
   "property": "C83",
   "status": "partial",
   "theorems": [
    "C83_refuted_overread",
    "C83_refuted_abort",
    "C83_partial"
   ],
   "note": "False: a white-space Content-Length makes strtol read past the buffer; a request line of exactly 4096 bytes aborts the worker. Proved: these (over-read, abort) are the only faults of the parser."
  },
  {
   "property": "C84",
   "status": "partial",
   "theorems": [
    "C84_exact",
    "C84_refuted",
    "C84_partial"
   ],
   "note": "Exact count: one block leaks per kept-alive request (the old receive buffer) and one per request body."
  },
  {
   "property": "C85",
   "status": "partial",
   "theorems": [
    "C85_refuted",
    "C85_refuted_any"
   ],
   "note": "False: the bytes read to look for the tunnel header are dropped with their buffer; whatever the first message, no answer is sent."
  },
  {
   "property": "C86",
   "status": "partial",
   "theorems": [
    "C86_other",
    "C86_refuted_post_any",
    "C86_partial",
    "C86_refuted_post",
    "C86_refuted_line",
    "C57_refuted",
    "C56_refuted"
   ],
   "note": "Proved for every request that is neither GET nor POST /echo (C86_other), and for GET with paths below 1024 bytes that contain a dot (or whose root does). False for every POST /echo without body (C86_refuted_post_any), request lines without version, names without dot, and long paths."
  },
  {
   "property": "C87",
   "status": "partial",
   "theorems": [
    "C87_partial",
    "C87_exact",
    "C87_refuted"
   ],
   "note": "Proved while no worker has stopped on request. False afterwards: the worker removes the pid file, so after the first reload no command reaches the master (for every history)."
  },
  {
   "property": "C88",
   "status": "partial",
   "theorems": [
    "C88_partial",
    "C88_refuted"
   ],
   "note": "Proved for a request that arrives while the master sleeps. False otherwise: the signal is not blocked, and one that arrives between the test and sigsuspend waits until another signal arrives."
  },
  {
   "property": "C89",
   "status": "partial",
   "theorems": [
    "C89_plain_partial",
    "C89_refuted",
    "C89_refuted_deaf"
   ],
   "note": "Proved for the plain side of both programs. False of the TLS side: a read that has to wait sets the interest to readable although bytes wait to be sent."
  },
  {
   "property": "C90",
   "status": "partial",
   "theorems": [
    "C90_partial",
    "C90_refuted",
    "C90_refuted_client"
   ],
   "note": "Proved except for two cases, both refuted: no memory for the DNS query, and the timeout of the client's handshake."
  },
  {
   "property": "C91",
   "status": "partial",
   "theorems": [
    "C91_partial",
    "C91_refuted",
    "C91_refuted_client"
   ],
   "note": "Proved if the short replies fit into the socket buffer. False otherwise: a cached callback comes back during the relay and sends one side's bytes back to it."
  },
  {
   "property": "C92",
   "status": "partial",
   "theorems": [
    "C92_partial",
    "C92_refuted"
   ],
   "note": "Proved if connect does not fail at once. False otherwise: net_connect closes the descriptor and leaves its number in the connection."
  },
  {
   "property": "C93",
   "status": "partial",
   "theorems": [
    "C93_partial",
    "C93_refuted"
   ],
   "note": "Proved outside the accidents of C68. False when the client closes during a name lookup: the query stays."
  },
  {
   "property": "C94",
   "status": "partial",
   "theorems": [
    "C94_partial",
    "C94_refuted"
   ],
   "note": "Proved for up to 8192 keys: exactly the nodes below the right link of the head are freed, each once. False for keys below 0: they are on the left of the head and are never freed."
  },
  {
   "property": "C95",
   "status": "proved",
   "theorems": [
    "C95_parse_safe",
    "C95_nesting_refused"
   ],
   "note": "Every byte string gives a result without a fault; allocation is taken to succeed."
  },
  {
   "property": "C96",
   "status": "partial",
   "theorems": [
    "C96_documents_read_partial",
    "C96_integers_exact_partial",
    "C96_refuted_long_number",
    "C96_refuted_deep"
   ],
   "note": "Texts whose numbers are plain integers of an int are read exactly. Proved for documents nested at most 1000 levels with numbers of at most 63 characters; numbers are described by their conversion to int (their only use in the program). False beyond: every array of a number of more than 63 characters is refused, and so is every nesting of more than 1000 brackets."
  },
  {
   "property": "C97",
   "status": "proved",
   "theorems": [
    "C97_truncation_detected"
   ],
   "note": "For documents in the sense of C96, with any cut that removes more than trailing white space."
  },
  {
   "property": "C98",
   "status": "partial",
   "theorems": [
    "C98_refuted_trailing",
    "C98_refuted_control",
    "C98_refuted_number",
    "C98_refuted_escape",
    "C98_accepted_partial",
    "C98_tame_partial"
   ],
   "note": "False: text after the document, control characters in strings, leading zeros and wrong escapes are accepted; a wrong escape silently ends the string there. Proved: nothing else is accepted. Every accepted text begins with a value of a grammar that differs from JSON in these points only, and its value is the one returned; it begins with a JSON value if it has no backslash, no decimal point, no leading zero and no control character in a string. What follows the value is not restricted."
  },
  {
   "property": "C99",
   "status": "partial",
   "theorems": [
    "C99_config_text_partial",
    "C99_plain_text_partial",
    "C99_config_text_refuted"
   ],
   "note": "Proved from the bytes of the file to the configuration record (composition of C96 and C72). False for a cut-off file: start-up succeeds without any listener."
  }
 ]
}