# DESIGN

Subject: `tezc/sc` (C), read as text from /repo, never built or run.
Prover: Coq/Rocq 8.16.1, sources in `rocq/theories`.

## How the model is organised

Per library module X:

* `XModel.v` - Gallina functions following the C functions one by one; every definition cites file and lines.
* `XSpec.v` - the small independent specification the properties are stated with (when needed).
* `XProofs.v` - invariants and lemmas.
* `XProps.v` - the property theorems, `Print Assumptions` for each, and beside each a concrete non-trivial `Example` that meets its hypotheses.

`Base.v` has the outcome type and bounds-checked memory, `CStr.v` and `CNum.v` the C library functions the code calls,
`Bits.v` and `Num.v` arithmetic lemmas.

A computation that may go wrong returns `res A` = `Ok a | UB | Fuel`. `UB` is C undefined behaviour: access outside a
block, read of an unwritten slot, NULL dereference, signed overflow, a call outside its contract. `Fuel` means a loop
whose termination is not structural used up its bound, or that an oracle list of answers ran out; theorems either show
it does not happen or range over the runs that end. malloc, calloc, realloc and system calls are oracle arguments,
quantified over in every theorem. Integers are `Z` with wrap-around written out where it can happen.

## Trusted base

* Coq's kernel, including its virtual machine (`vm_compute` is used in examples, in `_refuted` theorems and in finite sweeps).
* `Print Assumptions` is run on every theorem named in MANIFEST.json: each answers "Closed under the global context". No axioms, neither own nor of the standard library, are used. (`coqchk -o` also lists the fields of the standard library's module type `Coq.ssr.ssrunder.Under_rel`, which the library loads with its tactics; no theorem depends on them.)
* The models' fidelity to the C text: written by hand, function by function, each definition citing its lines. Simplifications are stated in the comments.
* The descriptions of what is outside the code: ISO C library functions (`CStr.v`, `CNum.v`, `print_s`, `snprintf`), POSIX and Linux calls as oracles, the CRC32 instruction after the Intel SDM, kqueue and epoll after their manual pages.
* Platform: two's complement, 64-bit `size_t`, `long` and pointers, 32-bit `int`, the "C" locale, Linux constants. CRC is modelled for both byte orders; the string hash on a little-endian machine.

## What is modelled

| Module | Modelled | Not modelled |
|---|---|---|
| array | everything; loop bodies that change the array; arguments that are expressions (Arg*.v) | qsort itself (its contract) |
| heap | everything | |
| queue | everything; loop bodies that change the queue; arguments that are expressions (Arg*.v) | |
| linked-list | everything; loop bodies that change the list | |
| map | everything, all key kinds; loop bodies that change the map; strings released while the map is used | |
| buffer | everything | formatting itself: `vsnprintf` yields an arbitrary text |
| timer | everything | |
| string | everything, also with arguments that point into the string | formatting itself; token delimiters in the string |
| crc32 | all three builds | run-time choice of the build |
| sc | everything | `%.02lf` is the correctly rounded quotient |
| ini | everything | opening of files (an oracle) |
| option | everything | |
| uri | everything | |
| signal | POSIX: formatter, log, shutdown handler (also interrupting each other, and on several threads), initialisation, fatal handler, the kernel's dispositions; Windows: all handlers and initialisation | backtrace text; which handler Windows runs for an event |
| condition | everything | |
| mutex | everything | |
| time | everything | |
| thread | everything | |
| memory-map | POSIX, macOS and Windows parts, init on 32-bit Windows (Wmap32*.v) | |
| logger | everything POSIX, failed initialisation and callbacks that call the logger (LogCb*.v, also on Windows), with one thread and (LogConc*.v) with any number of threads, with and without C11 atomics | failure of locking and unlocking; stdio buffering; callbacks that call the logger while other threads do; init and term at the same time as other calls |
| socket | POSIX sockets, programs with any number of them (SockRun*.v), address texts, pipe, epoll, kqueue, notification of systemd, error messages (PollErr*.v); Windows poller and pipe, startup, timeouts, errors of connecting, listening, connecting, accepting, sending and receiving on Windows (Waddr*.v) | memory ordering between polling thread and others (each critical section is one step) |
| memory of all containers, strings, timers and uris together (Mem*.v) | which block each call allocates, releases, reads and writes, on one store shared by all objects | contents of the blocks (see the other models); outcomes that depend on them are parameters of the calls |
| sizes of blocks (Size*.v) | the arithmetic of the sizes asked for by arrays, queues, heaps, timers, buffers and strings with 32-bit and 64-bit size_t | contents (see the other models, which have 64 bits); maps (their product is computed by calloc) |
| linked-list: any nodes | C assignment of a struct sc_list; the functions of ListModel.v on nodes that are heads of non-empty lists (C146) | freed nodes |
| string: token programs | sc_str_token_begin, sc_str_token_end and resetting the save pointer in any order (C147) | strings with embedded NULs (see C41), delimiters inside the string |
| crc32: before sc_crc32_init | sc_crc32 with the zero tables of a program that has not called sc_crc32_init (C148) | the big-endian build; long messages at unaligned addresses with the instruction |
| signal: crashes during a crash report | sc_signal_on_fatal taken one action at a time, with further crash signals in between (C149) | several threads; signals inside a single action |
| timer: callbacks that call the timer | add, cancel, timeout, clear and term called from callbacks to any depth, with the clock moving in between (C150) | recursion deeper than the stack of the machine |
| socket: several sockets on one poller | tables of structures with init, open, close, poll_add and poll_del in any order (C151) | duplicated descriptors, which stay registered after close; kqueue |
| socket: results of a wait on Linux | sc_sock_poll_wait with the array of events, sc_sock_poll_data, sc_sock_poll_event, with the calls of PollManyModel in between | which descriptors the kernel finds active and when (arbitrary); edge-triggered reporting (the mode is not restricted); kqueue and Windows |
| time, Windows: cached frequency on several threads | the accesses of sc_time_mono_ms and sc_time_mono_ns to the static variable, interleaved, whole or in halves | the memory model of ISO C (the race is undefined there); the order of the halves other than lower first |
| socket: messages | uses SockModel: which call the text left by sc_sock_errstr comes from | the wording (strerror, gai_strerror) |
| socket: several sockets and results on kqueue | sc_sock_init, opening, sc_sock_term, sc_sock_poll_add, sc_sock_poll_del, sc_sock_poll_wait, sc_sock_poll_data, sc_sock_poll_event for kqueue, any number of structures | when a filter is active (an oracle), so EV_CLEAR too; duplicated descriptors |
| socket, Windows: user data | the functions of the Windows poller again, every call with its own user data | the same as for the Windows poller |
| memory-map, macOS | sc_mmap_init with the loop that makes the file longer, with the contents of the file | other writers of the file |
| time and perf with 32-bit long and time_t | the clocks of sc_time.c and sc_perf.c, sc_time_sleep (Time32*.v) | |
| perf | all functions; the arithmetic of the values also in IEEE doubles; the printed table byte by byte (PerfText*.v) | messages on stderr before aborting |

## Properties

Status, approach and theorems. A theorem named `..._refuted` exhibits a concrete case in which the full statement (as in properties.jsonl) is false of the code; `..._partial` is what is proved instead.

### array

The array is a record of capacity, size, flag and slots, where a slot may be unwritten. Every history of calls is refined to list operations by induction.

* **C01 Array behaves as a plain sequence** (proved). `array_refines_sequence`.
* **C02 Failed array add is atomic and reported** (proved). `array_add_atomic`.
* **C03 Array foreach visits each element once, in order, and honours break** (proved). `array_foreach_visits`. loop bodies that do not modify the array

### heap

The block is a list of slots counted from 1, possibly unwritten. The sift loops have fuel, proved sufficient. The invariant is heap order; contents are compared with Permutation.

* **C04 Heap is a priority queue** (proved). `heap_is_priority_queue`. allocator limit below 2^62 bytes
* **C05 Popping a heap until empty sorts it** (proved). `heap_pop_all_sorts`.
* **C06 Heap never touches memory it does not own** (proved). `heap_memory_safe`.
* **C07 A failed heap add leaves the heap unchanged** (partial). `heap_failed_add_refuted`, `heap_failed_add_empty_refuted`, `heap_failed_add_partial`. Refuted: heap/sc_heap.c:85 increments size before allocating; a failed add corrupts the heap. The partial theorem states what remains true.

### queue

A ring of 2^k slots. An abstraction function reads the elements from `first` on; every history is refined to a double-ended list.

* **C08 Queue behaves as a double-ended sequence** (proved). `queue_refines_deque`.
* **C09 Failed queue add is atomic and reported** (proved). `queue_add_atomic`.
* **C10 Queue accepts elements again once there is room** (partial). `queue_recovers_refuted`, `queue_recovers_partial`. Refuted: queue/sc_queue.h keeps the oom flag set until the next growth, so adds are dropped although there is room. The partial theorem states when adds work.
* **C11 Queue foreach visits elements front to back once** (proved). `queue_foreach_visits`. loop bodies that do not modify the queue

### linked-list

Memory is a function from nodes to (next, prev); following a pointer that is no node is UB. An abstraction relation says which nodes form a ring; histories over several lists are refined to sequences.

* **C12 Linked list behaves as a sequence of nodes** (proved). `list_refines_sequences`, `list_ideal_unique`.
* **C13 Adding a linked node moves it** (proved). `list_add_moves`, `list_del_unlinked_noop`. A node added next to itself is only taken out of its list (included in the theorem).
* **C14 List iteration covers the list, safely under deletion** (proved). `list_foreach_covers`.

### map

A list of slots and the separate slot of key 0, generic in key type, hash and equality. The invariant is that of linear probing. The binary64 threshold is computed with the standard library's SpecFloat and swept over load factor and exponent.

* **C15 Hash map behaves as a finite map** (proved). `map_refines_finite_map`, `map_ideal_meaning`, `ops64_lawful`, `ops32_lawful`, `ops_str_lawful`. requested capacity at most 2^31 (see C21)
* **C16 Map size counts the keys** (proved). `map_size_counts`. requested capacity at most 2^31 (see C21)
* **C17 Map foreach visits each binding exactly once** (proved). `map_foreach_visits`. loop bodies that do not modify the map
* **C18 Map probing always terminates inside the table** (proved). `map_probing_safe`. requested capacity at most 2^31 (see C21)
* **C19 Failed map put is atomic and reported** (proved). `map_put_atomic`.
* **C20 String-keyed maps compare contents** (proved). `map_string_keys_by_contents`.
* **C21 Map init honours its contract for every capacity** (partial). `map_init_contract_partial`, `map_init_huge_refuted`. Refuted above 2^31: sc_map_alloc's rounding wraps to 0, init returns true and the first get reads outside the table. Proved for capacities up to 2^31.

### buffer

Bytes of the block, positions with explicit uint64_t wrap-around, error bits. The codec round trip is by induction on lists of typed values.

* **C22 Typed buffer round trip** (proved). `buf_round_trip`. allocations succeed and the total size stays below SC_BUF_MAX minus a page (the property's own condition)
* **C23 Buffer integers are little-endian in place** (partial). `buf_set_peek_partial`, `buf_set_peek_here`, `buf_set_wrap_refuted`. Refuted for offsets within 8 bytes of 2^64: the range check in buffer/sc_buf.c wraps and the access is out of bounds. Proved for every other offset.
* **C24 Buffer errors are sticky** (partial). `buf_errors_sticky_partial`, `buf_clear_fresh`, `buf_get_blob_sticky_refuted`, `buf_put_fmt_sticky_refuted`. Refuted for sc_buf_get_blob, sc_buf_put_fmt and sc_buf_put_text, which ignore the error flag. Proved for all other calls along every program.
* **C25 Length helpers predict encoded size** (proved). `buf_len_helpers`.
* **C26 Growth and compaction preserve unread data** (partial). `buf_space_partial`, `buf_reserve_wrap_refuted`, `buf_reserve_loses_data_refuted`. Refuted when uint64_t arithmetic wraps: sc_buf_reserve reports success without room or shrinks the block. Proved below the wrap; shrink for buffers that own their memory.
* **C27 Buffers respect their limit and borrowed memory** (partial). `buf_limit_partial`, `buf_shrink_limit_refuted`. Refuted for sc_buf_shrink: it reallocates borrowed memory and can exceed the limit. Proved for every history of writes, formatted puts, moves, stores, reserve and compact.
* **C28 Reading untrusted bytes never escapes the buffer** (partial). `buf_untrusted_partial`, `buf_get_str_wrap_refuted`, `buf_get_str_nul_refuted`. Refuted: a string length near 2^64 wraps (read position moves backwards) and the final NUL of a string is not checked. Proved for every program of reads whose position arithmetic stays below 2^64.
* **C29 Moving bytes between buffers conserves them** (partial). `buf_move_partial`, `buf_move_invalid_refuted`. Refuted when the destination already has an error: the bytes are consumed and lost. Proved for every valid destination.
* **C30 Formatted puts succeed whenever memory is available** (partial). `buf_put_fmt_partial`, `buf_put_fmt_refuted`, `buf_put_text_concatenates`, `buf_put_text_failure_refuted`. sc_buf_put_fmt refuted for two exact fits (it reserves one byte too few); proved otherwise. sc_buf_put_text proved; a failed call can leave wpos < rpos.

### timer

The wheel is a list of slots; callbacks are arbitrary lists of calls. An invariant relates pending slots to deadlines and wheel distance along every program.

* **C31 Timers never fire early** (partial). `timer_never_early_partial`, `timer_never_early_refuted`, `timer_huge_timeout_refuted`. Refuted: a poll less than a tick after the last effective one is forgotten, so a timer added then can fire up to 15 ms early; timeouts that make the deadline exceed 64 bits fire at once. Proved for all other timeouts: never before the timestamp the timer counts from plus the timeout, never more than 15 ms early, and not early at all if the last poll was effective.
* **C32 Each timer fires at most once, with its own data; cancelled timers never fire** (partial). `timer_fires_once_partial`, `timer_last_moment_refuted`. For every program with callbacks that add and cancel, every timeout, and timestamps below UINT64_MAX; deadlines are modulo 2^64. A poll at the timestamp UINT64_MAX calls the callback for every free slot (refuted).
* **C33 Timer ids are unique and stable** (partial). `timer_ids_unique_partial`, `timer_ids_refuted`, `timer_add_fails_only_when_full`, `timer_program_runs`. Proved for all timers but those whose deadline is exactly UINT64_MAX: such a timer is lost and its id given out again (refuted). Stability under growth is part of timer_fires_once_partial and timer_lateness_bounded, whose traces include growth.
* **C34 Timer lateness is bounded** (proved). `timer_lateness_bounded`. 481 ms, below the 512 ms of the statement; every timeout, timestamps below UINT64_MAX.
* **C35 A due timer fires at the next poll** (partial). `timer_due_fires_partial`, `timer_due_fires_refuted`. Refuted: each poll drops the remainder of its last tick from the wheel position, so a due timer can be missed. Proved for polls at least a full turn after the last effective one and for programs polling at whole ticks. Exactly when a due timer is missed is proved in C159.
* **C36 sc_timer_timeout returns a usable poll interval** (proved). `timer_poll_interval`. Every state and timestamp; the value can be 0.

### string

A block is a length and bytes; C string functions work on byte lists. Results are compared with separate specifications (split, replace, trim).

* **C37 Length-prefixed strings hold their content** (partial). `str_step_partial`, `str_create_partial`, `str_cmp_len`, `str_append_refuted`. Proved for strings up to SC_STR_MAX bytes (everything but a larger sc_str_create_len produces). Refuted above: appending to such a string wraps the length and reports success.
* **C38 Substring and trim are exact** (proved). `str_substring_exact`, `str_trim_exact`, `str_step_partial`. With embedded NULs trim also strips NULs at the end (str_step_partial, effect of Trim).
* **C39 Replace substitutes every non-overlapping occurrence, leftmost first** (proved). `str_replace_exact`, `str_step_partial`.
* **C40 Replace always terminates** (partial). `str_replace_terminates_partial`, `str_replace_terminates_refuted`. Refuted for empty pattern with empty replacement: loops for ever.
* **C41 Tokenising yields the split and restores the string** (proved). `str_tokens_split`, `str_tokens_nul`.

### crc32

The tables are computed by the model's init loops. Linearity over xor and induction give the bitwise definition; the error detection claims are about the polynomial.

* **C42 Software CRC equals the CRC-32C definition** (proved). `crc_software_is_crc32c`. Both byte orders; buffers of any length at any address.
* **C43 CRC can be computed piecewise** (proved). `crc_piecewise`. All three builds.
* **C44 Hardware and software CRC agree** (proved). `crc_hardware_agrees`. The CRC32 instruction is modelled by its definition in the Intel SDM.

### sc

Integer arithmetic with explicit wrap-around; RC4 as a state machine with a textbook specification; decimal parsing and printing.

* **C45 Power-of-two helpers are exact** (proved). `pow2_exact`.
* **C46 Random stream does not depend on read sizes** (proved). `rand_read_split`, `rand_read_is_rc4`, `rand_init_is_rc4`.
* **C47 Size strings are parsed exactly or rejected** (partial). `size_to_bytes_partial`, `size_to_bytes_overflow_refuted`, `size_to_bytes_formats_refuted`, `size_to_bytes_length_refuted`, `size_to_bytes_ascii_refuted`. Refuted: a non-ASCII byte right after the number is a negative argument of tolower (undefined behaviour); negative number times unit overflows (undefined behaviour); '-5' is returned although the header promises positive or -1; '1bb' is accepted; a tail of 2^32 characters is ignored; the header's own example '1 KB' and the output of sc_bytes_to_size are rejected. Proved for all other strings.

### ini

Functions over the line buffer; the parse loop is compared with a relational specification of lines and documents.

* **C48 INI parsing reports exactly the items** (proved). `ini_parse_string_exact`, `ini_parse_file_exact`, `ini_file_lines_exist`, `ini_document`, `ini_file_is_string`, `ini_null`, `ini_pointer_refuted`, `ini_tab_comment`, `ini_long_key_refuted`, `ini_file_string_refuted`, `ini_empty_key`. Proved for every text and file (memory accesses in bounds, exact items). Also shown: a blank line makes trim_space form the pointer one before the buffer (not accessed); keys over 255 bytes change name on continuation lines.
* **C49 INI parse result codes** (proved). `ini_parse_string_exact`, `ini_parse_file_exact`, `ini_parsed_unique`, `ini_callback_value_refuted`. Return code proved exactly; the header comment (the callback value is returned) is wrong and shown so: the line number is returned.

### option

Arguments and names are C strings in blocks; the result is compared with `first option named`.

* **C50 Option lookup finds the first matching option** (partial). `option_at_first_partial`, `option_first_unique`, `option_dash_refuted`, `option_value_null_refuted`. Proved for every table and argument except the argument "-" with a table containing letter 0, where the code reads past the argument (refuted). The value is NULL for unknown options although the header says it never is.

### uri

Offsets into the text; the built block is compared with an independent grammar.

* **C51 URI parts round trip** (proved). `uri_create_exact`, `uri_round_trip`, `uri_null`, `uri_rfc_refuted`, `uri_port_refuted`. Round trip proved for every tuple of well-formed parts; also the exact result for every input. Parts containing @ or : where RFC 3986 allows them are taken apart wrongly (shown).
* **C52 URI str equals the parsed text** (partial). `uri_str_partial`, `uri_str_refuted`. Refuted: http://a/b:1/c and a:b#c?d lose text. Proved: str is the input without the skipped pieces, equal to it exactly when both are empty.

### signal

A format interpreter over bytes and typed arguments, writing to a bounded buffer; the handler is a function from state to actions.

* **C53 Signal-safe formatting is a truncated exact rendering** (partial). `signal_format_partial`, `signal_numeral_exists`, `signal_format_refuses`, `signal_format_min_refuted`, `signal_format_zero_refuted`. Proved for every format and argument list except the value INT64_MIN for %ld/%lld, whose negation overflows (refuted); the return value is the length when it fits an int. A malformed format returns -1 and leaves no NUL.

### condition

A transition system with one step per access to shared state, for any number of threads. Forward simulation to a one-slot mailbox; progress by an explicit continuation.

* **C54 Condition variable is a one-slot mailbox** (proved). `cond_mailbox`, `cond_mailbox_last`, `cond_no_duplicate`, `cond_exclusive`. Linearizability by forward simulation, for any number of threads, any schedule and any spurious wakeups.
* **C55 No lost wakeup** (proved). `cond_no_lost_wakeup`, `cond_awake`. From every reachable state with a pending signal and a waiter, the code alone can reach a return of a wait. That it does so under a fair scheduler: C161.

### socket

System calls are answered by an oracle and recorded. Ownership of descriptors and address lists, order of attempts and registrations are read off the record.

* **C56 Poll registration matches the kernel** (proved). `poll_registration`, `poll_data_refuted`. Linux (epoll). The registered user data is that of the call that last changed the mask; a call with the same events and other data changes nothing (poll_data_refuted).
* **C57 Sockets are not leaked on failure** (proved). `sock_listen_resources`, `sock_connect_resources`, `sock_accept_resources`, `sock_term_resources`. For every outcome of every call, starting from a structure without descriptor. A connection under way on a non-blocking socket (result -1, errno EAGAIN) keeps its descriptor, as documented.
* **C58 Socket timeouts are set as requested** (partial). `sock_timeout_partial`, `sock_timeout_refuted`. The rest of ms modulo 1000 is passed as microseconds: right exactly for whole seconds.

### memory-map

Oracle for the system calls, recorded; arithmetic on ranges.

* **C59 Memory map descriptor discipline** (proved). `mmap_init_resources`, `mmap_term_resources`. Also: the error text is that of the failing call, not of close.
* **C60 msync covers the requested range** (partial). `mmap_msync_partial`, `mmap_msync_exact`, `mmap_msync_refuted`. Proved from page-aligned offsets; refuted otherwise: the start is aligned down but the length is not extended. mmap_msync_exact says which pages are flushed.

### logger

A state machine over calls, with the bytes received by each sink and an oracle for every output call.

* **C61 Log level filter and delivery** (proved). `log_delivery`, `log_rotation`. log_delivery: console and callback for every history, no undefined behaviour; the file sink is in log_rotation. Calls are taken one at a time (each holds the mutex).
* **C62 Log rotation keeps the newest messages** (partial). `log_rotation`, `log_newest_partial`, `log_rename_refuted`, `log_limit_refuted`. Proved while rename and reopening succeed and the two names differ. Refuted when rename fails: its result is ignored and the file is emptied (log_rename_refuted). The bytes of the headers do not count towards the limit (log_limit_refuted).

### time

Clock values are pairs; nanosleep is an oracle that may be interrupted any number of times.

* **C63 Sleep lasts the requested time** (partial). `sleep_lasts_partial`, `sleep_exact`, `sleep_lasts_refuted`. Proved for all durations up to 2^64-1000 ms; within a second of 2^64 the call returns 0 after less than a second (refuted: UINT64_MAX sleeps 615 ms).

### timer

The wheel is a list of slots; callbacks are arbitrary lists of calls. An invariant relates pending slots to deadlines and wheel distance along every program.

* **C64 Cancelling a timer that has already fired is harmless** (partial). `timer_stale_cancel_partial`, `timer_stale_cancel_refuted`. Proved when no pending timer has the id: the call then leaves the whole state as it is. Refuted otherwise: a stale id may have been given to a newer timer, which is then cancelled. Cancelling never affects timers with other ids (timer_lateness_bounded: only ECancel of the same id matters).

### crc32

The tables are computed by the model's init loops. Linearity over xor and induction give the bitwise definition; the error detection claims are about the polynomial.

* **C65 CRC detects error bursts** (proved). `crc_detects_bursts`.
* **C66 CRC detects flipped bits** (proved). `crc_detects_flips`.

### buffer

Bytes of the block, positions with explicit uint64_t wrap-around, error bits. The codec round trip is by induction on lists of typed values.

* **C67 Buffer positions move exactly** (partial). `buf_positions_partial`, `buf_set_wpos_refuted`. Refuted for sc_buf_set_wpos below the read position: accepted, the size wraps. Proved for all other positions.

### sc

Integer arithmetic with explicit wrap-around; RC4 as a state machine with a textbook specification; decimal parsing and printing.

* **C68 Byte counts print as rounded sizes** (proved). `bytes_to_size_text`. %.02lf of a double is modelled as round-to-nearest-even of the exact quotient, which is what it is for the values that occur.
* **C69 Random bytes are the RC4 stream of the seed** (proved). `rand_init_is_rc4`, `rand_read_is_rc4`.

### signal

A format interpreter over bytes and typed arguments, writing to a bounded buffer; the handler is a function from state to actions.

* **C70 Shutdown signals: one byte, then exit** (proved). `signal_shutdown`, `signal_shutdown_twice`. Exact action list for every state; deliveries inside the handler: C93.
* **C71 Signal-safe log writes exactly the rendering** (partial). `signal_log_writes_partial`, `signal_log_overrun_refuted`. Proved for every rendering of a well-formed format, cut to size - 1 bytes; for a malformed format the call passes (size_t) -1 bytes to write (refuted).

### condition

A transition system with one step per access to shared state, for any number of threads. Forward simulation to a one-slot mailbox; progress by an explicit continuation.

* **C72 Condition object resources** (partial). `cond_init_resources`, `cond_term_resources_partial`, `cond_term_refuted`. Proved except that a failing sc_cond_term returns a positive error number where the header says negative, and gives up on a mutex it could not destroy (refuted).

### mutex

Creation and destruction of the pthread objects as traces.

* **C73 Mutex wrapper resources** (proved). `mutex_resources`.

### time

Clock values are pairs; nanosleep is an oracle that may be interrupted any number of times.

* **C74 Clock readings are exact and monotone** (proved). `time_exact`, `time_mono`.

### thread

The set of threads not yet joined, an oracle for the pthread calls, all histories.

* **C75 Threads are joined once and give their value** (partial). `thread_history_partial`, `thread_history_refuted`, `thread_error_refuted`. Proved for histories where a refused pthread_create leaves 0 in the object and joins succeed. POSIX leaves the object unspecified, and then term joins an arbitrary id (refuted). Errors are positive numbers, not -1 as the header says.
* **C76 Thread error text** (partial). `thread_err_text_partial`, `thread_err_refuted`. For messages of 127 bytes and more the terminator depends on the last byte of err, which sc_thread_init does not set; thread_err_refuted shows a text that is not terminated.

### memory-map

Oracle for the system calls, recorded; arithmetic on ranges.

* **C77 The mapping covers what was asked for** (proved). `mmap_init_range`. For length 0 the offset has to be within the file.

### logger

A state machine over calls, with the bytes received by each sink and an oracle for every output call.

* **C78 The log call's return value** (proved). `log_result`. A failing rename is not reported (see C62).
* **C79 Log level names** (partial). `log_set_level_partial`, `log_set_level_refuted`. Proved for strings of the basic character set; other bytes give tolower a negative argument (undefined in ISO C).
* **C80 Selecting the log file** (partial). `log_set_file_partial`, `log_set_file_errno_refuted`. The errno clause is refuted: for a name that is too long errno keeps whatever it was.

### socket

System calls are answered by an oracle and recorded. Ownership of descriptors and address lists, order of attempts and registrations are read off the record.

* **C81 Sockets get the blocking mode asked for** (partial). `sock_mode_partial`, `sock_mode_refuted`. Proved for internet sockets and accept; refuted for Unix sockets, whose mode is never set by listen and connect.
* **C82 Addresses are tried in order** (proved). `sock_connect_order`.
* **C83 Send, receive and finish-connect results** (proved). `sock_transfer`, `sock_finish_connect`.
* **C84 Unix socket paths are used as given** (partial). `sock_unix_path_partial`, `sock_unix_path_refuted`. Connecting is proved; listening on a path of more than 107 bytes silently binds to its first 107 bytes after unlinking the full path.
* **C85 Polling a socket that was closed and opened again** (partial). `poll_reconnect_partial`, `poll_reconnect_refuted`. Holds when the mask was empty at closing; otherwise the stale mask makes sc_sock_poll_add succeed without registering anything.
* **C86 Reported poll events** (proved). `poll_event_mapping`, `poll_wait_result`, `kq_events`. Linux (epoll); kq_events: the events of kqueue.
* **C87 Poller and pipe resources** (proved). `poll_resources`, `pipe_resources`, `pipe_transfer`, `pipe_failed_refuted`. A failed sc_sock_pipe_init leaves descriptor 0 in the part given to the poller (pipe_failed_refuted); the claim itself is not affected.
* **C88 Poll registration matches the kernel (kqueue)** (partial). `kq_registration_partial`, `kq_registration_refuted`. Proved when a refused call is refused at its first change; refuted when the second of two changes is refused: the kernel keeps the first.
* **C89 Address texts** (partial). `addr_texts_partial`, `sock_print_text`, `addr_texts_refuted`. Proved for buffers of at least one byte and addresses the system filled in; refuted for unnamed Unix sockets (uninitialised memory is read) and for length 0 (a byte is written).
* **C90 Notifying systemd** (partial). `notify_systemd_partial`, `notify_systemd_long`, `notify_systemd_refuted`. Proved for names that fit; a name of 108 bytes or more is cut to 107 bytes and a NUL, so the message goes elsewhere.

### signal

A format interpreter over bytes and typed arguments, writing to a bounded buffer; the handler is a function from state to actions.

* **C91 Installing the signal handlers** (proved). `signal_setup`.
* **C92 A crash is reported and ends the process by its own signal** (proved). `signal_crash`, `signal_ignored`. With the kernel behaviour of dispositions, SA_RESETHAND, SA_NODEFER and kill as modelled; the text of the backtrace is the C library's.
* **C93 Shutdown signals that interrupt each other** (partial). `signal_nested_partial`, `signal_nested_refuted`, `signal_nested_alone`. Proved except the number of bytes: at most two. Refuted for one: a SIGINT between the test and the assignment of the flag in the handler of SIGTERM makes both handlers send a byte and return. One thread; see C114 for several.

### memory-map

Oracle for the system calls, recorded; arithmetic on ranges.

* **C94 Locking parts of a memory map** (proved). `mmap_lock_history`.

### perf

Oracle for the system calls; invariant over histories of calls relating the state to the open counters; clock readings as integers, counts as rationals.

* **C95 Performance counters are opened and closed properly** (proved). `perf_descriptors`, `perf_order`.
* **C96 The measured time is the time the counters were enabled** (partial). `perf_time_partial`, `perf_time_refuted`. Proved for sessions without a start while already counting; such a start restarts the interval and the time before it is lost (refuted).
* **C97 The printed counts estimate the events** (partial). `perf_value_partial`, `perf_value_refuted`. Proved for counters that ran all the time. Multiplexed counters are scaled by running/enabled instead of enabled/running (refuted). Rational numbers instead of doubles; C160 shows that the doubles agree for counters that ran all the time.

### socket

System calls are answered by an oracle and recorded. Ownership of descriptors and address lists, order of attempts and registrations are read off the record.

* **C98 Windows: registration in the poller under concurrent calls** (partial). `win_registration_partial`, `win_poll_retry`, `win_registration_oom_refuted`, `win_registration_null_refuted`, `win_registration_error_refuted`, `win_registration_wakeup_refuted`, `win_registration_lost_refuted`, `win_registration_many_refuted`. Proved for up to 2^19 - 1 structures when memory for the second table, for calls put off and the wakeup byte do not fail, WSAPoll does not fail other than for a socket closed meanwhile, and no call during a poll takes the last event from a structure without a slot. Each exception is refuted, one structure more by win_registration_many_refuted. With user data that differs from call to call: C156.
* **C99 Windows: every event is reported once** (proved). `win_results`. Within the histories of win_registration_partial. With a del call during the poll an event taken out may be reported (win_results_stale_refuted); a timeout of -1 is 16 ms (win_wait_infinite_refuted).
* **C100 Windows: edge-triggered mode** (proved). `win_edge`, `win_edge_again`. Within the histories of win_registration_partial; structures are told apart by their user data; a broken connection is always reported. Taking an event out and adding it again does not report it again (win_edge_rearm_refuted).
* **C101 Windows: memory of the poller** (proved). `win_memory`. For histories without undefined behaviour; see win_registration_oom_refuted for one with a use after free.
* **C102 Windows: places of the poll data** (proved). `win_cells`.
* **C103 Windows: the pipe owns its sockets** (partial). `win_pipe_partial`, `win_pipe_leak_refuted`. Proved when sc_sock_pipe_init succeeds; when it fails, the sockets opened so far stay open (refuted).

### array

The array is a record of capacity, size, flag and slots, where a slot may be unwritten. Every history of calls is refined to list operations by induction.

* **C104 Programs never misuse memory** (partial). `mem_no_misuse_partial`, `mem_shrink_wrapped_refuted`, `mem_heap_failed_add_refuted`, `mem_queue_failed_init_refuted`, `mem_append_itself_refuted`, `mem_put_itself_refuted`. Proved for programs that avoid five uses the headers do not forbid, each refuted: shrinking a buffer over the caller's memory, using a heap after a failed add, clearing and using a queue whose init failed, appending a string to itself, putting a buffer's own bytes into it.

### string

A block is a length and bytes; C string functions work on byte lists. Results are compared with separate specifications (split, replace, trim).

* **C105 Every block has one owner** (proved). `mem_owned`. For the programs of mem_no_misuse_partial.

### array

The array is a record of capacity, size, flag and slots, where a slot may be unwritten. Every history of calls is refined to list operations by induction.

* **C106 Terminating everything leaves no memory** (proved). `mem_no_leak`. For the programs of mem_no_misuse_partial.

### buffer

Bytes of the block, positions with explicit uint64_t wrap-around, error bits. The codec round trip is by induction on lists of typed values.

* **C107 The caller's memory is not released or resized** (proved). `mem_user_kept`. For the programs of mem_no_misuse_partial.

### array

The array is a record of capacity, size, flag and slots, where a slot may be unwritten. Every history of calls is refined to list operations by induction.

* **C108 Terminating twice is harmless** (proved). `mem_term_twice`. For the programs of mem_no_misuse_partial; sc_uri_destroy takes its argument by value and is excluded.
* **C109 A refused request changes no memory** (proved). `mem_refused_keeps`. For the programs of mem_no_misuse_partial.

### logger

A state machine over calls, with the bytes received by each sink and an oracle for every output call.

* **C110 Without C11 atomics the logger's calls are atomic** (proved). `log_threads`. A call is a sequence of single accesses interleaved in any order; callbacks that call the logger are excluded (they would wait for the mutex they hold).
* **C111 With C11 atomics the logger's calls are atomic** (partial). `log_threads_atomic_partial`, `log_threads_atomic_refuted`. False for a message as one step: it can pass the level, wait, and be printed by settings made after the level was turned off. Proved with a message taking effect at two points, the level and the output.
* **C112 The logger has no data race** (proved). `log_no_race`. sc_log_init and sc_log_term must not run at the same time as other calls.
* **C113 The logger does not deadlock** (proved). `log_no_deadlock`. Callbacks that call the logger are excluded: the mutex is not recursive.

### signal

A format interpreter over bytes and typed arguments, writing to a bounded buffer; the handler is a function from state to actions.

* **C114 Shutdown requests on several threads** (partial). `signal_many_partial`, `signal_many_again`, `signal_many_refuted`. Proved except the last sentence, which is false: any number of requests on different threads can pass the test of the flag before one sets it, and each then sends a byte (signal_many_refuted, for every number). Accesses of the flag are taken to be in one order for all threads, which ISO C does not promise. The errno part is for POSIX; the Windows handler does not save it.

### thread

The set of threads not yet joined, an oracle for the pthread calls, all histories.

* **C115 Threads on Windows: histories of start, join and term** (partial). `wthread_history_partial`, `wthread_value_refuted`, `wthread_wait_refuted`. Proved except for a join that asks for the value when no thread runs: on a new object it reads an indeterminate pointer, after a refused start it returns the value of the thread before (POSIX: NULL). If waiting fails the handle is given up while the thread still uses the object.
* **C116 Threads on Windows: no data race** (proved). `wthread_no_race`.

### memory-map

Oracle for the system calls, recorded; arithmetic on ranges.

* **C117 Memory maps on Windows: nothing leaks** (proved). `wmmap_history`, `wmmap_term_refuted`. UnmapViewOfFile must succeed; if it fails the view stays mapped and the object forgets it (wmmap_term_refuted).
* **C118 Memory maps on Windows: range** (proved). `wmmap_range`. That no sum overflows unnoticed follows from Windows refusing views that reach over the end of the mapping object.
* **C119 Memory maps on Windows: errors** (proved). `wmmap_error`. If CloseHandle fails after MapViewOfFile has failed, the message is that of CloseHandle.

### signal

A format interpreter over bytes and typed arguments, writing to a bounded buffer; the handler is a function from state to actions.

* **C120 Shutdown requests on Windows** (proved). `wsignal_console`, `wsignal_events`. A DWORD is read as an int by va_arg: undefined in ISO C, taken to give the same bits. Events handled at the same time: C114.
* **C121 Fatal signals and initialisation on Windows** (proved). `wsignal_fatal`, `wsignal_init`. Exception codes from 2^31 on are printed as negative numbers.

### time

Clock values are pairs; nanosleep is an oracle that may be interrupted any number of times.

* **C122 Clocks on Windows** (partial). `wtime_wall`, `wtime_mono_partial`, `wtime_mono_refuted`. Proved while the counter times 1000 (1000000000) fits in 63 bits. At the usual 10000000 counts a second sc_time_mono_ns overflows a signed product from 923 seconds after the start of the system on (undefined; with wrapping arithmetic the clock goes back every half hour). Nanoseconds of the wall clock until the year 2185.
* **C123 Sleeping on Windows** (partial). `wtime_sleep_partial`, `wtime_sleep_refuted`. Proved below 2^32 - 1 milliseconds; 2^32 - 1 never end and 2^32 end at once.

### mutex

Creation and destruction of the pthread objects as traces.

* **C124 Mutexes exclude** (proved). `mutex_exclusion`, `mutex_progress`, `mutex_relock`. The behaviour of the pthread and Windows calls is that of their documentation.

### socket

System calls are answered by an oracle and recorded. Ownership of descriptors and address lists, order of attempts and registrations are read off the record.

* **C125 Winsock startup, cleanup and blocking mode** (partial). `wsock_uses_partial`, `wsock_startup_exact`, `wsock_startup_refuted`, `wsock_blocking`. Proved except when WSAStartup succeeds with another version than 2.2: the call returns -1 but the use stays registered.
* **C126 Socket timeouts on Windows** (partial). `wsock_timeo_partial`, `wsock_timeo_refuted`. False for every limit but 0: Windows reads a number of milliseconds where the code passes a struct timeval, so ms / 1000 milliseconds are set, and no limit at all below a second.
* **C127 Errors of connecting on Windows** (partial). `wsock_finish_partial`, `wsock_finish_refuted`, `wsock_unix_partial`, `wsock_unix_refuted`. Proved except for the messages of a failed connection and of a path that is too long: errno is set but the message is made from WSAGetLastError.

### map

A list of slots and the separate slot of key 0, generic in key type, hash and equality. The invariant is that of linear probing. The binary64 threshold is computed with the standard library's SpecFloat and swept over load factor and exponent.

* **C128 Map loops whose body calls the map** (partial). `map_loop_safe`, `map_loop_store_partial`, `map_loop_delete_partial`, `map_loop_delete_refuted`, `map_loop_store_refuted`, `map_loop_twice_refuted`. Safety and the meaning of the calls: proved for every body. Every key once: proved for bodies that look up and store for keys in the map unless the table is about to grow. Deleting the current key visits no key twice but misses some; a growing table or deleting other keys makes the loop visit keys twice.

### array

The array is a record of capacity, size, flag and slots, where a slot may be unwritten. Every history of calls is refined to list operations by induction.

* **C129 Array loops whose body calls the array** (partial). `array_loop_add_partial`, `array_loop_find_partial`, `array_loop_shrink_refuted`, `array_loop_skip_refuted`. Proved for bodies that only add and for deleting the item looked for, then break. Missing because false: deleting and going on. At the last item the position passes the size and the loop leaves the block, for every non-empty array; before the end the next item is missed.

### queue

A ring of 2^k slots. An abstraction function reads the elements from `first` on; every history is refined to a double-ended list.

* **C130 Queue loops whose body calls the queue** (partial). `queue_loop_work_partial`, `queue_loop_drain_partial`, `queue_loop_grow_refuted`, `queue_loop_shrink_refuted`. Proved while the ring need not grow. A growing ring moves its items and the loop misses some; deleting the last item at the last position makes the loop go round the ring.

### string

A block is a length and bytes; C string functions work on byte lists. Results are compared with separate specifications (split, replace, trim).

* **C131 Arguments that point into the string** (partial). `str_self_partial`, `str_replace_self`, `str_replace_by_self_partial`, `str_append_self_refuted`, `str_replace_by_self_refuted`. Proved for set, trim, a pattern that is the end of the string, and a replacement that is not as long as the pattern. Append: only if realloc does not move the block, otherwise it reads released memory. A replacement as long as the pattern: memcpy gets overlapping areas.

### logger

A state machine over calls, with the bytes received by each sink and an oracle for every output call.

* **C132 Initialising the logger** (partial). `log_init_partial`, `log_init_windows`, `log_init_refuted`. Proved but for the sign and the state after a failure: the positive error number is returned, where sc_log.h promises a negative value, and the logger counts as initialised, so that sc_log_term destroys a mutex that was never made.
* **C133 Log callbacks that call the logger** (partial). `log_callback_partial`, `log_callback_refuted`, `wlog_callback_partial`, `wlog_callback_refuted`. POSIX: proved for callbacks whose calls do not lock; the first call that locks waits forever. Windows: proved (the nesting ends) for callbacks that log only below the level of their message; one that logs an error for every message recurses without end.

### socket

System calls are answered by an oracle and recorded. Ownership of descriptors and address lists, order of attempts and registrations are read off the record.

* **C134 Messages of the poller and the pipe** (partial). `poll_err_partial`, `poll_err_format_refuted`, `poll_code_partial`, `poll_code_refuted`, `pipe_err_partial`, `pipe_err_refuted`. Poller with epoll and kqueue: proved for system messages without percent signs; sc_sock_poll_init and sc_sock_poll_term pass the message as a format. Windows: WSAPoll errors, unless FormatMessage fails, which leaves the old message. Pipe: proved for init and term; a failed read or write sets no message on POSIX.

### condition

A transition system with one step per access to shared state, for any number of threads. Forward simulation to a one-slot mailbox; progress by an explicit continuation.

* **C135 Condition on Windows** (proved). `wcond_mailbox`, `wcond_no_lost_wakeup`, `wcond_lifetime`. By simulation with the POSIX model. Critical sections and condition variables behave as documented.

### linked-list

Memory is a function from nodes to (next, prev); following a pointer that is no node is UB. An abstraction relation says which nodes form a ring; histories over several lists are refined to sequences.

* **C136 List loops whose body changes the list** (partial). `list_loop_follows`, `list_loop_visits_partial`, `list_loop_sorts`, `list_loop_delete_refuted`, `list_loop_next_refuted`, `list_loop_move_refuted`. Proved for bodies that keep the nodes still to come at the end of the list, and, for the plain loops, the current node before them. Missing because false: a plain loop that deletes the current node, a safe loop that deletes the next one and a safe loop that moves the current node to the end never end.

### map

A list of slots and the separate slot of key 0, generic in key type, hash and equality. The invariant is that of linear probing. The binary64 threshold is computed with the standard library's SpecFloat and swept over load factor and exponent.

* **C137 Lifetime of string keys** (proved). `map_string_lifetime`. The model reads each string explicitly; reading a released one is UB.

### array

The array is a record of capacity, size, flag and slots, where a slot may be unwritten. Every history of calls is refined to list operations by induction.

* **C138 Growth costs constant time per item** (proved). `array_growth`, `queue_growth`, `heap_growth`. Moved items are counted as the old capacity whenever the capacity changes. Heaps as long as adds succeed (see C07).

### heap

The block is a list of slots counted from 1, possibly unwritten. The sift loops have fuel, proved sufficient. The invariant is heap order; contents are compared with Permutation.

* **C139 Heap calls compare logarithmically often** (proved). `heap_comparisons`, `heap_sort_comparisons`. Counting versions of the model functions, proved equal to them.

### map

A list of slots and the separate slot of key 0, generic in key type, hash and equality. The invariant is that of linear probing. The binary64 threshold is computed with the standard library's SpecFloat and swept over load factor and exponent.

* **C140 Maps honour their load factor** (proved). `map_load_factor`. Runs end with term: a map used again without init has load factor 0 (example map_load_after_term_ex). The threshold computed with doubles equals the exact quotient (all capacities and load factors checked).

### array

The array is a record of capacity, size, flag and slots, where a slot may be unwritten. Every history of calls is refined to list operations by induction.

* **C141 Sorting an array** (partial). `array_sort_partial`, `array_sort_empty_refuted`. qsort is any function that meets its contract. Missing: by ISO C 7.22.5p1 an array that never held an item must not be sorted, since qsort gets NULL; libraries accept it.

### queue

A ring of 2^k slots. An abstraction function reads the elements from `first` on; every history is refined to a double-ended list.

* **C142 Elements read from the container they are added to** (partial). `queue_add_last_arg_partial`, `queue_add_last_pop_refuted`, `queue_add_first_arg_partial`, `queue_add_first_arg_refuted`, `array_add_arg_partial`, `array_add_arg_refuted`. Refuted: sc_queue_add_first moves first before it evaluates the element, so sc_queue_at gives the item before, sc_queue_peek_first what the free slot holds, sc_queue_size one too many and sc_queue_del_first nothing or garbage; sc_queue_add_last(q, sc_queue_del_last(q)) and sc_array_add with sc_array_last or sc_array_size are undefined (unsequenced). Proved for all other arguments.

### array

The array is a record of capacity, size, flag and slots, where a slot may be unwritten. Every history of calls is refined to list operations by induction.

* **C143 Macro arguments are evaluated once, in the caller's scope** (partial). `array_del_arg_partial`, `array_del_arg_refuted`, `minmax_partial`, `minmax_refuted`. Refuted: a variable called idx given to sc_array_del or sc_array_del_unordered is hidden by the variable of the macro, which is read uninitialised; sc_max and sc_min evaluate the argument they choose twice. Proved for all other arguments. Integers are not bounded.
* **C144 Blocks are as large as the stored capacity, with 32-bit and 64-bit size_t** (partial). `array_sizes_partial`, `array_sizes_refuted`, `queue_sizes_partial`, `queue_sizes_refuted`, `heap_sizes_partial`, `heap_sizes_refuted`, `timer_sizes`, `timer_sizes_refuted`, `buf_init_sizes_partial`, `buf_init_sizes_refuted`, `buf_reserve_sizes_partial`, `buf_reserve_sizes_refuted`, `buf_shrink_sizes`, `str_create_sizes`, `str_append_sizes_partial`, `str_append_sizes_refuted`, `str_replace_sizes`. Refuted with 32 bits: a heap made for 2^26 items or a little more (1 GB) asks for a few bytes when it first grows; sc_buf_init and sc_buf_reserve of 4 GB or more succeed with the size modulo 2^32; timers if the allocator grants more than half the address space; arrays and queues with items of 512 MB. With 64 bits: appending to a string longer than SC_STR_MAX. Proved otherwise; heaps, timers and shrinking with an allocator that grants less than half the address space.

### socket

System calls are answered by an oracle and recorded. Ownership of descriptors and address lists, order of attempts and registrations are read off the record.

* **C145 Programs with several sockets own their descriptors** (partial). `sock_programs_partial`, `sock_programs_end`, `sock_programs_refuted`. Proved if listen, connect and accept get a structure that holds no descriptor. Missing because false: connecting a structure again without sc_sock_term loses the old descriptor.

### linked-list

Memory is a function from nodes to (next, prev); following a pointer that is no node is UB. An abstraction relation says which nodes form a ring; histories over several lists are refined to sequences.

* **C146 List calls on any initialised nodes** (proved). `list_any_calls`, `list_del_head`, `list_join_refuted`, `list_assign_refuted`, `list_reinit_refuted`.

### string

A block is a length and bytes; C string functions work on byte lists. Results are compared with separate specifications (split, replace, trim).

* **C147 Programs that tokenise strings** (partial). `tok_programs_partial`, `tok_earlier`, `tok_resume_refuted`, `tok_restart_refuted`, `tok_two_refuted`, `tok_append_refuted`. Proved but for the last sentence, which is false: after sc_str_token_end the next sc_str_token_begin gives NULL and cuts the string at the delimiter; starting over or appending without sc_str_token_end loses the delimiter for good; a second loop begun while the first has its first token gets the whole text as its first token.

### crc32

The tables are computed by the model's init loops. Linearity over xor and induction give the bitwise definition; the error detection claims are about the polynomial.

* **C148 CRC without initialisation** (proved). `crc_uninit_software`, `crc_uninit_short`, `crc_uninit_long`. The big-endian software build is not covered.

### signal

A format interpreter over bytes and typed arguments, writing to a bounded buffer; the handler is a function from state to actions.

* **C149 Crashes while a crash is reported** (partial). `crash_nested`, `crash_writes`, `crash_lost_refuted`. Proved but for the last clause, which is false: the handler closes the descriptor before it kills the process; a crash after that is not reported. crash_writes says exactly which writes get through. One thread; shutdown signals in between are not included (C93).

### timer

The wheel is a list of slots; callbacks are arbitrary lists of calls. An invariant relates pending slots to deadlines and wheel distance along every program.

* **C150 Timer callbacks that call the timer** (partial). `timer_nest_partial`, `timer_nest_same`, `timer_nest_term_refuted`. Proved for callbacks that add, cancel, poll and clear. A callback that terminates the timer makes the loop read the freed table (timer_nest_term_refuted). Times reach at most UINT64_MAX - 1, and a timer with the deadline UINT64_MAX is lost (C32, C33).

### socket

System calls are answered by an oracle and recorded. Ownership of descriptors and address lists, order of attempts and registrations are read off the record.

* **C151 Several sockets on one poller** (proved). `poll_many`. Linux (epoll), descriptors that are not duplicated.
* **C152 The results of a wait** (partial). `poll_batch_partial`, `poll_batch_stale_refuted`. All of it but the last part, which is refuted: the results are not updated by sc_sock_poll_del or sc_sock_term, so a socket removed and closed while the results of one wait are gone through is still named by a later result, with data that may be freed by then.

### time

Clock values are pairs; nanosleep is an oracle that may be interrupted any number of times.

* **C153 Windows: first clock readings on several threads** (partial). `wtime_race_partial`, `wtime_race_refuted`. Proved if the variable is accessed as a whole (64 bit programs) or the frequency is below 2^32. Refuted otherwise: a thread that sees the lower half written and not the upper one divides by a wrong frequency. In ISO C the unsynchronised accesses are undefined behaviour in any case; the interleavings are those of the machine.

### socket

System calls are answered by an oracle and recorded. Ownership of descriptors and address lists, order of attempts and registrations are read off the record.

* **C154 Messages of failed socket calls** (partial). `sock_listen_messages`, `sock_connect_messages_partial`, `sock_unix_messages`, `sock_other_messages`, `sock_connect_messages_refuted`. Full for listening, accepting, closing, time limits and Unix sockets. For sc_sock_connect it needs the close of a refused socket to succeed; refuted otherwise: the message is then that of close.
* **C155 Several sockets on one kqueue poller** (partial). `kq_many_partial`, `kq_batch_partial`, `kq_batch_refuted`, `kq_many_refuted`. Proved when a call kevent refuses is refused from its first change on, and for results read before further calls. Refuted otherwise: a half-refused call leaves a filter the mask does not show, and a socket with two results that is closed on the first comes again with the second.
* **C156 Windows: user data that differs from call to call** (proved). `win_data`, `win_data_results`, `win_data_refuted`. For the histories of win_registration_partial, without its restriction to fixed user data. The data of the last successful call is not always the one reported: win_data_refuted.

### memory-map

Oracle for the system calls, recorded; arithmetic on ranges.

* **C157 Memory maps on macOS: the file afterwards** (partial). `mac_file_partial`, `mac_file_covers_partial`, `mac_rounds`, `mac_file_byte_refuted`, `mac_file_offset_refuted`. mac_file_partial says exactly what the file holds afterwards. The bytes are kept if the file grows or the mapping ends before its last block; otherwise the last byte of the mapped part is set to NUL, for instance when a whole file is mapped (mac_file_byte_refuted). The file is long enough if the offset is 0; with another offset it is made len bytes long, not offset + len (mac_file_offset_refuted). Sizes and lengths up to 2^63.
* **C158 Memory maps on macOS: nothing leaks** (proved). `mac_init_resources`. A write that writes nothing without an error leaves errno as it was, and the message is made from that.

### timer

The wheel is a list of slots; callbacks are arbitrary lists of calls. An invariant relates pending slots to deadlines and wheel distance along every program.

* **C159 Timer: exactly which timers a poll fires** (proved). `timer_poll_exact`, `timer_fires_exactly`. timer_poll_exact allows callbacks of the poll to cancel the timer; timer_fires_exactly is the equivalence otherwise. It says when the timers of C35 are late. A timer whose deadline is UINT64_MAX is lost and left out.

### perf

Oracle for the system calls; invariant over histories of calls relating the state to the open counters; clock readings as integers, counts as rationals.

* **C160 Perf: the printed numbers as doubles** (proved). `perf_double_exact`, `perf_double_untimed`, `perf_double_part`. IEEE binary64 with rounding to nearest, by the operations of SpecFloat of the standard library (definitions, no axioms). The formatting by printf is not modelled. Which readings are printed for which event: C97. perf_double_part: a counter that ran for 2^-k of the time is scaled without rounding.

### condition

A transition system with one step per access to shared state, for any number of threads. Forward simulation to a one-slot mailbox; progress by an explicit continuation.

* **C161 Condition: with a fair scheduler calls return** (proved). `cond_fair_delivery`, `cond_fair_signal`, `cond_fair_wait`, `cond_fair_sole`. Fairness is a hypothesis about the run (fair_scheduler, fair_mutex), met by the run of the example. Which waiting thread gets the signal is not determined, so with several waiters it is some wait that returns. C55 is the same without fairness: the code can go on.

### logger

A state machine over calls, with the bytes received by each sink and an oracle for every output call.

* **C162 Logger: with a fair scheduler every call returns** (proved). `log_fair_returns`. Fairness is a hypothesis about the run (fair_scheduler, fair_mutex), met by the run of the example. Callbacks return and do not call the logger (C133). C113 is the same without fairness: each call can return.

### socket

System calls are answered by an oracle and recorded. Ownership of descriptors and address lists, order of attempts and registrations are read off the record.

* **C163 Addresses are tried by listen** (partial). `sock_listen_order_partial`, `sock_listen_order_refuted`. Refuted: only an address no socket can be made for is passed over; if setting up or binding fails the call fails, though the next address would do. The partial theorem says exactly which address is taken and when the call succeeds.
* **C164 What a socket structure records** (partial). `sock_fields_partial`, `sock_fields_refuted`. Refuted: a refused sc_sock_connect leaves the family of the last address tried, so that the same call again tries the addresses in another order; sc_sock_accept does not set the mode of the new structure. Proved otherwise.
* **C165 Would block told apart from failed** (partial). `sock_again_transfer`, `sock_again_partial`, `sock_again_refuted`, `wsock_again_partial`, `wsock_again_refuted`. Proved for send and recv on POSIX. Refuted: a name that cannot be resolved leaves an EAGAIN of an earlier call in errno; on Windows no failure sets errno, so after one call that would block every failed send, recv, accept and connect looks like one that would block. Proved if errno was not EAGAIN before (and, on POSIX, no call but accept or connect itself fails with EAGAIN).
* **C166 Listening and connecting by address on Windows** (proved). `waddr_listen`, `waddr_listen_order`, `waddr_connect`, `waddr_mode`, `waddr_accept`.

### memory-map

Oracle for the system calls, recorded; arithmetic on ranges.

* **C167 Memory maps on 32-bit Windows** (partial). `wmmap32_range_partial`, `wmmap32_range_refuted`, `wmmap32_resources`. Refuted: the size of a file of 4 GB or more is cut to 32 bits, so mapping the whole of a file of 4 GB and 64 KB maps 64 KB and succeeds. Proved for smaller files and for given lengths; that nothing leaks is proved without restriction.

### time

Clock values are pairs; nanosleep is an oracle that may be interrupted any number of times.

* **C168 Clocks and sleeping with 32-bit time_t** (partial). `time32_partial`, `time32_refuted`, `perf32_partial`, `sleep32_partial`, `sleep32_long`, `sleep32_refuted`. Refuted: sc_time_ms multiplies in time_t and overflows (undefined) at any date since 1970-01-26, the clock of sc_perf overflows 2.1 seconds after the machine started, and sc_time_sleep cuts the milliseconds to 32 bits before dividing: from 24 days on it fails, and for 49 days it returns 0 after 0.3 seconds. The other functions are exact; the partial theorems say exactly from where on these fail.

### perf

Oracle for the system calls; invariant over histories of calls relating the state to the open counters; clock readings as integers, counts as rationals.

* **C169 Perf: the printed table** (proved). `perf_table`, `perf_table_all`, `perf_table_counts`. The text is modelled byte by byte. perf_table: for all finite times, values and shares; perf_table_all: for all readings of the counters.

### logger

A state machine over calls, with the bytes received by each sink and an oracle for every output call.

* **C170 Terminating the logger** (proved). `log_term_result`.

## Findings

Deviations of the code from its documentation or from what a user would expect, found while modelling. Those with a
theorem are proved as `_refuted`.

* array, queue: macro arguments. `sc_array_del(a, idx)` with a variable called idx reads the macro's own uninitialised idx (`array_del_arg_refuted`). `sc_queue_add_first(q, sc_queue_at(q, i))` adds item i - 1, and with sc_queue_peek_first it adds what the free slot holds, because first is moved before the element is evaluated (`queue_add_first_arg_refuted`). `sc_array_add(a, sc_array_last(a))` and `sc_queue_add_last(q, sc_queue_del_last(q))` are undefined (`array_add_arg_refuted`, `queue_add_last_pop_refuted`).
* array: sorting an array that never held an item passes NULL to qsort, which ISO C forbids even for zero items (`array_sort_empty_refuted`).
* string: a replacement that points into the string and is as long as the pattern makes memcpy copy overlapping areas (`str_replace_by_self_refuted`); appending the string to itself reads released memory if realloc moves it (`str_append_self_refuted`).
* loops: deleting inside `sc_array_foreach` without leaving it runs over the end of the block at the last item (`array_loop_shrink_refuted`) and misses items before (`array_loop_skip_refuted`); `sc_queue_foreach` misses items when the ring grows and goes round the ring when the last item is deleted (`queue_loop_grow_refuted`, `queue_loop_shrink_refuted`).
* map: an initial capacity above 2^31 wraps to 0 and init reports success; the first access is out of bounds (`map_init_huge_refuted`). After term the load factor is 0, so every put doubles the table. Init with a capacity leaves `oom` and `found` unset. A put that needs to grow fails on allocation failure even when it only overwrites. Deleting the current key inside `sc_map_foreach` misses the next (`map_loop_delete_refuted`); storing while the table grows, or deleting other keys, visits keys twice (`map_loop_store_refuted`, `map_loop_twice_refuted`).
* heap: `size` is incremented before the allocation; a failed add corrupts the heap (`heap_failed_add_refuted`). A growing heap asks for twice the memory it then counts as its capacity.
* queue: after a failed add the `oom` flag stays set until the next growth, and adds are dropped although there is room (`queue_recovers_refuted`). A failed init followed by clear resets the flag and the next add writes to NULL.
* linked list: `sc_list_add_after(l, x, x)` removes x. The header calls `sc_list_count` a log(n) operation; it visits every node. `sc_list_foreach` never ends if its body deletes the current node (`list_loop_delete_refuted`); `sc_list_foreach_safe` never ends if its body deletes the next node or moves the current one to the end (`list_loop_next_refuted`, `list_loop_move_refuted`).
* buffer: the range checks of set, peek, reserve and get_str wrap in uint64_t (`buf_set_wrap_refuted`, `buf_reserve_wrap_refuted`, `buf_get_str_wrap_refuted`). `sc_buf_get_str` does not check the terminator. `sc_buf_shrink` reallocates memory the buffer does not own and may exceed the limit. `sc_buf_put_fmt` fails on two exact fits. Several calls ignore the error flag. `sc_buf_move` loses the bytes when the destination has failed. A failed `sc_buf_put_text` can leave wpos below rpos. `sc_buf_set_wpos` below rpos is accepted.
* timer: polls less than a tick apart are forgotten, and a timer added then may fire up to 15 ms early (`timer_never_early_refuted`). Each poll drops the rest of its last tick, so due timers can be missed (`timer_due_fires_refuted`). Timeouts that wrap fire at once (`timer_huge_timeout_refuted`), a timer with the deadline UINT64_MAX is lost (`timer_ids_refuted`), and a poll at UINT64_MAX calls the callback for every free slot (`timer_last_moment_refuted`). A stale id may cancel a newer timer (`timer_stale_cancel_refuted`).
* string: after `sc_str_create_len` beyond SC_STR_MAX, append wraps the length to 0 and reports success (`str_append_refuted`). `sc_str_replace` with empty pattern and empty replacement does not terminate (`str_replace_terminates_refuted`). Trim strips embedded NULs at the end.
* sc: `sc_size_to_bytes` overflows for negative numbers with a unit, returns negative numbers, accepts "1bb" and rejects its own header's "1 KB"; a non-ASCII byte after the number is a negative argument of tolower (`size_to_bytes_*_refuted`). `sc_to_pow2` gives 0 above 2^63. `sc_rand` is RC4 keyed by 256 bytes that also serve as its initial table, so it delivers only bytes that occur in the seed.
* ini: a blank line forms a pointer before the buffer (`ini_pointer_refuted`). The header promises the callback's value, the line number is returned (`ini_callback_value_refuted`). Keys over 255 bytes change name on continuation lines (`ini_long_key_refuted`). Long lines are cut for strings and split for files (`ini_file_string_refuted`). A tab before ';' is not a comment. Text after ']' is ignored. An empty key is accepted.
* option: an option with letter 0 and the argument "-" reads past the argument (`option_dash_refuted`). The value is NULL for unknown options although the header says never.
* uri: `str` loses text for "http://a/b:1/c" and "a:b#c?d" (`uri_str_refuted`). '@' and ':' in the path are taken for userinfo and port (`uri_rfc_refuted`). Ports such as "abc", " +80" and 65536 are accepted (`uri_port_refuted`). A size_t is passed for the int of "%.*s".
* signal: the least value of long overflows (`signal_format_min_refuted`). Size 0 still writes a NUL (`signal_format_zero_refuted`). A malformed format makes `sc_signal_log` pass (size_t) -1 to write (`signal_log_overrun_refuted`). The shutdown flag is tested and set in two steps, so SIGINT interrupting the handler of SIGTERM sends two bytes and does not end the process (`signal_nested_refuted`); k requests on k threads can send k bytes (`signal_many_refuted`). `sc_signal_init` does not reset the flag. The fatal handler closes standard error when no log descriptor is set.
* socket: `sc_sock_poll_init` and `sc_sock_poll_term` use the system's message as a format (`poll_err_format_refuted`); a failed read or write of a pipe sets no message on POSIX (`pipe_err_refuted`).
* condition: a failing `sc_cond_term` returns a positive number and gives up on a mutex it could not destroy (`cond_term_refuted`).
* time: `sc_time_sleep(UINT64_MAX)` returns 0 after 615 ms (`sleep_lasts_refuted`). On Windows `sc_time_mono_ns` overflows a signed product from 923 seconds of uptime on and in practice jumps back (`wtime_mono_refuted`); sleeps of 2^32 - 1 ms never end and of 2^32 ms end at once (`wtime_sleep_refuted`); the wall clock counts from 1601 instead of 1970.
* thread: after a refused pthread_create, term joins whatever is in the id (`thread_history_refuted`). Errors are positive, not -1; a failed join forgets the thread (`thread_error_refuted`). `sc_thread_init` does not clear `err`, so a long message leaves it unterminated (`thread_err_refuted`). On Windows joining an object without a thread reads an indeterminate pointer or returns the value of the thread before (`wthread_value_refuted`), and a failed wait gives up a running thread that still uses the object (`wthread_wait_refuted`).
* memory-map on Windows: `sc_mmap_err` stands inside the POSIX branch (memory-map/sc_mmap.c:355), so it is declared but not defined on Windows. If UnmapViewOfFile fails, the view is forgotten (`wmmap_term_refuted`). `page_size` is not set.
* signal on Windows: the handlers pass a DWORD where the formatter reads an int; exception codes are printed as negative numbers. The console handler does not keep errno.
* memory map: msync aligns the start down without extending the length (`mmap_msync_refuted`). Length 0 with an offset beyond the file wraps.
* logger: a failed rename is ignored and the file is emptied (`log_rename_refuted`). Header bytes do not count towards the size limit (`log_limit_refuted`). A failed reopening silently ends file logging. A file name that is too long gives -1 with a stale errno (`log_set_file_errno_refuted`). Level strings outside ASCII give tolower a negative argument (`log_set_level_refuted`). With C11 atomics a message is compared with the level before the mutex is taken, so it can still be printed after another thread turned the level off and then the console on (`log_threads_atomic_refuted`). The callback runs with the mutex held: on POSIX one that logs waits forever (`log_callback_refuted`), on Windows it recurses without end (`wlog_callback_refuted`). A failed sc_log_init returns a positive number and leaves the logger marked as initialised (`log_init_refuted`).
* socket: the millisecond rest of timeouts is passed as microseconds (`sock_timeout_refuted`). Unix sockets never get the blocking mode (`sock_mode_refuted`). Listening on a Unix path over 107 bytes unlinks the full path and binds to a prefix (`sock_unix_path_refuted`). Connecting a structure that already holds a descriptor leaks it (`sock_programs_refuted`). The accepted structure's own blocking flag is not updated, and a refused connect changes the family of the structure and with it the order of addresses of the next attempt (`sock_fields_refuted`). Listening gives up at the first address that cannot be bound (`sock_listen_order_refuted`). `sc_sock_poll_add` with other user data but the same events changes nothing (`poll_data_refuted`). Closing leaves the event mask, so adding the reopened socket to the poller succeeds without registering it (`poll_reconnect_refuted`). A failed pipe init leaves descriptor 0 for the poller (`pipe_failed_refuted`). With kqueue a refused second change leaves the first (`kq_registration_refuted`). Unnamed Unix sockets make the address texts read uninitialised memory (`addr_texts_refuted`). Names of 108 bytes and more are cut when notifying systemd (`notify_systemd_refuted`). Error messages are passed as format strings to `sc_sock_poll_set_err`.
* socket on Windows: if memory runs out while the poller's tables grow, `events` points to freed memory (`win_registration_oom_refuted`). During a poll, `sc_sock_poll_del` of an unregistered descriptor, or taking back an add, makes the polling thread use a NULL pointer (`win_registration_null_refuted`). When WSAPoll fails, calls put off are overtaken by later ones (`win_registration_error_refuted`). A failed wakeup gives -1 although the call takes effect (`win_registration_wakeup_refuted`). Calls that returned 0 are lost if memory runs out later (`win_registration_lost_refuted`). Events taken out may still be reported (`win_results_stale_refuted`). A timeout of -1 waits 16 ms (`win_wait_infinite_refuted`). Adding an event again in edge-triggered mode does not report it again (`win_edge_rearm_refuted`). A failing pipe leaks its sockets (`win_pipe_leak_refuted`); timeouts are a thousandth of those asked for, and none below a second (`wsock_timeo_refuted`); failed connections have the message of an earlier error (`wsock_finish_refuted`, `wsock_unix_refuted`); a startup that gets another version fails but stays registered (`wsock_startup_refuted`); `accept` takes whoever connects first. The pipe's `op_index` is 0 instead of -1.
* memory: shrinking a buffer over the caller's memory passes it to realloc (`mem_shrink_wrapped_refuted`); `sc_str_append(&s, s)` and `sc_buf_put_raw` of a buffer's own bytes read released memory when realloc moves the block (`mem_append_itself_refuted`, `mem_put_itself_refuted`); a heap after a failed add and a queue cleared after a failed init access memory out of bounds (`mem_heap_failed_add_refuted`, `mem_queue_failed_init_refuted`).
* 32-bit machines: a heap made for 2^26 items asks for zero bytes when it grows, one for a few more for a few bytes (`heap_sizes_refuted`); buffers of 4 GB or more are granted with the size modulo 2^32 (`buf_init_sizes_refuted`, `buf_reserve_sizes_refuted`).
* linked-list: adding the head of a non-empty list to another list strands its elements (`list_join_refuted`); a copied struct sc_list, empty or not, makes every loop over it endless (`list_assign_refuted`), and so does initialising a linked node again (`list_reinit_refuted`).
* string: calling sc_str_token_begin after sc_str_token_end returns NULL and cuts the string (`tok_resume_refuted`); leaving a loop and starting another one without sc_str_token_end gives wrong tokens and leaves the string cut for good (`tok_restart_refuted`); appending in a loop loses the delimiter (`tok_append_refuted`).
* crc32: a program that forgets sc_crc32_init gets right results with the CRC instruction as long as messages are shorter than 768 bytes, so tests with short messages pass; longer messages lose their beginning, and without the instruction every message of four bytes or more has the value 2^32-1 (C148).
* signal: sc_signal_on_fatal closes the log descriptor (or standard error) before the process ends; a second crash signal that arrives then ends the process with nothing of its report written (`crash_lost_refuted`, C149).
* timer: a callback must not terminate the timer (`timer_nest_term_refuted`, C150): sc_timer_timeout goes on with the next slot of the list that sc_timer_term freed. The header does not forbid it.
* socket: the results of one sc_sock_poll_wait are not updated by sc_sock_poll_del or sc_sock_term; a socket that is removed and freed while handling one result can still be named by a later result of the same wait (`poll_batch_stale_refuted`, C152). Nothing in the header warns of it.
* time, Windows: the cached frequency is read and written by all threads without synchronisation; in a 32-bit program with a frequency of 2^32 or more a thread can use a half-written value (`wtime_race_refuted`, C153).
* socket: sc_sock_connect closes a refused socket before it records the message, so a failing close replaces the reason of the refusal (`sock_connect_messages_refuted`, C154).
* socket, kqueue: each filter of a socket is a result of its own, so a socket removed and closed on its first result comes again with the second (`kq_batch_refuted`, C155).
* socket, Windows: a call of sc_sock_poll_add that asks for events already registered returns 0 without storing the new user data, and calls made while a thread polls that cancel out leave the old data although the same calls made one after the other replace it (`win_data_refuted`, C156).
* memory-map, macOS: sc_mmap_init with PROT_WRITE sets the last byte of the mapped part to NUL if that byte lies in the last block of the file, so mapping a whole file loses its last byte (`mac_file_byte_refuted`, C157); and it makes the file len bytes long instead of offset + len, so that a mapping with an offset can lie behind the end of the file (`mac_file_offset_refuted`, C157).
* socket, Windows: the poller has room for 2^19 - 1 sockets; the next sc_sock_poll_add fails, but frees the table of events that the poller goes on using (`win_registration_many_refuted`, C98).
* socket: a sc_sock_connect whose name cannot be resolved leaves an EAGAIN of an earlier call in errno, which callers take for a connection under way (`sock_again_refuted`). On Windows failures never set errno: after one call that would block, every later failed send, recv, accept and connect looks like one that would block, until something else sets errno (`wsock_again_refuted`, C165).
* memory-map on 32-bit Windows: with length 0 the size of a file of 4 GB or more is cut to 32 bits; sc_mmap_init maps the file up to its size modulo 4 GB and succeeds (`wmmap32_range_refuted`, C167).
* time and perf where long and time_t have 32 bits: sc_time_ms and the clock of sc_perf overflow signed numbers (`time32_refuted`); sc_time_sleep of 2^32 milliseconds returns 0 after 0.3 seconds (`sleep32_refuted`, C168).
* perf: starting while already counting loses the time before (`perf_time_refuted`). Multiplexed counts are scaled by running/enabled instead of its inverse (`perf_value_refuted`).

## Testing the theorems

`seeded/LOG.jsonl` records edits of the model in scratch copies, the claim each breaks and the theorems that stopped
proving. Survivors led to tightened theorems, named in the record.
