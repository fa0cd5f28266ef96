{
 "claims": [
  {
   "property": "C01",
   "status": "proved",
   "theorems": [
    "array_refines_sequence"
   ],
   "note": ""
  },
  {
   "property": "C02",
   "status": "proved",
   "theorems": [
    "array_add_atomic"
   ],
   "note": ""
  },
  {
   "property": "C03",
   "status": "proved",
   "theorems": [
    "array_foreach_visits"
   ],
   "note": "loop bodies that do not modify the array"
  },
  {
   "property": "C04",
   "status": "proved",
   "theorems": [
    "heap_is_priority_queue"
   ],
   "note": "allocator limit below 2^62 bytes"
  },
  {
   "property": "C05",
   "status": "proved",
   "theorems": [
    "heap_pop_all_sorts"
   ],
   "note": ""
  },
  {
   "property": "C06",
   "status": "proved",
   "theorems": [
    "heap_memory_safe"
   ],
   "note": ""
  },
  {
   "property": "C07",
   "status": "partial",
   "theorems": [
    "heap_failed_add_refuted",
    "heap_failed_add_empty_refuted",
    "heap_failed_add_partial"
   ],
   "note": "Refuted: heap/sc_heap.c:85 increments size before allocating; a failed add corrupts the heap. The partial theorem states what remains true."
  },
  {
   "property": "C08",
   "status": "proved",
   "theorems": [
    "queue_refines_deque"
   ],
   "note": ""
  },
  {
   "property": "C09",
   "status": "proved",
   "theorems": [
    "queue_add_atomic"
   ],
   "note": ""
  },
  {
   "property": "C10",
   "status": "partial",
   "theorems": [
    "queue_recovers_refuted",
    "queue_recovers_partial"
   ],
   "note": "Refuted: queue/sc_queue.h keeps the oom flag set until the next growth, so adds are dropped although there is room. The partial theorem states when adds work."
  },
  {
   "property": "C11",
   "status": "proved",
   "theorems": [
    "queue_foreach_visits"
   ],
   "note": "loop bodies that do not modify the queue"
  },
  {
   "property": "C12",
   "status": "proved",
   "theorems": [
    "list_refines_sequences",
    "list_ideal_unique"
   ],
   "note": ""
  },
  {
   "property": "C13",
   "status": "proved",
   "theorems": [
    "list_add_moves",
    "list_del_unlinked_noop"
   ],
   "note": "A node added next to itself is only taken out of its list (included in the theorem)."
  },
  {
   "property": "C14",
   "status": "proved",
   "theorems": [
    "list_foreach_covers"
   ],
   "note": ""
  },
  {
   "property": "C15",
   "status": "proved",
   "theorems": [
    "map_refines_finite_map",
    "map_ideal_meaning",
    "ops64_lawful",
    "ops32_lawful",
    "ops_str_lawful"
   ],
   "note": "requested capacity at most 2^31 (see C21)"
  },
  {
   "property": "C16",
   "status": "proved",
   "theorems": [
    "map_size_counts"
   ],
   "note": "requested capacity at most 2^31 (see C21)"
  },
  {
   "property": "C17",
   "status": "proved",
   "theorems": [
    "map_foreach_visits"
   ],
   "note": "loop bodies that do not modify the map"
  },
  {
   "property": "C18",
   "status": "proved",
   "theorems": [
    "map_probing_safe"
   ],
   "note": "requested capacity at most 2^31 (see C21)"
  },
  {
   "property": "C19",
   "status": "proved",
   "theorems": [
    "map_put_atomic"
   ],
   "note": ""
  },
  {
   "property": "C20",
   "status": "proved",
   "theorems": [
    "map_string_keys_by_contents"
   ],
   "note": ""
  },
  {
   "property": "C21",
   "status": "partial",
   "theorems": [
    "map_init_contract_partial",
    "map_init_huge_refuted"
   ],
   "note": "Refuted above 2^31: sc_map_alloc's rounding wraps to 0, init returns true and the first get reads outside the table. Proved for capacities up to 2^31."
  },
  {
   "property": "C22",
   "status": "proved",
   "theorems": [
    "buf_round_trip"
   ],
   "note": "allocations succeed and the total size stays below SC_BUF_MAX minus a page (the property's own condition)"
  },
  {
   "property": "C23",
   "status": "partial",
   "theorems": [
    "buf_set_peek_partial",
    "buf_set_peek_here",
    "buf_set_wrap_refuted"
   ],
   "note": "Refuted for offsets within 8 bytes of 2^64: the range check in buffer/sc_buf.c wraps and the access is out of bounds. Proved for every other offset."
  },
  {
   "property": "C24",
   "status": "partial",
   "theorems": [
    "buf_errors_sticky_partial",
    "buf_clear_fresh",
    "buf_get_blob_sticky_refuted",
    "buf_put_fmt_sticky_refuted"
   ],
   "note": "Refuted for sc_buf_get_blob, sc_buf_put_fmt and sc_buf_put_text, which ignore the error flag. Proved for all other calls along every program."
  },
  {
   "property": "C25",
   "status": "proved",
   "theorems": [
    "buf_len_helpers"
   ],
   "note": ""
  },
  {
   "property": "C26",
   "status": "partial",
   "theorems": [
    "buf_space_partial",
    "buf_reserve_wrap_refuted",
    "buf_reserve_loses_data_refuted"
   ],
   "note": "Refuted when uint64_t arithmetic wraps: sc_buf_reserve reports success without room or shrinks the block. Proved below the wrap; shrink for buffers that own their memory."
  },
  {
   "property": "C27",
   "status": "partial",
   "theorems": [
    "buf_limit_partial",
    "buf_shrink_limit_refuted"
   ],
   "note": "Refuted for sc_buf_shrink: it reallocates borrowed memory and can exceed the limit. Proved for every history of writes, formatted puts, moves, stores, reserve and compact."
  },
  {
   "property": "C28",
   "status": "partial",
   "theorems": [
    "buf_untrusted_partial",
    "buf_get_str_wrap_refuted",
    "buf_get_str_nul_refuted"
   ],
   "note": "Refuted: a string length near 2^64 wraps (read position moves backwards) and the final NUL of a string is not checked. Proved for every program of reads whose position arithmetic stays below 2^64."
  },
  {
   "property": "C29",
   "status": "partial",
   "theorems": [
    "buf_move_partial",
    "buf_move_invalid_refuted"
   ],
   "note": "Refuted when the destination already has an error: the bytes are consumed and lost. Proved for every valid destination."
  },
  {
   "property": "C30",
   "status": "partial",
   "theorems": [
    "buf_put_fmt_partial",
    "buf_put_fmt_refuted",
    "buf_put_text_concatenates",
    "buf_put_text_failure_refuted"
   ],
   "note": "sc_buf_put_fmt refuted for two exact fits (it reserves one byte too few); proved otherwise. sc_buf_put_text proved; a failed call can leave wpos < rpos."
  },
  {
   "property": "C31",
   "status": "partial",
   "theorems": [
    "timer_never_early_partial",
    "timer_never_early_refuted",
    "timer_huge_timeout_refuted"
   ],
   "note": "Refuted: a poll less than a tick after the last effective one is forgotten, so a timer added then can fire up to 15 ms early; timeouts that make the deadline exceed 64 bits fire at once. Proved for all other timeouts: never before the timestamp the timer counts from plus the timeout, never more than 15 ms early, and not early at all if the last poll was effective."
  },
  {
   "property": "C32",
   "status": "partial",
   "theorems": [
    "timer_fires_once_partial",
    "timer_last_moment_refuted"
   ],
   "note": "For every program with callbacks that add and cancel, every timeout, and timestamps below UINT64_MAX; deadlines are modulo 2^64. A poll at the timestamp UINT64_MAX calls the callback for every free slot (refuted)."
  },
  {
   "property": "C33",
   "status": "partial",
   "theorems": [
    "timer_ids_unique_partial",
    "timer_ids_refuted",
    "timer_add_fails_only_when_full",
    "timer_program_runs"
   ],
   "note": "Proved for all timers but those whose deadline is exactly UINT64_MAX: such a timer is lost and its id given out again (refuted). Stability under growth is part of timer_fires_once_partial and timer_lateness_bounded, whose traces include growth."
  },
  {
   "property": "C34",
   "status": "proved",
   "theorems": [
    "timer_lateness_bounded"
   ],
   "note": "481 ms, below the 512 ms of the statement; every timeout, timestamps below UINT64_MAX."
  },
  {
   "property": "C35",
   "status": "partial",
   "theorems": [
    "timer_due_fires_partial",
    "timer_due_fires_refuted"
   ],
   "note": "Refuted: each poll drops the remainder of its last tick from the wheel position, so a due timer can be missed. Proved for polls at least a full turn after the last effective one and for programs polling at whole ticks. Exactly when a due timer is missed is proved in C159."
  },
  {
   "property": "C36",
   "status": "proved",
   "theorems": [
    "timer_poll_interval"
   ],
   "note": "Every state and timestamp; the value can be 0."
  },
  {
   "property": "C37",
   "status": "partial",
   "theorems": [
    "str_step_partial",
    "str_create_partial",
    "str_cmp_len",
    "str_append_refuted"
   ],
   "note": "Proved for strings up to SC_STR_MAX bytes (everything but a larger sc_str_create_len produces). Refuted above: appending to such a string wraps the length and reports success."
  },
  {
   "property": "C38",
   "status": "proved",
   "theorems": [
    "str_substring_exact",
    "str_trim_exact",
    "str_step_partial"
   ],
   "note": "With embedded NULs trim also strips NULs at the end (str_step_partial, effect of Trim)."
  },
  {
   "property": "C39",
   "status": "proved",
   "theorems": [
    "str_replace_exact",
    "str_step_partial"
   ],
   "note": ""
  },
  {
   "property": "C40",
   "status": "partial",
   "theorems": [
    "str_replace_terminates_partial",
    "str_replace_terminates_refuted"
   ],
   "note": "Refuted for empty pattern with empty replacement: loops for ever."
  },
  {
   "property": "C41",
   "status": "proved",
   "theorems": [
    "str_tokens_split",
    "str_tokens_nul"
   ],
   "note": ""
  },
  {
   "property": "C42",
   "status": "proved",
   "theorems": [
    "crc_software_is_crc32c"
   ],
   "note": "Both byte orders; buffers of any length at any address."
  },
  {
   "property": "C43",
   "status": "proved",
   "theorems": [
    "crc_piecewise"
   ],
   "note": "All three builds."
  },
  {
   "property": "C44",
   "status": "proved",
   "theorems": [
    "crc_hardware_agrees"
   ],
   "note": "The CRC32 instruction is modelled by its definition in the Intel SDM."
  },
  {
   "property": "C45",
   "status": "proved",
   "theorems": [
    "pow2_exact"
   ],
   "note": ""
  },
  {
   "property": "C46",
   "status": "proved",
   "theorems": [
    "rand_read_split",
    "rand_read_is_rc4",
    "rand_init_is_rc4"
   ],
   "note": ""
  },
  {
   "property": "C47",
   "status": "partial",
   "theorems": [
    "size_to_bytes_partial",
    "size_to_bytes_overflow_refuted",
    "size_to_bytes_formats_refuted",
    "size_to_bytes_length_refuted",
    "size_to_bytes_ascii_refuted"
   ],
   "note": "Refuted: a non-ASCII byte right after the number is a negative argument of tolower (undefined behaviour); negative number times unit overflows (undefined behaviour); '-5' is returned although the header promises positive or -1; '1bb' is accepted; a tail of 2^32 characters is ignored; the header's own example '1 KB' and the output of sc_bytes_to_size are rejected. Proved for all other strings."
  },
  {
   "property": "C48",
   "status": "proved",
   "theorems": [
    "ini_parse_string_exact",
    "ini_parse_file_exact",
    "ini_file_lines_exist",
    "ini_document",
    "ini_file_is_string",
    "ini_null",
    "ini_pointer_refuted",
    "ini_tab_comment",
    "ini_long_key_refuted",
    "ini_file_string_refuted",
    "ini_empty_key"
   ],
   "note": "Proved for every text and file (memory accesses in bounds, exact items). Also shown: a blank line makes trim_space form the pointer one before the buffer (not accessed); keys over 255 bytes change name on continuation lines."
  },
  {
   "property": "C49",
   "status": "proved",
   "theorems": [
    "ini_parse_string_exact",
    "ini_parse_file_exact",
    "ini_parsed_unique",
    "ini_callback_value_refuted"
   ],
   "note": "Return code proved exactly; the header comment (the callback value is returned) is wrong and shown so: the line number is returned."
  },
  {
   "property": "C50",
   "status": "partial",
   "theorems": [
    "option_at_first_partial",
    "option_first_unique",
    "option_dash_refuted",
    "option_value_null_refuted"
   ],
   "note": "Proved for every table and argument except the argument \"-\" with a table containing letter 0, where the code reads past the argument (refuted). The value is NULL for unknown options although the header says it never is."
  },
  {
   "property": "C51",
   "status": "proved",
   "theorems": [
    "uri_create_exact",
    "uri_round_trip",
    "uri_null",
    "uri_rfc_refuted",
    "uri_port_refuted"
   ],
   "note": "Round trip proved for every tuple of well-formed parts; also the exact result for every input. Parts containing @ or : where RFC 3986 allows them are taken apart wrongly (shown)."
  },
  {
   "property": "C52",
   "status": "partial",
   "theorems": [
    "uri_str_partial",
    "uri_str_refuted"
   ],
   "note": "Refuted: http://a/b:1/c and a:b#c?d lose text. Proved: str is the input without the skipped pieces, equal to it exactly when both are empty."
  },
  {
   "property": "C53",
   "status": "partial",
   "theorems": [
    "signal_format_partial",
    "signal_numeral_exists",
    "signal_format_refuses",
    "signal_format_min_refuted",
    "signal_format_zero_refuted"
   ],
   "note": "Proved for every format and argument list except the value INT64_MIN for %ld/%lld, whose negation overflows (refuted); the return value is the length when it fits an int. A malformed format returns -1 and leaves no NUL."
  },
  {
   "property": "C54",
   "status": "proved",
   "theorems": [
    "cond_mailbox",
    "cond_mailbox_last",
    "cond_no_duplicate",
    "cond_exclusive"
   ],
   "note": "Linearizability by forward simulation, for any number of threads, any schedule and any spurious wakeups."
  },
  {
   "property": "C55",
   "status": "proved",
   "theorems": [
    "cond_no_lost_wakeup",
    "cond_awake"
   ],
   "note": "From every reachable state with a pending signal and a waiter, the code alone can reach a return of a wait. That it does so under a fair scheduler: C161."
  },
  {
   "property": "C56",
   "status": "proved",
   "theorems": [
    "poll_registration",
    "poll_data_refuted"
   ],
   "note": "Linux (epoll). The registered user data is that of the call that last changed the mask; a call with the same events and other data changes nothing (poll_data_refuted)."
  },
  {
   "property": "C57",
   "status": "proved",
   "theorems": [
    "sock_listen_resources",
    "sock_connect_resources",
    "sock_accept_resources",
    "sock_term_resources"
   ],
   "note": "For every outcome of every call, starting from a structure without descriptor. A connection under way on a non-blocking socket (result -1, errno EAGAIN) keeps its descriptor, as documented."
  },
  {
   "property": "C58",
   "status": "partial",
   "theorems": [
    "sock_timeout_partial",
    "sock_timeout_refuted"
   ],
   "note": "The rest of ms modulo 1000 is passed as microseconds: right exactly for whole seconds."
  },
  {
   "property": "C59",
   "status": "proved",
   "theorems": [
    "mmap_init_resources",
    "mmap_term_resources"
   ],
   "note": "Also: the error text is that of the failing call, not of close."
  },
  {
   "property": "C60",
   "status": "partial",
   "theorems": [
    "mmap_msync_partial",
    "mmap_msync_exact",
    "mmap_msync_refuted"
   ],
   "note": "Proved from page-aligned offsets; refuted otherwise: the start is aligned down but the length is not extended. mmap_msync_exact says which pages are flushed."
  },
  {
   "property": "C61",
   "status": "proved",
   "theorems": [
    "log_delivery",
    "log_rotation"
   ],
   "note": "log_delivery: console and callback for every history, no undefined behaviour; the file sink is in log_rotation. Calls are taken one at a time (each holds the mutex)."
  },
  {
   "property": "C62",
   "status": "partial",
   "theorems": [
    "log_rotation",
    "log_newest_partial",
    "log_rename_refuted",
    "log_limit_refuted"
   ],
   "note": "Proved while rename and reopening succeed and the two names differ. Refuted when rename fails: its result is ignored and the file is emptied (log_rename_refuted). The bytes of the headers do not count towards the limit (log_limit_refuted)."
  },
  {
   "property": "C63",
   "status": "partial",
   "theorems": [
    "sleep_lasts_partial",
    "sleep_exact",
    "sleep_lasts_refuted"
   ],
   "note": "Proved for all durations up to 2^64-1000 ms; within a second of 2^64 the call returns 0 after less than a second (refuted: UINT64_MAX sleeps 615 ms)."
  },
  {
   "property": "C64",
   "status": "partial",
   "theorems": [
    "timer_stale_cancel_partial",
    "timer_stale_cancel_refuted"
   ],
   "note": "Proved when no pending timer has the id: the call then leaves the whole state as it is. Refuted otherwise: a stale id may have been given to a newer timer, which is then cancelled. Cancelling never affects timers with other ids (timer_lateness_bounded: only ECancel of the same id matters)."
  },
  {
   "property": "C65",
   "status": "proved",
   "theorems": [
    "crc_detects_bursts"
   ],
   "note": ""
  },
  {
   "property": "C66",
   "status": "proved",
   "theorems": [
    "crc_detects_flips"
   ],
   "note": ""
  },
  {
   "property": "C67",
   "status": "partial",
   "theorems": [
    "buf_positions_partial",
    "buf_set_wpos_refuted"
   ],
   "note": "Refuted for sc_buf_set_wpos below the read position: accepted, the size wraps. Proved for all other positions."
  },
  {
   "property": "C68",
   "status": "proved",
   "theorems": [
    "bytes_to_size_text"
   ],
   "note": "%.02lf of a double is modelled as round-to-nearest-even of the exact quotient, which is what it is for the values that occur."
  },
  {
   "property": "C69",
   "status": "proved",
   "theorems": [
    "rand_init_is_rc4",
    "rand_read_is_rc4"
   ],
   "note": ""
  },
  {
   "property": "C70",
   "status": "proved",
   "theorems": [
    "signal_shutdown",
    "signal_shutdown_twice"
   ],
   "note": "Exact action list for every state; deliveries inside the handler: C93."
  },
  {
   "property": "C71",
   "status": "partial",
   "theorems": [
    "signal_log_writes_partial",
    "signal_log_overrun_refuted"
   ],
   "note": "Proved for every rendering of a well-formed format, cut to size - 1 bytes; for a malformed format the call passes (size_t) -1 bytes to write (refuted)."
  },
  {
   "property": "C72",
   "status": "partial",
   "theorems": [
    "cond_init_resources",
    "cond_term_resources_partial",
    "cond_term_refuted"
   ],
   "note": "Proved except that a failing sc_cond_term returns a positive error number where the header says negative, and gives up on a mutex it could not destroy (refuted)."
  },
  {
   "property": "C73",
   "status": "proved",
   "theorems": [
    "mutex_resources"
   ],
   "note": ""
  },
  {
   "property": "C74",
   "status": "proved",
   "theorems": [
    "time_exact",
    "time_mono"
   ],
   "note": ""
  },
  {
   "property": "C75",
   "status": "partial",
   "theorems": [
    "thread_history_partial",
    "thread_history_refuted",
    "thread_error_refuted"
   ],
   "note": "Proved for histories where a refused pthread_create leaves 0 in the object and joins succeed. POSIX leaves the object unspecified, and then term joins an arbitrary id (refuted). Errors are positive numbers, not -1 as the header says."
  },
  {
   "property": "C76",
   "status": "partial",
   "theorems": [
    "thread_err_text_partial",
    "thread_err_refuted"
   ],
   "note": "For messages of 127 bytes and more the terminator depends on the last byte of err, which sc_thread_init does not set; thread_err_refuted shows a text that is not terminated."
  },
  {
   "property": "C77",
   "status": "proved",
   "theorems": [
    "mmap_init_range"
   ],
   "note": "For length 0 the offset has to be within the file."
  },
  {
   "property": "C78",
   "status": "proved",
   "theorems": [
    "log_result"
   ],
   "note": "A failing rename is not reported (see C62)."
  },
  {
   "property": "C79",
   "status": "partial",
   "theorems": [
    "log_set_level_partial",
    "log_set_level_refuted"
   ],
   "note": "Proved for strings of the basic character set; other bytes give tolower a negative argument (undefined in ISO C)."
  },
  {
   "property": "C80",
   "status": "partial",
   "theorems": [
    "log_set_file_partial",
    "log_set_file_errno_refuted"
   ],
   "note": "The errno clause is refuted: for a name that is too long errno keeps whatever it was."
  },
  {
   "property": "C81",
   "status": "partial",
   "theorems": [
    "sock_mode_partial",
    "sock_mode_refuted"
   ],
   "note": "Proved for internet sockets and accept; refuted for Unix sockets, whose mode is never set by listen and connect."
  },
  {
   "property": "C82",
   "status": "proved",
   "theorems": [
    "sock_connect_order"
   ],
   "note": ""
  },
  {
   "property": "C83",
   "status": "proved",
   "theorems": [
    "sock_transfer",
    "sock_finish_connect"
   ],
   "note": ""
  },
  {
   "property": "C84",
   "status": "partial",
   "theorems": [
    "sock_unix_path_partial",
    "sock_unix_path_refuted"
   ],
   "note": "Connecting is proved; listening on a path of more than 107 bytes silently binds to its first 107 bytes after unlinking the full path."
  },
  {
   "property": "C85",
   "status": "partial",
   "theorems": [
    "poll_reconnect_partial",
    "poll_reconnect_refuted"
   ],
   "note": "Holds when the mask was empty at closing; otherwise the stale mask makes sc_sock_poll_add succeed without registering anything."
  },
  {
   "property": "C86",
   "status": "proved",
   "theorems": [
    "poll_event_mapping",
    "poll_wait_result",
    "kq_events"
   ],
   "note": "Linux (epoll); kq_events: the events of kqueue."
  },
  {
   "property": "C87",
   "status": "proved",
   "theorems": [
    "poll_resources",
    "pipe_resources",
    "pipe_transfer",
    "pipe_failed_refuted"
   ],
   "note": "A failed sc_sock_pipe_init leaves descriptor 0 in the part given to the poller (pipe_failed_refuted); the claim itself is not affected."
  },
  {
   "property": "C88",
   "status": "partial",
   "theorems": [
    "kq_registration_partial",
    "kq_registration_refuted"
   ],
   "note": "Proved when a refused call is refused at its first change; refuted when the second of two changes is refused: the kernel keeps the first."
  },
  {
   "property": "C89",
   "status": "partial",
   "theorems": [
    "addr_texts_partial",
    "sock_print_text",
    "addr_texts_refuted"
   ],
   "note": "Proved for buffers of at least one byte and addresses the system filled in; refuted for unnamed Unix sockets (uninitialised memory is read) and for length 0 (a byte is written)."
  },
  {
   "property": "C90",
   "status": "partial",
   "theorems": [
    "notify_systemd_partial",
    "notify_systemd_long",
    "notify_systemd_refuted"
   ],
   "note": "Proved for names that fit; a name of 108 bytes or more is cut to 107 bytes and a NUL, so the message goes elsewhere."
  },
  {
   "property": "C91",
   "status": "proved",
   "theorems": [
    "signal_setup"
   ],
   "note": ""
  },
  {
   "property": "C92",
   "status": "proved",
   "theorems": [
    "signal_crash",
    "signal_ignored"
   ],
   "note": "With the kernel behaviour of dispositions, SA_RESETHAND, SA_NODEFER and kill as modelled; the text of the backtrace is the C library's."
  },
  {
   "property": "C93",
   "status": "partial",
   "theorems": [
    "signal_nested_partial",
    "signal_nested_refuted",
    "signal_nested_alone"
   ],
   "note": "Proved except the number of bytes: at most two. Refuted for one: a SIGINT between the test and the assignment of the flag in the handler of SIGTERM makes both handlers send a byte and return. One thread; see C114 for several."
  },
  {
   "property": "C94",
   "status": "proved",
   "theorems": [
    "mmap_lock_history"
   ],
   "note": ""
  },
  {
   "property": "C95",
   "status": "proved",
   "theorems": [
    "perf_descriptors",
    "perf_order"
   ],
   "note": ""
  },
  {
   "property": "C96",
   "status": "partial",
   "theorems": [
    "perf_time_partial",
    "perf_time_refuted"
   ],
   "note": "Proved for sessions without a start while already counting; such a start restarts the interval and the time before it is lost (refuted)."
  },
  {
   "property": "C97",
   "status": "partial",
   "theorems": [
    "perf_value_partial",
    "perf_value_refuted"
   ],
   "note": "Proved for counters that ran all the time. Multiplexed counters are scaled by running/enabled instead of enabled/running (refuted). Rational numbers instead of doubles; C160 shows that the doubles agree for counters that ran all the time."
  },
  {
   "property": "C98",
   "status": "partial",
   "theorems": [
    "win_registration_partial",
    "win_poll_retry",
    "win_registration_oom_refuted",
    "win_registration_null_refuted",
    "win_registration_error_refuted",
    "win_registration_wakeup_refuted",
    "win_registration_lost_refuted",
    "win_registration_many_refuted"
   ],
   "note": "Proved for up to 2^19 - 1 structures when memory for the second table, for calls put off and the wakeup byte do not fail, WSAPoll does not fail other than for a socket closed meanwhile, and no call during a poll takes the last event from a structure without a slot. Each exception is refuted, one structure more by win_registration_many_refuted. With user data that differs from call to call: C156."
  },
  {
   "property": "C99",
   "status": "proved",
   "theorems": [
    "win_results"
   ],
   "note": "Within the histories of win_registration_partial. With a del call during the poll an event taken out may be reported (win_results_stale_refuted); a timeout of -1 is 16 ms (win_wait_infinite_refuted)."
  },
  {
   "property": "C100",
   "status": "proved",
   "theorems": [
    "win_edge",
    "win_edge_again"
   ],
   "note": "Within the histories of win_registration_partial; structures are told apart by their user data; a broken connection is always reported. Taking an event out and adding it again does not report it again (win_edge_rearm_refuted)."
  },
  {
   "property": "C101",
   "status": "proved",
   "theorems": [
    "win_memory"
   ],
   "note": "For histories without undefined behaviour; see win_registration_oom_refuted for one with a use after free."
  },
  {
   "property": "C102",
   "status": "proved",
   "theorems": [
    "win_cells"
   ],
   "note": ""
  },
  {
   "property": "C103",
   "status": "partial",
   "theorems": [
    "win_pipe_partial",
    "win_pipe_leak_refuted"
   ],
   "note": "Proved when sc_sock_pipe_init succeeds; when it fails, the sockets opened so far stay open (refuted)."
  },
  {
   "property": "C104",
   "status": "partial",
   "theorems": [
    "mem_no_misuse_partial",
    "mem_shrink_wrapped_refuted",
    "mem_heap_failed_add_refuted",
    "mem_queue_failed_init_refuted",
    "mem_append_itself_refuted",
    "mem_put_itself_refuted"
   ],
   "note": "Proved for programs that avoid five uses the headers do not forbid, each refuted: shrinking a buffer over the caller's memory, using a heap after a failed add, clearing and using a queue whose init failed, appending a string to itself, putting a buffer's own bytes into it."
  },
  {
   "property": "C105",
   "status": "proved",
   "theorems": [
    "mem_owned"
   ],
   "note": "For the programs of mem_no_misuse_partial."
  },
  {
   "property": "C106",
   "status": "proved",
   "theorems": [
    "mem_no_leak"
   ],
   "note": "For the programs of mem_no_misuse_partial."
  },
  {
   "property": "C107",
   "status": "proved",
   "theorems": [
    "mem_user_kept"
   ],
   "note": "For the programs of mem_no_misuse_partial."
  },
  {
   "property": "C108",
   "status": "proved",
   "theorems": [
    "mem_term_twice"
   ],
   "note": "For the programs of mem_no_misuse_partial; sc_uri_destroy takes its argument by value and is excluded."
  },
  {
   "property": "C109",
   "status": "proved",
   "theorems": [
    "mem_refused_keeps"
   ],
   "note": "For the programs of mem_no_misuse_partial."
  },
  {
   "property": "C110",
   "status": "proved",
   "theorems": [
    "log_threads"
   ],
   "note": "A call is a sequence of single accesses interleaved in any order; callbacks that call the logger are excluded (they would wait for the mutex they hold)."
  },
  {
   "property": "C111",
   "status": "partial",
   "theorems": [
    "log_threads_atomic_partial",
    "log_threads_atomic_refuted"
   ],
   "note": "False for a message as one step: it can pass the level, wait, and be printed by settings made after the level was turned off. Proved with a message taking effect at two points, the level and the output."
  },
  {
   "property": "C112",
   "status": "proved",
   "theorems": [
    "log_no_race"
   ],
   "note": "sc_log_init and sc_log_term must not run at the same time as other calls."
  },
  {
   "property": "C113",
   "status": "proved",
   "theorems": [
    "log_no_deadlock"
   ],
   "note": "Callbacks that call the logger are excluded: the mutex is not recursive."
  },
  {
   "property": "C114",
   "status": "partial",
   "theorems": [
    "signal_many_partial",
    "signal_many_again",
    "signal_many_refuted"
   ],
   "note": "Proved except the last sentence, which is false: any number of requests on different threads can pass the test of the flag before one sets it, and each then sends a byte (signal_many_refuted, for every number). Accesses of the flag are taken to be in one order for all threads, which ISO C does not promise. The errno part is for POSIX; the Windows handler does not save it."
  },
  {
   "property": "C115",
   "status": "partial",
   "theorems": [
    "wthread_history_partial",
    "wthread_value_refuted",
    "wthread_wait_refuted"
   ],
   "note": "Proved except for a join that asks for the value when no thread runs: on a new object it reads an indeterminate pointer, after a refused start it returns the value of the thread before (POSIX: NULL). If waiting fails the handle is given up while the thread still uses the object."
  },
  {
   "property": "C116",
   "status": "proved",
   "theorems": [
    "wthread_no_race"
   ],
   "note": ""
  },
  {
   "property": "C117",
   "status": "proved",
   "theorems": [
    "wmmap_history",
    "wmmap_term_refuted"
   ],
   "note": "UnmapViewOfFile must succeed; if it fails the view stays mapped and the object forgets it (wmmap_term_refuted)."
  },
  {
   "property": "C118",
   "status": "proved",
   "theorems": [
    "wmmap_range"
   ],
   "note": "That no sum overflows unnoticed follows from Windows refusing views that reach over the end of the mapping object."
  },
  {
   "property": "C119",
   "status": "proved",
   "theorems": [
    "wmmap_error"
   ],
   "note": "If CloseHandle fails after MapViewOfFile has failed, the message is that of CloseHandle."
  },
  {
   "property": "C120",
   "status": "proved",
   "theorems": [
    "wsignal_console",
    "wsignal_events"
   ],
   "note": "A DWORD is read as an int by va_arg: undefined in ISO C, taken to give the same bits. Events handled at the same time: C114."
  },
  {
   "property": "C121",
   "status": "proved",
   "theorems": [
    "wsignal_fatal",
    "wsignal_init"
   ],
   "note": "Exception codes from 2^31 on are printed as negative numbers."
  },
  {
   "property": "C122",
   "status": "partial",
   "theorems": [
    "wtime_wall",
    "wtime_mono_partial",
    "wtime_mono_refuted"
   ],
   "note": "Proved while the counter times 1000 (1000000000) fits in 63 bits. At the usual 10000000 counts a second sc_time_mono_ns overflows a signed product from 923 seconds after the start of the system on (undefined; with wrapping arithmetic the clock goes back every half hour). Nanoseconds of the wall clock until the year 2185."
  },
  {
   "property": "C123",
   "status": "partial",
   "theorems": [
    "wtime_sleep_partial",
    "wtime_sleep_refuted"
   ],
   "note": "Proved below 2^32 - 1 milliseconds; 2^32 - 1 never end and 2^32 end at once."
  },
  {
   "property": "C124",
   "status": "proved",
   "theorems": [
    "mutex_exclusion",
    "mutex_progress",
    "mutex_relock"
   ],
   "note": "The behaviour of the pthread and Windows calls is that of their documentation."
  },
  {
   "property": "C125",
   "status": "partial",
   "theorems": [
    "wsock_uses_partial",
    "wsock_startup_exact",
    "wsock_startup_refuted",
    "wsock_blocking"
   ],
   "note": "Proved except when WSAStartup succeeds with another version than 2.2: the call returns -1 but the use stays registered."
  },
  {
   "property": "C126",
   "status": "partial",
   "theorems": [
    "wsock_timeo_partial",
    "wsock_timeo_refuted"
   ],
   "note": "False for every limit but 0: Windows reads a number of milliseconds where the code passes a struct timeval, so ms / 1000 milliseconds are set, and no limit at all below a second."
  },
  {
   "property": "C127",
   "status": "partial",
   "theorems": [
    "wsock_finish_partial",
    "wsock_finish_refuted",
    "wsock_unix_partial",
    "wsock_unix_refuted"
   ],
   "note": "Proved except for the messages of a failed connection and of a path that is too long: errno is set but the message is made from WSAGetLastError."
  },
  {
   "property": "C128",
   "status": "partial",
   "theorems": [
    "map_loop_safe",
    "map_loop_store_partial",
    "map_loop_delete_partial",
    "map_loop_delete_refuted",
    "map_loop_store_refuted",
    "map_loop_twice_refuted"
   ],
   "note": "Safety and the meaning of the calls: proved for every body. Every key once: proved for bodies that look up and store for keys in the map unless the table is about to grow. Deleting the current key visits no key twice but misses some; a growing table or deleting other keys makes the loop visit keys twice."
  },
  {
   "property": "C129",
   "status": "partial",
   "theorems": [
    "array_loop_add_partial",
    "array_loop_find_partial",
    "array_loop_shrink_refuted",
    "array_loop_skip_refuted"
   ],
   "note": "Proved for bodies that only add and for deleting the item looked for, then break. Missing because false: deleting and going on. At the last item the position passes the size and the loop leaves the block, for every non-empty array; before the end the next item is missed."
  },
  {
   "property": "C130",
   "status": "partial",
   "theorems": [
    "queue_loop_work_partial",
    "queue_loop_drain_partial",
    "queue_loop_grow_refuted",
    "queue_loop_shrink_refuted"
   ],
   "note": "Proved while the ring need not grow. A growing ring moves its items and the loop misses some; deleting the last item at the last position makes the loop go round the ring."
  },
  {
   "property": "C131",
   "status": "partial",
   "theorems": [
    "str_self_partial",
    "str_replace_self",
    "str_replace_by_self_partial",
    "str_append_self_refuted",
    "str_replace_by_self_refuted"
   ],
   "note": "Proved for set, trim, a pattern that is the end of the string, and a replacement that is not as long as the pattern. Append: only if realloc does not move the block, otherwise it reads released memory. A replacement as long as the pattern: memcpy gets overlapping areas."
  },
  {
   "property": "C132",
   "status": "partial",
   "theorems": [
    "log_init_partial",
    "log_init_windows",
    "log_init_refuted"
   ],
   "note": "Proved but for the sign and the state after a failure: the positive error number is returned, where sc_log.h promises a negative value, and the logger counts as initialised, so that sc_log_term destroys a mutex that was never made."
  },
  {
   "property": "C133",
   "status": "partial",
   "theorems": [
    "log_callback_partial",
    "log_callback_refuted",
    "wlog_callback_partial",
    "wlog_callback_refuted"
   ],
   "note": "POSIX: proved for callbacks whose calls do not lock; the first call that locks waits forever. Windows: proved (the nesting ends) for callbacks that log only below the level of their message; one that logs an error for every message recurses without end."
  },
  {
   "property": "C134",
   "status": "partial",
   "theorems": [
    "poll_err_partial",
    "poll_err_format_refuted",
    "poll_code_partial",
    "poll_code_refuted",
    "pipe_err_partial",
    "pipe_err_refuted"
   ],
   "note": "Poller with epoll and kqueue: proved for system messages without percent signs; sc_sock_poll_init and sc_sock_poll_term pass the message as a format. Windows: WSAPoll errors, unless FormatMessage fails, which leaves the old message. Pipe: proved for init and term; a failed read or write sets no message on POSIX."
  },
  {
   "property": "C135",
   "status": "proved",
   "theorems": [
    "wcond_mailbox",
    "wcond_no_lost_wakeup",
    "wcond_lifetime"
   ],
   "note": "By simulation with the POSIX model. Critical sections and condition variables behave as documented."
  },
  {
   "property": "C136",
   "status": "partial",
   "theorems": [
    "list_loop_follows",
    "list_loop_visits_partial",
    "list_loop_sorts",
    "list_loop_delete_refuted",
    "list_loop_next_refuted",
    "list_loop_move_refuted"
   ],
   "note": "Proved for bodies that keep the nodes still to come at the end of the list, and, for the plain loops, the current node before them. Missing because false: a plain loop that deletes the current node, a safe loop that deletes the next one and a safe loop that moves the current node to the end never end."
  },
  {
   "property": "C137",
   "status": "proved",
   "theorems": [
    "map_string_lifetime"
   ],
   "note": "The model reads each string explicitly; reading a released one is UB."
  },
  {
   "property": "C138",
   "status": "proved",
   "theorems": [
    "array_growth",
    "queue_growth",
    "heap_growth"
   ],
   "note": "Moved items are counted as the old capacity whenever the capacity changes. Heaps as long as adds succeed (see C07)."
  },
  {
   "property": "C139",
   "status": "proved",
   "theorems": [
    "heap_comparisons",
    "heap_sort_comparisons"
   ],
   "note": "Counting versions of the model functions, proved equal to them."
  },
  {
   "property": "C140",
   "status": "proved",
   "theorems": [
    "map_load_factor"
   ],
   "note": "Runs end with term: a map used again without init has load factor 0 (example map_load_after_term_ex). The threshold computed with doubles equals the exact quotient (all capacities and load factors checked)."
  },
  {
   "property": "C141",
   "status": "partial",
   "theorems": [
    "array_sort_partial",
    "array_sort_empty_refuted"
   ],
   "note": "qsort is any function that meets its contract. Missing: by ISO C 7.22.5p1 an array that never held an item must not be sorted, since qsort gets NULL; libraries accept it."
  },
  {
   "property": "C142",
   "status": "partial",
   "theorems": [
    "queue_add_last_arg_partial",
    "queue_add_last_pop_refuted",
    "queue_add_first_arg_partial",
    "queue_add_first_arg_refuted",
    "array_add_arg_partial",
    "array_add_arg_refuted"
   ],
   "note": "Refuted: sc_queue_add_first moves first before it evaluates the element, so sc_queue_at gives the item before, sc_queue_peek_first what the free slot holds, sc_queue_size one too many and sc_queue_del_first nothing or garbage; sc_queue_add_last(q, sc_queue_del_last(q)) and sc_array_add with sc_array_last or sc_array_size are undefined (unsequenced). Proved for all other arguments."
  },
  {
   "property": "C143",
   "status": "partial",
   "theorems": [
    "array_del_arg_partial",
    "array_del_arg_refuted",
    "minmax_partial",
    "minmax_refuted"
   ],
   "note": "Refuted: a variable called idx given to sc_array_del or sc_array_del_unordered is hidden by the variable of the macro, which is read uninitialised; sc_max and sc_min evaluate the argument they choose twice. Proved for all other arguments. Integers are not bounded."
  },
  {
   "property": "C144",
   "status": "partial",
   "theorems": [
    "array_sizes_partial",
    "array_sizes_refuted",
    "queue_sizes_partial",
    "queue_sizes_refuted",
    "heap_sizes_partial",
    "heap_sizes_refuted",
    "timer_sizes",
    "timer_sizes_refuted",
    "buf_init_sizes_partial",
    "buf_init_sizes_refuted",
    "buf_reserve_sizes_partial",
    "buf_reserve_sizes_refuted",
    "buf_shrink_sizes",
    "str_create_sizes",
    "str_append_sizes_partial",
    "str_append_sizes_refuted",
    "str_replace_sizes"
   ],
   "note": "Refuted with 32 bits: a heap made for 2^26 items or a little more (1 GB) asks for a few bytes when it first grows; sc_buf_init and sc_buf_reserve of 4 GB or more succeed with the size modulo 2^32; timers if the allocator grants more than half the address space; arrays and queues with items of 512 MB. With 64 bits: appending to a string longer than SC_STR_MAX. Proved otherwise; heaps, timers and shrinking with an allocator that grants less than half the address space."
  },
  {
   "property": "C145",
   "status": "partial",
   "theorems": [
    "sock_programs_partial",
    "sock_programs_end",
    "sock_programs_refuted"
   ],
   "note": "Proved if listen, connect and accept get a structure that holds no descriptor. Missing because false: connecting a structure again without sc_sock_term loses the old descriptor."
  },
  {
   "property": "C146",
   "status": "proved",
   "theorems": [
    "list_any_calls",
    "list_del_head",
    "list_join_refuted",
    "list_assign_refuted",
    "list_reinit_refuted"
   ],
   "note": ""
  },
  {
   "property": "C147",
   "status": "partial",
   "theorems": [
    "tok_programs_partial",
    "tok_earlier",
    "tok_resume_refuted",
    "tok_restart_refuted",
    "tok_two_refuted",
    "tok_append_refuted"
   ],
   "note": "Proved but for the last sentence, which is false: after sc_str_token_end the next sc_str_token_begin gives NULL and cuts the string at the delimiter; starting over or appending without sc_str_token_end loses the delimiter for good; a second loop begun while the first has its first token gets the whole text as its first token."
  },
  {
   "property": "C148",
   "status": "proved",
   "theorems": [
    "crc_uninit_software",
    "crc_uninit_short",
    "crc_uninit_long"
   ],
   "note": "The big-endian software build is not covered."
  },
  {
   "property": "C149",
   "status": "partial",
   "theorems": [
    "crash_nested",
    "crash_writes",
    "crash_lost_refuted"
   ],
   "note": "Proved but for the last clause, which is false: the handler closes the descriptor before it kills the process; a crash after that is not reported. crash_writes says exactly which writes get through. One thread; shutdown signals in between are not included (C93)."
  },
  {
   "property": "C150",
   "status": "partial",
   "theorems": [
    "timer_nest_partial",
    "timer_nest_same",
    "timer_nest_term_refuted"
   ],
   "note": "Proved for callbacks that add, cancel, poll and clear. A callback that terminates the timer makes the loop read the freed table (timer_nest_term_refuted). Times reach at most UINT64_MAX - 1, and a timer with the deadline UINT64_MAX is lost (C32, C33)."
  },
  {
   "property": "C151",
   "status": "proved",
   "theorems": [
    "poll_many"
   ],
   "note": "Linux (epoll), descriptors that are not duplicated."
  },
  {
   "property": "C152",
   "status": "partial",
   "theorems": [
    "poll_batch_partial",
    "poll_batch_stale_refuted"
   ],
   "note": "All of it but the last part, which is refuted: the results are not updated by sc_sock_poll_del or sc_sock_term, so a socket removed and closed while the results of one wait are gone through is still named by a later result, with data that may be freed by then."
  },
  {
   "property": "C153",
   "status": "partial",
   "theorems": [
    "wtime_race_partial",
    "wtime_race_refuted"
   ],
   "note": "Proved if the variable is accessed as a whole (64 bit programs) or the frequency is below 2^32. Refuted otherwise: a thread that sees the lower half written and not the upper one divides by a wrong frequency. In ISO C the unsynchronised accesses are undefined behaviour in any case; the interleavings are those of the machine."
  },
  {
   "property": "C154",
   "status": "partial",
   "theorems": [
    "sock_listen_messages",
    "sock_connect_messages_partial",
    "sock_unix_messages",
    "sock_other_messages",
    "sock_connect_messages_refuted"
   ],
   "note": "Full for listening, accepting, closing, time limits and Unix sockets. For sc_sock_connect it needs the close of a refused socket to succeed; refuted otherwise: the message is then that of close."
  },
  {
   "property": "C155",
   "status": "partial",
   "theorems": [
    "kq_many_partial",
    "kq_batch_partial",
    "kq_batch_refuted",
    "kq_many_refuted"
   ],
   "note": "Proved when a call kevent refuses is refused from its first change on, and for results read before further calls. Refuted otherwise: a half-refused call leaves a filter the mask does not show, and a socket with two results that is closed on the first comes again with the second."
  },
  {
   "property": "C156",
   "status": "proved",
   "theorems": [
    "win_data",
    "win_data_results",
    "win_data_refuted"
   ],
   "note": "For the histories of win_registration_partial, without its restriction to fixed user data. The data of the last successful call is not always the one reported: win_data_refuted."
  },
  {
   "property": "C157",
   "status": "partial",
   "theorems": [
    "mac_file_partial",
    "mac_file_covers_partial",
    "mac_rounds",
    "mac_file_byte_refuted",
    "mac_file_offset_refuted"
   ],
   "note": "mac_file_partial says exactly what the file holds afterwards. The bytes are kept if the file grows or the mapping ends before its last block; otherwise the last byte of the mapped part is set to NUL, for instance when a whole file is mapped (mac_file_byte_refuted). The file is long enough if the offset is 0; with another offset it is made len bytes long, not offset + len (mac_file_offset_refuted). Sizes and lengths up to 2^63."
  },
  {
   "property": "C158",
   "status": "proved",
   "theorems": [
    "mac_init_resources"
   ],
   "note": "A write that writes nothing without an error leaves errno as it was, and the message is made from that."
  },
  {
   "property": "C159",
   "status": "proved",
   "theorems": [
    "timer_poll_exact",
    "timer_fires_exactly"
   ],
   "note": "timer_poll_exact allows callbacks of the poll to cancel the timer; timer_fires_exactly is the equivalence otherwise. It says when the timers of C35 are late. A timer whose deadline is UINT64_MAX is lost and left out."
  },
  {
   "property": "C160",
   "status": "proved",
   "theorems": [
    "perf_double_exact",
    "perf_double_untimed",
    "perf_double_part"
   ],
   "note": "IEEE binary64 with rounding to nearest, by the operations of SpecFloat of the standard library (definitions, no axioms). The formatting by printf is not modelled. Which readings are printed for which event: C97. perf_double_part: a counter that ran for 2^-k of the time is scaled without rounding."
  },
  {
   "property": "C161",
   "status": "proved",
   "theorems": [
    "cond_fair_delivery",
    "cond_fair_signal",
    "cond_fair_wait",
    "cond_fair_sole"
   ],
   "note": "Fairness is a hypothesis about the run (fair_scheduler, fair_mutex), met by the run of the example. Which waiting thread gets the signal is not determined, so with several waiters it is some wait that returns. C55 is the same without fairness: the code can go on."
  },
  {
   "property": "C162",
   "status": "proved",
   "theorems": [
    "log_fair_returns"
   ],
   "note": "Fairness is a hypothesis about the run (fair_scheduler, fair_mutex), met by the run of the example. Callbacks return and do not call the logger (C133). C113 is the same without fairness: each call can return."
  },
  {
   "property": "C163",
   "status": "partial",
   "theorems": [
    "sock_listen_order_partial",
    "sock_listen_order_refuted"
   ],
   "note": "Refuted: only an address no socket can be made for is passed over; if setting up or binding fails the call fails, though the next address would do. The partial theorem says exactly which address is taken and when the call succeeds."
  },
  {
   "property": "C164",
   "status": "partial",
   "theorems": [
    "sock_fields_partial",
    "sock_fields_refuted"
   ],
   "note": "Refuted: a refused sc_sock_connect leaves the family of the last address tried, so that the same call again tries the addresses in another order; sc_sock_accept does not set the mode of the new structure. Proved otherwise."
  },
  {
   "property": "C165",
   "status": "partial",
   "theorems": [
    "sock_again_transfer",
    "sock_again_partial",
    "sock_again_refuted",
    "wsock_again_partial",
    "wsock_again_refuted"
   ],
   "note": "Proved for send and recv on POSIX. Refuted: a name that cannot be resolved leaves an EAGAIN of an earlier call in errno; on Windows no failure sets errno, so after one call that would block every failed send, recv, accept and connect looks like one that would block. Proved if errno was not EAGAIN before (and, on POSIX, no call but accept or connect itself fails with EAGAIN)."
  },
  {
   "property": "C166",
   "status": "proved",
   "theorems": [
    "waddr_listen",
    "waddr_listen_order",
    "waddr_connect",
    "waddr_mode",
    "waddr_accept"
   ],
   "note": ""
  },
  {
   "property": "C167",
   "status": "partial",
   "theorems": [
    "wmmap32_range_partial",
    "wmmap32_range_refuted",
    "wmmap32_resources"
   ],
   "note": "Refuted: the size of a file of 4 GB or more is cut to 32 bits, so mapping the whole of a file of 4 GB and 64 KB maps 64 KB and succeeds. Proved for smaller files and for given lengths; that nothing leaks is proved without restriction."
  },
  {
   "property": "C168",
   "status": "partial",
   "theorems": [
    "time32_partial",
    "time32_refuted",
    "perf32_partial",
    "sleep32_partial",
    "sleep32_long",
    "sleep32_refuted"
   ],
   "note": "Refuted: sc_time_ms multiplies in time_t and overflows (undefined) at any date since 1970-01-26, the clock of sc_perf overflows 2.1 seconds after the machine started, and sc_time_sleep cuts the milliseconds to 32 bits before dividing: from 24 days on it fails, and for 49 days it returns 0 after 0.3 seconds. The other functions are exact; the partial theorems say exactly from where on these fail."
  },
  {
   "property": "C169",
   "status": "proved",
   "theorems": [
    "perf_table",
    "perf_table_all",
    "perf_table_counts"
   ],
   "note": "The text is modelled byte by byte. perf_table: for all finite times, values and shares; perf_table_all: for all readings of the counters."
  },
  {
   "property": "C170",
   "status": "proved",
   "theorems": [
    "log_term_result"
   ],
   "note": ""
  }
 ]
}