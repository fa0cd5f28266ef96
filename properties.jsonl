{"id": "C01", "title": "Array behaves as a plain sequence", "statement": "After any history of add, del, del_unordered, del_last and clear calls that respect the documented index bounds, the size, every indexed read, last and the iteration order of a sc_array equal those of an ideal sequence (add appends, del removes position i and keeps order, del_unordered replaces position i by the last element, del_last drops the last, clear empties), and no access leaves the allocated block.", "quantifier": "every element type, every finite operation history, every pattern of allocation failures", "why_tests_cant": "the contents depend on the whole history and on where growth happens; a test runs a few histories", "anchors": ["array/sc_array.h:sc_array_add", "array/sc_array.h:sc_array_del", "array/sc_array.h:sc_array_del_unordered", "array/sc_array.h:sc_array_del_last", "array/sc_array.h:sc_array_clear", "array/sc_array.h:sc_array_at"]}
{"id": "C02", "title": "Failed array add is atomic and reported", "statement": "When sc_array_add cannot get memory the stored elements, size and capacity are unchanged and sc_array_oom is true; when it succeeds the element is stored and sc_array_oom is false; an add that needs no memory always succeeds; the byte count passed to realloc never wraps around.", "quantifier": "every array state reachable from init, every element, every allocation outcome and every element size", "why_tests_cant": "allocation can fail at any growth point of any history, and the size limit is near 2^64 bytes", "anchors": ["array/sc_array.h:sc_array_add", "array/sc_array.h:SC_ARRAY_MAX"]}
{"id": "C03", "title": "Array foreach visits each element once, in order, and honours break", "statement": "sc_array_foreach runs its body on the elements in index order, each exactly once, with the loop variable equal to the stored element, and stops right after an iteration whose body executes break; continue does not stop it.", "quantifier": "every array content and every loop body (any decision to continue or break)", "why_tests_cant": "the macro is two nested loops whose flag interplay must be right for every body behaviour", "anchors": ["array/sc_array.h:sc_array_foreach"]}
{"id": "C04", "title": "Heap is a priority queue", "statement": "After any history of successful adds and pops, pop and peek return an entry whose key is minimal among the entries present, pop removes exactly one occurrence of the entry it returns, peek and pop on an empty heap return NULL, and sc_heap_size is the number of entries present.", "quantifier": "every finite history of add, pop, peek and clear with every key and data value (allocations succeed)", "why_tests_cant": "heap order must survive every insertion order and every interleaving of pops", "anchors": ["heap/sc_heap.c:sc_heap_add", "heap/sc_heap.c:sc_heap_pop", "heap/sc_heap.c:sc_heap_peek", "heap/sc_heap.c:sc_heap_clear"]}
{"id": "C05", "title": "Popping a heap until empty sorts it", "statement": "Adding any list of entries to an empty heap and popping until NULL yields a permutation of that list in non-decreasing key order.", "quantifier": "every finite list of (key, data) entries", "why_tests_cant": "all permutations and duplicate patterns of all lengths", "anchors": ["heap/sc_heap.c:sc_heap_add", "heap/sc_heap.c:sc_heap_pop"]}
{"id": "C06", "title": "Heap never touches memory it does not own", "statement": "Starting from init with any capacity, no history of adds (that succeed), pops, peeks and clears reads an unwritten slot or reads or writes outside the allocated block.", "quantifier": "every initial capacity, every history whose allocations succeed", "why_tests_cant": "bounds depend on capacity growth and on the sift paths of every history", "anchors": ["heap/sc_heap.c:sc_heap_init", "heap/sc_heap.c:sc_heap_add", "heap/sc_heap.c:sc_heap_pop"]}
{"id": "C07", "title": "A failed heap add leaves the heap unchanged", "statement": "When sc_heap_add returns false because memory could not be obtained, the heap still holds exactly the entries it held before, with the same size, and can be used further.", "quantifier": "every heap state and every failing allocation", "why_tests_cant": "requires failing the allocation in every state and then continuing with every history", "anchors": ["heap/sc_heap.c:sc_heap_add"]}
{"id": "C08", "title": "Queue behaves as a double-ended sequence", "statement": "After any history of add_first, add_last, del_first, del_last, inc_first-free accesses and clear, size, empty, at(i), peek_first and peek_last equal those of an ideal double-ended sequence, deletions return the right element, and no access leaves the allocated ring, across every wrap-around and growth.", "quantifier": "every element type, every operation history respecting the non-empty preconditions, every allocation pattern", "why_tests_cant": "the ring position (first, last) at the moment of growth takes unboundedly many values", "anchors": ["queue/sc_queue.h:sc_queue_add_last", "queue/sc_queue.h:sc_queue_add_first", "queue/sc_queue.h:sc_queue_del_first", "queue/sc_queue.h:sc_queue_del_last", "queue/sc_queue.h:sc_queue_expand", "queue/sc_queue.h:sc_queue_at"]}
{"id": "C09", "title": "Failed queue add is atomic and reported", "statement": "An add that cannot grow the ring leaves the stored sequence unchanged and sets sc_queue_oom; whenever an add leaves sc_queue_oom false the element was stored at the requested end.", "quantifier": "every reachable queue state and every allocation outcome", "why_tests_cant": "failure can strike at any growth point of any history", "anchors": ["queue/sc_queue.h:sc_queue_expand", "queue/sc_queue.h:sc_queue_add_last", "queue/sc_queue.h:sc_queue_add_first"]}
{"id": "C10", "title": "Queue accepts elements again once there is room", "statement": "After a failed add, an add made while the ring has a free slot (for example after deleting an element) stores its element.", "quantifier": "every history containing a failed growth", "why_tests_cant": "needs a failure followed by an arbitrary continuation", "anchors": ["queue/sc_queue.h:sc_queue_expand", "queue/sc_queue.h:sc_queue_add_last"]}
{"id": "C11", "title": "Queue foreach visits elements front to back once", "statement": "sc_queue_foreach runs its body once per stored element, from first to last, also when the ring wraps, and stops on break.", "quantifier": "every reachable ring layout and every loop body", "why_tests_cant": "layouts with every wrap position and size", "anchors": ["queue/sc_queue.h:sc_queue_foreach"]}
{"id": "C12", "title": "Linked list behaves as a sequence of nodes", "statement": "After any history of add_head, add_tail, add_after, add_before, pop_head, pop_tail, del and clear, following the list forwards gives the ideal sequence, following it backwards gives its reverse, head/tail/is_empty/count agree with it, and only initialised nodes are ever dereferenced.", "quantifier": "every set of lists and nodes, every operation history on initialised nodes", "why_tests_cant": "pointer surgery must be right for every neighbour configuration (including one- and zero-element lists)", "anchors": ["linked-list/sc_list.c:sc_list_add_head", "linked-list/sc_list.c:sc_list_add_tail", "linked-list/sc_list.c:sc_list_add_after", "linked-list/sc_list.c:sc_list_add_before", "linked-list/sc_list.c:sc_list_pop_head", "linked-list/sc_list.c:sc_list_pop_tail", "linked-list/sc_list.c:sc_list_del", "linked-list/sc_list.c:sc_list_clear"]}
{"id": "C13", "title": "Adding a linked node moves it", "statement": "Adding a node that is currently in the same or in another list first removes it from where it was; every list not involved keeps exactly its sequence; deleting a node that is in no list changes nothing.", "quantifier": "every partition of nodes into lists and every node/list/position arguments", "why_tests_cant": "aliasing patterns between the node, its neighbours and the insertion point", "anchors": ["linked-list/sc_list.c:sc_list_add_tail", "linked-list/sc_list.c:sc_list_add_after", "linked-list/sc_list.c:sc_list_del"]}
{"id": "C14", "title": "List iteration covers the list, safely under deletion", "statement": "The forward and reverse foreach macros visit exactly the nodes of the list in (reverse) order, and the _safe variants still visit every node once when the body deletes the node it is visiting.", "quantifier": "every list content and every choice of visited nodes to delete", "why_tests_cant": "all subsets of deletions at all lengths", "anchors": ["linked-list/sc_list.h:sc_list_foreach", "linked-list/sc_list.h:sc_list_foreach_safe", "linked-list/sc_list.h:sc_list_foreach_r", "linked-list/sc_list.h:sc_list_foreach_safe_r"]}
{"id": "C15", "title": "Hash map behaves as a finite map", "statement": "After any history of put, get, del and clear, get returns the value of the last put of that key that was not deleted since, put returns the previous value, del returns the removed value, sc_map_found tells whether a value existed, for every key including 0/NULL.", "quantifier": "every key type with its hash and equality, every history, every load factor the init accepts, every collision pattern", "why_tests_cant": "correctness of probing and back-shift deletion depends on the collision pattern of the whole history", "anchors": ["map/sc_map.c:sc_map_put", "map/sc_map.c:sc_map_get", "map/sc_map.c:sc_map_del", "map/sc_map.c:sc_map_remap", "map/sc_map.c:sc_map_clear"]}
{"id": "C16", "title": "Map size counts the keys", "statement": "sc_map_size equals the number of distinct keys currently present after every history.", "quantifier": "every history of put, del and clear", "why_tests_cant": "counts can drift by one on some path only", "anchors": ["map/sc_map.c:sc_map_size", "map/sc_map.c:sc_map_put", "map/sc_map.c:sc_map_del"]}
{"id": "C17", "title": "Map foreach visits each binding exactly once", "statement": "sc_map_foreach enumerates exactly the present (key, value) pairs, each once, including the pair for key 0/NULL, stops on break, and foreach_key / foreach_value enumerate the same keys / values.", "quantifier": "every reachable map and every loop body", "why_tests_cant": "all table layouts", "anchors": ["map/sc_map.h:sc_map_foreach", "map/sc_map.h:sc_map_foreach_key", "map/sc_map.h:sc_map_foreach_value"]}
{"id": "C18", "title": "Map probing always terminates inside the table", "statement": "In every reachable map the occupied slots are fewer than the capacity, so put, get, del and rehashing finish and never index outside the table.", "quantifier": "every reachable map and every key", "why_tests_cant": "an endless probe needs a full table, which depends on the floating-point threshold for every capacity and load factor", "anchors": ["map/sc_map.c:sc_map_remap", "map/sc_map.c:sc_map_get", "map/sc_map.c:sc_map_init"]}
{"id": "C19", "title": "Failed map put is atomic and reported", "statement": "When a put cannot allocate a bigger table it returns 0, sets sc_map_oom and leaves every binding and the size unchanged; a put that succeeds clears sc_map_oom.", "quantifier": "every reachable map, key, value and allocation outcome", "why_tests_cant": "failure at every rehash point of every history", "anchors": ["map/sc_map.c:sc_map_put", "map/sc_map.c:sc_map_remap", "map/sc_map.c:sc_map_alloc"]}
{"id": "C20", "title": "String-keyed maps compare contents", "statement": "For string-keyed maps two key pointers denote the same entry exactly when their contents are equal, whatever their addresses, even when different contents have equal hashes.", "quantifier": "every pair of strings, including colliding hashes", "why_tests_cant": "hash collisions for arbitrary string contents", "anchors": ["map/sc_map.c:sc_map_cmp_str", "map/sc_map.c:murmurhash"]}
{"id": "C21", "title": "Map init honours its contract for every capacity", "statement": "sc_map_init either returns false or yields an empty map on which every operation is safe, for every requested capacity; it accepts exactly load factor 0 and 25..95.", "quantifier": "every 32-bit capacity and load factor", "why_tests_cant": "2^32 x 2^32 arguments, with wrap-around at the top", "anchors": ["map/sc_map.c:sc_map_init", "map/sc_map.c:sc_map_alloc"]}
{"id": "C22", "title": "Typed buffer round trip", "statement": "Writing any sequence of typed values (bool, 8/16/32/64-bit integers, double bit patterns, strings including NULL, blobs) to an empty growable buffer and reading with the same types returns the same values in order, leaves the buffer empty and raises no error.", "quantifier": "every finite sequence of typed values (allocations succeed, total size below the limit)", "why_tests_cant": "value sequences are unbounded and cross growth boundaries", "anchors": ["buffer/sc_buf.c:sc_buf_put_8", "buffer/sc_buf.c:sc_buf_put_16", "buffer/sc_buf.c:sc_buf_put_32", "buffer/sc_buf.c:sc_buf_put_64", "buffer/sc_buf.c:sc_buf_put_str", "buffer/sc_buf.c:sc_buf_put_blob", "buffer/sc_buf.c:sc_buf_get_str", "buffer/sc_buf.c:sc_buf_get_64"]}
{"id": "C23", "title": "Buffer integers are little-endian in place", "statement": "set_N_at followed by peek_N_at at the same offset returns the value, the bytes laid down are the little-endian representation, and no byte outside the N/8 bytes changes; out-of-range positions change nothing and flag an error.", "quantifier": "every buffer, offset and value", "why_tests_cant": "all offsets including the ends of the buffer", "anchors": ["buffer/sc_buf.c:sc_buf_set_16_at", "buffer/sc_buf.c:sc_buf_set_32_at", "buffer/sc_buf.c:sc_buf_set_64_at", "buffer/sc_buf.c:sc_buf_peek_64_at"]}
{"id": "C24", "title": "Buffer errors are sticky", "statement": "Once sc_buf_valid is false, typed getters and raw/integer putters return zero/NULL, move no position and change no stored byte until the buffer is cleared.", "quantifier": "every buffer with an error flag and every later operation", "why_tests_cant": "every error position and every continuation", "anchors": ["buffer/sc_buf.c:sc_buf_valid", "buffer/sc_buf.c:sc_buf_get_8", "buffer/sc_buf.c:sc_buf_put_raw"]}
{"id": "C25", "title": "Length helpers predict encoded size", "statement": "A successful typed put advances the write position by exactly the value reported by the matching sc_buf_*_len helper.", "quantifier": "every typed value and every buffer state", "why_tests_cant": "all values including NULL strings and empty blobs", "anchors": ["buffer/sc_buf.h:sc_buf_str_len", "buffer/sc_buf.h:sc_buf_blob_len", "buffer/sc_buf.c:sc_buf_put_str"]}
{"id": "C26", "title": "Growth and compaction preserve unread data", "statement": "reserve, shrink and compact never change the unread bytes; a successful reserve makes at least the requested room; a failed one changes nothing but the error flag.", "quantifier": "every buffer state, every requested length, every allocation outcome", "why_tests_cant": "arithmetic near 2^64 and every position pattern", "anchors": ["buffer/sc_buf.c:sc_buf_reserve", "buffer/sc_buf.c:sc_buf_compact", "buffer/sc_buf.c:sc_buf_shrink"]}
{"id": "C27", "title": "Buffers respect their limit and borrowed memory", "statement": "Writes never make the capacity exceed the configured limit and never reallocate memory the buffer does not own (SC_BUF_REF).", "quantifier": "every history of writes and shrink calls", "why_tests_cant": "every combination of mode, limit and size", "anchors": ["buffer/sc_buf.c:sc_buf_reserve", "buffer/sc_buf.c:sc_buf_limit", "buffer/sc_buf.c:sc_buf_shrink"]}
{"id": "C28", "title": "Reading untrusted bytes never escapes the buffer", "statement": "For any buffer contents, any sequence of typed reads keeps rpos <= wpos, never moves the read position backwards and returns only strings/blobs lying inside the unread data; otherwise the error flag is set.", "quantifier": "every byte content and every sequence of typed reads", "why_tests_cant": "2^64 possible length prefixes at any position", "anchors": ["buffer/sc_buf.c:sc_buf_get_str", "buffer/sc_buf.c:sc_buf_get_blob", "buffer/sc_buf.c:sc_buf_get_data"]}
{"id": "C29", "title": "Moving bytes between buffers conserves them", "statement": "sc_buf_move transfers a prefix of the source's unread bytes to the end of the destination: destination unread ++ source unread is unchanged as a byte sequence, and the copied amount is the minimum of what is available and what fits.", "quantifier": "every pair of buffers", "why_tests_cant": "all size/quota combinations and error states", "anchors": ["buffer/sc_buf.c:sc_buf_move"]}
{"id": "C30", "title": "Formatted puts succeed whenever memory is available", "statement": "sc_buf_put_fmt stores the formatted text (length prefix, bytes, NUL) whenever the buffer can grow enough; sc_buf_put_text concatenates texts into one NUL-terminated text.", "quantifier": "every formatted text, every buffer state with enough memory", "why_tests_cant": "off-by-one at the exact capacity for every length", "anchors": ["buffer/sc_buf.c:sc_buf_put_fmt", "buffer/sc_buf.c:sc_buf_put_text"]}
{"id": "C31", "title": "Timers never fire early", "statement": "Whenever the callback is invoked for a timer, the timestamp given to sc_timer_timeout is at least the timer's creation-time timestamp plus its timeout.", "quantifier": "every history of add, cancel and timeout calls with non-decreasing timestamps, callbacks that add and cancel timers included", "why_tests_cant": "depends on wheel position arithmetic over whole histories", "anchors": ["timer/sc_timer.c:sc_timer_add", "timer/sc_timer.c:sc_timer_timeout"]}
{"id": "C32", "title": "Each timer fires at most once, with its own data; cancelled timers never fire", "statement": "A timer produces at most one callback, carrying exactly its type, data and deadline, and after cancelling it (by its id while pending) it never fires; other pending timers are unaffected.", "quantifier": "every history", "why_tests_cant": "slot reuse and table expansion at arbitrary moments", "anchors": ["timer/sc_timer.c:sc_timer_add", "timer/sc_timer.c:sc_timer_cancel", "timer/sc_timer.c:sc_timer_expand", "timer/sc_timer.c:sc_timer_timeout"]}
{"id": "C33", "title": "Timer ids are unique and stable", "statement": "Ids of simultaneously pending timers are distinct, are never SC_TIMER_INVALID, and keep denoting the same timer when the table is expanded.", "quantifier": "every history of adds, cancels, expansions", "why_tests_cant": "expansion moves every timer; all occupancy patterns", "anchors": ["timer/sc_timer.c:sc_timer_add", "timer/sc_timer.c:sc_timer_expand"]}
{"id": "C34", "title": "Timer lateness is bounded", "statement": "If a timer is still pending after a sc_timer_timeout call at timestamp now, then now is less than its deadline plus a fixed bound (wheel revolutions times twice the tick), so every timer eventually fires when polled.", "quantifier": "every polling schedule with non-decreasing timestamps and every set of timers", "why_tests_cant": "arbitrary call spacings accumulate truncated remainders", "anchors": ["timer/sc_timer.c:sc_timer_timeout"]}
{"id": "C35", "title": "A due timer fires at the next poll", "statement": "A sc_timer_timeout call whose timestamp is at least one tick past a pending timer's deadline fires that timer.", "quantifier": "every polling schedule", "why_tests_cant": "depends on the spacing of all earlier polls", "anchors": ["timer/sc_timer.c:sc_timer_timeout"]}
{"id": "C36", "title": "sc_timer_timeout returns a usable poll interval", "statement": "The returned value never exceeds one tick (16 ms), so a caller that sleeps that long always polls again within a tick.", "quantifier": "every state and timestamp", "why_tests_cant": "unsigned wrap-around of the subtraction for every elapsed time", "anchors": ["timer/sc_timer.c:sc_timer_timeout"]}
{"id": "C37", "title": "Length-prefixed strings hold their content", "statement": "create/create_len/set/append/dup/cmp/len behave as the corresponding byte-sequence operations, keep the NUL terminator, and a failing operation leaves the original string untouched.", "quantifier": "every string content and every allocation outcome", "why_tests_cant": "all lengths and failure points", "anchors": ["string/sc_str.c:sc_str_create_len", "string/sc_str.c:sc_str_append", "string/sc_str.c:sc_str_cmp", "string/sc_str.c:sc_str_dup", "string/sc_str.c:sc_str_set"]}
{"id": "C38", "title": "Substring and trim are exact", "statement": "sc_str_substring(start,end) yields bytes [start,end) or fails exactly when the range is invalid; sc_str_trim removes exactly the leading and trailing characters of the list.", "quantifier": "every NUL-free string, range and trim list", "why_tests_cant": "all boundary positions", "anchors": ["string/sc_str.c:sc_str_substring", "string/sc_str.c:sc_str_trim"]}
{"id": "C39", "title": "Replace substitutes every non-overlapping occurrence, leftmost first", "statement": "For a non-empty pattern sc_str_replace produces the text obtained by scanning left to right and substituting each occurrence, never scanning the substituted text, for shorter, equal and longer replacements, without writing outside the destination.", "quantifier": "every text, pattern and replacement", "why_tests_cant": "overlaps and sizes in every combination", "anchors": ["string/sc_str.c:sc_str_replace"]}
{"id": "C40", "title": "Replace always terminates", "statement": "sc_str_replace returns for every pattern and replacement.", "quantifier": "every text, pattern and replacement, including empty ones", "why_tests_cant": "a test that hits the loop never returns", "anchors": ["string/sc_str.c:sc_str_replace"]}
{"id": "C41", "title": "Tokenising yields the split and restores the string", "statement": "Repeated sc_str_token_begin calls yield exactly the maximal delimiter-free pieces in order, and the string holds its original bytes after the loop finishes or after sc_str_token_end at any stopping point.", "quantifier": "every NUL-free string, every delimiter set, every stopping point", "why_tests_cant": "unbounded strings and all stopping points", "anchors": ["string/sc_str.c:sc_str_token_begin", "string/sc_str.c:sc_str_token_end"]}
{"id": "C42", "title": "Software CRC equals the CRC-32C definition", "statement": "sc_crc32 (software path) of any buffer equals the bit-by-bit CRC-32C, whatever the buffer's length and alignment.", "quantifier": "every initial value, buffer content, length and start alignment", "why_tests_cant": "2^(8n) inputs at 8 alignments", "anchors": ["crc32/sc_crc32.c:crc32_sw_le", "crc32/sc_crc32.c:crc32_init_sw_le"]}
{"id": "C43", "title": "CRC can be computed piecewise", "statement": "sc_crc32(sc_crc32(c, a), b) equals sc_crc32(c, a followed by b).", "quantifier": "every initial value and every pair of buffers", "why_tests_cant": "all splits of all buffers", "anchors": ["crc32/sc_crc32.c:sc_crc32"]}
{"id": "C44", "title": "Hardware and software CRC agree", "statement": "The three-stream SSE4.2 implementation returns the same value as the software implementation.", "quantifier": "every initial value, buffer, length and alignment", "why_tests_cant": "requires buffers of every length around the 3x2048 and 3x256 block sizes", "anchors": ["crc32/sc_crc32.c:crc32_hw", "crc32/sc_crc32.c:crc32_zeros", "crc32/sc_crc32.c:crc32_shift"]}
{"id": "C45", "title": "Power-of-two helpers are exact", "statement": "sc_is_pow2(n) is true exactly when n is a power of two and sc_to_pow2(n) is the least power of two >= n (for n <= 2^63).", "quantifier": "every 64-bit n", "why_tests_cant": "2^64 inputs", "anchors": ["sc/sc.c:sc_is_pow2", "sc/sc.c:sc_to_pow2"]}
{"id": "C46", "title": "Random stream does not depend on read sizes", "statement": "Reading n then m bytes from sc_rand gives the same bytes and final state as reading n+m; the internal table stays a permutation of the seed table; non-positive sizes read nothing.", "quantifier": "every seed and every sequence of read sizes", "why_tests_cant": "unbounded streams and splits", "anchors": ["sc/sc.c:sc_rand_read", "sc/sc.c:sc_rand_init"]}
{"id": "C47", "title": "Size strings are parsed exactly or rejected", "statement": "sc_size_to_bytes returns number times unit for a decimal number followed by an optional b/k/kb/m/mb/g/gb/t/tb/p/pb unit (any case), sets an error on any other suffix or on overflow, and never overflows.", "quantifier": "every string", "why_tests_cant": "all magnitudes and units", "anchors": ["sc/sc.c:sc_size_to_bytes"]}
{"id": "C48", "title": "INI parsing reports exactly the items", "statement": "sc_ini_parse_string on a text rendered from sections and key/value items reports exactly those items in order with their section, key, value and line number, and never accesses memory outside its line buffer for any input.", "quantifier": "every list of sections/items; every input text for memory safety", "why_tests_cant": "unbounded texts", "anchors": ["ini/sc_ini.c:sc_ini_parse", "ini/sc_ini.c:sc_ini_parse_string", "ini/sc_ini.c:sc_ini_trim_comment", "ini/sc_ini.c:sc_ini_trim_space"]}
{"id": "C49", "title": "INI parse result codes", "statement": "The parser returns 0 exactly when every line is accepted and every callback returned 0, otherwise it returns the number of the first offending line and makes no further callbacks.", "quantifier": "every text and every callback behaviour", "why_tests_cant": "all positions of the first error", "anchors": ["ini/sc_ini.c:sc_ini_parse"]}
{"id": "C50", "title": "Option lookup finds the first matching option", "statement": "sc_option_at returns the letter of the first declared option matching -x or --name (with or without =value) and the value text after '=', and '?' when nothing matches.", "quantifier": "every option table and argument vector", "why_tests_cant": "all tables and arguments", "anchors": ["option/sc_option.c:sc_option_at"]}
{"id": "C51", "title": "URI parts round trip", "statement": "For well-formed components without reserved delimiters, parsing scheme:[//[userinfo@]host[:port]]path[?query][#fragment] returns exactly those components and str equal to the input.", "quantifier": "every tuple of component strings", "why_tests_cant": "unbounded component combinations", "anchors": ["uri/sc_uri.c:sc_uri_create"]}
{"id": "C52", "title": "URI str equals the parsed text", "statement": "Whenever sc_uri_create succeeds, the str field equals the input text.", "quantifier": "every input string", "why_tests_cant": "all placements of delimiters", "anchors": ["uri/sc_uri.c:sc_uri_create"]}
{"id": "C53", "title": "Signal-safe formatting is a truncated exact rendering", "statement": "sc_signal_vsnprintf writes the prefix, of at most size-1 bytes, of the exact rendering of its format and arguments followed by NUL, returns the number of bytes before the NUL and writes nothing beyond size.", "quantifier": "every format string, argument list and size >= 1", "why_tests_cant": "all values, formats and truncation points", "anchors": ["signal/sc_signal.c:sc_signal_vsnprintf"]}
{"id": "C54", "title": "Condition variable is a one-slot mailbox", "statement": "In every interleaving of signallers and waiters with spurious wakeups, each sc_cond_wait returns the data of the latest sc_cond_signal that was not consumed yet, each signal is consumed at most once, and a signal sent before the wait is not lost.", "quantifier": "every number of threads, every schedule, every spurious wakeup", "why_tests_cant": "schedules cannot be enumerated", "anchors": ["condition/sc_cond.c:sc_cond_signal", "condition/sc_cond.c:sc_cond_wait"]}
{"id": "C55", "title": "No lost wakeup", "statement": "In every reachable state with an unconsumed signal and a blocked waiter, some waiter is able to run (no deadlock).", "quantifier": "every reachable state of every interleaving", "why_tests_cant": "a lost wakeup shows up on rare schedules only", "anchors": ["condition/sc_cond.c:sc_cond_signal", "condition/sc_cond.c:sc_cond_wait"]}
{"id": "C56", "title": "Poll registration matches the kernel", "statement": "After any history of sc_sock_poll_add / sc_sock_poll_del with any system call failures, the fd's recorded event mask equals what the kernel has registered (nothing registered exactly when the mask is empty).", "quantifier": "every history and every failure pattern", "why_tests_cant": "failure at every call of every history", "anchors": ["socket/sc_sock.c:sc_sock_poll_add", "socket/sc_sock.c:sc_sock_poll_del"]}
{"id": "C57", "title": "Sockets are not leaked on failure", "statement": "When listen, accept or connect fails, every descriptor it opened has been closed exactly once and the structure holds an invalid descriptor; on success exactly one stays open.", "quantifier": "every outcome of every system call and every resolved address list", "why_tests_cant": "all failure points", "anchors": ["socket/sc_sock.c:sc_sock_connect", "socket/sc_sock.c:sc_sock_bind", "socket/sc_sock.c:sc_sock_listen", "socket/sc_sock.c:sc_sock_accept"]}
{"id": "C58", "title": "Socket timeouts are set as requested", "statement": "sc_sock_set_rcvtimeo/sndtimeo(ms) pass a timeval denoting ms milliseconds.", "quantifier": "every non-negative ms", "why_tests_cant": "tests do not measure the timeouts", "anchors": ["socket/sc_sock.c:sc_sock_set_rcvtimeo", "socket/sc_sock.c:sc_sock_set_sndtimeo"]}
{"id": "C59", "title": "Memory map descriptor discipline", "statement": "sc_mmap_init closes the file exactly once on every failure path and keeps it open on success; term unmaps and closes once and is idempotent.", "quantifier": "every outcome of every system call", "why_tests_cant": "all failure points", "anchors": ["memory-map/sc_mmap.c:sc_mmap_init", "memory-map/sc_mmap.c:sc_mmap_term"]}
{"id": "C60", "title": "msync covers the requested range", "statement": "A successful sc_mmap_msync(offset, len) flushes every page intersecting [offset, offset+len).", "quantifier": "every offset and length inside the mapping", "why_tests_cant": "needs power loss to observe", "anchors": ["memory-map/sc_mmap.c:sc_mmap_msync"]}
{"id": "C61", "title": "Log level filter and delivery", "statement": "A message below the current level reaches no sink; any other message reaches each enabled sink exactly once, in call order.", "quantifier": "every history of configuration and log calls", "why_tests_cant": "all configurations and histories", "anchors": ["logger/sc_log.c:sc_log_log", "logger/sc_log.c:sc_log_set_level"]}
{"id": "C62", "title": "Log rotation keeps the newest messages", "statement": "Across every history of messages, the concatenation of the previous and the current log file is a suffix of the message stream, and rotation happens exactly when the message bytes of the current file exceed the limit.", "quantifier": "every sequence of message sizes", "why_tests_cant": "unbounded histories", "anchors": ["logger/sc_log.c:sc_log_file"]}
{"id": "C63", "title": "Sleep lasts the requested time", "statement": "sc_time_sleep returns 0 only after the sum of the slept intervals equals the requested milliseconds, whatever interruptions occur.", "quantifier": "every pattern of EINTR interruptions and every duration", "why_tests_cant": "signals at arbitrary moments", "anchors": ["time/sc_time.c:sc_time_sleep"]}
{"id": "C64", "title": "Cancelling a timer that has already fired is harmless", "statement": "sc_timer_cancel with an id whose timer has fired or was cancelled before changes no other pending timer.", "quantifier": "every history that keeps old ids", "why_tests_cant": "needs slot reuse between the firing and the cancel", "anchors": ["timer/sc_timer.c:sc_timer_cancel"]}
{"id": "C65", "title": "CRC detects error bursts", "statement": "Two buffers whose bits differ only within a window of at most 32 consecutive bits have different sc_crc32 checksums, in every build (software little and big endian, hardware).", "quantifier": "every initial value, every pair of buffers, every position of the window and every alignment", "why_tests_cant": "2^32 error patterns at every position of every message", "anchors": ["crc32/sc_crc32.c:sc_crc32", "crc32/sc_crc32.c:sc_crc32_init"]}
{"id": "C66", "title": "CRC detects flipped bits", "statement": "Two buffers of the same length have different sc_crc32 checksums if they differ in an odd number of bits, or in one, two or three bits of at most 2^31 - 1.", "quantifier": "every initial value, every pair of buffers, every set of flipped bits, every build", "why_tests_cant": "pairs of positions in 256 MiB messages cannot be enumerated", "anchors": ["crc32/sc_crc32.c:sc_crc32", "crc32/sc_crc32.c:sc_crc32_init"]}
{"id": "C67", "title": "Buffer positions move exactly", "statement": "sc_buf_set_rpos and sc_buf_set_wpos put exactly the given position if it lies in the buffer's range and otherwise change nothing but the error flag; sc_buf_mark_read drops exactly the first bytes of the unread data and sc_buf_mark_write appends exactly the bytes behind it.", "quantifier": "every buffer state and every 64-bit position or amount", "why_tests_cant": "all 64-bit positions, including those just outside the range", "anchors": ["buffer/sc_buf.c:sc_buf_set_rpos", "buffer/sc_buf.c:sc_buf_set_wpos", "buffer/sc_buf.c:sc_buf_mark_read", "buffer/sc_buf.c:sc_buf_mark_write"]}
{"id": "C68", "title": "Byte counts print as rounded sizes", "statement": "sc_bytes_to_size prints a value below 1024 exactly and any other value in the unit KB..EB that puts it between 1.00 and 1023.95, within 0.6 hundredths of the unit; it returns buf exactly when the text and its NUL fit and never writes more than len bytes.", "quantifier": "every 64-bit value, every buffer length", "why_tests_cant": "2^64 values; the unit thresholds are rounding boundaries", "anchors": ["sc/sc.c:sc_bytes_to_size"]}
{"id": "C69", "title": "Random bytes are the RC4 stream of the seed", "statement": "sc_rand_init and sc_rand_read compute RC4's key schedule and output from the 256 seed bytes, and every byte delivered is one of the seed bytes.", "quantifier": "every seed, every read size", "why_tests_cant": "unbounded streams", "anchors": ["sc/sc.c:sc_rand_init", "sc/sc.c:sc_rand_read"]}
{"id": "C70", "title": "Shutdown signals: one byte, then exit", "statement": "The shutdown handler logs the signal; the first signal writes exactly one byte to sc_signal_shutdown_fd and preserves errno, with no descriptor the process exits with 0, with a failed write it exits with 1, and a second signal makes it exit with 1.", "quantifier": "every signal number, every handler state, every write outcome, any number of deliveries (not nested)", "why_tests_cant": "the failing write and the second signal end the process", "anchors": ["signal/sc_signal.c:sc_signal_on_shutdown"]}
{"id": "C71", "title": "Signal-safe log writes exactly the rendering", "statement": "sc_signal_log passes exactly the rendering of its format and arguments to one write call on the given descriptor.", "quantifier": "every format, argument list, descriptor and buffer the rendering fits in", "why_tests_cant": "all formats and values", "anchors": ["signal/sc_signal.c:sc_signal_log"]}
{"id": "C72", "title": "Condition object resources", "statement": "sc_cond_init leaves exactly a mutex and a condition variable on success and nothing on failure, returning -1 with errno set; sc_cond_term destroys both, is idempotent and returns 0 exactly when both calls succeed.", "quantifier": "every outcome of every pthread call", "why_tests_cant": "pthread failures cannot be provoked at every call", "anchors": ["condition/sc_cond.c:sc_cond_init", "condition/sc_cond.c:sc_cond_term"]}
{"id": "C73", "title": "Mutex wrapper resources", "statement": "sc_mutex_init creates exactly one mutex and returns 0, or none and returns -1; no attribute object stays behind; sc_mutex_term returns 0 exactly when the mutex was destroyed.", "quantifier": "every outcome of every pthread call", "why_tests_cant": "pthread failures cannot be provoked at every call", "anchors": ["mutex/sc_mutex.c:sc_mutex_init", "mutex/sc_mutex.c:sc_mutex_term"]}
{"id": "C74", "title": "Clock readings are exact and monotone", "statement": "sc_time_ms and sc_time_mono_ms return the whole milliseconds of the clock, sc_time_ns and sc_time_mono_ns its nanoseconds; the monotonic ones never decrease while the clock does not.", "quantifier": "every clock value whose result fits in 64 bits", "why_tests_cant": "all clock values", "anchors": ["time/sc_time.c:sc_time_ms", "time/sc_time.c:sc_time_mono_ms"]}
{"id": "C75", "title": "Threads are joined once and give their value", "statement": "In every history of sc_thread_start, join and term on one object, every thread started is joined at most once, the join returns its value, a join with nothing running returns 0 and NULL, and no thread is left behind after term.", "quantifier": "every history and every outcome of the pthread calls", "why_tests_cant": "histories are unbounded and creation failures rare", "anchors": ["thread/sc_thread.c:sc_thread_start", "thread/sc_thread.c:sc_thread_join", "thread/sc_thread.c:sc_thread_term"]}
{"id": "C76", "title": "Thread error text", "statement": "After a failing call sc_thread_err is the system's message, cut at 127 bytes and NUL-terminated.", "quantifier": "every message", "why_tests_cant": "long messages do not occur in tests", "anchors": ["thread/sc_thread.c:sc_thread_start", "thread/sc_thread.c:sc_thread_err"]}
{"id": "C77", "title": "The mapping covers what was asked for", "statement": "A successful sc_mmap_init maps exactly the requested range (the rest of the file for length 0), and with PROT_WRITE only after the file was extended to offset + len.", "quantifier": "every offset, length, file size and outcome of the system calls", "why_tests_cant": "failure and interruption at every call", "anchors": ["memory-map/sc_mmap.c:sc_mmap_init"]}
{"id": "C78", "title": "The log call's return value", "statement": "sc_log_* returns 0 exactly when the message is below the level or every enabled sink (console, file including reopening after rotation, callback) took it; a message below the level changes nothing.", "quantifier": "every reachable state, message and outcome of the output calls", "why_tests_cant": "output failures are not provoked", "anchors": ["logger/sc_log.c:sc_log_log", "logger/sc_log.c:sc_log_stdout", "logger/sc_log.c:sc_log_file"]}
{"id": "C79", "title": "Log level names", "statement": "sc_log_set_level accepts exactly DEBUG, INFO, WARN, ERROR and OFF in any mixture of cases, sets that level and nothing else; any other string is refused and changes nothing.", "quantifier": "every string", "why_tests_cant": "unbounded strings", "anchors": ["logger/sc_log.c:sc_log_set_level", "logger/sc_log.c:sc_strcasecmp"]}
{"id": "C80", "title": "Selecting the log file", "statement": "sc_log_set_file returns 0 exactly when logging to a file was switched off or both names fit and the file was opened, written and measured; afterwards file logging is on exactly in the latter case, to the named file; errors set errno.", "quantifier": "every reachable state, pair of names and outcome of the system calls", "why_tests_cant": "failure points and name lengths", "anchors": ["logger/sc_log.c:sc_log_set_file"]}
{"id": "C81", "title": "Sockets get the blocking mode asked for", "statement": "The descriptor produced by a successful sc_sock_listen, sc_sock_connect or sc_sock_accept is in the blocking mode the socket (for accept: the listening socket) was initialised with.", "quantifier": "every family, mode, address list and outcome of the system calls", "why_tests_cant": "all failure patterns and address lists", "anchors": ["socket/sc_sock.c:sc_sock_listen", "socket/sc_sock.c:sc_sock_connect", "socket/sc_sock.c:sc_sock_accept", "socket/sc_sock.c:sc_sock_set_blocking"]}
{"id": "C82", "title": "Addresses are tried in order", "statement": "sc_sock_connect tries the addresses the name resolves to in the order given, those of the socket's family first, each at most once, stops at the first that accepts, and fails only after all of them were refused (or a set-up call failed).", "quantifier": "every address list and outcome of the system calls", "why_tests_cant": "names resolving to many addresses with partial failures", "anchors": ["socket/sc_sock.c:sc_sock_connect"]}
{"id": "C83", "title": "Send, receive and finish-connect results", "statement": "sc_sock_send and sc_sock_recv are repeated while interrupted, return the count transferred, and map end of file, EAGAIN and other errors to -1 with errno and error text; sc_sock_finish_connect reports exactly the socket's pending error.", "quantifier": "every sequence of system call outcomes", "why_tests_cant": "interruptions and errors at every point", "anchors": ["socket/sc_sock.c:sc_sock_send", "socket/sc_sock.c:sc_sock_recv", "socket/sc_sock.c:sc_sock_finish_connect"]}
{"id": "C84", "title": "Unix socket paths are used as given", "statement": "A Unix socket listens on or connects to exactly the path given; a path that does not fit the address structure is refused.", "quantifier": "every path", "why_tests_cant": "long paths are not tried", "anchors": ["socket/sc_sock.c:sc_sock_bind_unix", "socket/sc_sock.c:sc_sock_connect_unix"]}
{"id": "C85", "title": "Polling a socket that was closed and opened again", "statement": "After a socket structure used with a poller is closed (sc_sock_term) and connected again, sc_sock_poll_add registers the new descriptor for the events asked for.", "quantifier": "every socket state, address list and event mask", "why_tests_cant": "reuse of structures with every registration state", "anchors": ["socket/sc_sock.c:sc_sock_term", "socket/sc_sock.c:sc_sock_connect", "socket/sc_sock.c:sc_sock_poll_add"]}
{"id": "C86", "title": "Reported poll events", "statement": "sc_sock_poll_event reports readable exactly for input, writable exactly for output, and both for an error or hang-up; sc_sock_poll_wait is repeated while interrupted and returns the number of events or -1.", "quantifier": "every event word and sequence of system call outcomes", "why_tests_cant": "rare event combinations and interruptions", "anchors": ["socket/sc_sock.c:sc_sock_poll_event", "socket/sc_sock.c:sc_sock_poll_wait"]}
{"id": "C87", "title": "Poller and pipe resources", "statement": "sc_sock_poll_init and sc_sock_pipe_init either succeed, holding exactly their memory and descriptors, or fail holding nothing; term gives everything back exactly once however often it is called; pipe reads and writes are repeated while interrupted.", "quantifier": "every outcome of every call", "why_tests_cant": "all failure points", "anchors": ["socket/sc_sock.c:sc_sock_poll_init", "socket/sc_sock.c:sc_sock_poll_term", "socket/sc_sock.c:sc_sock_pipe_init", "socket/sc_sock.c:sc_sock_pipe_term", "socket/sc_sock.c:sc_sock_pipe_read", "socket/sc_sock.c:sc_sock_pipe_write"]}
{"id": "C88", "title": "Poll registration matches the kernel (kqueue)", "statement": "On systems with kqueue: after any history of sc_sock_poll_add / sc_sock_poll_del with any failures, the recorded mask equals the filters registered in the kernel and their mode.", "quantifier": "every history and every failure pattern", "why_tests_cant": "failure at every change of every history", "anchors": ["socket/sc_sock.c:sc_sock_poll_add", "socket/sc_sock.c:sc_sock_poll_del"]}
{"id": "C89", "title": "Address texts", "statement": "sc_sock_local_str and sc_sock_remote_str produce host:port (or the path of a Unix socket) cut to the buffer, always terminated, writing nothing beyond it; sc_sock_print combines both.", "quantifier": "every address, buffer and length", "why_tests_cant": "all address families, lengths and truncations", "anchors": ["socket/sc_sock.c:sc_sock_local_str", "socket/sc_sock.c:sc_sock_remote_str", "socket/sc_sock.c:sc_sock_print_storage", "socket/sc_sock.c:sc_sock_print"]}
{"id": "C90", "title": "Notifying systemd", "statement": "sc_sock_notify_systemd sends the message to exactly the socket named by NOTIFY_SOCKET, closes its descriptor exactly once and returns 0 exactly when the message was sent; without a usable name it fails with EINVAL.", "quantifier": "every message, name and outcome of the system calls", "why_tests_cant": "name lengths and failure points", "anchors": ["socket/sc_sock.c:sc_sock_notify_systemd"]}
{"id": "C91", "title": "Installing the signal handlers", "statement": "sc_signal_init ignores SIGHUP and SIGPIPE, routes SIGTERM and SIGINT to the shutdown handler and the crash signals (SIGABRT, SIGSEGV, SIGBUS, SIGFPE, SIGILL) to the fatal handler as far as the kernel grants it, leaves other signals alone, unsets both descriptors, and returns 0 exactly if every request was granted.", "quantifier": "every previous set of dispositions and every pattern of refusals", "why_tests_cant": "refusals cannot be provoked, and other signals are not looked at", "anchors": ["signal/sc_signal.c:sc_signal_init"]}
{"id": "C92", "title": "A crash is reported and ends the process by its own signal", "statement": "After a successful sc_signal_init, an unblocked crash signal has the report (number and name of the signal, caller and backtrace if available, end mark) written to the log descriptor or else standard error, and the process then ends by that same signal; SIGHUP and SIGPIPE have no effect.", "quantifier": "every process state, log descriptor, crash signal and instruction pointer", "why_tests_cant": "the process of the test would die; only few signals are raised in tests, with the final kill disabled", "anchors": ["signal/sc_signal.c:sc_signal_on_fatal", "signal/sc_signal.c:sc_signal_init"]}
{"id": "C93", "title": "Shutdown signals that interrupt each other", "statement": "However SIGINT and SIGTERM interrupt each other's handlers, at most one byte is written to the shutdown descriptor, errno is as before when the handlers have returned, and a signal after the byte was sent ends the process with status 1.", "quantifier": "every interleaving of any number of signals and every outcome of the write", "why_tests_cant": "needs a second signal between two instructions of the handler", "anchors": ["signal/sc_signal.c:sc_signal_on_shutdown"]}
{"id": "C94", "title": "Locking parts of a memory map", "statement": "After any history of sc_mmap_mlock, sc_mmap_munlock and sc_mmap_msync a page of the mapping is locked exactly if the last granted lock or unlock call concerning one of its bytes was a lock; each call returns 0 if granted and -1 else, and the error text is that of the last refused call.", "quantifier": "every history of calls, every range and every pattern of refusals", "why_tests_cant": "refusals and overlapping ranges in every order", "anchors": ["memory-map/sc_mmap.c:sc_mmap_mlock", "memory-map/sc_mmap.c:sc_mmap_munlock", "memory-map/sc_mmap.c:sc_mmap_msync", "memory-map/sc_mmap.c:sc_mmap_err"]}
{"id": "C95", "title": "Performance counters are opened and closed properly", "statement": "After any history of sc_perf_start, sc_perf_pause and sc_perf_end, if the process was not aborted, the counters open are exactly those of the event table between start and end and none otherwise, no counter is read or closed that is not open, and they are enabled exactly between start and the next pause or end; pausing or ending before starting aborts.", "quantifier": "every history and every outcome of the system calls", "why_tests_cant": "histories with refusals; tests only run one session", "anchors": ["perf/sc_perf.c:sc_perf_start", "perf/sc_perf.c:sc_perf_pause", "perf/sc_perf.c:sc_perf_end", "perf/sc_perf.c:sc_perf_set", "perf/sc_perf.c:sc_perf_clear"]}
{"id": "C96", "title": "The measured time is the time the counters were enabled", "statement": "The time sc_perf_end prints is the total time between sc_perf_start and the following sc_perf_pause or sc_perf_end, over all starts and pauses of the session, and the next session starts from zero.", "quantifier": "every session and every clock that does not go back", "why_tests_cant": "clock readings are not controlled by tests", "anchors": ["perf/sc_perf.c:sc_perf_start", "perf/sc_perf.c:sc_perf_pause", "perf/sc_perf.c:sc_perf_end", "perf/sc_perf.c:sy_time_nano"]}
{"id": "C97", "title": "The printed counts estimate the events", "statement": "sc_perf_end prints each event of the table once with the count, scaled up by enabled/running time if the counter was multiplexed.", "quantifier": "every reading of every counter", "why_tests_cant": "multiplexing depends on the machine's load", "anchors": ["perf/sc_perf.c:sc_read", "perf/sc_perf.c:sc_perf_end"]}
{"id": "C98", "title": "Windows: registration in the poller under concurrent calls", "statement": "Whenever no thread is inside sc_sock_poll_wait, the descriptors handed to WSAPoll are exactly those of the sc_sock_fd structures with a non-empty mask, each once, with their events, user data and mode, where the masks are those asked for by the calls of sc_sock_poll_add and sc_sock_poll_del that returned 0, in order, no matter whether a thread was polling during a call; calls that fail change nothing; no undefined behaviour occurs.", "quantifier": "every number of structures, every history of calls and every interleaving with a polling thread, every failure of memory and system calls", "why_tests_cant": "calls during a blocking poll, growth of the tables and failures cannot be combined exhaustively", "anchors": ["socket/sc_sock.c:sc_sock_poll_add", "socket/sc_sock.c:sc_sock_poll_del", "socket/sc_sock.c:sc_sock_poll_submit", "socket/sc_sock.c:sc_sock_poll_expand", "socket/sc_sock.c:sc_sock_poll_wait"]}
{"id": "C99", "title": "Windows: every event is reported once", "statement": "As long as no allocation, wakeup or WSAPoll call has failed: after WSAPoll has answered, with no add or del call meanwhile, the current and the following sc_sock_poll_wait calls report, at most 1024 at a time, for every registered structure with something to report its events and its user data exactly once and nothing else, before WSAPoll is called again; broken connections are reported as readable and writable.", "quantifier": "every set of registered structures and every answer of WSAPoll", "why_tests_cant": "needs more than 1024 ready sockets and all combinations of flags", "anchors": ["socket/sc_sock.c:sc_sock_poll_wait", "socket/sc_sock.c:sc_sock_poll_fill_results", "socket/sc_sock.c:sc_sock_poll_event_inner", "socket/sc_sock.c:sc_sock_poll_event", "socket/sc_sock.c:sc_sock_poll_data"]}
{"id": "C100", "title": "Windows: edge-triggered mode", "statement": "As long as no allocation, wakeup or WSAPoll call has failed: an event reported for an edge-triggered structure is not reported again, whatever calls follow, until a send or receive on it would have blocked, and then it is; events of other structures are reported every time.", "quantifier": "every history, every answer of WSAPoll", "why_tests_cant": "sequences of answers over many polls", "anchors": ["socket/sc_sock.c:sc_sock_poll_event_inner", "socket/sc_sock.c:sc_sock_send", "socket/sc_sock.c:sc_sock_recv"]}
{"id": "C101", "title": "Windows: memory of the poller", "statement": "A failing sc_sock_poll_init frees everything it allocated; after sc_sock_poll_term every block allocated since sc_sock_poll_init has been freed exactly once and nothing is ever freed that is not allocated.", "quantifier": "every history of calls, every failure of the allocator and of system calls", "why_tests_cant": "failures of the allocator at every point", "anchors": ["socket/sc_sock.c:sc_sock_poll_init", "socket/sc_sock.c:sc_sock_poll_term", "socket/sc_sock.c:sc_sock_poll_expand", "socket/sc_sock.c:sc_sock_poll_submit"]}
{"id": "C102", "title": "Windows: places of the poll data", "statement": "sc_sock_poll_data_inner maps the slots of the table one to one to places within the allocated chunks, independent of the size of the table, up to the largest table of 2^19 slots.", "quantifier": "every table size and slot", "why_tests_cant": "half a million slots times sixteen sizes", "anchors": ["socket/sc_sock.c:sc_sock_poll_data_inner", "socket/sc_sock.c:sc_sock_number_of_meaningful_bits"]}
{"id": "C103", "title": "Windows: the pipe owns its sockets", "statement": "After sc_sock_pipe_init exactly the two ends of the pipe are open if it succeeded and nothing otherwise; sc_sock_pipe_term closes both once, also when closing fails, and reports failures.", "quantifier": "every pattern of failures", "why_tests_cant": "failures of each system call", "anchors": ["socket/sc_sock.c:sc_sock_pipe_init", "socket/sc_sock.c:sc_sock_pipe_term"]}
{"id": "C104", "title": "Programs never misuse memory", "statement": "A program that calls arrays, heaps, queues, maps, buffers, strings, timers and uris, in any number and order and within the documented preconditions, never releases a block twice, uses a released block, passes an address to free or realloc that did not come from the allocator, accesses memory outside a block or writes a constant object.", "quantifier": "every program, every answer of the allocator, every outcome that depends on contents", "why_tests_cant": "interleavings of calls on several objects with allocation failures at every point are unbounded", "anchors": ["array/sc_array.h:sc_array_add", "heap/sc_heap.c:sc_heap_add", "queue/sc_queue.h:sc_queue_expand", "map/sc_map.c:sc_map_remap", "buffer/sc_buf.c:sc_buf_reserve", "string/sc_str.c:sc_str_append", "timer/sc_timer.c:expand", "uri/sc_uri.c:sc_uri_create"]}
{"id": "C105", "title": "Every block has one owner", "statement": "At every point of such a program the blocks obtained from the allocator and not given back are exactly those the objects point to, and no two objects share one.", "quantifier": "every program, every answer of the allocator", "why_tests_cant": "a leak on an error path shows only with the right failure at the right moment", "anchors": ["string/sc_str.c:sc_str_create_va", "queue/sc_queue.h:sc_queue_expand", "map/sc_map.c:sc_map_remap", "timer/sc_timer.c:expand", "uri/sc_uri.c:sc_uri_create"]}
{"id": "C106", "title": "Terminating everything leaves no memory", "statement": "Terminating all objects of such a program, at any point, gives back every block.", "quantifier": "every program, every answer of the allocator", "why_tests_cant": "leak checkers see only the executed paths", "anchors": ["array/sc_array.h:sc_array_term", "heap/sc_heap.c:sc_heap_term", "queue/sc_queue.h:sc_queue_term", "map/sc_map.c:sc_map_term", "buffer/sc_buf.c:sc_buf_term", "string/sc_str.c:sc_str_destroy", "timer/sc_timer.c:sc_timer_term", "uri/sc_uri.c:sc_uri_destroy"]}
{"id": "C107", "title": "The caller's memory is not released or resized", "statement": "Memory of the caller, also when wrapped by a buffer or used as a source, and constant objects are never released or resized by such a program.", "quantifier": "every program, every answer of the allocator", "why_tests_cant": "all orders of calls on wrapped buffers", "anchors": ["buffer/sc_buf.c:sc_buf_wrap", "buffer/sc_buf.c:sc_buf_term", "buffer/sc_buf.c:sc_buf_reserve", "map/sc_map.c:sc_map_term"]}
{"id": "C108", "title": "Terminating twice is harmless", "statement": "Terminating an object leaves it owning nothing; terminating it again changes nothing in memory.", "quantifier": "every reachable object", "why_tests_cant": "every state an object can be in", "anchors": ["array/sc_array.h:sc_array_term", "heap/sc_heap.c:sc_heap_term", "queue/sc_queue.h:sc_queue_term", "map/sc_map.c:sc_map_term", "buffer/sc_buf.c:sc_buf_term", "string/sc_str.c:sc_str_destroy", "timer/sc_timer.c:sc_timer_term"]}
{"id": "C109", "title": "A refused request changes no memory", "statement": "A call on an object whose requests for memory are all refused releases and keeps nothing: the live blocks and the owner of each block are as before.", "quantifier": "every reachable state, every call", "why_tests_cant": "allocation failure in every state", "anchors": ["array/sc_array.h:sc_array_add", "queue/sc_queue.h:sc_queue_expand", "map/sc_map.c:sc_map_remap", "buffer/sc_buf.c:sc_buf_reserve", "string/sc_str.c:sc_str_append", "timer/sc_timer.c:expand"]}
{"id": "C110", "title": "Without C11 atomics the logger's calls are atomic", "statement": "In a build without C11 atomics, any number of threads may call the logger (except init and term) at the same time: nothing undefined happens, and for every interleaving there is one order of the calls, each taking effect as a whole between its call and its return, that gives the same return values, the same console, file and callback output, and the same settings when executed by one thread.", "quantifier": "every starting state, every number of threads, every sequence of calls, every interleaving of their steps", "why_tests_cant": "interleavings cannot be enumerated and are not reproducible", "anchors": ["logger/sc_log.c:sc_log_log", "logger/sc_log.c:sc_log_set_level", "logger/sc_log.c:sc_log_set_file", "logger/sc_log.c:sc_log_set_stdout", "logger/sc_log.c:sc_log_set_callback", "logger/sc_log.c:sc_log_set_thread_name"]}
{"id": "C111", "title": "With C11 atomics the logger's calls are atomic", "statement": "The same in a build with C11 atomics, where the level is read and written without the mutex.", "quantifier": "every starting state, every number of threads, every sequence of calls, every interleaving of their steps", "why_tests_cant": "interleavings cannot be enumerated and are not reproducible", "anchors": ["logger/sc_log.c:sc_log_log", "logger/sc_log.c:sc_log_set_level"]}
{"id": "C112", "title": "The logger has no data race", "statement": "In both builds, whatever the threads have done, at most one thread is about to access the logger's shared data (the level counts only without atomics), and it holds the mutex.", "quantifier": "every number of threads, every interleaving", "why_tests_cant": "race detectors see only the executed interleavings", "anchors": ["logger/sc_log.c:sc_log_log", "logger/sc_log.c:sc_log_set_file", "logger/sc_log.c:sc_log_set_level"]}
{"id": "C113", "title": "The logger does not deadlock", "statement": "In both builds, whatever the threads have done, every call in progress can still return without any further call being made.", "quantifier": "every number of threads, every interleaving, every failure of the sinks", "why_tests_cant": "a missing unlock on an error path shows only when that path is taken", "anchors": ["logger/sc_log.c:sc_log_log", "logger/sc_log.c:sc_log_set_file", "logger/sc_log.c:sc_log_set_level"]}
{"id": "C114", "title": "Shutdown requests on several threads", "statement": "Any number of shutdown requests handled by any threads at the same time: while the process goes on, no request is lost: once all handlers have returned each sent one byte and left its thread's errno as it was. The process ends with status 0 only if no shutdown descriptor is set, otherwise with 1. A request that arrives after all handlers have returned sends nothing and ends the process. At most one byte is ever sent.", "quantifier": "every number of requests and threads, every interleaving of the handlers' steps, every outcome of the writes", "why_tests_cant": "signal timing on several threads is not reproducible", "anchors": ["signal/sc_signal.c:sc_signal_on_shutdown", "signal/sc_signal.c:sc_console_handler"]}
{"id": "C115", "title": "Threads on Windows: histories of start, join and term", "statement": "On Windows, if a thread is started only when none runs and waiting succeeds: for every interleaving of the caller and the started threads, each thread function is called once with its argument, each join returns 0 and the value its thread returned, a join or term when no thread runs returns 0 and NULL, every handle is closed exactly once, and every history can be brought to an end.", "quantifier": "every history of calls, every interleaving, every refusal to create a thread", "why_tests_cant": "interleavings of the starting and the started thread; the Windows code is not built by the tests' platform", "anchors": ["thread/sc_thread.c:sc_thread_start", "thread/sc_thread.c:sc_thread_join", "thread/sc_thread.c:sc_thread_fn"]}
{"id": "C116", "title": "Threads on Windows: no data race", "statement": "In those histories the caller and the started thread are never both about to access the same field of the thread object.", "quantifier": "every history of calls, every interleaving", "why_tests_cant": "race detectors see only the executed interleavings", "anchors": ["thread/sc_thread.c:sc_thread_start", "thread/sc_thread.c:sc_thread_join", "thread/sc_thread.c:sc_thread_fn"]}
{"id": "C117", "title": "Memory maps on Windows: nothing leaks", "statement": "On Windows, for every history of init, term, msync, mlock and munlock on an object and all failures of the system: results are 0 for granted and -1 for refused calls, nothing is closed or unmapped that is not held, only memory of the mapping is flushed or locked, and at the end the process holds exactly the descriptor and view of the object, or nothing if it is not mapped.", "quantifier": "every history of calls, every combination of failures", "why_tests_cant": "needs a failure of each system call in turn", "anchors": ["memory-map/sc_mmap.c:sc_mmap_init", "memory-map/sc_mmap.c:sc_mmap_term", "memory-map/sc_mmap.c:sc_mmap_msync", "memory-map/sc_mmap.c:sc_mmap_mlock", "memory-map/sc_mmap.c:sc_mmap_munlock"]}
{"id": "C118", "title": "Memory maps on Windows: range", "statement": "On Windows a successful sc_mmap_init maps the bytes from offset on, as many as asked for or up to the end of the file for 0, of an object that reaches exactly to the end of the view, so that the file is extended if it is shorter; offset + len never overflows unnoticed.", "quantifier": "every offset, length and file size", "why_tests_cant": "64-bit sizes split into two 32-bit halves; files beyond 4 GiB", "anchors": ["memory-map/sc_mmap.c:sc_mmap_init"]}
{"id": "C119", "title": "Memory maps on Windows: errors", "statement": "On Windows a refused sc_mmap_init leaves the object unmapped and its message is that of the call that failed.", "quantifier": "every failing call, every message", "why_tests_cant": "needs a failure of each system call in turn", "anchors": ["memory-map/sc_mmap.c:sc_mmap_init", "memory-map/sc_mmap.c:sc_mmap_errstr"]}
{"id": "C120", "title": "Shutdown requests on Windows", "statement": "On Windows each console event is logged; the first CTRL_C or CTRL_BREAK sends one byte to the shutdown socket and the process goes on; other events, a second event, or a byte that is not taken end the process with 1; without a socket it ends with 0. In a sequence of events at most one byte is sent.", "quantifier": "every state, every event code, every sequence of events, every outcome of send", "why_tests_cant": "the handlers end the process", "anchors": ["signal/sc_signal.c:sc_console_handler", "signal/sc_signal.c:sc_signal_std_on_shutdown"]}
{"id": "C121", "title": "Fatal signals and initialisation on Windows", "statement": "On Windows a fatal signal is logged with name and number and ends the process with 1; an exception nobody handles is logged with its code and passed on; sc_signal_init installs all handlers, or none if the console handler is refused, and clears both descriptors.", "quantifier": "every signal number, every exception code, every state", "why_tests_cant": "the handlers end the process", "anchors": ["signal/sc_signal.c:sc_signal_std_on_fatal", "signal/sc_signal.c:sc_signal_on_fatal", "signal/sc_signal.c:sc_signal_init"]}
{"id": "C122", "title": "Clocks on Windows", "statement": "On Windows the wall clock functions return the file time (since 1601) in whole milliseconds and in nanoseconds; the monotonic functions return the performance counter in whole milliseconds and nanoseconds, ask for the frequency once, and never decrease.", "quantifier": "every file time, every counter value and frequency", "why_tests_cant": "the Windows code is not built by the tests' platform; overflow needs a machine that has been up for some time", "anchors": ["time/sc_time.c:sc_time_ms", "time/sc_time.c:sc_time_ns", "time/sc_time.c:sc_time_mono_ms", "time/sc_time.c:sc_time_mono_ns"]}
{"id": "C123", "title": "Sleeping on Windows", "statement": "On Windows sc_time_sleep(millis) sleeps millis milliseconds and returns 0.", "quantifier": "every 64-bit number of milliseconds", "why_tests_cant": "large values would sleep for weeks", "anchors": ["time/sc_time.c:sc_time_sleep"]}
{"id": "C124", "title": "Mutexes exclude", "statement": "For any number of threads and every history of lock and unlock calls: at most one thread holds the mutex; unlocking what the thread holds is defined, unlocking anything else is not; a waiting call can return as soon as no thread holds the mutex. Locking again by the holder never returns on POSIX, and then no later lock call of any thread does; on Windows it can return, and the thread holds the mutex until it has unlocked as often as it locked.", "quantifier": "every number of threads, every history of calls and returns, both platforms", "why_tests_cant": "interleavings cannot be enumerated", "anchors": ["mutex/sc_mutex.c:sc_mutex_lock", "mutex/sc_mutex.c:sc_mutex_unlock"]}
{"id": "C125", "title": "Winsock startup, cleanup and blocking mode", "statement": "On Windows, in every history of sc_sock_startup and sc_sock_cleanup each call returns 0 or -1 and the uses of Winsock registered for the process are the successful startups less the successful cleanups. sc_sock_set_blocking asks for the mode meant and returns 0 exactly if it is granted.", "quantifier": "every history of calls, every answer of the system including every version", "why_tests_cant": "the Windows code is not built by the tests' platform", "anchors": ["socket/sc_sock.c:sc_sock_startup", "socket/sc_sock.c:sc_sock_cleanup", "socket/sc_sock.c:sc_sock_set_blocking"]}
{"id": "C126", "title": "Socket timeouts on Windows", "statement": "On Windows sc_sock_set_rcvtimeo and sc_sock_set_sndtimeo set a limit of ms milliseconds, none for 0.", "quantifier": "every number of milliseconds", "why_tests_cant": "the Windows code is not built by the tests' platform; the call succeeds whatever it passes", "anchors": ["socket/sc_sock.c:sc_sock_set_rcvtimeo", "socket/sc_sock.c:sc_sock_set_sndtimeo"]}
{"id": "C127", "title": "Errors of connecting on Windows", "statement": "On Windows sc_sock_finish_connect returns 0 exactly if the connection is made; connecting a Unix socket returns 0 with the socket open, or -1 with nothing left open, and paths of 108 bytes and more are refused. After -1 the message is that of the error.", "quantifier": "every answer of the system, every path length", "why_tests_cant": "needs each failure in turn; the Windows code is not built by the tests' platform", "anchors": ["socket/sc_sock.c:sc_sock_finish_connect", "socket/sc_sock.c:sc_sock_connect"]}
{"id": "C128", "title": "Map loops whose body calls the map", "statement": "sc_map_foreach whose body calls the map's functions visits every key once, whatever the body does to the keys visited: storing values for keys in the map or deleting the current key. Whatever the body calls, the loop ends and stays in bounds, what it visits are the map's current entries and every call has its usual result.", "quantifier": "every key type, every map built by a history of calls, every body", "why_tests_cant": "which keys are missed or repeated depends on where the hash places them", "anchors": ["map/sc_map.h:sc_map_foreach", "map/sc_map.h:sc_map_del", "map/sc_map.h:sc_map_put"]}
{"id": "C129", "title": "Array loops whose body calls the array", "statement": "sc_array_foreach whose body calls the array's functions stays in bounds and visits every item of the array once: items the body adds are visited too, and the body may delete the item it looks for and leave the loop.", "quantifier": "every element type, every array built by a history of calls, every body that only adds or that deletes and breaks", "why_tests_cant": "reading past the size stays inside the block for most capacities and goes unnoticed", "anchors": ["array/sc_array.h:sc_array_foreach", "array/sc_array.h:sc_array_del", "array/sc_array.h:sc_array_add"]}
{"id": "C130", "title": "Queue loops whose body calls the queue", "statement": "sc_queue_foreach whose body takes the first item off the queue and appends others works as a work list: first in, first out, until the queue is empty or a break; taking off the first item each time visits every item once, in order.", "quantifier": "every element type, every queue built by a history of calls, every body of this form", "why_tests_cant": "depends on where the ring starts and when it grows", "anchors": ["queue/sc_queue.h:sc_queue_foreach", "queue/sc_queue.h:sc_queue_del_first", "queue/sc_queue.h:sc_queue_add_last"]}
{"id": "C131", "title": "Arguments that point into the string", "statement": "sc_str_set, sc_str_append, sc_str_trim and sc_str_replace may be given a pointer into the string they change: the result is that for a copy of the argument.", "quantifier": "every text and every position in it, every allocator outcome including whether realloc moves the block", "why_tests_cant": "whether realloc moves a block, and whether memcpy of overlapping areas does harm, depends on the C library", "anchors": ["string/sc_str.c:sc_str_set", "string/sc_str.c:sc_str_append", "string/sc_str.c:sc_str_trim", "string/sc_str.c:sc_str_replace"]}
{"id": "C132", "title": "Initialising the logger", "statement": "sc_log_init returns 0 exactly if the mutex is made; otherwise it returns a negative value with errno set, the attribute object is released and the logger is not initialised. After it the logger prints to the console from level INFO on.", "quantifier": "every result of the pthread calls", "why_tests_cant": "the pthread calls do not fail in tests", "anchors": ["logger/sc_log.c:sc_log_init", "logger/sc_log.c:sc_log_mutex_init"]}
{"id": "C133", "title": "Log callbacks that call the logger", "statement": "A log callback may call the logger's functions: sc_log_log returns what it would without these calls, the calls have their usual effect and the message that started them reaches the callback first.", "quantifier": "every state of the logger, every message, every sequence of calls by the callback, the builds with and without C11 atomics, POSIX and Windows", "why_tests_cant": "one combination of platform, level and calls hangs, another overflows the stack", "anchors": ["logger/sc_log.c:sc_log_log"]}
{"id": "C134", "title": "Messages of the poller and the pipe", "statement": "After calls on pollers by any threads sc_sock_poll_err gives each thread the message of its own last call that failed, cut to 127 bytes, and an empty one before that; sc_sock_pipe_err gives the message of the last call on the pipe that failed.", "quantifier": "every history of calls by every number of threads, every error and every message of the system", "why_tests_cant": "needs each failure in turn, on several threads; messages in tests are short", "anchors": ["socket/sc_sock.c:sc_sock_poll_err", "socket/sc_sock.c:sc_sock_poll_set_err", "socket/sc_sock.c:sc_sock_pipe_err", "socket/sc_sock.c:sc_sock_pipe_set_err"]}
{"id": "C135", "title": "Condition on Windows", "statement": "On Windows sc_cond is a one-slot mailbox as on POSIX: every history of calls by any threads is that of signals and waits that act at one moment each, a value is delivered at most as often as it was sent, no wakeup is lost, and init and term make and delete the critical section once each.", "quantifier": "every number of threads, every schedule, every spurious wakeup", "why_tests_cant": "interleavings cannot be enumerated; the Windows code is not built by the tests' platform", "anchors": ["condition/sc_cond.c:sc_cond_signal", "condition/sc_cond.c:sc_cond_wait", "condition/sc_cond.c:sc_cond_init", "condition/sc_cond.c:sc_cond_term"]}
{"id": "C136", "title": "List loops whose body changes the list", "statement": "The body of a list loop may call the functions of the list: the loop visits every node that was in the list once, in order, up to a break, and ends; the calls have their usual effect.", "quantifier": "every content of all lists, every body, both directions, plain and safe loops", "why_tests_cant": "a loop that never ends shows up only for the call, the position and the number of nodes that cause it", "anchors": ["linked-list/sc_list.h:sc_list_foreach", "linked-list/sc_list.h:sc_list_foreach_safe", "linked-list/sc_list.h:sc_list_foreach_r", "linked-list/sc_list.h:sc_list_foreach_safe_r"]}
{"id": "C137", "title": "Lifetime of string keys", "statement": "A map with string keys reads only the key it is given and the strings of the keys in the map; a key that was deleted, cleared or replaced by putting an equal string may be released or overwritten. The map keeps the address given by the last put.", "quantifier": "every history of calls, every change of the strings between calls that spares the keys in the map, every allocator outcome", "why_tests_cant": "reading a released string usually goes unnoticed", "anchors": ["map/sc_map.c:sc_map_put", "map/sc_map.c:sc_map_get", "map/sc_map.c:sc_map_del", "map/sc_map.c:sc_map_cmp", "map/sc_map.c:murmurhash"]}
{"id": "C138", "title": "Growth costs constant time per item", "statement": "The capacity of an array, queue or heap never exceeds twice the largest number of items it held (or its first capacity). All items moved by reallocations together are at most twice that number, and the number of reallocations is logarithmic in it.", "quantifier": "every history of calls, every element size, initial capacity and allocator outcome", "why_tests_cant": "a wrong growth rule gives right results and only costs time and memory at sizes tests do not reach", "anchors": ["array/sc_array.h:sc_array_add", "queue/sc_queue.h:sc_queue_expand", "heap/sc_heap.c:sc_heap_add"]}
{"id": "C139", "title": "Heap calls compare logarithmically often", "statement": "sc_heap_add makes at most log2 n key comparisons when the heap then holds n items, sc_heap_pop at most 2 log2 n when n remain; adding n items and removing them all takes at most 3 n log2 n.", "quantifier": "every heap and every keys", "why_tests_cant": "a loop that goes on too long gives the same result", "anchors": ["heap/sc_heap.c:sc_heap_add", "heap/sc_heap.c:sc_heap_pop"]}
{"id": "C140", "title": "Maps honour their load factor", "statement": "In a map initialised with load factor f (75 if 0 is given), the keys never fill more than f percent of the table. The table is never larger than its first size or twice what the largest number of keys requires, and all items moved to larger tables together are at most that many.", "quantifier": "every key type, every history of put, get, del and clear, every accepted load factor, initial capacity and allocator outcome", "why_tests_cant": "the threshold is computed in floating point; tests use one load factor and do not look at the table", "anchors": ["map/sc_map.c:sc_map_init", "map/sc_map.c:sc_map_remap", "map/sc_map.c:sc_map_put"]}
{"id": "C141", "title": "Sorting an array", "statement": "sc_array_sort leaves the same items in the order of the comparison function; calls before and after it behave as on a sequence.", "quantifier": "every history of calls and sorts, every comparison function that defines an order, every qsort that meets ISO C", "why_tests_cant": "tests sort one array of numbers", "anchors": ["array/sc_array.h:sc_array_sort"]}
{"id": "C142", "title": "Elements read from the container they are added to", "statement": "The element given to sc_array_add, sc_queue_add_last and sc_queue_add_first may be any expression over the same container (an item, the first or last item, the size, an item popped from the queue): what is added is the value the expression has on the container before the call. A refused call does not evaluate it.", "quantifier": "every reachable array and queue, every argument expression, every allocator outcome, both orders in which a compiler may evaluate the two sides of the assignment", "why_tests_cant": "tests add constants; the outcome can depend on what a free slot happens to hold and on the compiler", "anchors": ["queue/sc_queue.h:sc_queue_add_first", "queue/sc_queue.h:sc_queue_add_last", "array/sc_array.h:sc_array_add"]}
{"id": "C143", "title": "Macro arguments are evaluated once, in the caller's scope", "statement": "The index given to sc_array_del and sc_array_del_unordered and the arguments of sc_max and sc_min have the values they have for the caller, whatever the caller's variables are called, and are evaluated once.", "quantifier": "every reachable array, every variable name and value, numbers, variables plus numbers and v++", "why_tests_cant": "tests pass constants and loop counters", "anchors": ["array/sc_array.h:sc_array_del", "array/sc_array.h:sc_array_del_unordered", "sc/sc.h:sc_max", "sc/sc.h:sc_min"]}
{"id": "C144", "title": "Blocks are as large as the stored capacity, with 32-bit and 64-bit size_t", "statement": "However an array, queue, heap, timer, buffer or string grows, the block it gets has the number of bytes its capacity or length stands for; a refused growth changes nothing.", "quantifier": "size_t of 32 and of 64 bits, every item size, every sequence of growths and allocator outcomes, every initial capacity and length", "why_tests_cant": "an overflow needs gigabytes or a 32-bit build; tests run with small blocks on one machine", "anchors": ["array/sc_array.h:sc_array_add", "queue/sc_queue.h:sc_queue_expand", "heap/sc_heap.c:sc_heap_init", "heap/sc_heap.c:sc_heap_add", "timer/sc_timer.c:expand", "buffer/sc_buf.c:sc_buf_init", "buffer/sc_buf.c:sc_buf_reserve", "buffer/sc_buf.c:sc_buf_shrink", "string/sc_str.c:sc_str_create_len", "string/sc_str.c:sc_str_append", "string/sc_str.c:sc_str_replace"]}
{"id": "C145", "title": "Programs with several sockets own their descriptors", "statement": "In a program of sc_sock calls on any number of structures, the open descriptors are at every time those the structures hold, each held by one; none is closed twice or by another structure, and after sc_sock_term of all structures none is open.", "quantifier": "every sequence of init, term, listen, connect, finish_connect, accept, send, recv and timeout calls on any number of structures, every outcome of every system call, every reuse of descriptor numbers by the system", "why_tests_cant": "a leaked or doubly closed descriptor shows only when its number is used again; tests make each call succeed", "anchors": ["socket/sc_sock.c:sc_sock_term", "socket/sc_sock.c:sc_sock_listen", "socket/sc_sock.c:sc_sock_connect", "socket/sc_sock.c:sc_sock_accept", "socket/sc_sock.c:sc_sock_send", "socket/sc_sock.c:sc_sock_recv", "socket/sc_sock.c:sc_sock_finish_connect"]}
{"id": "C146", "title": "List calls on any initialised nodes", "statement": "sc_list functions called on any initialised nodes, heads of non-empty lists included, never touch other memory, end, and do to the ring of nodes what they do to a list with a suitable node as its head: deleting the head of a non-empty list leaves its elements chained with the first as head, adding the head of a list to another list adds only the head. A loop over a structure assigned from a list, or over a list one of whose members was initialised again, never ends.", "quantifier": "every history of calls and safe loops on any set of initialised nodes, every choice of heads, every list and member", "why_tests_cant": "tests use heads as lists and elements as elements; a list used as an element corrupts data much later", "anchors": ["linked-list/sc_list.c:sc_list_init", "linked-list/sc_list.c:sc_list_clear", "linked-list/sc_list.c:sc_list_add_tail", "linked-list/sc_list.c:sc_list_add_head", "linked-list/sc_list.c:sc_list_add_after", "linked-list/sc_list.c:sc_list_add_before", "linked-list/sc_list.c:sc_list_pop_head", "linked-list/sc_list.c:sc_list_pop_tail", "linked-list/sc_list.c:sc_list_del"]}
{"id": "C147", "title": "Programs that tokenise strings", "statement": "A program of sc_str_token_begin calls with any delimiters, sc_str_token_end calls and restarts sees, call by call, the text up to the next delimiter of that call, then NULL for ever; sc_str_token_end gives the string back at every point. The program may go on after sc_str_token_end, start over, or change the string in between.", "quantifier": "every string without NULs, every sequence of calls, every choice of delimiters per call", "why_tests_cant": "tests run one loop with one delimiter to its end; a string left cut shows only where it is used next", "anchors": ["string/sc_str.c:sc_str_token_begin", "string/sc_str.c:sc_str_token_end", "string/sc_str.c:sc_str_append"]}
{"id": "C148", "title": "CRC without initialisation", "statement": "In a program that has not called sc_crc32_init, sc_crc32 still stays inside the buffer and returns a value, which differs by build: with the CRC instruction it is the CRC-32C for messages shorter than 768 bytes, and for longer aligned ones the CRC-32C (started at 2^32-1) of a suffix only, ignoring the initial value and at least the first 512 bytes; in little-endian software it depends on the initial value and the length only, and is 2^32-1 from four bytes on.", "quantifier": "every initial value, message, length and (hardware, long: aligned) address", "why_tests_cant": "the wrong results show only for long messages or builds without the instruction", "anchors": ["crc32/sc_crc32.c:sc_crc32", "crc32/sc_crc32.c:sc_crc32_init"]}
{"id": "C149", "title": "Crashes while a crash is reported", "statement": "After a successful sc_signal_init, crash signals may arrive at any point of the handlers of other crash signals: nothing undefined happens, every crash signal is reported at most once and its handler does its actions in order, at most five handlers are active, the process ends after a bounded number of steps by one of the signals that arrived, and the crash that ends it is reported.", "quantifier": "every sequence of crash signals, arriving between any two actions of the handlers", "why_tests_cant": "needs crashes inside the crash handler", "anchors": ["signal/sc_signal.c:sc_signal_on_fatal", "signal/sc_signal.c:sc_signal_init"]}
{"id": "C150", "title": "Timer callbacks that call the timer", "statement": "A callback of sc_timer_timeout may call every function of the timer: it may add and cancel timers, poll again at a later time, to any depth, clear or terminate it. The program runs without memory errors; each callback is of a timer that was added and not fired, cancelled or cleared since, with its type and data, and not before its deadline; pending timers have different ids; when the outermost poll is over no pending timer is 481 ms late or more. A poll in a callback less than a tick after the timestamp of the timer calls nobody.", "quantifier": "all programs and all callbacks made of adds, cancels, polls, clears and terms, every depth, every time between polls below UINT64_MAX", "why_tests_cant": "tests have callbacks that only count; the outer loop goes on with a table, a head and a timestamp that the inner calls changed", "anchors": ["timer/sc_timer.c:sc_timer_timeout", "timer/sc_timer.c:sc_timer_clear", "timer/sc_timer.c:sc_timer_term"]}
{"id": "C151", "title": "Several sockets on one poller", "statement": "Any number of sockets are opened, closed, initialised again, and registered with and removed from one poller, in any order, with failures of the system anywhere; the system gives numbers of closed descriptors to other sockets. Then every open socket shows its mask and the kernel has registered for its descriptor exactly the events of that mask with the user data of the call that last changed it; nothing else is registered; the result of a call depends on its own socket alone; and a call for a closed socket that would change its mask fails and changes nothing.", "quantifier": "every program on every number of sockets, every choice of descriptors, all failures; sockets closed with events registered are initialised before they are opened again (C85)", "why_tests_cant": "tests register one socket at a time; a registration or a mask that stays behind shows only when the descriptor number comes again for another socket", "anchors": ["socket/sc_sock.c:sc_sock_poll_add", "socket/sc_sock.c:sc_sock_poll_del", "socket/sc_sock.c:sc_sock_close", "socket/sc_sock.c:sc_sock_init"]}
{"id": "C152", "title": "The results of a wait", "statement": "After any program of calls on any number of sockets and of waits, sc_sock_poll_wait, once answered, returns -1 with the results as they were if the system reports an error other than an interruption; otherwise the number of results, at most 1024: each is about another socket that is open and registered, its sc_sock_poll_data is the data of the call that last changed its registration, and its sc_sock_poll_event is what is asked for and there, or both events after an error or hang-up; no registered socket the kernel found active is left out unless there are 1024 results. The results stay as they are until the next wait, and a socket removed from the poller in between is not among the results that are read afterwards.", "quantifier": "every program, every number of sockets, every answer of the kernel, all failures", "why_tests_cant": "a result about a socket that is removed while the results are gone through needs two sockets active in one wait", "anchors": ["socket/sc_sock.c:sc_sock_poll_wait", "socket/sc_sock.c:sc_sock_poll_data", "socket/sc_sock.c:sc_sock_poll_event", "socket/sc_sock.c:sc_sock_poll_del"]}
{"id": "C153", "title": "Windows: first clock readings on several threads", "statement": "Any number of threads call sc_time_mono_ms or sc_time_mono_ns on Windows, also for the first time together, with every interleaving of their accesses to the cached frequency: each gets the time it would get alone.", "quantifier": "every number of threads, every interleaving, every frequency, with the cached frequency accessed as a whole or in halves", "why_tests_cant": "the race needs two threads inside the first call", "anchors": ["time/sc_time.c:sc_time_mono_ms", "time/sc_time.c:sc_time_mono_ns"]}
{"id": "C154", "title": "Messages of failed socket calls", "statement": "When sc_sock_listen, sc_sock_connect, sc_sock_accept, sc_sock_term or sc_sock_set_rcvtimeo and sc_sock_set_sndtimeo return -1, sc_sock_error gives the message of the system call that made the call fail (for a list of addresses: the last one tried), also after the clean-up; sc_sock_accept leaves it with the listening socket. A call that returns 0, or -1 with EAGAIN, leaves the message as it was, except sc_sock_listen, which clears it.", "quantifier": "every address list, every answer of every system call, every state of the socket", "why_tests_cant": "needs each system call to fail at each place, and the clean-up calls to change errno", "anchors": ["socket/sc_sock.c:sc_sock_listen", "socket/sc_sock.c:sc_sock_connect", "socket/sc_sock.c:sc_sock_accept", "socket/sc_sock.c:sc_sock_term", "socket/sc_sock.c:sc_sock_error"]}
{"id": "C155", "title": "Several sockets on one kqueue poller", "statement": "On systems with kqueue, a program initialises, opens, closes, adds and deletes any number of sockets on one poller and waits: each socket keeps its own mask, the kernel has registered exactly the filters of the masks of the open sockets, each with the data of the call that set it last; a wait gives at most 1024 results, one for each active filter of a socket asked for it, with its data and direction (both at the end of the stream), and leaves none out below 1024; the results are still about sockets asked for when they are read.", "quantifier": "every program, every answer of the system, every number of sockets, every list of active filters", "why_tests_cant": "needs histories over several sockets with failures, reuse of descriptors and full result arrays, on another system", "anchors": ["socket/sc_sock.c:sc_sock_poll_add", "socket/sc_sock.c:sc_sock_poll_del", "socket/sc_sock.c:sc_sock_poll_wait", "socket/sc_sock.c:sc_sock_poll_data", "socket/sc_sock.c:sc_sock_poll_event"]}
{"id": "C156", "title": "Windows: user data that differs from call to call", "statement": "On Windows, in the histories of C98 but with any user data in every call of sc_sock_poll_add and sc_sock_poll_del: whenever no thread is inside sc_sock_poll_wait, the slot of every registered structure has the user data of the last call that changed its mask; the calls made for it during one poll count as a single call with the data of the last of them, and do not count if they leave the mask as it was in force. The same data comes with its events from sc_sock_poll_data.", "quantifier": "every history of calls by any number of threads, every user data, every answer of WSAPoll", "why_tests_cant": "needs calls with different data while another thread polls, merged with calls put off before, on another system", "anchors": ["socket/sc_sock.c:sc_sock_poll_add", "socket/sc_sock.c:sc_sock_poll_del", "socket/sc_sock.c:sc_sock_poll_submit", "socket/sc_sock.c:sc_sock_poll_wait", "socket/sc_sock.c:sc_sock_poll_data"]}
{"id": "C157", "title": "Memory maps on macOS: the file afterwards", "statement": "On macOS a successful sc_mmap_init with PROT_WRITE leaves the file long enough for the whole mapping; the bytes the file had are as before and the new ones are NULs. Every block of the file system from the end of the file to the end of the mapping is written to exactly once, so that no hole is left.", "quantifier": "every file, block size, offset and length, and every answer of lseek and write", "why_tests_cant": "another system; the loss is one byte and depends on the size of the file, the block size and the length asked for", "anchors": ["memory-map/sc_mmap.c:sc_mmap_init"]}
{"id": "C158", "title": "Memory maps on macOS: nothing leaks", "statement": "On macOS, after a successful sc_mmap_init exactly one descriptor is open and one mapping exists, those of the object; after a refused one nothing is open or mapped, the object is unmapped and sc_mmap_err is the message of the call that failed. Without PROT_WRITE the file is not changed.", "quantifier": "every answer of every system call, including every round of lseek and write", "why_tests_cant": "another system; needs lseek or write to fail in a chosen round", "anchors": ["memory-map/sc_mmap.c:sc_mmap_init", "memory-map/sc_mmap.c:sc_mmap_err"]}
{"id": "C159", "title": "Timer: exactly which timers a poll fires", "statement": "A poll fires a pending timer exactly if its deadline (modulo 2^64) is not after the poll and the hand of the wheel passes the timer's wheel, unless a callback of the poll cancels it first. The hand moves by one wheel of sixteen for each whole tick (16 ms) since the last poll that moved it, by at most sixteen wheels per poll, and sc_timer_clear puts it back to 0; a timer is on the wheel timeout / 16 beyond the hand at the time it was added.", "quantifier": "every program of adds, cancels, clears and polls at any times, every callback, every point of the run", "why_tests_cant": "which timers are fired late depends on the remainders of all polls so far; a test sees one pattern of polls", "anchors": ["timer/sc_timer.c:sc_timer_timeout", "timer/sc_timer.c:sc_timer_add"]}
{"id": "C160", "title": "Perf: the printed numbers as doubles", "statement": "For a counter that ran all the time sc_perf_end prints the double nearest to the count, which is the count itself up to 2^53, and exactly 100 as the active share: dividing the two times and multiplying by the quotient adds no rounding error.", "quantifier": "every count and every time up to 2^64 - 1, also times that are not exactly doubles", "why_tests_cant": "rounding errors depend on the bits of the times, which differ from run to run", "anchors": ["perf/sc_perf.c:sc_read", "perf/sc_perf.c:sc_perf_end"]}
{"id": "C161", "title": "Condition: with a fair scheduler calls return", "statement": "If the scheduler lets every thread that holds the mutex go on at some time, and the mutex goes at some time to every thread that asks for it while it is free again and again, then: every call of sc_cond_signal returns; once a thread has called sc_cond_wait and another calls sc_cond_signal afterwards, a call of sc_cond_wait returns; if only one thread waits, it is its call; and while a signal is pending and a thread is inside sc_cond_wait before taking it, a call of sc_cond_wait will return.", "quantifier": "every endless run with any number of threads, any calls, any choice of the threads that pthread_cond_signal wakes and any spurious wakeups", "why_tests_cant": "liveness is about endless runs under all fair schedules; a test sees finitely many steps of one schedule", "anchors": ["condition/sc_cond.c:sc_cond_signal", "condition/sc_cond.c:sc_cond_wait"]}
{"id": "C162", "title": "Logger: with a fair scheduler every call returns", "statement": "If the scheduler lets every thread that is in a logger call and does not wait for the mutex go on at some time, and the mutex goes at some time to every thread that waits for it while it is free again and again, then every call of the logger by any thread returns, in the builds with and without C11 atomics, whatever the results of the operations on files.", "quantifier": "every endless run with any number of threads and any calls but sc_log_init and sc_log_term", "why_tests_cant": "liveness is about endless runs under all fair schedules; a test sees finitely many steps of one schedule", "anchors": ["logger/sc_log.c:sc_log_log", "logger/sc_log.c:sc_log_set_file", "logger/sc_log.c:sc_log_set_level"]}
{"id": "C163", "title": "Addresses are tried by listen", "statement": "sc_sock_listen on a name that resolves to several addresses tries them in the order given and listens on the first for which a socket can be made, set up and bound; it fails only after all of them failed, or if listen fails.", "quantifier": "every address list and outcome of the system calls", "why_tests_cant": "names resolving to many addresses with every pattern of failures", "anchors": ["socket/sc_sock.c:sc_sock_bind", "socket/sc_sock.c:sc_sock_listen"]}
{"id": "C164", "title": "What a socket structure records", "statement": "The mode, type and family of a sc_sock are those it was initialised with or, for an open socket, those of its descriptor: sc_sock_listen changes none of them, a sc_sock_connect that fails leaves them as they were, so that the same call again tries the same addresses in the same order, and sc_sock_accept gives the new structure the family and the mode of its descriptor.", "quantifier": "every state, address list and outcome of the system calls", "why_tests_cant": "tests connect once, to names with one address, and do not look at the fields", "anchors": ["socket/sc_sock.c:sc_sock_connect", "socket/sc_sock.c:sc_sock_accept", "socket/sc_sock.c:sc_sock_listen"]}
{"id": "C165", "title": "Would block told apart from failed", "statement": "When sc_sock_connect, sc_sock_accept, sc_sock_send or sc_sock_recv returns -1, errno is EAGAIN exactly if the operation would block (for connect: the connection is under way and the descriptor stays open).", "quantifier": "every state, previous value of errno, sequence of interruptions and outcome of the system calls, POSIX and Windows", "why_tests_cant": "needs failures right after calls that would block, and on Windows", "anchors": ["socket/sc_sock.c:sc_sock_send", "socket/sc_sock.c:sc_sock_recv", "socket/sc_sock.c:sc_sock_accept", "socket/sc_sock.c:sc_sock_connect"]}
{"id": "C166", "title": "Listening and connecting by address on Windows", "statement": "On Windows, sc_sock_listen and sc_sock_connect by address release the address list exactly once and leave open exactly the descriptor they return with, or none if they fail; sc_sock_connect tries the addresses in the order given, those of the socket's family first, each at most once, up to the first that does not refuse. sc_sock_listen takes the first for which a socket can be made. The socket returned, also by sc_sock_accept, has the mode asked for; a connection that cannot be set up is closed again.", "quantifier": "every address list and outcome of the system calls", "why_tests_cant": "the tests for Windows use loopback addresses and see few failures", "anchors": ["socket/sc_sock.c:sc_sock_bind", "socket/sc_sock.c:sc_sock_listen", "socket/sc_sock.c:sc_sock_connect"]}
{"id": "C167", "title": "Memory maps on 32-bit Windows", "statement": "On Windows with 32 bits a successful sc_mmap_init maps the part of the file asked for: the view starts at the offset and has the length given, or for length 0 reaches to the end of the file. A failed one leaves nothing open.", "quantifier": "every offset and length, file sizes up to 2^63 - 1 and every outcome of the system calls", "why_tests_cant": "needs files larger than the address space on 32-bit systems", "anchors": ["memory-map/sc_mmap.c:sc_mmap_init"]}
{"id": "C168", "title": "Clocks and sleeping with 32-bit time_t", "statement": "Where long and time_t have 32 bits, sc_time_ms, sc_time_ns, sc_time_mono_ms and sc_time_mono_ns return the time of the clock, the clock of sc_perf is exact, and sc_time_sleep returns 0 only after the time asked for.", "quantifier": "every reading of the clock, every time to sleep and every sequence of interruptions", "why_tests_cant": "tests run on 64-bit systems, and do not sleep for weeks", "anchors": ["time/sc_time.c:sc_time_ms", "time/sc_time.c:sc_time_ns", "time/sc_time.c:sc_time_mono_ms", "time/sc_time.c:sc_time_mono_ns", "time/sc_time.c:sc_time_sleep", "perf/sc_perf.c:sy_time_nano"]}
{"id": "C169", "title": "Perf: the printed table", "statement": "sc_perf_end prints a table: a line for the time and one line for each of the eleven events, in order, with its name, its value and its share in percent, both rounded to the nearest hundredth. The first bars of all lines stand in the same columns, and the third as well for values below 10^15. A counter that ran all the time and counted fewer than 2^53 is printed as its exact count and 100.00%.", "quantifier": "every finite time, value and share, and all counts", "why_tests_cant": "the numbers depend on the hardware, and rounding and columns on their sizes", "anchors": ["perf/sc_perf.c:sc_perf_end", "perf/sc_perf.h:sc_perf_hw"]}
{"id": "C170", "title": "Terminating the logger", "statement": "After any history of calls sc_log_term fails with -1 and changes nothing if the logger is not initialised. Otherwise it returns 0 unless an open log file cannot be closed, and -1 then; in both cases messages logged afterwards reach no console, file or callback until the logger is set up again.", "quantifier": "every history of calls, every state of the log file, every later message", "why_tests_cant": "fclose does not fail in tests, and the state after termination depends on the history", "anchors": ["logger/sc_log.c:sc_log_term", "logger/sc_log.c:sc_log_log"]}
