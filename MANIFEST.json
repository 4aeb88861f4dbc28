{
 "claims": [
  {
   "property": "C01",
   "status": "proved",
   "theorems": [
    "C01_are_equal_exact",
    "C01_are_equal_i_exact",
    "C01_are_equal_n_exact",
    "C01_are_equal_i_n_exact",
    "C01_no_read_past_terminator",
    "C01_bounded_reads",
    "C01_null",
    "C01_case_only"
   ],
   "note": "All string pairs and counts; out-of-bounds reads are a distinct outcome of the model."
  },
  {
   "property": "C02",
   "status": "proved",
   "theorems": [
    "C02_reads_and_writes",
    "C02_write_bounds"
   ],
   "note": "All contents, ranges and operation sequences. The get and put ranges are assumed disjoint for the read part; the write bound needs no assumption."
  },
  {
   "property": "C03",
   "status": "partial",
   "theorems": [
    "C03_round_trip_partial",
    "C03_top_number_refuted"
   ],
   "note": "Holds for every value tree, call interleaving with white space writers, level limit and buffers that fit; refuted only for a number that ends the input (stream not good although the token is right)."
  },
  {
   "property": "C04",
   "status": "partial",
   "theorems": [
    "C04_no_string_partial",
    "C04_unterminated_refuted",
    "C04_unicode_refuted",
    "C04_unicode_hex_refuted",
    "C04_skip_failed_refuted",
    "C04_skip_open_refuted"
   ],
   "note": "Termination holds unless a string comes next; unterminated strings, unsupported \\u escapes and skip_value on truncated containers never return."
  },
  {
   "property": "C05",
   "status": "partial",
   "theorems": [
    "C05_large_buffer_partial",
    "C05_six_bytes_partial",
    "C05_digits_partial",
    "C05_escapes_refuted",
    "C05_capacity_refuted",
    "C05_digits_refuted"
   ],
   "note": "Refuted in three ways; the bounds that do hold are proved."
  },
  {
   "property": "C06",
   "status": "partial",
   "theorems": [
    "C06_nesting_partial",
    "C06_wrong_bracket_refuted"
   ],
   "note": "Holds for every history that leaves the stream good; the wrong bracket itself is still returned as an item (refuted part)."
  },
  {
   "property": "C07",
   "status": "proved",
   "theorems": [
    "C07_reader",
    "C07_reader_buffer",
    "C07_writer"
   ],
   "note": ""
  },
  {
   "property": "C08",
   "status": "partial",
   "theorems": [
    "C08_well_formed_partial",
    "C08_document_partial",
    "C08_quote_refuted",
    "C08_not_a_number_refuted",
    "C08_control_refuted"
   ],
   "note": "Holds for arguments that need no escaping and finite numbers; refuted otherwise because put_string does not escape."
  },
  {
   "property": "C09",
   "status": "partial",
   "theorems": [
    "C09_skip_value_partial",
    "C04_unicode_refuted",
    "C04_skip_open_refuted"
   ],
   "note": "All nesting and positions; strings with unsupported escapes excluded."
  },
  {
   "property": "C10",
   "status": "partial",
   "theorems": [
    "C10_round_trip_partial",
    "C10_text_partial",
    "C10_protocol_refuted",
    "C10_reason_refuted",
    "C10_crlf_refuted"
   ],
   "note": "Round trip for requests and responses with any headers and body. Missing: parts the writer accepts but the reader does not give back (protocol 'HTTP/', reason phrase with a leading space) and right-to-left evaluation of the CRLF operands; refuted with witnesses."
  },
  {
   "property": "C11",
   "status": "proved",
   "theorems": [
    "C11_no_injection"
   ],
   "note": "Every call but put_body, every argument, every writer state and sink."
  },
  {
   "property": "C12",
   "status": "proved",
   "theorems": [
    "C12_bounds",
    "C12_body",
    "C12_one_byte_refuted",
    "C12_no_byte_refuted"
   ],
   "note": "Every reader call, input and state; buffers of two bytes or more as stated. The refuted theorems show that smaller buffers are overrun."
  },
  {
   "property": "C13",
   "status": "partial",
   "theorems": [
    "C13_writer",
    "C13_reader_partial",
    "C13_reader_refuses_partial",
    "C13_value_again_refuted"
   ],
   "note": "Writers: complete. Readers: a header value that did not fit may be read again, so two values can follow a name; refuted, and proved with that exception."
  },
  {
   "property": "C14",
   "status": "partial",
   "theorems": [
    "C14_exact_partial",
    "C14_end_partial",
    "C14_end_refuted"
   ],
   "note": "Exact while bytes are available; at the end of the stream an extra 0xFF is stored and counted."
  },
  {
   "property": "C15",
   "status": "partial",
   "theorems": [
    "C15_split_partial",
    "C15_split_path",
    "C15_find_partial",
    "C15_empty_refuted",
    "C15_no_query_refuted",
    "C15_overrun_refuted"
   ],
   "note": "Non-empty parameters. Empty parameters and an empty query are mishandled; refuted."
  },
  {
   "property": "C16",
   "status": "partial",
   "theorems": [
    "C16_date_partial",
    "C16_date_refuted",
    "C16_date_refuted_2070",
    "C16_date_refuted_2100",
    "C16_date_refuted_negative"
   ],
   "note": "The full claim is false of the code: leap days, 2070-02-28 and dates from 2100-03-02 are shown wrong. The partial theorem gives the exact set of correct days through 2100-03-01; the days of that range are enumerated inside the kernel."
  },
  {
   "property": "C17",
   "status": "partial",
   "theorems": [
    "C17_time_of_day_partial",
    "C17_time_of_day_refuted"
   ],
   "note": "Proved for every non-negative 64-bit count; false for negative counts (parts are negative)."
  },
  {
   "property": "C18",
   "status": "partial",
   "theorems": [
    "C18_comparisons",
    "C18_shown_date_monotone",
    "C18_shown_datetime_refuted"
   ],
   "note": "The operators are exactly the order of the time points, for all 64-bit counts. The shown date is monotone; the shown date-and-time is not (leap days)."
  },
  {
   "property": "C19",
   "status": "partial",
   "theorems": [
    "C19_no_overrun_partial",
    "C19_overrun_refuted",
    "C19_overwrite_refuted",
    "C19_thread_id_refuted"
   ],
   "note": "False of the code: put_anyv adds the unclamped vsnprintf result to the count. Proved for all histories whose pieces fit into Size and whose thread ids have at most 15 characters."
  },
  {
   "property": "C20",
   "status": "partial",
   "theorems": [
    "C20_flushed_lines_partial",
    "C20_full_line_refuted"
   ],
   "note": "Proved for text shorter than Size; with exactly Size characters the last one is replaced by a null (refuted)."
  },
  {
   "property": "C21",
   "status": "proved",
   "theorems": [
    "C21_binary_dump",
    "C21_short_line_shows_nothing"
   ],
   "note": "Parse-back of every line, exact output, termination. When the length is a multiple of 16 an extra line without dump is emitted (part of the statement)."
  },
  {
   "property": "C22",
   "status": "proved",
   "theorems": [
    "C22_filter",
    "C22_message_text",
    "C22_monotone"
   ],
   "note": "Messages are assumed to fit into the line (C19 otherwise)."
  },
  {
   "property": "C23",
   "status": "proved",
   "theorems": [
    "C23_put",
    "C23_move_refuted"
   ],
   "note": "Every sequence of sputc, xsputn and sync calls on one socket_streambuf, all byte values. Socket::send is taken to accept each one-byte send (the code ignores its result). C23_move_refuted: the move constructor drops a pending byte."
  },
  {
   "property": "C24",
   "status": "partial",
   "theorems": [
    "C24_read_partial",
    "C24_eof_refuted",
    "C24_ff_refuted",
    "C24_peek_refuted",
    "C24_uninitialised_refuted"
   ],
   "note": "The claim is false: end-of-file is never reported (the last byte repeats for ever), 0xff is reported as end-of-file, peeking gives negative values, and an uninitialised char is read when nothing was received. Proved: data without 0xff is delivered exactly, as long as only received bytes are taken."
  },
  {
   "property": "C25",
   "status": "partial",
   "theorems": [
    "C25_rejects",
    "C25_path_partial",
    "C25_boundary_refuted",
    "C25_empty_refuted",
    "C25_names"
   ],
   "note": "All directories, clock readings and histories of calls. False for the longest accepted directory without a trailing separator (last digit cut off) and for the empty directory (reads the byte before the array)."
  },
  {
   "property": "C26",
   "status": "partial",
   "theorems": [
    "C26_truncate_partial",
    "C26_append",
    "C26_flush",
    "C26_refuted",
    "C26_leap_day_refuted"
   ],
   "note": "False in mode out when two files get the same path (same second, or 24 hours apart on a leap day because of C16). Proved: exact concatenation if the paths differ, no loss at all in mode out|app. std::filebuf is represented by every possible buffering; opening files is taken to succeed."
  },
  {
   "property": "C27",
   "status": "partial",
   "theorems": [
    "C27_size_partial",
    "C27_rotation_partial",
    "C27_early_refuted",
    "C27_late_refuted",
    "C27_duration_partial",
    "C27_duration_refuted"
   ],
   "note": "Size: blocks are counted twice and single characters may not be counted. Proved: below the limit after every flush if only blocks are written; rotation never below half the limit. Duration: exact for one clock reading per call."
  },
  {
   "property": "C28",
   "status": "partial",
   "theorems": [
    "C28_after_shutdown",
    "C28_signalled",
    "C28_once_partial",
    "C28_sequential",
    "C28_refuted"
   ],
   "note": "Interleaving model of the listener and any number of request threads. Proved: the future is ready only after a handler requested the shutdown; it is ready once all requests ended; at most one set_value if no request is inside one of two windows when the shutdown is requested (in particular for sequential requests). Refuted in general: set_value is called twice."
  },
  {
   "property": "C29",
   "status": "partial",
   "theorems": [
    "C29_answered_partial",
    "C29_sequential",
    "C29_refuted"
   ],
   "note": "Under the same condition, no request that passed the test of the flag is unanswered when the future is ready. Refuted in general: a request between the test and the increment is still unanswered."
  },
  {
   "property": "C30",
   "status": "partial",
   "theorems": [
    "C30_below_partial",
    "C30_dotdot_refuted",
    "C30_empty_root_refuted",
    "C30_prefix_refuted"
   ],
   "note": "For every byte sequence received, the path opened is the root directory followed by an absolute resource, and is below the root directory when the resource has no part '..' (prefix starting with a slash, root not empty). The full claim is false: '..' leads to /etc/passwd, an empty root directory (the default) makes the path absolute, and a prefix without a slash lets a request continue the name of the directory. Symbolic links are not modelled."
  },
  {
   "property": "C31",
   "status": "proved",
   "theorems": [
    "C31_simple",
    "C31_file",
    "C31_directory_refuted"
   ],
   "note": "Every simple response (any code, reason, content type of single-spaced words, body) and every response with a file that is as long as stat() says carries the decimal length of the body that follows. A directory is answered with its st_size and no body (C31_directory_refuted); it is not a file that can be read, so outside the claim."
  },
  {
   "property": "C32",
   "status": "proved",
   "theorems": [
    "C32_routing",
    "C32_file_iff",
    "C32_content_type",
    "C32_directory_dot_refuted"
   ],
   "note": "For every well-formed request line that fits: file request iff prefix (any case) or GET /favicon.ico; 405, 404, 200 with the media type of the extension, or the REST answer. The extension is taken from the whole path: a dot in the root directory counts if the resource has none (C32_directory_dot_refuted)."
  },
  {
   "property": "C33",
   "status": "partial",
   "theorems": [
    "C33_handles",
    "C33_pointer_stable",
    "C33_destructor",
    "C33_mmap_failure_refuted"
   ],
   "note": "Proved for every history of constructing, copying, moving, assigning (also to itself), freeing and destroying handles, every number of slots: the pointer of every live handle is mapped to its page, equal pages have equal pointers and different pages different ones, lock counts are the numbers of live handles, a page with a handle is not evictable and its mapping and pointer do not change as long as it has one; the destructor of the pool unmaps everything. Assumed: fewer than 2^32 handles alive at once, and mmap succeeds; without the latter it is refuted (MAP_FAILED is taken for a valid pointer)."
  },
  {
   "property": "C34",
   "status": "partial",
   "theorems": [
    "C34_bounded",
    "C34_lock_fails_iff_partial",
    "C34_wrap_refuted",
    "C34_log_division_refuted"
   ],
   "note": "Proved for every history: at most MaxMappedPages mappings, no page mapped twice. Locking fails exactly if MaxMappedPages other pages are in use is proved for the first 2^32 - 1 operations on a pool; after that it is refuted: the total keep count is kept in 32 bits and wraps, and then no page is evicted although none is in use. With a log, the 2^32nd lock divides by zero (refuted)."
  },
  {
   "property": "C35",
   "status": "partial",
   "theorems": [
    "C35_pages_partial",
    "C35_clear_refuted",
    "C35_containers_partial",
    "C35_containers_refuted"
   ],
   "note": "Proved for every history of allocations, frees and chain operations without take-overs by an empty chain, and for every history of insertions and erasures on containers; refuted for clear() with an empty free list."
  },
  {
   "property": "C36",
   "status": "partial",
   "theorems": [
    "C36_pages_partial",
    "C36_containers_refuted"
   ],
   "note": "Proved for the same page histories as C35; refuted for containers, whose erased pages are freed twice so that earlier free pages are lost."
  },
  {
   "property": "C37",
   "status": "partial",
   "theorems": [
    "C37_not_a_pool",
    "C37_pool",
    "C37_create",
    "C37_crash_partial",
    "C37_refuted",
    "C37_log_refuted"
   ],
   "note": "Proved for every file content: non-pools are refused and unchanged, pools are opened unchanged, and every crash point of creation that can be opened again. Refuted: a crash between the two pages leaves a file that is taken for a pool but whose start page does not exist; with a debug log, a signature without a zero is read beyond the page."
  },
  {
   "property": "C38",
   "status": "proved",
   "theorems": [
    "C38_list_is_a_sequence"
   ],
   "note": "For every history of push/insert/pop/erase calls on any number of lists of one pool, any item sizes from 1 to 2034 bytes (at least two items on a page), pools of up to 2^51 pages; an insertion may report that the pool is full, which needs a pool without a page per call. Iterators given to insert/erase are taken by position. Range insert, clear and moving lists are not part of the histories."
  },
  {
   "property": "C39",
   "status": "proved",
   "theorems": [
    "C39_stack_is_lifo"
   ],
   "note": "For every history of push_back/pop_back on a stack with items of 1 to 4069 bytes, among other lists and stacks of the pool."
  },
  {
   "property": "C40",
   "status": "partial",
   "theorems": [
    "C40_clear_partial",
    "C40_clear_refuted",
    "C40_size_refuted"
   ],
   "note": "Proved for chains cleared while the free list is not empty; refuted otherwise, and the size of a cleared container is never reset."
  },
  {
   "property": "C41",
   "status": "partial",
   "theorems": [
    "C41_insert",
    "C41_erase_partial",
    "C41_erase_refuted"
   ],
   "note": "insert(): proved in all reachable states. erase(): the returned iterator is the right one exactly when the erasure is not one of two described kinds; in those it refers to a page the list no longer has (refuted with two histories)."
  },
  {
   "property": "C42",
   "status": "proved",
   "theorems": [
    "C42_iteration"
   ],
   "note": "For every list or stack after every history of supported calls."
  },
  {
   "property": "C43",
   "status": "partial",
   "theorems": [
    "C43_pages_hold_items_partial",
    "C43_one_item_refuted"
   ],
   "note": "Proved for all lists with at least two items per page, and for lists and stacks of any capacity without insertions before the end; refuted for push_front on a list with one item per page, and for insertions before the end of a stack whose page is full."
  },
  {
   "property": "C44",
   "status": "partial",
   "theorems": [
    "C44_chains_partial",
    "C44_iterators_partial",
    "C44_splice_refuted"
   ],
   "note": "Proved for every history of page allocations, frees and chain operations (any number of chains and pages) in which no chain with pages is spliced or cleared into a chain without pages; in that case the statement is false (C44_splice_refuted: the other chain keeps its pages)."
  },
  {
   "property": "C45",
   "status": "partial",
   "theorems": [
    "C45_lowest_first_partial",
    "C45_large_pool_partial",
    "C45_one_page_partial",
    "C45_refuted",
    "C45_full_refuted",
    "C45_one_value_refuted"
   ],
   "note": "The full claim is refuted: inserted keys that are smaller than the first key of the map are lost, a full pool reports success, a map with one value per page overruns its page. Proved for all histories of insertions and lookups in which no inserted key is negative or less than the first one, with room in the pool and memory behind pages that does not look like a key; for every size of keys and values with at least two items per page. Proved in any order of keys for histories that fit on one page. Erasures are in C47."
  },
  {
   "property": "C46",
   "status": "partial",
   "theorems": [
    "C46_lowest_first_partial",
    "C46_refuted"
   ],
   "note": "The full claim is refuted: a history of insertions after which iteration yields a key twice and out of order. Proved for the histories of C45_lowest_first_partial: exactly the inserted keys, ascending."
  },
  {
   "property": "C47",
   "status": "partial",
   "theorems": [
    "C47_one_page_partial",
    "C47_refuted"
   ],
   "note": "The full claim is refuted: erasing a key twice erases another key; erasing the smallest key of a page loses other keys. Proved for all histories of insertions, lookups and erasures in any order in which the keys fit on one page, none is negative and the greatest key is not erased: every answer and the contents are those of an ordinary map. Missing: erasing the greatest key and erasures from maps of several pages (both refuted in general)."
  },
  {
   "property": "C48",
   "status": "partial",
   "theorems": [
    "C48_round_trip_partial",
    "C48_char_refuted",
    "C48_full_refuted",
    "C48_eof_refuted"
   ],
   "note": "Proved for all strings and chars except char 255 where char is signed, in pools with space. Refuted: char 255 is read as end of file with a signed char; a full pool loses chars without an error; a stream that has met the end never reads chars that are added later."
  },
  {
   "property": "C49",
   "status": "partial",
   "theorems": [
    "C49_with_log",
    "C49_one_page_partial",
    "C49_grow_refuted",
    "C49_read_refuted"
   ],
   "note": "Proved without a log for all histories in which no list outgrows a page. Refuted for every item size: the first insertion beyond a page, front(), back(), ++ and -- call a null log."
  },
  {
   "property": "C50",
   "status": "proved",
   "theorems": [
    "C50_board"
   ],
   "note": "Over every list of attempted moves with arbitrary integers; the board always shows a game played by the rules, and accepts exactly the legal moves."
  },
  {
   "property": "C51",
   "status": "proved",
   "theorems": [
    "C51_undo"
   ],
   "note": "Undo after an accepted move gives back the whole board, in every reachable position."
  },
  {
   "property": "C52",
   "status": "proved",
   "theorems": [
    "C52_never_loses",
    "C52_defined_move",
    "C52_keeps_wins",
    "C52_lost_position_refuted"
   ],
   "note": "Both seats, every opponent. C52_lost_position_refuted: in a position that is already lost (its own play never reaches one) the best move stays uninitialised."
  },
  {
   "property": "C53",
   "status": "proved",
   "theorems": [
    "C53_board",
    "C53_undo",
    "C53_undo_empty_refuted"
   ],
   "note": "Over every list of attempted moves with arbitrary integers. C53_undo_empty_refuted: undo_move of a cell without a disc reports success and corrupts the board (not part of the claim)."
  },
  {
   "property": "C54",
   "status": "partial",
   "theorems": [
    "C54_one",
    "C54_none_partial",
    "C54_many_partial",
    "C54_zero_matrix_refuted",
    "C54_double_refuted"
   ],
   "note": "Over every field with a decidable zero: status 1 is exact. Status 0 and 2 are exact except for the zero matrix with a non-zero right-hand side, where the code answers 2 although there is no solution (C54_zero_matrix_refuted). With double, the determinants can underflow and a system with one solution is classified as having many (C54_double_refuted)."
  },
  {
   "property": "C55",
   "status": "partial",
   "theorems": [
    "C55_reported_partial",
    "C55_block_limit",
    "C55_no_log_true",
    "C55_no_log_refuted",
    "C55_put_overflow_refuted",
    "C55_get_overflow_refuted",
    "C55_lock_refuted"
   ],
   "note": "With a log all failures are reported, block limits kept, messages and stored values exact. False without a log: every call returns true, put_block and get_block overrun memory. False if locking throws (ENOLCK counts as success)."
  },
  {
   "property": "C56",
   "status": "partial",
   "theorems": [
    "C56_sequential_partial",
    "C56_no_log_partial",
    "C56_same_target",
    "C56_word",
    "C56_swap",
    "C56_no_log_refuted",
    "C56_address_zero_refuted",
    "C56_threads_refuted",
    "C56_stale_refuted"
   ],
   "note": "Proved for calls made one after the other and for threads that use one target. False for threads with different targets (also lastingly), for the first call to address 0, and without a log when selecting fails."
  },
  {
   "property": "C57",
   "status": "partial",
   "theorems": [
    "C57_registers_partial",
    "C57_short_period",
    "C57_short_period_refuted",
    "C57_long_period_refuted",
    "C57_capture_partial",
    "C57_capture_refuted"
   ],
   "note": "Proved for periods of 2^18 to 4259905000 ticks and pulse widths up to auto-reload * prescaler. False otherwise: division by zero for short periods (72 MHz and 275 Hz or more), truncated prescaler, capture value above auto-reload."
  },
  {
   "property": "C58",
   "status": "proved",
   "theorems": [
    "C58_descriptors",
    "C58_all_closed",
    "C58_destroy_total"
   ],
   "note": "All histories of plain sockets (basic, client, tcp server, udp), any answers of the system. The OpenSSL sockets are not modelled."
  },
  {
   "property": "C59",
   "status": "proved",
   "theorems": [
    "C59_seats",
    "C59_turns",
    "C59_move_before_start_refuted",
    "C59_equal_ids_refuted"
   ],
   "note": "Every history of claims and moves. Two things a user may expect beyond the claim are refuted: moves wait for the start, and the holder of a seat can move (equal random ids block O)."
  },
  {
   "property": "C60",
   "status": "partial",
   "theorems": [
    "C60_move_position_refuted",
    "C60_move_fresh_partial"
   ],
   "note": "False of the code: the move constructor starts over at the beginning of both ranges. Only a fresh buffer is moved faithfully."
  },
  {
   "property": "C61",
   "status": "partial",
   "theorems": [
    "C61_test_indent_partial",
    "C61_test_indent_refuted"
   ],
   "note": "Severity 0 writes before the array; all other severities proved."
  },
  {
   "property": "C62",
   "status": "proved",
   "theorems": [
    "C62_accepts",
    "C62_writer",
    "C62_version_refuted"
   ],
   "note": "C62_version_refuted records that the reader takes a version without digits (HTTP/.), which the statement allows."
  },
  {
   "property": "C63",
   "status": "partial",
   "theorems": [
    "C63_mean_partial",
    "C63_bound",
    "C63_gravity_refuted"
   ],
   "note": "True while the partial sums fit 16 bits; the result never leaves -1638..1638, so the vertical channel (1 g = 2047) is calibrated wrongly."
  },
  {
   "property": "C64",
   "status": "partial",
   "theorems": [
    "C64_destroy_partial",
    "C64_destroy_refuted",
    "C64_start_refuted",
    "C64_start_partial"
   ],
   "note": "From the states outside of the window of the lost notification, the destructor returns in every interleaving and only after the thread has ended; start() makes the thread measure. Refuted for the window (200 ms sleep and after)."
  },
  {
   "property": "C65",
   "status": "partial",
   "theorems": [
    "C65_start_refuted",
    "C65_next_connection_partial",
    "C65_no_early_partial",
    "C65_early_refuted"
   ],
   "note": "False: the listener stays in accept() until one more connection comes. Proved: with one more connection start() returns, and that connection is closed without an answer; start() does not return before the requests are answered if it reads the counter after the shutdown was requested. Refuted: otherwise it can return early."
  },
  {
   "property": "C66",
   "status": "partial",
   "theorems": [
    "C66_any_input",
    "C66_malformed_refuted",
    "C66_malformed_file_refuted",
    "C66_long_root_refuted"
   ],
   "note": "Proved for every byte sequence if the root directory has at most 2047 bytes. A longer root directory overruns the array (C66_long_root_refuted). A malformed request line gets no response at all, because reading and writing share one stream state, and may still open a file."
  },
  {
   "property": "C67",
   "status": "partial",
   "theorems": [
    "C67_unlike_partial",
    "C67_refuted"
   ],
   "note": "Refuted: a lookup on a full page compares the key with memory behind the page. Proved: memory behind pages that never looks like a key of the history does not matter."
  },
  {
   "property": "C68",
   "status": "partial",
   "theorems": [
    "C68_line_partial",
    "C68_endless_refuted",
    "C68_copy_refuted",
    "C68_throw_refuted"
   ],
   "note": "Proved for all bytes that do not ask with POST for something below /games, in all reachable states. False for the rest: a body with an unterminated string keeps the thread busy for ever, a player type of 65 characters overruns an array, a header value of 1024 characters that goes on after a space is an exception nobody catches."
  },
  {
   "property": "C69",
   "status": "partial",
   "theorems": [
    "C69_claim_partial",
    "C69_create_partial",
    "C69_zero_refuted"
   ],
   "note": "Claiming a seat is proved in full for all reachable states and request lines; creating a game is proved for every complete JSON body that fits the reader (64 levels, strings of 1032 characters, player types of 64 characters). False in full: if std::rand makes the id of a seat 0, nobody can claim the seat."
  },
  {
   "property": "C70",
   "status": "partial",
   "theorems": [
    "C70_complete_partial",
    "C70_refused_partial",
    "C70_type_partial",
    "C70_untyped_refuted",
    "C70_resource_refuted",
    "C70_cut_refuted"
   ],
   "note": "What is sent is nothing or one complete response, for all bytes and states; wrong methods, unknown resources, wrong or repeated Content-Type and the shutdown are answered as documented. False in full: POST /games and moves without Content-Type and unknown forms below /games get no response, and a request cut off in its first line claims a seat without a response."
  },
  {
   "property": "C71",
   "status": "proved",
   "theorems": [
    "C71_moves"
   ],
   "note": "Both servers, all histories, all request lines that fit. Requests are processed one after the other in the model."
  },
  {
   "property": "C72",
   "status": "partial",
   "theorems": [
    "C72_changes_partial",
    "C72_only_post_partial",
    "C72_body_refuted",
    "C72_unclaimed_refuted",
    "C72_same_ids_refuted",
    "C72_stuck_refuted"
   ],
   "note": "For both servers and all histories: every event keeps each game, claims a free seat, adds a legal move of the player on turn (an engine for its seat, a POST request that names the ids of the game and of the seat), or replaces a game that is over; only POST changes anything. False in full: a body that is cut off counts as a move; a seat nobody claimed can move; repeated std::rand gives both seats one id and the second player cannot move; the id 0 makes a game unreachable for ever. Requests are processed one after the other in the model."
  },
  {
   "property": "C73",
   "status": "partial",
   "theorems": [
    "C73_move_partial",
    "C73_fraction_refuted"
   ],
   "note": "Proved for both servers, all histories, all complete JSON bodies that fit the reader, whole numbers and numbers off the board. False in full: numbers that are not whole are rounded down instead of refused (row 1.5 is row 1)."
  },
  {
   "property": "C74",
   "status": "proved",
   "theorems": [
    "C74_requests",
    "C74_histories"
   ],
   "note": "All request bytes; requests and turns of the sensor thread one after the other (interleavings: C75). Failing writes to the hardware are left out."
  },
  {
   "property": "C75",
   "status": "partial",
   "theorems": [
    "C75_orderly",
    "C75_values_partial",
    "C75_race_refuted"
   ],
   "note": "Values proved for every interleaving of atomic accesses. The second part is false: with a turn being computed while a stop is handled, all wheels end at full power although the members say power 0, turn 0."
  },
  {
   "property": "C76",
   "status": "partial",
   "theorems": [
    "C76_stop_partial",
    "C76_race_refuted"
   ],
   "note": "Proved when requests and turns of the sensor thread do not overlap. False of threads: the sensor thread, about to slow the car from 100 to 75, sets the power to 75 after the stop was answered."
  },
  {
   "property": "C77",
   "status": "partial",
   "theorems": [
    "C77_turn_partial",
    "C77_turns_partial",
    "C77_slow_refuted",
    "C77_turning_refuted"
   ],
   "note": "Proved: the exact power after a turn (down by 25 at most for each turn of the thread), the bound after several turns, direction and turn kept. False: one reading of 0 cm leaves 75 percent; with a turn the wheels of one side keep up to full power at power 0."
  },
  {
   "property": "C78",
   "status": "partial",
   "theorems": [
    "C78_direction_partial",
    "C78_forwards_refuted",
    "C78_stop_refuted",
    "C78_turning_refuted"
   ],
   "note": "Proved: the only events that reverse a wheel under power are backwards to forwards or to a stop, and a turn with power 0 to backwards. These three do (_power is an absolute value, so the test of the product sees only one direction)."
  },
  {
   "property": "C79",
   "status": "partial",
   "theorems": [
    "C79_servo_partial",
    "C79_order",
    "C79_race_refuted"
   ],
   "note": "Proved for one request after the other. False of threads: the end of one request's pulses cuts another's. Time is not modelled."
  },
  {
   "property": "C80",
   "status": "partial",
   "theorems": [
    "C80_commands_partial",
    "C80_whole",
    "C80_types_partial",
    "C80_refusals",
    "C80_fraction_refuted",
    "C80_untyped_refuted"
   ],
   "note": "Proved for requests that fit and complete JSON bodies. False: fractions are cut off instead of refused (25.9 is 25), and a request without Content-Type gets no response."
  },
  {
   "property": "C81",
   "status": "partial",
   "theorems": [
    "C81_autos_partial",
    "C81_sensed"
   ],
   "note": "Numbers below 10^15 and any position printed as a JSON number of up to 32 characters; the printing of floating point numbers is not modelled."
  },
  {
   "property": "C82",
   "status": "partial",
   "theorems": [
    "C82_shutdown_partial",
    "C82_quiet_partial",
    "C82_join",
    "C82_reset_refuted",
    "C82_twice_refuted"
   ],
   "note": "Proved: one after the other; quiet once the thread is joined and no request is under way; the join can always end. False of threads: the sensor thread drives the wheels after the reset and they keep their power; the second of two shutdowns throws in join."
  },
  {
   "property": "C83",
   "status": "partial",
   "theorems": [
    "C83_absent_refuted",
    "C83_shown_partial",
    "C83_good_refuted",
    "C83_plain"
   ],
   "note": "False: only SSL_VERIFY_PEER is set, so a client that shows no certificate is accepted; and no authority is ever loaded, so a client with a sound certificate never is. Proved: a verifying server never accepts a client whose certificate was not verified among those that show one; a server that does not verify accepts everybody who completes the handshake."
  },
  {
   "property": "C84",
   "status": "partial",
   "theorems": [
    "C84_impostor_partial",
    "C84_good_refuted",
    "C84_log_refuted",
    "C84_log_partial"
   ],
   "note": "Proved: no connection to and no transfer with an unverified server, in any history. False: no authority is loaded, so no server can be verified, and the default client can connect to none; connect() calls a method of the log without checking it, the only such call."
  },
  {
   "property": "C85",
   "status": "partial",
   "theorems": [
    "C85_records_refuted",
    "C85_handshake_refuted",
    "C85_records_partial",
    "C85_handshake_partial"
   ],
   "note": "False after close(), which keeps the SSL: a later connect() does no handshake, and the destructor writes an alert to whatever has the descriptor number now. Proved for all histories without close()."
  },
  {
   "property": "C86",
   "status": "partial",
   "theorems": [
    "C86_memory",
    "C86_descriptors",
    "C86_uses_refuted",
    "C86_uses_partial",
    "C86_leak_refuted",
    "C86_leak_partial"
   ],
   "note": "Proved for all histories: no use of freed memory; descriptors closed once, open ones owned by exactly one object. False: use of a descriptor after close() (by the destructor), and leaks when a constructor throws. Proved without close() and without such throws."
  },
  {
   "property": "C87",
   "status": "partial",
   "theorems": [
    "C87_fails_refuted",
    "C87_silent_refuted",
    "C87_served_partial"
   ],
   "note": "False: a failing handshake ends the process, a silent client stops the listener. Proved: exactly the clients before the first such one are served."
  },
  {
   "property": "C88",
   "status": "partial",
   "theorems": [
    "C88_password_partial",
    "C88_kept",
    "C88_short_refuted",
    "C88_transferred",
    "C88_size_refuted"
   ],
   "note": "Proved for buffers longer than the password, and for the results of send and receive. False: with a shorter buffer a truncated password is given; of sizes from 2^31 nothing is sent (for some the size wraps to a smaller one)."
  },
  {
   "property": "C89",
   "status": "partial",
   "theorems": [
    "C89_distance_partial",
    "C89_near_refuted",
    "C89_first_refuted",
    "C89_beyond_refuted",
    "C89_beyond_partial",
    "C89_centimeters_partial"
   ],
   "note": "Proved: accuracy of 3 operations and 1 microsecond for an echo that is over before the timeout; never beyond max_distance (in centimeters) if no operation takes longer than 11 microseconds and the call is the first. False: the timeout is that of the first call of the program and includes the time before the echo starts, and it is checked only after a reading of the wrong level."
  },
  {
   "property": "C90",
   "status": "partial",
   "theorems": [
    "C90_pulse",
    "C90_sent_refuted",
    "C90_ends",
    "C90_unread"
   ],
   "note": "Proved: the pulse, the end within the timeout and 23 microseconds and 20 operations, max_distance if the line cannot be read. False: failing writes to the trigger line are ignored, and any change of the echo line is measured."
  },
  {
   "property": "C91",
   "status": "partial",
   "theorems": [
    "C91_lines_partial",
    "C91_throw_refuted",
    "C91_moved_refuted"
   ],
   "note": "False: a throwing constructor leaves a descriptor open; the defaulted move constructor copies the descriptor. Proved for histories without these."
  },
  {
   "property": "C92",
   "status": "partial",
   "theorems": [
    "C92_follows",
    "C92_goes",
    "C92_prompt_refuted",
    "C92_prompt_partial",
    "C92_range",
    "C92_set"
   ],
   "note": "Proved: the bound of a turn, the range of the duty cycle under any interleaving of calls. False: at once, since notifications are made without the mutex and can be lost. Proved for notifications that come while the thread waits."
  },
  {
   "property": "C93",
   "status": "partial",
   "theorems": [
    "C93_pulse_partial",
    "C93_limits_refuted",
    "C93_constant"
   ],
   "note": "Proved for duty cycles between 0 and 100, with the precision in operations. False for 100 (the line stays high, beyond max_pulse_width) and 0 (no pulses, whatever min_pulse_width is)."
  },
  {
   "property": "C94",
   "status": "partial",
   "theorems": [
    "C94_ends",
    "C94_runs",
    "C94_low_refuted"
   ],
   "note": "Proved: the thread ends within 3 turns and puts the line low last, and not before. False: a failure of that write is ignored."
  },
  {
   "property": "C95",
   "status": "partial",
   "theorems": [
    "C95_made",
    "C95_full",
    "C95_refused_refuted",
    "C95_zero_refuted",
    "C95_refused_partial"
   ],
   "note": "Proved: what is accepted. False: bad widths end the process (the exception destroys a joinable thread), the frequency 0 divides by zero."
  },
  {
   "property": "C96",
   "status": "proved",
   "theorems": [
    "C96_moves",
    "C96_position_refuted"
   ],
   "note": "Proved for all games it plays from the start. In positions that its own play never reaches, its moves for the first turns can be taken cells (C96_position_refuted)."
  },
  {
   "property": "C97",
   "status": "proved",
   "theorems": [
    "C97_wins",
    "C97_nearer"
   ],
   "note": "Proved for all positions with at least four discs."
  },
  {
   "property": "C98",
   "status": "proved",
   "theorems": [
    "C98_careful"
   ],
   "note": "Proved for all positions with at least four discs."
  },
  {
   "property": "C99",
   "status": "partial",
   "theorems": [
    "C99_t_partial",
    "C99_c_partial",
    "C99_t_zero",
    "C99_t_empty",
    "C99_c_least",
    "C99_unset",
    "C99_zero_refuted",
    "C99_empty_refuted",
    "C99_column_refuted"
   ],
   "note": "Proved if a move that may be played has a score that is not the least. False otherwise: tic-tac-toe divides by zero (C99_zero_refuted, by a session of games of the two engines) or moves off the board (C99_empty_refuted); connect four moves into a full column (C99_column_refuted). Without room in the pool the move returned is not set (C99_unset)."
  },
  {
   "property": "C100",
   "status": "partial",
   "theorems": [
    "C100_t_learns",
    "C100_c_learns",
    "C100_t_keys",
    "C100_c_keys",
    "C100_t_range",
    "C100_c_range",
    "C100_t_total",
    "C100_c_total",
    "C100_t_game",
    "C100_c_game",
    "C100_loss_refuted"
   ],
   "note": "Proved for tic-tac-toe, and for connect four with the bonus for long games that the code adds; because of it a loss after more than 24 moves raises scores (C100_loss_refuted)."
  },
  {
   "property": "C101",
   "status": "partial",
   "theorems": [
    "C101_t_best",
    "C101_c_best",
    "C101_t_weighted",
    "C101_c_weighted",
    "C101_best_refuted"
   ],
   "note": "The first part is proved. The second holds with the sum of the scores that are not the least in the place of the sum of all scores; so the proportions are wrong, and the best move may never be played (C101_best_refuted)."
  },
  {
   "property": "C102",
   "status": "partial",
   "theorems": [
    "C102_least_first_partial",
    "C102_empty_first_partial",
    "C102_ideal_partial",
    "C102_refuted"
   ],
   "note": "Proved for all histories whose first board state is the least, as when the engine makes the first move of the first game, while the pool has room and the bytes behind a page do not look like a board state; the engine then gets the same scores as from the ideal map used in C99-C101 (C102_ideal_partial). False in general: with the sizes of tic-tac-toe, 626 board states in descending order make the map forget some (C102_refuted). Whether games can bring about such an order is not shown."
  },
  {
   "property": "C103",
   "status": "partial",
   "theorems": [
    "C103_inside_partial",
    "C103_append_partial",
    "C103_refuted"
   ],
   "note": "Proved for positions before an item that is not the last on its page, and for end() of a non-empty list, if the page has room for all items (at end() the iterator returned is end(), not the first inserted item). False elsewhere: items get out of order, an empty list throws, an overflowing page is overrun (C103_refuted)."
  },
  {
   "property": "C104",
   "status": "partial",
   "theorems": [
    "C104_all",
    "C104_one_page_partial",
    "C104_refuted"
   ],
   "note": "Proved for erase(begin(), end()) of every list, and for erase(itr, end()) of lists on one page. False otherwise: a range before end() takes the items behind it along, and ranges in longer lists can go on for ever on a page that was freed (shown for 200 turns)."
  },
  {
   "property": "C105",
   "status": "partial",
   "theorems": [
    "C105_new_partial",
    "C105_refuted"
   ],
   "note": "Proved for ranges of new keys, under the conditions of C45_lowest_first_partial. With a key that is there, the rest of the range is not inserted (C105_refuted)."
  },
  {
   "property": "C106",
   "status": "partial",
   "theorems": [
    "C106_verdict",
    "C106_status",
    "C106_no_verdict",
    "C106_refuted"
   ],
   "note": "Proved for all suites whose methods throw nothing but std::exceptions (C106_no_verdict: exactly then run returns). A method that throws something else ends the program without a verdict (C106_refuted)."
  },
  {
   "property": "C107",
   "status": "partial",
   "theorems": [
    "C107_repeat_partial",
    "C107_printed",
    "C107_repeat_refuted"
   ],
   "note": "Proved if the seed is not 0 and the methods depend on nothing that srand does not set. std::rand may return 0, which asks for another random seed (C107_repeat_refuted)."
  },
  {
   "property": "C108",
   "status": "partial",
   "theorems": [
    "C108_tictactoe",
    "C108_connect4",
    "C108_vmem",
    "C108_tls",
    "C108_car",
    "C108_cases",
    "C108_name_refuted",
    "C108_argv_refuted"
   ],
   "note": "Arrays and paths proved for every argv[0]. False for the root directory of programs started by name: files come from the root of the file system. A null argv[0] is read."
  },
  {
   "property": "C109",
   "status": "partial",
   "theorems": [
    "C109_made",
    "C109_null",
    "C109_position",
    "C109_info",
    "C109_bus_partial",
    "C109_leak_refuted"
   ],
   "note": "Proved for chips. The bus that throws because the device does not tell its functions leaves its descriptor open (C109_leak_refuted)."
  },
  {
   "property": "C110",
   "status": "partial",
   "theorems": [
    "C110_values_partial",
    "C110_wrong_sensor_refuted",
    "C110_dead_refuted",
    "C110_dead_no_log_refuted"
   ],
   "note": "Proved if every system call succeeds. If asking for a sensor fails, the value of the sensor before is stored; if reading fails, the variables keep what they held, or are 0 without a log; nothing is reported."
  },
  {
   "property": "C111",
   "status": "partial",
   "theorems": [
    "C111_held_partial",
    "C111_few_pages_partial",
    "C111_dangling_refuted",
    "C111_throws_refuted"
   ],
   "note": "Proved while a handle holds the page, and for ever if the program asks for at most as many pages as the pool may map. The reference does not hold its page: with 3 mapped pages, looking at items on four further pages leaves it dangling; with all pages held, dereferencing throws."
  },
  {
   "property": "C112",
   "status": "partial",
   "theorems": [
    "C112_exact",
    "C112_before_partial",
    "C112_push_back",
    "C112_refuted"
   ],
   "note": "Exactly what is inserted is proved for all lists, places and items (C112_exact). It is right for items of other lists, for items at or before the place, and for push_back of anything. An item behind the place on the same page is shifted before it is copied, so the item before it is inserted: push_front(back()) on [1;2;3] gives [2;1;2;3] (C112_refuted)."
  },
  {
   "property": "C113",
   "status": "partial",
   "theorems": [
    "C113_finite",
    "C113_straight_partial",
    "C113_circle_partial",
    "C113_heading",
    "C113_lag_partial",
    "C113_turn_refuted",
    "C113_clock_refuted"
   ],
   "note": "Real numbers stand for double. Proved exact: place, heading and speed on a straight course with linear acceleration and on a circle at constant speed; heading and speed for linear acceleration and rate of turn; no division by zero. False: the place in a turn with acceleration (C113_turn_refuted); anything when the clock does not advance by whole microseconds (C113_clock_refuted; the lag is bounded in C113_lag_partial)."
  },
  {
   "property": "C114",
   "status": "partial",
   "theorems": [
    "C114_between_partial",
    "C114_lost",
    "C114_refuted"
   ],
   "note": "True between two rounds (C114_between_partial). A call between the loads and the stores of a round is lost (C114_lost, C114_refuted). Real numbers stand for double."
  },
  {
   "property": "C115",
   "status": "partial",
   "theorems": [
    "C115_once_partial",
    "C115_exact",
    "C115_moved_refuted",
    "C115_flushed_refuted",
    "C115_show_refuted",
    "C115_unseen_refuted",
    "C115_gone_refuted"
   ],
   "note": "True if no line is moved, none ends empty and << is not used (C115_once_partial); exactly what is written is proved for all programs without << (C115_exact). False: a moved line is written twice; flush() and the destructor add an empty line; text put by << overwrites the line and is not counted; << on a moved line writes through the object it was moved from, which may be gone."
  },
  {
   "property": "C116",
   "status": "partial",
   "theorems": [
    "C116_released",
    "C116_unaffected_partial",
    "C116_copy_refuted",
    "C116_locked_refuted",
    "C116_gone_refuted",
    "C116_freed_refuted"
   ],
   "note": "Files and mappings are released once in every program (C116_released). Handles are as if the pool had not been moved if there are none whenever it is moved (C116_unaffected_partial). False otherwise: handles keep pointing to the object that was moved from; a copy gets MAP_FAILED, locks are never released so that the pool runs out of room, a freed page is lost, and the end of a handle uses a pool object that may be gone."
  },
  {
   "property": "C117",
   "status": "partial",
   "theorems": [
    "C117_verdict",
    "C117_strings",
    "C117_report_partial",
    "C117_difference_partial",
    "C117_tail_refuted"
   ],
   "note": "The verdict is right for all blobs and strings (C117_verdict, C117_strings); each whole piece of 16 bytes is shown (C117_report_partial, C117_difference_partial), with its offset modulo 65536. False for the bytes behind the last whole piece: the loop stops when put_binary returns false, which it also does for the last, incomplete piece, so blobs of 5 bytes fail without a message and blobs of 20 bytes may fail with a message that shows the same bytes twice (C117_tail_refuted)."
  },
  {
   "property": "C118",
   "status": "partial",
   "theorems": [
    "C118_read_partial",
    "C118_appends",
    "C118_forged_refuted"
   ],
   "note": "True if no text has a newline (C118_read_partial), whatever separators the texts contain; entries never change what was written before (C118_appends). False otherwise: a text with a newline is read as an entry that was never logged (C118_forged_refuted, for both kinds of log)."
  },
  {
   "property": "C119",
   "status": "partial",
   "theorems": [
    "C119_problem_partial",
    "C119_exact_partial",
    "C119_line_partial",
    "C119_type_partial",
    "C119_files",
    "C119_endless_refuted",
    "C119_overflow_refuted"
   ],
   "note": "True for requests that fit the arrays and JSON values within the limits of the reader (64 levels, numbers of 25 characters, strings of 1032 characters): C119_problem_partial gives the response for any arithmetic, C119_exact_partial its meaning in exact arithmetic, C119_line_partial and C119_type_partial the refusals, C119_files the requests for files. Missing: other bodies that are not complete JSON. False of bodies that are a string without its end: the request never ends (C119_endless_refuted). False of double: coefficients of 1e200 overflow and the response contains nan, which is not JSON (C119_overflow_refuted)."
  },
  {
   "property": "C120",
   "status": "partial",
   "theorems": [
    "C120_values_partial",
    "C120_setup_partial",
    "C120_calibrate_partial",
    "C120_failed_refuted",
    "C120_uninitialised",
    "C120_uninitialised_refuted",
    "C120_range_refuted",
    "C120_no_log_refuted"
   ],
   "note": "Proved if every system call succeeds: the values, the messages sent, the calibration of a sensor that says the same in all rounds (up to 1638 in either direction, C63; channels that are not in the mask lose their calibration), values at most 5 percent outside of their ranges. False: a channel whose message fails gets the value of the channel before (C120_failed_refuted), or that of a variable that was not initialised (C120_uninitialised_refuted); the word 0x8000 is below -16 g (C120_range_refuted); calibrate() calls the log without looking whether there is one (C120_no_log_refuted). Rational numbers stand for double."
  }
 ]
}