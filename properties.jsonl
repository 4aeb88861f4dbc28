{"id": "C01", "title": "Bounded and case-insensitive text comparison is exact", "statement": "are_equal / are_equal_i / are_equal_n / are_equal_i_n return true exactly when the two C strings (cut to their first n characters for the _n forms) are equal, resp. equal after mapping A-Z to a-z; the _i forms never equate characters that differ by more than letter case.", "quantifier": "every pair of C strings of any length over all char values, every n", "why_tests_cant": "The set of string pairs is infinite; tests only sample a few literals.", "anchors": ["src/ascii.h: are_equal, are_equal_i, are_equal_n, are_equal_i_n, to_lower, to_upper"]}
{"id": "C02", "title": "A buffer stream delivers exactly the given characters and never writes outside its range", "statement": "Reading from a buffer_streambuf yields the characters of [get_begin, get_end) in order and then end-of-file; writing stores the characters in order in [put_begin, put_end) and reports failure from the first character that does not fit, leaving every other memory cell unchanged.", "quantifier": "every buffer content and size, every sequence of reads and writes", "why_tests_cant": "The bound must hold for every write sequence including ones longer than the buffer.", "anchors": ["src/buffer_streambuf.h: basic_buffer_streambuf::reset", "test/streambuf.cpp"]}
{"id": "C03", "title": "JSON written is read back as the same token sequence", "statement": "For every JSON value, writing it with json_ostream (strings and property names without quote, backslash or NUL; numbers in their printed text) and reading the produced characters with json_istream returns exactly the same token sequence, ending good.", "quantifier": "every JSON tree whose depth fits both streams, every placement of the optional whitespace writers, every sufficiently large token buffer", "why_tests_cant": "The space of documents is infinite and recursive.", "anchors": ["src/json.h: json_ostream::put_*, json_istream::get_token, get_or_skip_token, get_or_skip_string, get_or_skip_number, get_literal"]}
{"id": "C04", "title": "Every JSON read call finishes", "statement": "json_istream::get_token and skip_value return after finitely many steps on any input.", "quantifier": "every byte sequence as input, every reader state, every buffer size", "why_tests_cant": "A test that hangs on one input says nothing about the others; non-termination cannot be observed by running.", "anchors": ["src/json.h: get_or_skip_string, skip_value, get_escaped_char"]}
{"id": "C05", "title": "The JSON reader never writes outside the caller's token buffer", "statement": "json_istream::get_token(buffer, size) modifies only the first size bytes of buffer, whatever the input.", "quantifier": "every input byte sequence, every buffer size, every reader state", "why_tests_cant": "Out-of-bounds writes may be silent and depend on the exact input/size combination.", "anchors": ["src/json.h: get_or_skip_token, get_or_skip_string, get_or_skip_number, get_escaped_char, get_chars"]}
{"id": "C06", "title": "The JSON reader only accepts correctly nested brackets within the level limit", "statement": "In every history of get_token calls the returned begin/end tokens form a prefix of a correctly nested bracket sequence whose kinds match, never nested deeper than MaxLevels; a closing bracket of the wrong kind, or one level too many, turns the stream bad/failed instead of being returned.", "quantifier": "every input, every number of get_token calls, every MaxLevels", "why_tests_cant": "Histories are unbounded.", "anchors": ["src/json.h: json_state::push_level, pop_level, json_istream::get_or_skip_token"]}
{"id": "C07", "title": "A stream that went bad stays silent", "statement": "Once a json_istream is no longer good, every further get_token returns item none with no value and consumes no input; once a json_ostream is no longer good, put_* calls emit nothing more.", "quantifier": "every failure cause and every later call sequence", "why_tests_cant": "Quantifies over all failure states and all continuations.", "anchors": ["src/json.h: json_istream::get_or_skip_token, json_ostream::put_token, put_chars", "src/stream.h: is_good, set_bad"]}
{"id": "C08", "title": "A JSON writer that stays good has produced well-formed JSON", "statement": "If a sequence of json_ostream put calls that opens and closes exactly one top-level value leaves the stream good then the emitted text is a well-formed JSON document.", "quantifier": "every sequence of put_* calls with every argument", "why_tests_cant": "The grammar obligation ranges over all call sequences.", "anchors": ["src/json.h: json_ostream::put_null .. put_end_object, put_chars, json_state"]}
{"id": "C09", "title": "skip_value consumes exactly one JSON value", "statement": "On well-formed input positioned at a value, json_istream::skip_value consumes exactly that value, so the next get_token returns the token after it, and the reader state is as if the value had been read token by token.", "quantifier": "every JSON value of any nesting followed by any rest of document", "why_tests_cant": "Infinite set of nested values.", "anchors": ["src/json.h: json_istream::skip_value, get_or_skip_token"]}
{"id": "C10", "title": "HTTP requests and responses survive a write/read round trip", "statement": "A request (method, resource, protocol, any number of headers, body) or response (protocol, status code, reason phrase, headers, body) written through the http_*_ostream is read back with identical parts through the http_*_istream.", "quantifier": "every choice of parts within the documented character classes, any number of headers, any body bytes", "why_tests_cant": "Infinite set of messages and header counts.", "anchors": ["src/http.h: http_request_ostream, http_request_istream, http_response_ostream, http_response_istream, put_header_name, put_header_value, get_header_name, get_header_value, put_body, get_body"]}
{"id": "C11", "title": "Header writers cannot be used to inject lines", "statement": "Whatever string is passed to put_header_name, put_header_value, put_method, put_resource, put_protocol, put_status_code or put_reason_phrase, the characters emitted for it are printable characters and spaces (and tabs in a reason phrase), with no CR, LF or other control character, except the single line end of the calls that end a line; a folded header value is emitted on one line.", "quantifier": "every argument string of any bytes", "why_tests_cant": "An attacker chooses the argument; tests cannot enumerate it.", "anchors": ["src/http.h: http_ostream::put_header_name, put_header_value, put_chars, http_request_ostream::put_method, put_resource, http_response_ostream::put_status_code, put_reason_phrase"]}
{"id": "C12", "title": "HTTP readers stay inside the caller's buffer", "statement": "Every http_istream get_* call with a buffer of size n >= 2 terminates, stores at most n bytes including a terminating NUL (get_body: at most n bytes and no NUL), reports the stored length in gcount, and leaves the remaining buffer untouched.", "quantifier": "every input stream content, every buffer size, every reader state", "why_tests_cant": "Overflows only appear on particular input lengths.", "anchors": ["src/http.h: http_istream::get_protocol, get_header_name, get_header_value, get_chars, http_request_istream::get_method, get_resource, http_response_istream::get_status_code, get_reason_phrase"]}
{"id": "C13", "title": "HTTP calls out of order are refused without side effects", "statement": "A get_*/put_* call that is not the next part of the message throws logic_error, and consumes or emits nothing; a sequence of calls is accepted only if it follows the message grammar start-line, header*, body*.", "quantifier": "every call sequence on each of the four HTTP streams", "why_tests_cant": "Call histories are unbounded.", "anchors": ["src/http.h: http_state::assert_next, http_istream, http_ostream, http_request_istream, http_response_istream"]}
{"id": "C14", "title": "get_body returns exactly the bytes that arrived", "statement": "http_istream::get_body(buffer, n) stores the next min(n, available) body bytes unchanged and reports exactly that count.", "quantifier": "every body content (all byte values), every n, every remaining length", "why_tests_cant": "End-of-stream behaviour depends on lengths no test enumerates.", "anchors": ["src/http.h: http_istream::get_body, get_bytes, get_char"]}
{"id": "C15", "title": "Query parameters are found by name", "statement": "For a resource of the form path?k1=v1&k2=v2..., split_resource cuts exactly at the ? and the &s; get_resource_parameter(resource, name) then returns the value of the first parameter with that name (case-sensitively), and reports absence otherwise.", "quantifier": "every resource string and every parameter name", "why_tests_cant": "All strings, including malformed queries.", "anchors": ["src/http.h: http_request_istream::split_resource, get_resource_parameter"]}
{"id": "C16", "title": "timestamp shows the proleptic Gregorian date", "statement": "year(), month(), day() of a timestamp equal the Gregorian calendar date of its time point.", "quantifier": "every representable time point (all day counts since 1970 that fit)", "why_tests_cant": "Leap-day rules fail only on isolated days; the test suite samples about a dozen dates.", "anchors": ["src/timestamp.h: timestamp::reset_date, reset_date_if_done", "test/timestamp.cpp"]}
{"id": "C17", "title": "timestamp shows the correct time of day", "statement": "hours, minutes, seconds, milliseconds, microseconds, nanoseconds are the components of the time since midnight: in range, and recombining them gives back the input.", "quantifier": "every 64-bit nanosecond count", "why_tests_cant": "2^64 inputs.", "anchors": ["src/timestamp.h: timestamp::reset, reset_time"]}
{"id": "C18", "title": "timestamp comparison is chronological", "statement": "==, !=, <, <=, >, >= on timestamps are mutually consistent, form a total order, and agree with the order of the underlying time points; later times never show an earlier date/time tuple.", "quantifier": "every pair and triple of time points", "why_tests_cant": "All pairs of 64-bit values.", "anchors": ["src/timestamp.h: timestamp::operator==, operator!=, operator<, operator<=, operator>, operator>=, reset"]}
{"id": "C19", "title": "A line buffer never overruns its storage", "statement": "Whatever is put into a line_ostream<Size>, no byte outside its Size+2 byte buffer is read or written, and what is flushed was previously written.", "quantifier": "every Size and every sequence of put/get/flush calls with arguments of any formatted length", "why_tests_cant": "The overrun depends on the exact cumulative length.", "anchors": ["src/table.h: line_ostream::put_anyv, flush, get, put_binary"]}
{"id": "C20", "title": "A flushed line is exactly the text put since the last flush plus one newline", "statement": "As long as the text fits into Size, flush() sends the concatenation of all formatted pieces since the previous flush followed by one newline to the table, in order, and nothing else; destroying the line flushes it.", "quantifier": "every sequence of puts and flushes, every Size", "why_tests_cant": "Unbounded call histories.", "anchors": ["src/table.h: line_ostream::flush, put_any, ~line_ostream, table_ostream::put_line"]}
{"id": "C21", "title": "A binary dump shows every byte of the buffer", "statement": "The dump lines produced by put_binary for a buffer, parsed back, give exactly the bytes of the buffer, in order, 16 per line with the right offset, each byte once; the loop over lines ends. (For a line size that has room for the properties and one dump line, as the default sizes do.)", "quantifier": "every buffer content, every buffer length below 65536, every line size with more than 72 characters left after the properties", "why_tests_cant": "The number of buffers is astronomically large and the last, incomplete chunk has 16 cases per length; tests check one literal dump.", "anchors": ["src/table.h: line_ostream::put_binary", "src/log.h: debug_line_ostream::put_binary, diag_line_ostream::put_binary, test_line_ostream::put_binary"]}
{"id": "C22", "title": "The log filter passes exactly the enabled severities", "statement": "A message reaches the output of a log_ostream iff there is no filter or its severity is at least as high as the filter's minimum; raising the verbosity never hides a message; disabled messages leave the output unchanged.", "quantifier": "every severity, every minimum severity, every message sequence and filter change", "why_tests_cant": "Histories with changing filters are unbounded.", "anchors": ["src/log.h: log_ostream::put_anyv, put_binary, put_blank_line, log_filter::is_enabled, severity::is_higher_or_equal"]}
{"id": "C23", "title": "Everything written through a socket stream is sent once and in order", "statement": "After a flush, the bytes handed to the socket are exactly the bytes written to the socket_streambuf, in order, each once; before a flush at most the last byte is still pending.", "quantifier": "every sequence of writes and flushes, all byte values", "why_tests_cant": "Unbounded histories.", "anchors": ["src/socket.h: socket_streambuf::overflow, sync"]}
{"id": "C24", "title": "A socket stream reports the end of the connection", "statement": "Reading through a socket_streambuf yields exactly the received bytes and then end-of-file once the peer has closed.", "quantifier": "every received byte sequence, all byte values, every read count", "why_tests_cant": "Byte values and closing points cannot all be tried.", "anchors": ["src/socket.h: socket_streambuf::underflow, client_socket::receive"]}
{"id": "C25", "title": "Rotated file paths stay inside the path buffer and carry the full timestamp", "statement": "For every directory path the constructor accepts, the path of the current file is directory + '/' + YYYYMMDD_HHMMSS, complete, NUL-terminated and inside the MaxPath+1 byte buffer; longer directories are rejected.", "quantifier": "every directory string, every MaxPath, every time", "why_tests_cant": "Off-by-one lengths.", "anchors": ["src/multifile.h: multifile_streambuf::multifile_streambuf, reopen"]}
{"id": "C26", "title": "File rotation loses nothing that was flushed", "statement": "The concatenation of all files written by a rotating multifile stream, in creation order, is exactly the sequence of bytes written and flushed.", "quantifier": "every sequence of writes, flushes and clock readings", "why_tests_cant": "Depends on the clock at each rotation; schedules are unbounded.", "anchors": ["src/multifile.h: multifile_streambuf::reopen, size_multifile_streambuf::sync, duration_multifile_streambuf::sync"]}
{"id": "C27", "title": "Size- and time-limited files rotate when the limit is reached", "statement": "After every flush of a size_multifile the current file is shorter than the limit; after every flush of a duration_multifile the current file is younger than the limit; and a rotation only happens when the limit was reached.", "quantifier": "every write/flush history and every clock", "why_tests_cant": "Unbounded histories.", "anchors": ["src/multifile.h: size_multifile_streambuf::xsputn, sync, pcount, duration_multifile_streambuf::sync"]}
{"id": "C28", "title": "Shutdown is signalled exactly once", "statement": "In every interleaving of request threads the future returned by start_async becomes ready at most once (never a second set_value, which would terminate the process), and only after a shutdown was requested and processed.", "quantifier": "every number of concurrent requests, every interleaving of their atomic steps, every point at which shutdown is requested", "why_tests_cant": "Schedules cannot be enumerated by tests.", "anchors": ["src/endpoint.h: endpoint::process_request, start, set_shutdown_requested"]}
{"id": "C29", "title": "No response is cut off by shutdown", "statement": "When the future is ready no request that passed the shutdown check is still being answered.", "quantifier": "every interleaving of request threads", "why_tests_cant": "Race window of a few instructions.", "anchors": ["src/endpoint.h: endpoint::process_request"]}
{"id": "C30", "title": "Static files are served only from under the root directory", "statement": "Every file path opened for a static-file request denotes a file below root_dir.", "quantifier": "every request line a client can send, every configuration", "why_tests_cant": "The client chooses the resource string.", "anchors": ["src/endpoint.h: endpoint::process_request, is_file_request, process_file_request"]}
{"id": "C31", "title": "Content-Length equals the number of body bytes sent", "statement": "For simple responses and for static files that do not change while being sent, the decimal Content-Length header is the number of body bytes that follow.", "quantifier": "every body / every file content and size", "why_tests_cant": "Chunking boundaries and all sizes.", "anchors": ["src/endpoint.h: endpoint::send_simple_response, process_file_request"]}
{"id": "C32", "title": "Requests are routed and typed as documented", "statement": "A request is treated as a file request iff its resource starts (case-insensitively) with files_prefix or it is GET /favicon.ico; the Content-Type of a file is determined by the extension after the last dot, case-insensitively, and absent for unknown extensions; non-GET file requests get 405.", "quantifier": "every method, resource, path and configuration", "why_tests_cant": "All strings.", "anchors": ["src/endpoint.h: endpoint::is_file_request, get_content_type_from_path, process_file_request"]}
{"id": "C33", "title": "A page in use is never unmapped and lock counts are exact", "statement": "While any vmem_page handle on a page is alive the pointer obtained from it stays mapped and unchanged, all live handles on the same page see the same memory, and when the last handle goes away the page becomes evictable.", "quantifier": "every history of creating, copying, moving, assigning and destroying page handles on any pages", "why_tests_cant": "Unbounded histories with cache eviction.", "anchors": ["src/x/vmem_pool.x.h: vmem_pool::lock_page, unlock_page, make_mapping_capacity, unmap_mapped_page, vmem_page copy/move/assign"]}
{"id": "C34", "title": "The pool maps at most MaxMappedPages pages and locking fails only when all are in use", "statement": "At any time at most MaxMappedPages pages are mapped, each at most once; locking an existing page fails only if every slot holds another page that is currently locked.", "quantifier": "every lock/unlock history, every MaxMappedPages", "why_tests_cant": "Eviction heuristics depend on unbounded hit-count histories.", "anchors": ["src/x/vmem_pool.x.h: lock_page, find_mapped_page, make_mapping_capacity, keep_mapped_page, optimize_mapped_page"]}
{"id": "C35", "title": "A newly allocated page is not in use by anyone else", "statement": "A page returned by alloc_page / a new container page is never the root page, the start page, or a page that was allocated earlier and not freed since.", "quantifier": "every history of page allocations, frees and container operations on one pool", "why_tests_cant": "The free-list corruption needs particular histories of several operations.", "anchors": ["src/x/vmem_pool.x.h: alloc_page, free_page, push_free_page_pos, pop_free_page_pos", "src/x/vmem_container.x.h: erase_page", "src/x/vmem_linked.x.h: erase_nostate, insert_nostate, splice"]}
{"id": "C36", "title": "Freed pages are reused before the file grows", "statement": "If some page has been freed and not reallocated, the next allocation returns a freed page and the pool file does not grow.", "quantifier": "every history of allocations and frees", "why_tests_cant": "Leaks are invisible to functional tests.", "anchors": ["src/x/vmem_pool.x.h: alloc_page, pop_free_page_pos, clear_linked"]}
{"id": "C37", "title": "Opening a pool accepts only intact pool files and preserves their content", "statement": "Opening a file that is not a pool (size not a multiple of the page size, wrong version, signature or page size) throws and changes nothing; opening a pool file gives access to exactly the pages that were there; a file left behind by a crash during creation is either rejected or usable.", "quantifier": "every file content, every crash point during creation", "why_tests_cant": "All byte contents and crash points.", "anchors": ["src/x/vmem_pool.x.h: vmem_pool::vmem_pool, open_pool, init, verify_root_page, verify_start_page, create_page"]}
{"id": "C38", "title": "vmem_list is a sequence", "statement": "After any sequence of push_back, push_front, insert, pop_back, pop_front, erase the list holds exactly the sequence an ordinary list would hold: size(), front(), back() and iteration agree with it.", "quantifier": "every operation history, every item size/page capacity >= 2", "why_tests_cant": "Page splits and merges occur only in particular histories.", "anchors": ["src/x/vmem_container.x.h: insert2, insert_with_overflow, insert_with_capacity, balance_split, erase2, erase_from_many, balance_merge_next, balance_merge_prev, erase_page", "src/x/vmem_list.x.h"]}
{"id": "C39", "title": "vmem_stack is last-in first-out", "statement": "A vmem_stack returns pushed items in reverse order, for any number of items.", "quantifier": "every push_back/pop_back history, every page capacity >= 1", "why_tests_cant": "Unbounded histories crossing page boundaries.", "anchors": ["src/x/vmem_container.x.h: push_back, pop_back, back", "src/i/vmem_list.i.h: vmem_stack"]}
{"id": "C40", "title": "clear() leaves an empty container that shares no page with the free list", "statement": "After clear() the container is empty, its size is 0, and the pages it used are available for allocation exactly once.", "quantifier": "every container state and every pool state", "why_tests_cant": "The failing case depends on the state of the pool's free list.", "anchors": ["src/x/vmem_container.x.h: clear", "src/x/vmem_linked.x.h: splice", "src/x/vmem_pool.x.h: clear_linked"]}
{"id": "C41", "title": "insert and erase return iterators to the right item", "statement": "insert(itr, x) returns an iterator that dereferences to x at its place in the sequence; erase(itr) returns an iterator to the item that followed the erased one (end() if none).", "quantifier": "every list content, position, and page layout", "why_tests_cant": "Depends on which pages split or merge.", "anchors": ["src/x/vmem_container.x.h: insert, erase, balance_merge, balance_merge_next, balance_merge_prev, insert_with_overflow"]}
{"id": "C42", "title": "Iteration visits every item once, in order, in both directions", "statement": "Starting at begin(), ++ visits all items in order and then end(); starting at rend() (the last item), -- visits all items in reverse order.", "quantifier": "every list content and page layout", "why_tests_cant": "All layouts of items over pages.", "anchors": ["src/x/vmem_container.x.h: next, prev, begin_itr, end_itr, rend_itr, rbegin_itr", "src/x/vmem_iterator.x.h"]}
{"id": "C43", "title": "Container pages never hold more items than fit", "statement": "No operation writes an item outside the page that holds it.", "quantifier": "every operation history, every item size from 1 byte to a full page", "why_tests_cant": "Depends on capacity arithmetic for every item size.", "anchors": ["src/x/vmem_container.x.h: page_capacity, max_item_size, insert_with_capacity, insert_with_overflow, should_balance_insert"]}
{"id": "C44", "title": "vmem_linked keeps a correct doubly linked chain of pages", "statement": "After any sequence of insert/push/erase/pop/splice on page chains, following next links from front lists exactly the pages in order, prev links list the reverse.", "quantifier": "every history of chain operations, any number of pages", "why_tests_cant": "Pointer surgery over unbounded chains.", "anchors": ["src/x/vmem_linked.x.h: insert, insert_nostate, erase, erase_nostate, splice, next, prev"]}
{"id": "C45", "title": "A key inserted into a vmem_map is found again", "statement": "After insert(k,v) of a new key, find(k) yields v until k is erased; find of a key that was never inserted reports not found; insert of an existing key changes nothing and reports false.", "quantifier": "every insertion/lookup history, every key order, every page capacity", "why_tests_cant": "Multi-level index behaviour depends on insertion order and volume.", "anchors": ["src/x/vmem_map.x.h: insert, insert2, find, find2, update_key_levels, key_item_pos"]}
{"id": "C46", "title": "Iterating a vmem_map yields the keys in ascending order without duplicates", "statement": "begin()..end() visits each present key exactly once, in strictly ascending order.", "quantifier": "every insertion history", "why_tests_cant": "Unbounded histories.", "anchors": ["src/x/vmem_map.x.h: insert2, begin, end, next", "src/x/vmem_container.x.h"]}
{"id": "C47", "title": "Erasing a key removes that key and no other", "statement": "After erase(k) the map holds exactly the other keys: find(k) fails, all other keys are still found, size drops by one iff k was present.", "quantifier": "every map content and key", "why_tests_cant": "Stale page slots and parent-key updates depend on layout.", "anchors": ["src/x/vmem_map.x.h: erase, erase2, find2, update_key_levels"]}
{"id": "C48", "title": "A string written to a vmem string stream is read back", "statement": "Characters written through vmem_string_ostream and flushed are appended to the string in order and read back unchanged by vmem_string_istream followed by end-of-file.", "quantifier": "every character sequence, all 256 byte values, every flush pattern", "why_tests_cant": "All byte values and lengths.", "anchors": ["src/x/vmem_string.x.h: vmem_basic_string_streambuf::underflow, overflow, sync"]}
{"id": "C49", "title": "Containers work without a log", "statement": "Passing no log (nullptr, documented as optional) never changes the behaviour of vmem containers and iterators.", "quantifier": "every operation history with log = nullptr", "why_tests_cant": "Every code path that logs must be considered.", "anchors": ["src/x/vmem_iterator.x.h: operator++, operator--, deref", "src/x/vmem_linked.x.h", "src/x/vmem_container.x.h: insert_page_after"]}
{"id": "C50", "title": "The tic-tac-toe board enforces the rules", "statement": "In every game, moves are accepted exactly on free cells of an unfinished game, players alternate, accepted marks never change, and the game is over exactly when three in a row exist or the board is full, with the right winner.", "quantifier": "every sequence of attempted moves with arbitrary row/column integers", "why_tests_cant": "All move sequences with invalid moves mixed in.", "anchors": ["samples/tictactoe/game.h: board::accept_move, check_winner, get_move, set_move, shift_up, shift_down"]}
{"id": "C51", "title": "Undoing a tic-tac-toe move restores the previous position", "statement": "undo_move(m) right after an accepted accept_move(m) restores board, player to move, move count, winner and game-over flag.", "quantifier": "every reachable position and every accepted move", "why_tests_cant": "All reachable positions.", "anchors": ["samples/tictactoe/game.h: board::undo_move"]}
{"id": "C52", "title": "The slow tic-tac-toe engine always has a defined legal move and never loses", "statement": "Playing from the start as X or O against any opponent, the exhaustive-search engine always returns a legal move it initialised itself, and never loses.", "quantifier": "every opponent strategy", "why_tests_cant": "Tests play a few random games.", "anchors": ["samples/tictactoe/game.h: player_agent::slow_find_best_move_for, slow_make_move"]}
{"id": "C53", "title": "The connect-four board enforces the rules", "statement": "Moves are accepted exactly on the lowest free cell of a column in an unfinished game; the packed 64-bit state decodes to the moves made; the winner is declared exactly when the last move completes four in a row, draw when full.", "quantifier": "every sequence of attempted moves", "why_tests_cant": "The state space (10^12 positions) is too large to enumerate.", "anchors": ["samples/connect4/game.h: board::accept_move, undo_move, check_winner, get_move, set_move_bits, inc_col_size"]}
{"id": "C54", "title": "The equation solver classifies and solves 2x2 linear systems correctly", "statement": "In exact arithmetic: status 1 iff there is exactly one solution and then (x, y) is it; status 0 iff there is none; status 2 iff there are infinitely many.", "quantifier": "all real coefficients", "why_tests_cant": "Uncountably many inputs.", "anchors": ["samples/basic/equations.h: equations_endpoint::process_rest_request"]}
{"id": "C55", "title": "SMBus calls report bus failures", "statement": "put_*/get_* on gpio_smbus return false whenever the bus operation (or selecting the target address) failed, and never touch memory beyond the 32-byte block limit.", "quantifier": "every failure pattern of the device, every block size, with and without a log", "why_tests_cant": "Hardware failure patterns cannot be enumerated.", "anchors": ["src/x/gpio_smbus.x.h: put_nodata, put_byte, put_word, put_block, get_noreg, get_noreg_2, get_byte, get_word, get_block, ensure_address"]}
{"id": "C56", "title": "SMBus data goes to the addressed target", "statement": "Every transfer issued through gpio_smbus reaches the target it was addressed to, also when several threads share the bus object; byte swapping is its own inverse so a word put is the word got.", "quantifier": "every interleaving of threads using the same bus, every target and word", "why_tests_cant": "Schedules cannot be enumerated.", "anchors": ["src/x/gpio_smbus.x.h: ensure_address, safe_ioctl, put_word, get_word, swap_bytes"]}
{"id": "C57", "title": "PWM registers reproduce the requested frequency and duty cycle", "statement": "For every supported clock and pulse frequency the auto-reload and prescaler are non-zero, fit their 16-bit registers, and the capture value of a duty cycle lies between 0 and auto-reload, monotone in the duty cycle.", "quantifier": "every clock frequency, pulse frequency, pulse width range and duty cycle", "why_tests_cant": "All frequency combinations.", "anchors": ["src/x/gpio_smbus_pwm.x.h: gpio_smbus_pwm::gpio_smbus_pwm, set_duty_cycle, get_autoreload_from_period"]}
{"id": "C58", "title": "Handles to operating-system resources have exactly one owner", "statement": "In every history of creating, opening, moving, closing and destroying sockets each descriptor obtained from the system is closed exactly once, and never used after it was closed.", "quantifier": "every history of socket object operations", "why_tests_cant": "Unbounded histories of moves.", "anchors": ["src/socket.h: basic_socket move constructor, close, open, ~basic_socket, tie"]}
{"id": "C59", "title": "Player seats in an endpoint game are claimed at most once", "statement": "In every history of claims each external seat is handed out at most once, the game starts exactly once and only when both seats are taken, and moves are accepted only from the seat whose turn it is.", "quantifier": "every sequence of claim and move requests", "why_tests_cant": "Unbounded request histories.", "anchors": ["samples/tictactoe/game.h: endpoint_game::claim_player, reset, player_id, game::accept_move"]}
{"id": "C60", "title": "Moving a stream buffer keeps its position", "statement": "After moving a buffer_streambuf the new one continues where the old one stopped: the next character read or overwritten is the same.", "quantifier": "every buffer and every sequence of operations before the move", "why_tests_cant": "The tests move only fresh buffers; the position after a move depends on the whole history before it.", "anchors": ["src/buffer_streambuf.h: basic_buffer_streambuf(basic_buffer_streambuf&&)"]}
{"id": "C61", "title": "A test log line is indented by its severity", "statement": "A test log line starts with the time followed by two blanks per severity level above critical (at most 14), and building it touches only its own scratch array.", "quantifier": "every severity value", "why_tests_cant": "Writing before a local array is undefined behaviour that a passing test does not reveal.", "anchors": ["src/log.h: test_line_ostream::put_props"]}
{"id": "C62", "title": "HTTP readers and writers accept only well-formed parts", "statement": "When a get_* call of an HTTP reader (other than get_body) leaves the stream good, the characters it took from the input are exactly one well-formed part: a method, resource or status code and blanks; HTTP in any case, a slash, digits, a dot, digits (and, in a request, the line end); a reason phrase and the line end; a header name, blanks, a colon and blanks, or the empty line; a header value with folds and the line end. The buffer holds that part, a value with its white space squeezed. When put_protocol leaves the writer good, its argument was HTTP in any case, a slash, and a version or the beginning of one, and it was written in capital letters.", "quantifier": "for every input, every buffer of at least two bytes and every stream state", "why_tests_cant": "The malformed inputs are unbounded in number and each check (colon, CR LF, letters) can be skipped on one path only; tests try a few malformed messages.", "anchors": ["src/http.h:110-245", "src/http.h:418-478", "src/http.h:735-785", "src/http.h:938-984"]}
{"id": "C63", "title": "Calibration is the mean of the samples", "statement": "calibrate() of gpio_smbus_motion stores for every channel the mean of the 20 measurements it takes, so that a device at rest afterwards reads zero.", "quantifier": "every sequence of 25 16-bit measurements", "why_tests_cant": "Only sampled sensor values can be tested, and small ones do not show the 16-bit sum wrapping.", "anchors": ["src/x/gpio_smbus_motion.x.h: calibrate"]}
{"id": "C64", "title": "The motion tracker can be started and destroyed at any time", "statement": "start() makes the tracker's thread measure and the destructor returns, whatever the thread is doing at that moment.", "quantifier": "every interleaving of the owner and the tracker's thread", "why_tests_cant": "Schedules cannot be enumerated by tests; the window of the lost notification is small.", "anchors": ["src/x/gpio_smbus_motion_tracker.x.h: start, ~gpio_smbus_motion_tracker, thread_func"]}
{"id": "C65", "title": "start() returns after the shutdown", "statement": "After a shutdown was requested and every request in progress was answered, start() returns (its documentation: the thread blocks until a POST /shutdown is received).", "quantifier": "every interleaving of the listener, the clients and the request threads", "why_tests_cant": "The listener blocks in accept(); a test that always sends another request does not see it.", "anchors": ["src/endpoint.h:75-95", "src/i/endpoint.i.h: start"]}
{"id": "C66", "title": "Whatever a client sends, a request handler stays within its arrays and answers completely or not at all", "statement": "For every finite sequence of bytes received from a client, handling the request reads and writes only within its arrays, does not throw and ends, and what is sent back is either nothing or one complete HTTP response whose Content-Length is right.", "quantifier": "for all byte sequences, configurations with a root directory that leaves room for a resource, and file systems with files that do not change", "why_tests_cant": "The inputs are all byte sequences; a test sends a few well-formed and malformed requests.", "anchors": ["src/endpoint.h:105-170", "src/endpoint.h:174-232", "src/endpoint.h:255-270", "src/i/http.i.h:730"]}
{"id": "C67", "title": "A vmem_map lookup depends only on what was stored", "statement": "Whether insert, find or erase of a key succeeds depends only on the keys and values that were inserted and erased before, never on memory that the map did not write.", "quantifier": "every history of map calls, every content of memory outside of the pages of the map", "why_tests_cant": "Depends on what happens to lie in memory behind a page.", "anchors": ["src/x/vmem_map.x.h: find2, key_item_pos", "src/x/vmem_container.x.h: page_capacity"]}
{"id": "C68", "title": "No request brings a game server down", "statement": "Whatever bytes arrive, in whatever state of the games, a game server processes the request to its end: no exception leaves the thread, no array is left, no loop runs for ever, and the server goes on with the next request.", "quantifier": "every history of requests and engine moves, every byte sequence, every content of uninitialised arrays, both samples", "why_tests_cant": "One thread without a catch ends the process; the byte sequences that do it cannot be enumerated.", "anchors": ["src/endpoint.h:105-155", "samples/tictactoe/game.h:672-1454", "samples/connect4/game.h:891-1673"]}
{"id": "C69", "title": "A seat of a game is given away once", "statement": "POST /games with two player types creates a game without moves and returns its id. POST /games/<id>/players/<0|1> returns the id of that seat exactly once; further claims, unknown games and other numbers are refused, and a refused request changes nothing.", "quantifier": "every reachable state, every request line that fits, both samples", "why_tests_cant": "The states are all histories of requests; the numbers in the resource are any texts.", "anchors": ["samples/tictactoe/game.h:739-843", "samples/tictactoe/game.h:988-1068", "samples/tictactoe/game.h:629-652", "samples/connect4/game.h:958-1287"]}
{"id": "C70", "title": "Every request to a game server gets one complete response", "statement": "What a game server sends back is one HTTP response with the right Content-Length; for requests that are wrong it says so (400, 404, 405), and every request gets one.", "quantifier": "every state, every byte sequence, both samples", "why_tests_cant": "Silent paths depend on combinations of method, resource and headers.", "anchors": ["samples/tictactoe/game.h:688-735", "samples/tictactoe/game.h:1360-1451", "src/endpoint.h:105-155"]}
{"id": "C71", "title": "The list of moves is the game that was played", "statement": "GET /games/<id>/moves?since=<i> returns a JSON text with the moves made so far from index i on, in their order, and with the winner exactly when the game is over. It changes nothing.", "quantifier": "every history of requests and engine moves, every request line, both samples", "why_tests_cant": "The list must agree with all earlier events of an unbounded history.", "anchors": ["samples/tictactoe/game.h:1264-1356", "samples/connect4/game.h:1483-1575"]}
{"id": "C72", "title": "Only the player on turn, or an engine for its own seat, can change a game", "statement": "After any history of requests and engine moves, one more event leaves every game as it was, or claims a free seat, or adds one legal move by the player on turn, made by the engine of that seat or by a POST request with a JSON body that carries the ids of the game and of the claimed seat; a game is replaced only when it is over. No game becomes unreachable.", "quantifier": "every history of requests (all bytes) and engine moves, every result of std::rand and std::atof, both samples", "why_tests_cant": "The histories are unbounded sequences of arbitrary byte strings, and std::rand decides the ids.", "anchors": ["samples/tictactoe/game.h:711-735", "samples/tictactoe/game.h:739-843", "samples/tictactoe/game.h:1072-1260", "samples/connect4/game.h:891-1673"]}
{"id": "C73", "title": "A move over HTTP is made exactly if it may be made", "statement": "POST /games/<id>/players/<pid>/moves with a JSON body that gives a row and a column makes that move, and returns its index and the winner once there is one, exactly if the board has the square, the ids name a game and a seat of it, the player of that seat is on turn and the move is legal. In all other cases the client is told what was wrong, and nothing changes.", "quantifier": "every history of requests and engine moves, every complete JSON body, every request line and header that fits, both samples", "why_tests_cant": "The decision depends on all earlier events and on any JSON text; numbers are any texts.", "anchors": ["samples/tictactoe/game.h:1072-1260", "samples/connect4/game.h:1291-1479", "samples/tictactoe/game.h:548-595"]}
{"id": "C74", "title": "A request changes the car only by a command with an allowed value, and the wheels do what the members say", "statement": "Whatever bytes a client sends, the car stays as it was or carries out exactly one of power, turn, servo, autos and shutdown with a value that is allowed (powers in steps of 25 up to 100, turns and angles in steps of 30 up to 90). After any sequence of requests and turns of the sensor thread, power and turn have allowed values and the four wheels have the direction and the duty cycles that these values mean; after a shutdown the hat has been reset and nothing else changes.", "quantifier": "every sequence of requests (all bytes), sensor readings and positions", "why_tests_cant": "Requests are arbitrary byte strings and histories are unbounded; tests have no hardware and look at a few commands.", "anchors": ["samples/picar_4wd/car.h:154-182", "samples/picar_4wd/car.h:186-285", "samples/picar_4wd/car.h:290-357", "samples/picar_4wd/car.h:522-612"]}
{"id": "C75", "title": "Threads together never write a value that is not allowed, and leave the wheels as the members say", "statement": "With requests handled by threads of their own beside the sensor thread, in every interleaving power and turn have allowed values at every moment, no duty cycle above 100 percent and no servo pulse outside of 500 to 2500 microseconds is ever written; once all requests are answered the wheels do what the members say.", "quantifier": "every interleaving of any number of request threads and the sensor thread", "why_tests_cant": "Interleavings are too many to test, and the bad ones are rare in practice.", "anchors": ["samples/picar_4wd/car.h:246-285", "samples/picar_4wd/car.h:351-357", "samples/picar_4wd/car.h:522-574", "samples/picar_4wd/car.h:754-781", "src/endpoint.h:93"]}
{"id": "C76", "title": "A request for power 0 stops the car until another request", "statement": "After POST /power with 0 was answered, all four wheels are at rest, and nothing but another request makes them turn again.", "quantifier": "every earlier history, every complete JSON body with the number 0, all later sensor readings; every interleaving", "why_tests_cant": "Needs all histories before and all readings after the stop, and all interleavings with the sensor thread.", "anchors": ["samples/picar_4wd/car.h:246-285", "samples/picar_4wd/car.h:724-781"]}
{"id": "C77", "title": "The car slows down in front of an obstacle", "statement": "Going forwards, one turn of the sensor thread brings the power down to what is allowed at the measured distance (0 within 5 cm, 25 within 10, 50 within 20, 75 within 30), so that the wheels are at rest within 5 cm; the power is never raised, and going backwards nothing changes.", "quantifier": "every history of requests and readings, every distance", "why_tests_cant": "Depends on all combinations of power, turn, direction and distance after any history.", "anchors": ["samples/picar_4wd/car.h:724-781"]}
{"id": "C78", "title": "No wheel is reversed while it has power", "statement": "A request that changes the direction stops the wheels first: no event writes another direction to a wheel whose duty cycle is not 0.", "quantifier": "every history of requests and readings, every next event", "why_tests_cant": "The order of writes to lines and registers after any history; no test looks at it.", "anchors": ["samples/picar_4wd/car.h:246-274", "samples/picar_4wd/car.h:522-541"]}
{"id": "C79", "title": "The servo gets the pulse for the requested angle", "statement": "POST /servo with an angle that is allowed gives the servo a pulse of 1500 microseconds less 1000 for 92 degrees, to within 20 microseconds and between 500 and 2500, until it has turned, and then none; larger angles have shorter pulses; the rest of the car is left alone.", "quantifier": "every history, every allowed angle, every interleaving of requests", "why_tests_cant": "Unsigned 16-bit arithmetic over all angles, and interleavings of requests.", "anchors": ["samples/picar_4wd/car.h:435-502", "src/x/gpio_smbus_servo.x.h:55-57", "src/x/gpio_smbus_pwm.x.h:122-163"]}
{"id": "C80", "title": "The car tells the client what it did or why not", "statement": "Every complete request gets one response: a POST of power, turn or angle with a JSON body that starts with the right number is carried out and answered with the state of the car if the value is allowed; a wrong body, value, type of body, method or resource is refused with the status and text for it, and nothing changes.", "quantifier": "every history, every request line and header that fits, every complete JSON body", "why_tests_cant": "Any JSON text, any header list, any number text after any history.", "anchors": ["samples/picar_4wd/car.h:154-182", "samples/picar_4wd/car.h:186-245", "samples/picar_4wd/car.h:290-349", "samples/picar_4wd/car.h:435-494", "samples/picar_4wd/car.h:648-713"]}
{"id": "C81", "title": "GET /autos reports what the sensors said last", "statement": "GET /autos answers with a JSON document without white space that holds the distance to the obstacle, the three grayscale values and the position as they were set last, and changes nothing.", "quantifier": "all values of the sensors, every request line that fits", "why_tests_cant": "All combinations of values must fit the buffer and give valid JSON.", "anchors": ["samples/picar_4wd/car.h:362-431", "samples/picar_4wd/car.h:724-746"]}
{"id": "C82", "title": "After a shutdown the car is left alone", "statement": "POST /shutdown resets the hat, waits for the sensor thread and is answered; the wait always ends; after that nothing is written to lines and registers any more, and the hat is in the state after its reset.", "quantifier": "every history; every interleaving of requests and the sensor thread", "why_tests_cant": "Joining threads under all interleavings cannot be covered by runs.", "anchors": ["samples/picar_4wd/car.h:507-517", "samples/picar_4wd/car.h:724-749", "src/endpoint.h:138-140"]}
{"id": "C83", "title": "A TLS server that verifies its clients accepts only clients whose certificates it has verified", "statement": "A server constructed with verify_client = true returns from accept() only for clients that have shown a certificate which was verified, and it can accept clients with a sound certificate; one with verify_client = false accepts every client that completes the handshake.", "quantifier": "every history of calls on any number of client and server sockets, every peer, every answer of OpenSSL and of the system", "why_tests_cant": "A test would need certificates of every kind and a client for each; what OpenSSL does with flags is only visible with real peers.", "anchors": ["src/openssl_socket.h:289-334", "src/openssl_socket.h:377-392"]}
{"id": "C84", "title": "A TLS client that verifies its server talks only to verified servers, can talk to those, and needs no log", "statement": "A client constructed with verify_server = true (the default) never returns from connect() and never sends or receives anything unless the server has shown a certificate that was verified; it can connect to servers with a sound certificate; the log may be null, as everywhere.", "quantifier": "every history of calls, every peer, every answer of OpenSSL and of the system", "why_tests_cant": "The library's tests use verify_server = false with a self-signed certificate and always pass a log.", "anchors": ["src/openssl_socket.h:37-66", "src/openssl_socket.h:139-168", "src/openssl_socket.h:249-283", "src/i/openssl_socket.i.h:57"]}
{"id": "C85", "title": "What a TLS client sends is encrypted with keys agreed with the program it is sent to", "statement": "Every TLS record, the alert of the destructor included, is written to the connection over which its keys were agreed, and connect() returns only after the other end has completed a handshake.", "quantifier": "every history of constructions, moves, connects, closes, transfers and destructions of any number of sockets", "why_tests_cant": "Needs sequences of calls on several objects and reuse of descriptor numbers by the system.", "anchors": ["src/openssl_socket.h:115-136", "src/openssl_socket.h:139-168", "src/openssl_socket.h:171-283", "src/socket.h:97-109"]}
{"id": "C86", "title": "TLS sockets use no freed memory, close every descriptor once, and release everything", "statement": "No history of calls uses an SSL or SSL_CTX that is freed; a descriptor is closed once and used only while it is open, and belongs to one object; when all objects are gone, all memory of OpenSSL is released.", "quantifier": "every history of calls on any number of sockets, with any failures", "why_tests_cant": "Failures of constructors and reference counts of OpenSSL are out of reach of tests.", "anchors": ["src/openssl_socket.h:37-136", "src/openssl_socket.h:289-392", "src/socket.h:65-109"]}
{"id": "C87", "title": "One client cannot stop an HTTPS endpoint from serving the others", "statement": "Whatever a client does in its TLS handshake, the listening thread accepts the clients after it.", "quantifier": "every sequence of clients and behaviours", "why_tests_cant": "Tests use well-behaved clients.", "anchors": ["src/openssl_socket.h:377-392", "src/endpoint.h:90-94"]}
{"id": "C88", "title": "The password of the key file reaches OpenSSL unchanged; send and receive return what was transferred", "statement": "A password shorter than 256 characters is given to OpenSSL unchanged for every size of its buffer, a longer one is refused; send() and receive() return the number of bytes OpenSSL transferred, at most the size asked for, and can transfer something of any size.", "quantifier": "every password, every size of the buffer, every size and answer", "why_tests_cant": "Passwords and sizes are unbounded; sizes of 2 GB and more are not tested.", "anchors": ["src/openssl_socket.h:171-246", "src/openssl_socket.h:298-304", "src/openssl_socket.h:395-401"]}
{"id": "C89", "title": "The ultrasonic sensor measures the distance of the obstacle, up to max_distance", "statement": "measure_distance returns the distance of the obstacle (half the way sound travels during the echo, in units of the scale) if it is nearer than max_distance, and never more than max_distance.", "quantifier": "every signal on the echo line, every duration of every operation, every scale and max_distance, every earlier call", "why_tests_cant": "Depends on times of operations and echoes, on the scheduler, and on which call of the program came first.", "anchors": ["src/x/gpio_ultrasonic.x.h:53-106", "src/x/gpio_line.x.h:99-136"]}
{"id": "C90", "title": "A measurement sends its pulse and ends", "statement": "measure_distance sends a pulse of at least 10 microseconds on the trigger line, measures only if it was sent, and ends within a bound of its timeout whatever the echo line does, returning max_distance if the line cannot be read.", "quantifier": "every signal on the echo line, every failure of reads and writes, every duration of operations", "why_tests_cant": "Termination for every signal and every failure cannot be sampled.", "anchors": ["src/x/gpio_ultrasonic.x.h:53-92", "src/x/gpio_line.x.h:119-172"]}
{"id": "C91", "title": "Lines keep and release their own descriptors", "statement": "Every descriptor a gpio_line obtains is closed exactly once, when the line ends, also if the constructor throws or the line was moved; no other descriptor is closed.", "quantifier": "every history of constructing, moving and destroying lines, every answer of open, ioctl and close", "why_tests_cant": "Needs failures of the kernel and the reuse of descriptor numbers.", "anchors": ["src/x/gpio_line.x.h:46-96", "src/i/gpio_line.i.h:53-66"]}
{"id": "C92", "title": "The thread of the PWM emulator follows the duty cycle set last", "statement": "Whatever threads call set_duty_cycle, the duty cycle is a percentage that some call gave; and the emulator's thread works with the last one within the length of a turn of its loop (a period of the signal or 200 milliseconds), or at once if the level was constant.", "quantifier": "every history of calls as a function of time, every duration of operations, every spurious or missed wake-up", "why_tests_cant": "Lost notifications and stale reads depend on the scheduler.", "anchors": ["src/x/gpio_pwm_emulator.x.h:94-126", "src/x/gpio_pwm_emulator.x.h:137-202"]}
{"id": "C93", "title": "The pulses of the emulator have the width of the duty cycle", "statement": "In every period the line is high once, for min + duty * (max - min) / 100, never less than min_pulse_width nor more than max_pulse_width, for every duty cycle from 0 to 100; the period is that of the frequency.", "quantifier": "every emulator, duty cycle and duration of operations", "why_tests_cant": "The precision for every timing of the system cannot be sampled; the ends of the range are special cases in the code.", "anchors": ["src/x/gpio_pwm_emulator.x.h:158-196", "src/i/gpio_pwm_emulator.i.h:58-70"]}
{"id": "C94", "title": "The destructor of the emulator ends its thread and leaves the line low", "statement": "Whenever the destructor runs, the thread ends within a bounded time and the line is low afterwards; the thread does not end before.", "quantifier": "every moment of quitting, every duration of operations, every failure of a write", "why_tests_cant": "A missed notification or a failed write appears only for some timings.", "anchors": ["src/x/gpio_pwm_emulator.x.h:76-92", "src/x/gpio_pwm_emulator.x.h:148-156"]}
{"id": "C95", "title": "The constructor of the emulator refuses bad widths and frequencies with an exception", "statement": "The constructor makes an emulator for 0 <= min <= max <= period and a frequency above 0, and throws an exception for widths out of order, widths above the period, and the frequency 0.", "quantifier": "every pair of widths and every frequency", "why_tests_cant": "A test of the refusals ends the test process.", "anchors": ["src/x/gpio_pwm_emulator.x.h:39-72", "src/i/gpio_pwm_base.i.h:56-58"]}
{"id": "C96", "title": "The connect-four engine always answers with a legal move", "statement": "In every game that the slow engine plays as either side against any opponent, whenever it is its turn it finds a move, and the board accepts that move; so the game goes on until it is over.", "quantifier": "every opponent, both sides, every game from the start", "why_tests_cant": "The games cannot be enumerated; a move that is not found is an uninitialised variable.", "anchors": ["samples/connect4/game.h:425-469", "samples/connect4/game.h:494-535"]}
{"id": "C97", "title": "The connect-four engine carries out every win it can see", "statement": "In any position with four discs or more in which the player on turn can force four in a row within as many moves as the engine looks ahead (7 moves at first, 21 in the end), the engine playing on from there wins within that number of moves, whatever the other one does.", "quantifier": "every position that can be reached by anybody, every opponent", "why_tests_cant": "Forced wins are statements about all replies; there are more than 10^12 positions.", "anchors": ["samples/connect4/game.h:471-491", "samples/connect4/game.h:494-535"]}
{"id": "C98", "title": "The connect-four engine never walks into a loss it can see", "statement": "In any position with four discs or more, if the opponent cannot force a win within n + 1 moves, they cannot force one within n moves after the engine's move either, for every n below the number of moves it looks ahead. In particular it stops every immediate threat that can be stopped.", "quantifier": "every position that can be reached by anybody", "why_tests_cant": "The statement is about all replies in all positions.", "anchors": ["samples/connect4/game.h:471-491", "samples/connect4/game.h:494-535"]}
{"id": "C99", "title": "The fast engines answer with a legal move", "statement": "Whenever it is the turn of a fast engine, it picks a move, and the board accepts that move: for everything it can have learnt, every position of a game that is not over and every number that std::rand gives.", "quantifier": "both games, every knowledge of the right shape, every position that can be reached, every random number", "why_tests_cant": "What has been learnt depends on all games played before; the bad cases need positions in which all scores have sunk to the least.", "anchors": ["samples/tictactoe/game.h:343-442", "samples/connect4/game.h:544-650"]}
{"id": "C100", "title": "What the fast engines learn from a game", "statement": "After a game exactly the scores of the learner's moves in the positions they were made in change: up after a win, up a little after a draw, down after a loss, within fixed limits; all other scores stay. Positions share their scores exactly when they have the same marks. All scores stay within their limits in every session of games.", "quantifier": "both games, every finished game, both sides, every knowledge of the right shape; every session", "why_tests_cant": "The statement is about all games and about the scores that must not change; the limits are those of 8-bit numbers.", "anchors": ["samples/tictactoe/game.h:445-520", "samples/connect4/game.h:653-739"]}
{"id": "C101", "title": "The fast engines prefer moves with better scores", "statement": "If moves have the greatest score, one of them is played. Otherwise each move is played in proportion to its score; in particular the move with the best score can be played.", "quantifier": "both games, every knowledge of the right shape, every position that can be reached, every random number", "why_tests_cant": "A distribution over random numbers is not seen in a few runs.", "anchors": ["samples/tictactoe/game.h:343-442", "samples/connect4/game.h:544-650"]}
{"id": "C102", "title": "The fast engines find the scores they learned", "statement": "Whatever board states the fast engines visit, in whatever order and however many, with their scores kept in a vmem_map: at each visit the scores of the board state are those that the last visit to it left (new ones at the first visit); and a walk through the map comes across each visited board state exactly once, in ascending order, with its last scores.", "quantifier": "every history of visits, every way to change scores", "why_tests_cant": "What a visit finds depends on all pages that earlier visits made and split; losses need hundreds of board states in a certain order to show.", "anchors": ["samples/tictactoe/game.h:499-520", "samples/tictactoe/game.h:452-490", "samples/connect4/game.h:720-739", "samples/connect4/game.h:690-710", "src/x/vmem_map.x.h:210-286"]}
{"id": "C103", "title": "Inserting a range into a container", "statement": "insert(itr, first, last) of a vmem_list puts the given items in their order before the item at itr, whatever the list holds and wherever itr stands, changes no other container, and returns an iterator to the first inserted item.", "quantifier": "every history of calls, every position, every range", "why_tests_cant": "Pages split while the range is inserted; where they split depends on all earlier calls.", "anchors": ["src/x/vmem_container.x.h:385-400", "src/i/vmem_container.i.h:356-365", "src/x/vmem_iterator.x.h:167-177"]}
{"id": "C104", "title": "Erasing a range of a container", "statement": "erase(first, last) of a vmem_list ends, erases exactly the items from first up to last, and returns an iterator to the item behind them.", "quantifier": "every history of calls, every range", "why_tests_cant": "Pages merge while the range is erased; whether the loop ends depends on all earlier calls.", "anchors": ["src/x/vmem_container.x.h:711-728"]}
{"id": "C105", "title": "Inserting a range into a map", "statement": "insert(first, last) of a vmem_map inserts every item of the range whose key is not in the map yet, like inserting them one by one.", "quantifier": "every history of insertions and lookups, every range", "why_tests_cant": "Key levels grow while the range is inserted; ranges and histories cannot be enumerated.", "anchors": ["src/x/vmem_map.x.h:294-306", "src/i/vmem_map.i.h:403-410"]}
{"id": "C106", "title": "The verdict of a test suite is that of its methods", "statement": "run() of a test suite calls every method once in the order listed whatever the others do, returns true exactly if all of them returned true, counts a method that throws as failed, and logs the verdicts of methods, categories and suite accordingly; the process status is 0 exactly then.", "quantifier": "every suite, every behaviour of its methods", "why_tests_cant": "Methods share state and may do anything; a suite that tests itself only sees its own methods.", "anchors": ["src/test.h:300-394", "test/main.cpp:197-199"]}
{"id": "C107", "title": "A run of a test suite can be repeated with the seed it printed", "statement": "A run with the seed printed by an earlier run starts its methods from the same state of the random number generator and so gives the same results.", "quantifier": "every seed, every answer of std::rand and of the clock", "why_tests_cant": "Random seeds cannot be enumerated; the seed that breaks it occurs once in 2^31 runs.", "anchors": ["src/test.h:300-301", "src/test.h:397-405"]}
{"id": "C108", "title": "The samples find their files next to the program", "statement": "However a sample was started, it builds the paths of its pool, results, certificates and root directory within its arrays; they lie in the directory of the program; too long paths end the program with a message.", "quantifier": "every argv[0], every content of the uninitialised arrays", "why_tests_cant": "The length of the path and the contents of the stack vary with the installation.", "anchors": ["samples/tictactoe/main.cpp:51-120", "samples/connect4/main.cpp:51-118", "samples/vmem/main.cpp:74-108", "samples/tls/main.cpp:106-151", "samples/picar_4wd/main.cpp:43-74"]}
{"id": "C109", "title": "A GPIO chip names its device and releases every descriptor", "statement": "The constructor of a chip accepts exactly names below 32 characters of devices that can be opened; path() and consumer() return them; numbers name /dev/gpiochip<number>; chip_info and line_info are valid exactly if the device answered that question; every descriptor opened is closed, also when a constructor throws.", "quantifier": "every name, every number, every answer of the system", "why_tests_cant": "Needs hardware, and failures of system calls that cannot be provoked at will.", "anchors": ["src/x/gpio_chip.x.h:56-204", "src/x/gpio_smbus.x.h:42-113"]}
{"id": "C110", "title": "The grayscale values are those of their sensors", "statement": "get_values stores for each of the three sensors the value the device sends when asked for that sensor, or reports that it could not.", "quantifier": "every target, every register, every answer of the bus", "why_tests_cant": "Bus failures between the six transfers depend on timing and hardware.", "anchors": ["src/x/gpio_smbus_grayscale.x.h:60-72"]}
{"id": "C111", "title": "A reference to an item is good when it is returned and while its page is held", "statement": "*itr, front() and back() return a reference to the item; it points into the mapped page of the item when the caller gets it and while some handle holds that page; if a program uses no more pages than the pool may map, it stays good for ever; dereferencing a valid iterator does not throw.", "quantifier": "every history of handles before and after, every page, every capacity of the pool", "why_tests_cant": "Whether a page has been evicted depends on all handles and accesses in between; a dangling reference often still reads the right bytes.", "anchors": ["src/x/vmem_iterator.x.h:230-252", "src/x/vmem_container.x.h:263-295", "src/x/vmem_container.x.h:1195-1202", "src/x/vmem_pool.x.h:1099-1190"]}
{"id": "C112", "title": "Inserting an item of a list into a list inserts a copy of that item", "statement": "insert(itr, item), push_back(item) and push_front(item) insert a copy of what item was when the call was made, also if item is a reference to an item of the same list.", "quantifier": "every history of calls, every list, every place, every item", "why_tests_cant": "Which items are moved before the copy depends on the page boundaries and on whether the page is full.", "anchors": ["src/x/vmem_container.x.h:299-376", "src/x/vmem_container.x.h:497-594"]}
{"id": "C113", "title": "The motion tracker shows the true motion", "statement": "A tracker that reads the true acceleration and rate of turn shows the true place, heading and speed of the vehicle, whenever it takes its readings, if acceleration and rate of turn are linear functions of the time.", "quantifier": "every motion with linear acceleration and rate of turn, every sequence of times of the readings", "why_tests_cant": "Integration errors depend on the motion and the times of the readings; a test drives one motion at one pace.", "anchors": ["src/x/gpio_smbus_motion_tracker.x.h:216-270", "src/x/gpio_smbus_motion.x.h:214-221", "src/i/gpio_smbus_motion.i.h:111-116"]}
{"id": "C114", "title": "Values given to the motion tracker while it runs are what it goes on from", "statement": "After set_depth(v) the depth is v plus what the vehicle moves from then on, whatever the tracker's thread is doing at the moment of the call; the same for set_width, set_direction and set_speed.", "quantifier": "every run of the tracker, every moment of the call, every value", "why_tests_cant": "The call has to fall between the loads and the stores of a round, which takes microseconds.", "anchors": ["src/x/gpio_smbus_motion_tracker.x.h:129-150", "src/x/gpio_smbus_motion_tracker.x.h:226-265"]}
{"id": "C115", "title": "What is put into a line reaches the table once", "statement": "Whatever lines a program makes, writes to, flushes, moves and destroys: every text reaches the table exactly once, in one line, when its line is flushed or destroyed, and nothing else reaches the table.", "quantifier": "every program of calls on any number of lines of one table", "why_tests_cant": "The existing tests of moves compare the table before the destructors run, and never use the operator << of the base class.", "anchors": ["src/table.h:80-145", "src/stream.h:41-44", "src/buffer_streambuf.h:76-130", "src/i/table.i.h:100-205"]}
{"id": "C116", "title": "Moving a pool moves the file, its pages and the handles", "statement": "Whatever pools are opened, moved and destroyed: when all are gone every file was closed exactly once and no page stays mapped; and page handles behave as if the pool had never been moved: copies point to the page, their end releases it, and a freed page goes back to the pool.", "quantifier": "every program of calls on any number of pools and page handles, whether or not mmap succeeds", "why_tests_cant": "The test of moves makes no handle before the move, and cannot see descriptors or mappings that are left.", "anchors": ["src/x/vmem_pool.x.h:80-137", "src/x/vmem_pool.x.h:892-1068", "src/x/vmem_pool.x.h:355-369"]}
{"id": "C117", "title": "A comparison of blobs in a test is right and shows every difference", "statement": "are_equal of two blobs (or strings) returns true exactly if they are the same, and when it fails each byte that differs can be read from the messages in the log.", "quantifier": "all blobs of any size and contents, with and without a log, whatever the uninitialised line buffers hold; all strings", "why_tests_cant": "The tests of the test library compare a few small values and do not read the log; a failing comparison is what tests avoid.", "anchors": ["src/test.h:223-241", "src/test.h:245-276", "src/table.h:172-250"]}
{"id": "C118", "title": "A log can be read back", "statement": "From a debug log or a diagnostic log the time, thread, category, severity, tag and text of every entry that passes the filter can be read back, in order, and nothing else.", "quantifier": "every history of entries, every filter, every line size that the entries fit into, all values in the ranges of their types", "why_tests_cant": "Tests compare a few lines with expected text; none contains separators, large values or a newline in a message.", "anchors": ["src/log.h:66-98", "src/log.h:132-164", "src/log.h:268-275", "src/table.h:130-169"]}
{"id": "C119", "title": "The equation server answers the system it was sent", "statement": "A POST to /problem whose body is a JSON object with a matrix a and a right-hand side b, in any order and among other members, is answered with the solution of exactly that system as JSON; any other body, resource, method or content type is refused with the right status, and only POST /shutdown stops the server.", "quantifier": "every request line, headers and body; every JSON value; every way numbers are read and printed", "why_tests_cant": "There are no tests of the sample; examples would cover a few bodies, not member order, duplicates, nesting of unknown members or overflow.", "anchors": ["samples/basic/equations.h:60-310", "src/endpoint.h:105-155", "src/json.h:170-460"]}
{"id": "C120", "title": "The motion sensor's values are those of the channels asked for", "statement": "After construction the sensor works with the ranges that the conversion assumes; get_values() gives for each channel of the mask what the sensor says in that channel's register as a signed 16-bit number, less the calibration, in g, degrees per second and degrees Celsius within the documented ranges, and 0 for all other channels; calibrate() makes the values of a sensor at rest 0; failures are not taken for values.", "quantifier": "every mask, calibration, state of the bus and sequence of answers of the device", "why_tests_cant": "There is no sensor in a test, and its answers, the masks and the failures are too many to enumerate.", "anchors": ["src/x/gpio_smbus_motion.x.h:44-217", "src/i/gpio_smbus_motion.i.h:39-151", "src/x/gpio_smbus.x.h:375-407"]}
