{
 "claims": [
  {
   "property": "C01",
   "status": "proved",
   "theorems": [
    "C01_map_is_dictionary",
    "C01_put_get_other"
   ],
   "note": "Array-level model of u_map; allocation assumed to succeed."
  },
  {
   "property": "C02",
   "status": "partial",
   "theorems": [
    "C02_calls_stay_in_bounds_partial",
    "C02_no_uninitialised_read_partial",
    "C02_null_value_overflow_refuted",
    "C02_offset_wrap_refuted",
    "C02_long_probe_refuted"
   ],
   "note": "Refuted as stated (NULL value with length, wrapping offset, probe longer than a stored value); proved for admissible arguments on all reachable maps."
  },
  {
   "property": "C03",
   "status": "proved",
   "theorems": [
    "C03_chunks_reassemble"
   ],
   "note": ""
  },
  {
   "property": "C04",
   "status": "partial",
   "theorems": [
    "C04_put_replaces_refuted",
    "C04_put_replaces_partial"
   ],
   "note": "Refuted: a shorter value leaves the old length and tail. Proved when the new value is not shorter."
  },
  {
   "property": "C05",
   "status": "proved",
   "theorems": [
    "C05_remove_from_key_exact",
    "C05_remove_from_key_case_exact",
    "C05_remove_at_exact",
    "C05_remove_at_out_of_range"
   ],
   "note": ""
  },
  {
   "property": "C06",
   "status": "proved",
   "theorems": [
    "C06_keys_unique_and_counted"
   ],
   "note": "For all histories of admissible calls."
  },
  {
   "property": "C07",
   "status": "proved",
   "theorems": [
    "C07_case_lookups_agree"
   ],
   "note": "strcasecmp in the C locale."
  },
  {
   "property": "C08",
   "status": "proved",
   "theorems": [
    "C08_copy_exact"
   ],
   "note": "Equality of all three arrays, including gaps and embedded NUL bytes."
  },
  {
   "property": "C09",
   "status": "proved",
   "theorems": [
    "C09_copy_into_overlays"
   ],
   "note": "For maps without never-written bytes."
  },
  {
   "property": "C10",
   "status": "partial",
   "theorems": [
    "C10_has_value_equality_refuted",
    "C10_has_value_is_prefix_search_partial",
    "C10_null_key",
    "C10_null_refused",
    "C10_case_exact"
   ],
   "note": "Refuted: memcmp over the probe length is a prefix search."
  },
  {
   "property": "C100",
   "status": "partial",
   "theorems": [
    "C100_exact_partial",
    "C100_released_partial",
    "C100_plain_partial",
    "C100_careful_partial",
    "C100_flood_refuted",
    "C100_same_bit_refuted",
    "C100_mhd_refuted",
    "C100_no_websocket_refuted",
    "C100_no_thread_refuted"
   ],
   "note": "Proved for any functions of the extensions and when o_malloc and o_strdup may fail anywhere, except: the list of incoming messages of a new websocket (C99), and the websocket itself when the endpoint has a websocket_onclose_callback; o_realloc has memory, the locks and the thread can be made. The blocks lost are counted exactly: none for extensions without functions, none in careful handshakes; the refuted theorems show what is lost otherwise, without bound for refused handshakes that offer permessage-deflate. The copy of the request is one block (C98 has all of them). Not covered: the messages of the websocket (C99), the blocks of zlib, the program and MHD at the same time."
  },
  {
   "property": "C101",
   "status": "partial",
   "theorems": [
    "C101_exact_partial",
    "C101_memory_partial",
    "C101_released_partial",
    "C101_plain_partial",
    "C101_lines_refuted",
    "C101_same_bit_refuted",
    "C101_open_twice_refuted",
    "C101_list_refuted",
    "C101_reopen_refuted",
    "C101_close_twice_refuted",
    "C101_wait_twice_refuted",
    "C101_no_manager_refuted",
    "C101_no_match_refuted",
    "C101_no_thread_refuted"
   ],
   "note": "Proved for any functions of the extensions and when o_malloc and o_strdup may fail anywhere, for extensions that release contexts only if they make them, and when the thread of an opened websocket can be made; the refuted theorems show what happens otherwise, what is misuse, and what is lost (without bound for a server that repeats Sec-WebSocket-Protocol). The copy of the request is one block (C98 has all of them). Not covered: the messages of the websocket (C99), the maps of the headers (C96), the lists that split_string makes, a handler that is opened while the thread of its websocket runs."
  },
  {
   "property": "C102",
   "status": "partial",
   "theorems": [
    "C102_exact_partial",
    "C102_constant_partial",
    "C102_race_refuted",
    "C102_grown_refuted",
    "C102_mixed_refuted"
   ],
   "note": "The full statement is false of the code: the cache is read without the lock. Proved for all interleavings in which no file is stored while another thread is looking one up, with files that change or not; the refuted theorems show the use after free with two files that never change, the one with one file that grows, and the mixed content that a shorter file leaves in the cache for ever. One cache; sequentially consistent memory; the store under the lock is one step; memory suffices."
  },
  {
   "property": "C103",
   "status": "partial",
   "theorems": [
    "C103_exact_partial",
    "C103_memory_partial",
    "C103_named_partial",
    "C103_nameless_refuted",
    "C103_text_refuted",
    "C103_sort_refuted",
    "C103_array_refuted",
    "C103_word_refuted",
    "C103_prefix_refuted",
    "C103_decode_refuted",
    "C103_format_refuted",
    "C103_grow_refuted",
    "C103_map_refuted"
   ],
   "note": "The full statement is false of the code. C103_exact_partial: for all answers of o_malloc and o_strdup, with o_realloc assumed to succeed, the calls, crashes and lost blocks are exactly those a relational specification allows. C103_memory_partial: with memory no crash, three blocks lost for each call whose parameters could not be filled. C103_named_partial: with memory and no parameter without a name, nothing is lost. The refuted theorems show the leak of nameless parameters for any number of requests, and what a failing allocation does at each place, o_realloc included."
  },
  {
   "property": "C104",
   "status": "partial",
   "theorems": [
    "C104_exact_partial",
    "C104_memory_partial",
    "C104_unknown_refuted",
    "C104_header_refuted",
    "C104_stream_refuted",
    "C104_create_refuted",
    "C104_copy_refuted",
    "C104_stale_refuted",
    "C104_text_refuted",
    "C104_headers_refuted"
   ],
   "note": "The full statement is false of the code. C104_exact_partial: for all callbacks, all answers of libmicrohttpd and all answers of the allocations (the creation of a response may fail at its structure or its map, a cookie at its first allocation, the copy of default_headers not at all), nothing invalid is used and the answers, the data released, the blocks lost and the responses never released are exactly those of a relational specification. C104_memory_partial: with memory, when libmicrohttpd takes everything and the default endpoint returns a known code, each request gets exactly the expected answer and nothing is lost. The refuted theorems: with memory, an unknown code of the default endpoint loses the response of each request, a refused header in a 401 loses the body, a stream of the default endpoint is ignored and never released; what happens when libmicrohttpd or an allocation fails."
  },
  {
   "property": "C105",
   "status": "partial",
   "theorems": [
    "C105_exact_partial",
    "C105_memory_partial",
    "C105_released_partial",
    "C105_body_refuted",
    "C105_erased_refuted",
    "C105_headers_refuted",
    "C105_init_refuted",
    "C105_map_refuted",
    "C105_filename_refuted",
    "C105_piece_refuted",
    "C105_write_refuted"
   ],
   "note": "The full statement is false of the code. C105_exact_partial: when o_realloc has memory and u_map_init of the url parameters and ulfius_init_request do not fail half way (the other allocations may fail anywhere), for any interleaving of any number of connections nothing invalid is used, every byte of a body is written, and the connections show what a relational specification says, in which only pairs, values, names of files or requests whose own allocations failed are missing; the blocks in use are those reachable, each once, and those lost, counted exactly. C105_memory_partial: with memory the connections show exactly everything sent, and nothing is in use after the last end. C105_released_partial: at most three blocks are lost for each connection refused for lack of memory. The refuted theorems: o_realloc failing loses a body, or leaves a value NULL with a length, through which a further piece would be written; msprintf failing erases the value of a repeated header; a failing u_map_put drops the remaining headers, and the request goes on; u_map_init failing is not looked at; three blocks are lost for each request that cannot be made; the name of a file is lost in silence."
  },
  {
   "property": "C106",
   "status": "partial",
   "theorems": [
    "C106_deadline",
    "C106_open",
    "C106_still_open",
    "C106_closed_partial",
    "C106_returns",
    "C106_spurious_refuted",
    "C106_missed_refuted"
   ],
   "note": "The full statement is false of the code. C106_deadline: the time handed to pthread_cond_timedwait is valid and exactly timeout milliseconds after the clock. C106_open, C106_still_open: the answer open only comes when the timeout is over, from a websocket that is open. C106_closed_partial: without spurious wake-ups the answer closed only comes when the websocket is closed. C106_returns: from every reachable state the wait can return within the timeout. C106_spurious_refuted: a spurious wake-up gives the answer closed for an open websocket, at once. C106_missed_refuted: a websocket that closes between the test of connected and the wait leaves the waiter asleep for the whole timeout."
  },
  {
   "property": "C107",
   "status": "partial",
   "theorems": [
    "C107_exact_partial",
    "C107_memory_partial",
    "C107_text_refuted",
    "C107_url_refuted",
    "C107_form_refuted",
    "C107_cookie_refuted",
    "C107_header_null_refuted",
    "C107_header_list_refuted",
    "C107_cookie_null_refuted",
    "C107_cookie_log_refuted",
    "C107_cert_refuted"
   ],
   "note": "The full statement is false of the code. C107_exact_partial: for all programs of C98 and all lists of sends, unless the text of a header or cookie cannot be made or libcurl refuses the cookies, no memory error happens, the requests are unchanged, libcurl is given what the request asks for but for the texts that a failed allocation lost, and all blocks are released but for the list of headers lost by a failing curl_slist_append and the client certificate. C107_memory_partial: with memory libcurl is given exactly the request. Refuted: a failed copy sends a DELETE as GET or drops the credentials; url parameters, pairs of a form and cookies are dropped; a header or a cookie that cannot be made is read as NULL; the list of headers leaks; the message about refused cookies prints a released text; each send leaks the certificate."
  },
  {
   "property": "C108",
   "status": "partial",
   "theorems": [
    "C108_exact_partial",
    "C108_memory_partial",
    "C108_header_refuted",
    "C108_null_refuted",
    "C108_chunk_refuted",
    "C108_reuse_refuted",
    "C108_cookie_refuted",
    "C108_cookie_log_refuted",
    "C108_stale_refuted"
   ],
   "note": "The full statement is false of the code. C108_exact_partial: for all programs of C97 and all lists of responses received, unless NULL is printed, no memory error happens, the responses are what was sent but for what a failed allocation lost, and all blocks are released but for the first pieces of a body whose realloc failed and the old body of a response that gets a new one. C108_memory_partial: with memory the responses are exactly what was sent. Cookies have a value there (C108_stale_refuted, C53) and are added with memory or fail at their first allocation (C97). Refuted: a header is lost, emptied or, when it comes again, read through NULL; the first pieces of the body leak when o_realloc fails; a reused response leaks its body or shows it as the new one; a cookie or its path is dropped with U_OK; NULL is printed in the log."
  },
  {
   "property": "C109",
   "status": "partial",
   "theorems": [
    "C109_history_partial",
    "C109_memory_partial",
    "C109_offer_partial",
    "C109_window_refuted",
    "C109_init_refuted",
    "C109_answer_refuted",
    "C109_grow_refuted"
   ],
   "note": "The full statement is false of the code. C109_history_partial: for all histories of offers, answers and messages with any failing allocations, unless a member that was never written is read (only when an allocation fails in a negotiation), no memory error happens, the results are those of the specification, and at the end only the blocks that the specification counts are lost. C109_memory_partial: with memory and window bits written as name=value nothing is lost. C109_offer_partial: with memory, the exact result and number of lost blocks of every offer. Refuted: server_max_window_bits without a value leaks a block per parameter, with memory; deflateEnd/inflateEnd on a stream that was never initialised; U_OK with no answer or half of one; a failed o_realloc loses the block."
  },
  {
   "property": "C11",
   "status": "proved",
   "theorems": [
    "C11_decode_encode"
   ],
   "note": "Any locale (oracles for bytes above 127), both readings of the shift."
  },
  {
   "property": "C110",
   "status": "partial",
   "theorems": [
    "C110_history_partial",
    "C110_memory_partial",
    "C110_clean_partial",
    "C110_files_refuted",
    "C110_directory_refuted",
    "C110_truncated_refuted",
    "C110_init_refuted",
    "C110_label_refuted",
    "C110_null_refuted",
    "C110_grow_refuted",
    "C110_coding",
    "C110_root_refuted"
   ],
   "note": "The full statement is false of the code. C110_history_partial: for all histories of requests with any failing allocations, unless NULL is followed (only when an allocation failed) or unwritten bytes are read (only when an allocation failed or a file is shorter than ftell said), no memory error happens, the answers are those of the specification and at the end only the blocks and files it counts are lost. C110_memory_partial: with memory, the exact answers, caches and number of files left open. C110_clean_partial: if all types asked for are compressed ones nothing is lost. Refuted: one FILE leaks per request for a type that is not compressed when the client accepts gzip (remote exhaustion of descriptors); a directory is answered with a stream that never ends; unwritten memory is compressed and sent when a file is cut; deflateEnd on a stream that was never initialised; compressed body without Content-Encoding and the reverse; NULL from o_strdup followed; a failed o_realloc loses the block."
  },
  {
   "property": "C111",
   "status": "partial",
   "theorems": [
    "C111_history_partial",
    "C111_memory",
    "C111_readable_partial",
    "C111_label_refuted",
    "C111_body_refuted",
    "C111_grow_refuted"
   ],
   "note": "The full statement is false of the code. C111_history_partial: for all bodies, passages and failing allocations no undefined behaviour happens, results and contents are those of the specification, and at most one block is lost for each passage in which o_realloc fails. C111_memory: with memory, exact results and contents, everything released. C111_readable_partial: unless an allocation other than o_realloc fails, what is sent is the old body or the compressed and labelled one. Refuted: compressed bytes without Content-Encoding when u_map_put fails; an empty body labelled as compressed when the copy of the body fails; a failed o_realloc loses the block."
  },
  {
   "property": "C112",
   "status": "partial",
   "theorems": [
    "C112_history_partial",
    "C112_memory",
    "C112_one",
    "C112_recipients_refuted",
    "C112_copies_refuted",
    "C112_code",
    "C112_type_refuted"
   ],
   "note": "The full statement is false of the code. C112_history_partial: for all sequences of mails and all failing allocations other than that of the line of the copies (and with a content type) nothing undefined happens, results and what libcurl gets are those of the specification, and the only blocks left are recipients of mails for which curl_slist_append found no memory. C112_memory: with memory everything is released. C112_one: with memory a mail is sent exactly if its parameters are there and libcurl accepts every option, with its whole text. Refuted: the list of recipients is lost when curl_slist_append fails; a NULL line of copies is printed with %s."
  },
  {
   "property": "C113",
   "status": "partial",
   "theorems": [
    "C113_history_partial",
    "C113_memory",
    "C113_realm_refuted",
    "C113_headers_refuted",
    "C113_lock_refuted",
    "C113_stuck_refuted",
    "C113_method_refuted",
    "C113_texts_refuted",
    "C113_route_refuted",
    "C113_silent_refuted",
    "C113_grow_refuted",
    "C113_shrink_refuted",
    "C113_remove_refuted",
    "C113_cleaned"
   ],
   "note": "The full statement is false of the code. C113_history_partial: for all sequences of lives and calls, with any failing o_malloc and o_strdup for which an added endpoint keeps its method and one of its two paths, and o_realloc succeeding, nothing undefined happens, every call has the result and leaves the values given by an independent relation (with the texts that could not be copied missing), and only the locks of a life whose initialisation failed are left. C113_memory: when nothing fails every call does what it means (with the endpoint lists of C19) and nothing is left. The refuted theorems show what the other failures do: a realm or headers missing although the answer is U_OK, an uninitialised read, locks not destroyed, a list of endpoints without its end, endpoints registered at another url or not at all with U_OK, all endpoints lost by a failing o_realloc, an endpoint not found or another one removed."
  },
  {
   "property": "C114",
   "status": "partial",
   "theorems": [
    "C114_apart_partial",
    "C114_ends_partial",
    "C114_moved_refuted",
    "C114_unwritten_refuted",
    "C114_released_refuted",
    "C114_missed_refuted",
    "C114_mixed_refuted",
    "C114_default_refuted"
   ],
   "note": "Proved for every interleaving in which the table is not changed while a request looks at it. The full statement is false of the code: without a lock a change that meets a request makes it read a released array, an unwritten slot, released texts, miss an endpoint that is there all the time, or mix two default endpoints."
  },
  {
   "property": "C115",
   "status": "partial",
   "theorems": [
    "C115_whole",
    "C115_plain",
    "C115_alone_partial",
    "C115_memoryless_partial",
    "C115_order_refuted",
    "C115_inside_refuted",
    "C115_calls",
    "C115_lost",
    "C115_noticed"
   ],
   "note": "Whole frames, results and order per thread are proved for every interleaving and all extensions; that the other end notices the messages is proved without extensions, with extensions without memory, and when the program sends one data message at a time. It is false of the code otherwise: the extensions are applied before the lock is taken."
  },
  {
   "property": "C116",
   "status": "partial",
   "theorems": [
    "C116_lines_partial",
    "C116_quit",
    "C116_file_partial",
    "C116_no_file",
    "C116_shown_partial",
    "C116_shown_prompt_partial",
    "C116_silent",
    "C116_long_refuted",
    "C116_quote_refuted",
    "C116_last_refuted",
    "C116_end_refuted",
    "C116_pipe_refuted",
    "C116_shrinks_refuted",
    "C116_fragmentation_refuted",
    "C116_nul_refuted",
    "C116_empty"
   ],
   "note": "Proved for lines of at most 254 characters that end with a newline, regular files, texts without NUL. False of the code for longer lines, other lines that begin with !q, a last line without newline, the end of the input, pipes, files that shrink, and -f, which is ignored."
  },
  {
   "property": "C117",
   "status": "partial",
   "theorems": [
    "C117_options_partial",
    "C117_both",
    "C117_no_url",
    "C117_certificate",
    "C117_extension_refuted",
    "C117_together_refuted",
    "C117_unknown_refuted",
    "C117_header",
    "C117_help"
   ],
   "note": "Proved for every order and spelling except -e with its argument in the next word and several letters after one dash, which the code reads otherwise; the certificate theorem holds for every command line."
  },
  {
   "property": "C118",
   "status": "partial",
   "theorems": [
    "C118_frames",
    "C118_messages_partial",
    "C118_taken",
    "C118_closed",
    "C118_hole_refuted",
    "C118_ping_refuted",
    "C118_twice_refuted",
    "C118_after_refuted",
    "C118_poll_refuted",
    "C118_wait_refuted",
    "C118_torn_refuted",
    "C118_kept_refuted"
   ],
   "note": "Proved for every interleaving: frames are read whole, each by one thread, while the websocket is open; unfragmented messages are told unchanged and in order except at most 11 per closing call; a closing call that returned leaves the websocket closed. The rest is false of the code: fragments are lost in the middle of a message, pings are not answered, two close messages are sent, data is sent after the close message, the wait is not bounded."
  },
  {
   "property": "C119",
   "status": "partial",
   "theorems": [
    "C119_forward_partial",
    "C119_query_partial",
    "C119_query_refuted",
    "C119_host_refuted",
    "C119_hop_refuted",
    "C119_form_refuted",
    "C119_answer_partial",
    "C119_down_refuted",
    "C119_gzip_refuted",
    "C119_cookies_refuted",
    "C119_reason_refuted"
   ],
   "note": "Proved for every request and every answer that arrives whole: method, fields but the exact name Host, cookies and body are passed on, status, fields, body and cookies are given back, and nothing else stays allocated. The rest is false of the code: parameters are sent twice, host in another case and the fields of one connection are passed on, a form is sent with the old Content-Length, an answer that fails becomes 200, a decompressed body keeps Content-Encoding, cookies are given twice, a colon in the reason phrase loses the answer."
  },
  {
   "property": "C12",
   "status": "partial",
   "theorems": [
    "C12_encoded_text_safe",
    "C12_encoded_text_safe_c_locale",
    "C12_encode_injective",
    "C12_locale_refuted"
   ],
   "note": "Proved for every locale up to bytes above 127 that the locale calls alphanumeric, without exception for locales that call none so; the unqualified statement is refuted in an 8 bit locale."
  },
  {
   "property": "C120",
   "status": "partial",
   "theorems": [
    "C120_in_turn",
    "C120_adds_partial",
    "C120_locked",
    "C120_lost_refuted",
    "C120_all_lost_refuted",
    "C120_reset_refuted",
    "C120_answer_refuted",
    "C120_overflow_refuted"
   ],
   "note": "Proved for requests in turn (any requests, no overflow on the way); for additions at the same time only bounds hold (C120_adds_partial), and with the read and the write together no addition would be lost (C120_locked). Without the lock it is false: lost additions, a reset undone, an answer that is not the value of the request, overflow after the largest number."
  },
  {
   "property": "C121",
   "status": "partial",
   "theorems": [
    "C121_text_partial",
    "C121_file_partial",
    "C121_shorter_refuted",
    "C121_special_refuted",
    "C121_memory_refuted",
    "C121_room_refuted",
    "C121_missing"
   ],
   "note": "Proved when each call has room for a whole line (text) and when the file only grows meanwhile (file). False otherwise: a file that gets shorter keeps the answer open for ever, what is not a regular file is answered with status 200 and no body, a failed allocation prints NULL, a room of one byte gives no byte for ever and a small room cuts lines."
  },
  {
   "property": "C122",
   "status": "proved",
   "theorems": [
    "C122_guard",
    "C122_server",
    "C122_tie_refuted",
    "C122_method_refuted"
   ],
   "note": "The guard works for every table; the two refuted theorems show that both hypotheses are needed: with equal priorities qsort may put the page first, and a guard for one method does not cover an endpoint for all methods."
  },
  {
   "property": "C123",
   "status": "partial",
   "theorems": [
    "C123_prints_partial",
    "C123_empty_refuted",
    "C123_null_refuted",
    "C123_memory_refuted",
    "C123_long_refuted"
   ],
   "note": "Proved for maps without NULL values whose text is no longer than INT_MAX, when memory does not run out. False otherwise: the result for an empty map is NULL and is printed with %s, as is a NULL value; failed allocations are not looked at; the int overflows for a longer text."
  },
  {
   "property": "C124",
   "status": "partial",
   "theorems": [
    "C124_counts_partial",
    "C124_visits",
    "C124_overflow_refuted"
   ],
   "note": "Proved for every number of visits up to INT_MAX and every decimal cookie below INT_MAX. False for the cookie 2147483647 (signed overflow), and cookies that are no int lose their upper bits."
  },
  {
   "property": "C125",
   "status": "partial",
   "theorems": [
    "C125_echo_partial",
    "C125_log_refuted",
    "C125_cast",
    "C125_extensions_partial"
   ],
   "note": "Proved for the messages, without extensions and with calls that succeed. Each message is logged with a size_t where %.*s reads an int, which is undefined (C125_log_refuted); the other callback of the program has the cast (C125_cast)."
  },
  {
   "property": "C126",
   "status": "partial",
   "theorems": [
    "C126_texts_partial",
    "C126_one_missing",
    "C126_clear",
    "C126_secure",
    "C126_simple_refuted",
    "C126_auth_refuted",
    "C126_trust_refuted",
    "C126_websocket_refuted",
    "C126_pipe_refuted",
    "C126_directory_refuted",
    "C126_shrinks_refuted"
   ],
   "note": "Proved for files with texts, and for one missing file. With all files missing, or -https without files, the server is in clear and said to be secure (C126_simple_refuted, C126_auth_refuted, C126_websocket_refuted); a missing authority switches the check of the clients off (C126_trust_refuted); files that are not regular are undefined behaviour."
  },
  {
   "property": "C127",
   "status": "proved",
   "theorems": [
    "C127_own",
    "C127_let_in",
    "C127_progress",
    "C127_kept_refuted"
   ],
   "note": "The steps are those at which the session, the lock or the outcome changes. The callback ignores the result of i_set_str_parameter; C127_kept_refuted shows why the requirement on iddawc is needed. iddawc's functions are oracles."
  },
  {
   "property": "C128",
   "status": "partial",
   "theorems": [
    "C128_released_partial",
    "C128_leak_refuted",
    "C128_function_refuted",
    "C128_first_refuted",
    "C128_subject_refuted"
   ],
   "note": "Proved for callbacks that use ulfius_set_response_shared_data. The callback of oidc_resource.c writes response->shared_data itself: its data leaks with every request, the data of an earlier callback is lost, and its JSON is released with the function of the earlier one."
  },
  {
   "property": "C129",
   "status": "partial",
   "theorems": [
    "C129_refused",
    "C129_once_partial",
    "C129_ends_partial",
    "C129_all_partial",
    "C129_create_refuted",
    "C129_gone_refuted",
    "C129_default_refuted",
    "C129_header_refuted",
    "C129_code_refuted",
    "C129_alloc_refuted"
   ],
   "note": "Proved for handshakes that fail and for websockets that libmicrohttpd opens. False when libmicrohttpd cannot make or does not perform the upgrade, when the default endpoint is called as well, and when a header is refused while the program has set the status 101; what the callback returns is not looked at. Memory failing inside the handshake is in C100."
  },
  {
   "property": "C13",
   "status": "partial",
   "theorems": [
    "C13_decode_total",
    "C13_decode_total_strict_partial",
    "C13_negative_shift_refuted"
   ],
   "note": "Proved with gcc semantics for left shift of a negative int; under ISO C a bad first hex digit is undefined behaviour (refuted), proved when each escape starts with a hex digit."
  },
  {
   "property": "C130",
   "status": "partial",
   "theorems": [
    "C130_server_partial",
    "C130_all_partial",
    "C130_client_partial",
    "C130_client_ends_partial",
    "C130_gone_refuted",
    "C130_create_refuted",
    "C130_thread_refuted"
   ],
   "note": "Proved for handshakes that fail, websockets that libmicrohttpd opens, and clients that can make their thread. False when libmicrohttpd does not perform or cannot make the upgrade (the data are lost) and when the client cannot make its thread (undefined behaviour)."
  },
  {
   "property": "C131",
   "status": "proved",
   "theorems": [
    "C131_no_deadlock",
    "C131_no_stuck"
   ],
   "note": "Waiting for a condition is taken to return at some time (C47, C50, C106 say when it does); the program takes its own mutexes in an order, without which C131_order_ex shows two threads that wait for each other."
  },
  {
   "property": "C132",
   "status": "partial",
   "theorems": [
    "C132_protected_partial",
    "C132_no_race_partial",
    "C132_received_partial",
    "C132_connected_refuted",
    "C132_flag_refuted",
    "C132_keep_refuted",
    "C132_received_refuted",
    "C132_sent_refuted",
    "C132_deflate_refuted",
    "C132_count_refuted",
    "C132_array_refuted"
   ],
   "note": "Proved for the bytes written and read, the list of sent messages if the program does not take messages out of it, the variables of a program that uses one mutex for each, and the context of extensions for received messages. False for connected, close_flag, keep_messages, the list of received messages, the list of sent messages with ulfius_websocket_pop_first_message, the context of extensions for sending, nb_websocket_active and the array of websockets."
  },
  {
   "property": "C133",
   "status": "partial",
   "theorems": [
    "C133_browser_partial",
    "C133_agent",
    "C133_fragmented_refuted",
    "C133_closed"
   ],
   "note": "Proved when the fragmented message is not sent (a server and a peer whose User-Agent does not begin like that of ulfius), without extensions. False whenever the fragmented message is sent: nothing after the first message arrives."
  },
  {
   "property": "C134",
   "status": "partial",
   "theorems": [
    "C134_cascade",
    "C134_other",
    "C134_default",
    "C134_auth_partial",
    "C134_open_refuted"
   ],
   "note": "The cascade, the shared text and the default page are proved for all requests. The page behind the password is protected for GET and PUT only (C134_auth_partial); with any other method everybody gets it."
  },
  {
   "property": "C135",
   "status": "partial",
   "theorems": [
    "C135_auth_partial",
    "C135_client_partial",
    "C135_meta",
    "C135_stream_partial",
    "C135_unterminated_refuted",
    "C135_stack_refuted",
    "C135_no_header_refuted",
    "C135_nul_refuted",
    "C135_protocol_refuted"
   ],
   "note": "Proved for bodies that fit on the stack, up to their first NUL, and for responses with a protocol and at least one header. The full statement is false: a body larger than the stack, a response without headers or with a colon in its status line, a NUL in the body, and every piece of a stream without a NUL (five refutations)."
  },
  {
   "property": "C136",
   "status": "proved",
   "theorems": [
    "C136_page",
    "C136_no_page"
   ],
   "note": "The table is changed between two requests; a change while a request is served is C114."
  },
  {
   "property": "C137",
   "status": "partial",
   "theorems": [
    "C137_hello",
    "C137_post_partial",
    "C137_default",
    "C137_cookies",
    "C137_param_partial",
    "C137_param_refuted",
    "C137_multiple_refuted",
    "C137_readme_refuted",
    "C137_attribute_refuted"
   ],
   "note": "Proved for requests that have at least one cookie, header and parameter of the body where these are printed, with texts that fit in an int, and for MHD accepting the headers. The full statement is false: a request without a cookie and every request to /test/multiple print NULL with %s, POST /test shows less than README.md says, and a word of the path can hold attributes of the cookie (four refutations)."
  },
  {
   "property": "C138",
   "status": "partial",
   "theorems": [
    "C138_answers",
    "C138_elsewhere",
    "C138_tells_partial",
    "C138_null_refuted",
    "C138_stack_refuted"
   ],
   "note": "The answers are proved in full, for MHD accepting the headers. The text on the console is proved for a libc that prints something for NULL, maps whose text fits in an int, enough memory and a body that fits the stack. The full statement is false: user_data is NULL and is printed with %s, and the body is copied to an array on the stack (two refutations)."
  },
  {
   "property": "C139",
   "status": "partial",
   "theorems": [
    "C139_counter",
    "C139_submit",
    "C139_elsewhere",
    "C139_files_partial",
    "C139_prefix_refuted",
    "C139_short_refuted",
    "C139_upload_refuted",
    "C139_nothing_refuted",
    "C139_method_refuted",
    "C139_form_refuted",
    "C139_index_partial",
    "C139_form_and_site_partial",
    "C139_cookie_refuted",
    "C139_sheep_refuted",
    "C139_order_refuted",
    "C139_missing_refuted"
   ],
   "note": "Proved for answers that compression leaves as they are, for MHD accepting the headers and for files that the web site puts in the body; where two callbacks meet, GET of /static/submit is proved for a web site that has no such file or puts it in the body. The full statement is false: the prefix of the web site is skipped unread, which also reads out of bounds for short urls, GET /sheep among them; a file that is missing is 200 with nothing; GET of /static/upload is as qsort likes; POST /upload is 404 and the answer to an upload is empty; other methods of /sheep are 200; an empty form logs NULL and so does an upload without a cookie (ten refutations)."
  },
  {
   "property": "C14",
   "status": "proved",
   "theorems": [
    "C14_utf8_check_exact",
    "C14_utf8_valid_iff"
   ],
   "note": "utf8_check accepts exactly the UTF-8 encodings of sequences of Unicode scalar values."
  },
  {
   "property": "C140",
   "status": "partial",
   "theorems": [
    "C140_sockets",
    "C140_refused",
    "C140_elsewhere",
    "C140_files_partial",
    "C140_slash_refuted",
    "C140_index_partial",
    "C140_missing_refuted"
   ],
   "note": "The websockets and 404 are proved in full, for MHD accepting the headers. The files are proved for names that follow /static/ and for files that the web site puts in the body. The full statement is false: with two slashes before static the router finds the web site, which looks for another name, and a file that is missing is 200 with nothing (two refutations)."
  },
  {
   "property": "C15",
   "status": "proved",
   "theorems": [
    "C15_selected_iff_match"
   ],
   "note": "For every history of registrations that never passes the empty endpoint, and every sorting qsort. strtok_r modelled as splitting into maximal non-slash runs."
  },
  {
   "property": "C16",
   "status": "proved",
   "theorems": [
    "C16_priority_order"
   ],
   "note": "qsort is any function returning a sorted permutation."
  },
  {
   "property": "C17",
   "status": "partial",
   "theorems": [
    "C17_parameters_bound_partial",
    "C17_single_parameter_partial",
    "C17_encoded_segment",
    "C17_query_segment_refuted",
    "C17_nameless_refuted"
   ],
   "note": "Proved for formats without '?' segments and without nameless parameters, all urls and maps; both excluded cases are refuted by counterexamples."
  },
  {
   "property": "C18",
   "status": "partial",
   "theorems": [
    "C18_values_joined_in_order_partial",
    "C18_values_exist",
    "C18_empty_name_refuted"
   ],
   "note": "Proved for every list of pairs with non-empty names. With an empty name (?=v&a=b) the full statement is false: later pairs are lost (refuted)."
  },
  {
   "property": "C19",
   "status": "partial",
   "theorems": [
    "C19_table_well_formed_partial",
    "C19_meaning_functional",
    "C19_clean_then_add",
    "C19_empty_endpoint_refuted",
    "C19_clean_then_remove_refuted"
   ],
   "note": "Proved for all histories that never pass the empty endpoint; refuted when it is passed to ulfius_add_endpoint, and for removal after cleaning."
  },
  {
   "property": "C20",
   "status": "proved",
   "theorems": [
    "C20_remove_exact",
    "C20_bad_argument"
   ],
   "note": "On all tables reachable without passing the empty endpoint."
  },
  {
   "property": "C21",
   "status": "proved",
   "theorems": [
    "C21_callbacks_in_order"
   ],
   "note": "For every callback behaviour (oracle with its own state), every table history, default endpoint, qsort tie-breaking. Fewer than 2^32-1 endpoints; memory allocation succeeds."
  },
  {
   "property": "C22",
   "status": "proved",
   "theorems": [
    "C22_position"
   ],
   "note": "Includes the default endpoint run after the loop."
  },
  {
   "property": "C23",
   "status": "partial",
   "theorems": [
    "C23_one_answer_partial",
    "C23_nothing_matches",
    "C23_unknown_default_code_refuted",
    "C23_upgrade_then_default_refuted"
   ],
   "note": "Refuted as stated: an unknown code from the default endpoint at its second call site leaves the request unanswered; a websocket upgrade with IGNORE plus a default endpoint answers 101 with an ordinary body. Proved in all other cases; headers MHD refuses cut off the remaining ones."
  },
  {
   "property": "C24",
   "status": "partial",
   "theorems": [
    "C24_default_iff",
    "C24_at_most_once_partial",
    "C24_default_twice_refuted"
   ],
   "note": "The iff part is proved. At most once is refuted (nothing matches and the default endpoint returns IGNORE: it runs twice) and proved in all other cases."
  },
  {
   "property": "C25",
   "status": "proved",
   "theorems": [
    "C25_own_parameters_only",
    "C25_old_map_irrelevant"
   ],
   "note": "For formats without nameless parameters; query map without NULL values (shown for the query filler in C18)."
  },
  {
   "property": "C26",
   "status": "proved",
   "theorems": [
    "C26_body_intact_up_to_limit",
    "C26_every_chunk_consumed"
   ],
   "note": "Every chunking and limit; total size below 2^64."
  },
  {
   "property": "C27",
   "status": "partial",
   "theorems": [
    "C27_value_independent_of_split_partial",
    "C27_form_independent_of_splits_partial",
    "C27_holds_observable",
    "C27_split_character_refuted",
    "C27_value_shortened_refuted"
   ],
   "note": "Proved without check_utf8, and with it when each piece is valid UTF-8 on its own. False otherwise: a character cut by a piece boundary is lost (refuted). Not modelled: the file upload callback."
  },
  {
   "property": "C28",
   "status": "proved",
   "theorems": [
    "C28_one_cookie_per_name",
    "C28_rejected_changes_nothing"
   ],
   "note": "For every sequence of cookie calls on a fresh response the jar holds one cookie per name, with the attributes of the last accepted call, in first-set order."
  },
  {
   "property": "C29",
   "status": "partial",
   "theorems": [
    "C29_header_reads_back_partial",
    "C29_starts_with_name_value",
    "C29_large_max_age_refuted"
   ],
   "note": "Reads back for max_age below 2^31. At or above 2^31 the unsigned max_age is printed with %d and becomes negative (refuted with a witness)."
  },
  {
   "property": "C30",
   "status": "partial",
   "theorems": [
    "C30_duplicate_independent_partial",
    "C30_server_response_refuted",
    "C30_cookie_without_domain_refuted"
   ],
   "note": "Proved for responses with a protocol and fully attributed cookies. Refuted otherwise: a NULL protocol makes the duplicate fail, a cookie without value/expires/domain/path gives dangling pointers and a double free. Missing: the full statement is false of the code."
  },
  {
   "property": "C31",
   "status": "partial",
   "theorems": [
    "C31_duplicate_equal",
    "C31_copy_equal_partial",
    "C31_used_dest_refuted"
   ],
   "note": "ulfius_duplicate_request: proved for every request. ulfius_copy_request: proved unless dest holds a body or address that the source lacks (refuted). client_cert (GnuTLS object) is not modelled."
  },
  {
   "property": "C32",
   "status": "partial",
   "theorems": [
    "C32_body_and_length_partial",
    "C32_string_body_oom_refuted"
   ],
   "note": "Every history, including failing allocations in the binary and JSON setters. Refuted when o_strdup fails in the string setter: NULL body with stale length."
  },
  {
   "property": "C33",
   "status": "proved",
   "theorems": [
    "C33_frame_round_trip",
    "C33_huge_refuted"
   ],
   "note": "Every payload below 2^32 bytes, opcode, RSV, mask, and every way the bytes are cut into reads. The mask key itself is not stored by the reader; the mask flag and the unmasked payload are. The bound 2^32 is needed: C33_huge_refuted shows that longer frames are read whole and refused."
  },
  {
   "property": "C34",
   "status": "partial",
   "theorems": [
    "C34_rfc_frame_partial",
    "C34_built_message",
    "C34_huge_refuted",
    "C34_masked_endless_refuted",
    "C34_fragment_opcode_refuted",
    "C34_fragment_trailing_refuted"
   ],
   "note": "Proved for messages sent as one frame below 2^54 bytes (masked: 2^32). Refuted otherwise: wrong length byte from 2^54 bytes on, endless masking loop from 2^32 bytes on, first fragments carry no opcode, short fragments of medium messages end with two bytes that were never written. Missing: the full statement is false of the code."
  },
  {
   "property": "C35",
   "status": "partial",
   "theorems": [
    "C35_one_message_partial",
    "C35_fragmented_refuted",
    "C35_frames_built"
   ],
   "note": "Messages sent as one frame arrive as one message. Refuted for every message that is split into two or more frames: the receiver never delivers anything. Missing: the full statement is false of the code."
  },
  {
   "property": "C36",
   "status": "proved",
   "theorems": [
    "C36_only_right_masks",
    "C36_wrong_mask_not_read",
    "C36_wrong_mask_ends"
   ],
   "note": "Any byte stream, any schedule of the socket, any interference. A wrong mask bit after any sequence of good frames is covered by C37 (receivable streams may end with one)."
  },
  {
   "property": "C37",
   "status": "proved",
   "theorems": [
    "C37_reassembly",
    "C37_messages"
   ],
   "note": "All sequences of frames with payloads below 2^32 bytes for which allocation succeeds, cut into reads in any way. Extensions are an arbitrary function. RSV bits are accepted when any of them is expected, as in the code."
  },
  {
   "property": "C38",
   "status": "partial",
   "theorems": [
    "C38_pongs",
    "C38_end_is_final",
    "C38_close_callback_once",
    "C38_close_callback_runs",
    "C38_manager_waits_refuted"
   ],
   "note": "Pongs, finality of the end and the close callback running exactly once (when the manager callback returns) are proved. Refuted: when the final fragment cannot be merged the connection stays marked connected, so a manager callback waiting for the end never returns and the close callback never runs."
  },
  {
   "property": "C39",
   "status": "partial",
   "theorems": [
    "C39_beginnings_partial",
    "C39_complete_when_willing",
    "C39_silent_truncation_refuted",
    "C39_unreported_failures_refuted",
    "C39_never_interleaved",
    "C39_messages_in_order"
   ],
   "note": "For every schedule of poll and send, what is sent is, frame after frame, a beginning of each frame; everything when the socket keeps accepting bytes. Messages of different threads are never interleaved. Refuted: a poll timeout or a send error truncates a frame and U_OK is still returned. Missing: the full statement is false of the code."
  },
  {
   "property": "C40",
   "status": "partial",
   "theorems": [
    "C40_fifo_partial",
    "C40_race_refuted",
    "C40_out_of_memory_refuted",
    "C40_clear_refuted"
   ],
   "note": "A queue for every sequence of non-overlapping pushes and pops. Refuted: a push by the library overlapping a pop by the program (there is no lock), a push that cannot allocate, and use after ulfius_clear_websocket_message_list. Missing: the full statement is false of the code."
  },
  {
   "property": "C41",
   "status": "proved",
   "theorems": [
    "C41_list_match",
    "C41_values",
    "C41_first_match"
   ],
   "note": "split_string, trimwhitespace and string_array_has_trimmed_value of orcania are modelled from their documentation (StrModel.v)."
  },
  {
   "property": "C42",
   "status": "proved",
   "theorems": [
    "C42_upgrade_iff",
    "C42_only_valid_requests",
    "C42_otherwise_400",
    "C42_text",
    "C42_silent_refuted"
   ],
   "note": "Match functions of extensions are oracles that set a name when they accept; SHA-1/base64 is an oracle. C42_otherwise_400 is for requests whose last callback asks for the websocket and no default endpoint runs afterwards (extra = []); with the default endpoint the answer is the default endpoint's (see C23). C42_text: the text of the refusal has exactly the lines about what is missing; C42_silent_refuted: for a header that is there twice it is empty (the statement asks for no text)."
  },
  {
   "property": "C43",
   "status": "partial",
   "theorems": [
    "C43_accepts_iff",
    "C43_accepts_only_partial",
    "C43_accept_never_checked_refuted",
    "C43_one_header_suffices_refuted",
    "C43_accepts_only",
    "C43_cut",
    "C43_open",
    "C43_cut_refuted"
   ],
   "note": "Refuted as stated: the client accepts any 101 response with one of the expected headers and never looks at Sec-WebSocket-Accept. C43_accepts_iff gives the exact condition for well-formed responses. C43_accepts_only is the same condition for any bytes from the server. C43_cut_refuted: a response that is cut in its header part is a success with a closed socket."
  },
  {
   "property": "C44",
   "status": "partial",
   "theorems": [
    "C44_restored_partial",
    "C44_user_data_refuted",
    "C44_order_refuted"
   ],
   "note": "What one side sends through its enabled extensions is restored by the other side, for any list of extensions and any conversation, provided both sides hold their extensions in the same order, the incoming function ignores its user data (it receives the outgoing one) and no step fails. Without the first two conditions the statement is false of the code: see the refuted theorems."
  },
  {
   "property": "C45",
   "status": "partial",
   "theorems": [
    "C45_server",
    "C45_client",
    "C45_strict_understood",
    "C45_unknown_parameter_refuted",
    "C45_window_8_refuted",
    "C45_after_space_refuted"
   ],
   "note": "Acceptance is characterised exactly (iff) for every offer, windows always between 9 and 15, the answer names exactly what was accepted, and all RFC 7692 parameters are understood. False of the code as stated: text that is no known parameter is accepted (prefix match), a window of 8 is answered by 9, and an offer written after a comma and a space is never accepted."
  },
  {
   "property": "C46",
   "status": "proved",
   "theorems": [
    "C46_key",
    "C46_alphabet",
    "C46_uniform"
   ],
   "note": "The bytes of gnutls_rnd are an oracle; uniformity is proved as: each letter is selected by the same number of byte values among those not rejected."
  },
  {
   "property": "C47",
   "status": "partial",
   "theorems": [
    "C47_no_missed_wakeup",
    "C47_bounded",
    "C47_stops_partial",
    "C47_hang_refuted"
   ],
   "note": "No missed wake-up: every interleaving, spurious wake-ups included. Every execution without new openings is finite. The only halted states are stopped ones: proved for every execution in which openings do not overlap other uses of the list, false otherwise (a schedule of six websockets in which nothing is accessed outside of the list, all the websockets end, and the stopping thread sleeps for ever)."
  },
  {
   "property": "C48",
   "status": "partial",
   "theorems": [
    "C48_consistent_partial",
    "C48_realloc_race_refuted",
    "C48_overflow_refuted",
    "C48_lost_entry_refuted"
   ],
   "note": "False for overlapping openings (o_realloc outside of the lock): three schedules. Proved for all executions, with any number of websockets, in which the unlocked part of an opening does not overlap another use of the list."
  },
  {
   "property": "C49",
   "status": "partial",
   "theorems": [
    "C49_only_leaving_partial",
    "C49_count_before_broadcast_refuted",
    "C49_late_opening_refuted",
    "C49_connections_partial"
   ],
   "note": "False: two schedules. Proved: without openings during the stop, only the last four instructions of ulfius_instance_remove_websocket_active can meet the released instance. In every execution, MHD_stop_daemon has waited for the openings under way (C49_connections_partial)."
  },
  {
   "property": "C50",
   "status": "partial",
   "theorems": [
    "C50_close_means_closed_partial",
    "C50_woken_partial",
    "C50_missed_wakeup_refuted",
    "C50_spurious_refuted"
   ],
   "note": "False: missed wake-up, and CLOSE returned after a spurious wake-up. Proved: without spurious wake-ups CLOSE means closed, and a waiter that sleeps before the broadcast returns."
  },
  {
   "property": "C51",
   "status": "proved",
   "theorems": [
    "C51_body_exact"
   ],
   "note": "Any calls of libcurl whose total is below 2^64 - 1 bytes; the allocation succeeds."
  },
  {
   "property": "C52",
   "status": "partial",
   "theorems": [
    "C52_headers_joined_partial",
    "C52_status_line_refuted",
    "C52_no_name_refuted"
   ],
   "note": "Proved for fields with a name, status lines without a colon and blank lines. False for a status line with a colon (recorded as a header) and undefined for a line that starts with the colon. The buffer of libcurl is taken to be NUL-terminated."
  },
  {
   "property": "C53",
   "status": "partial",
   "theorems": [
    "C53_cookies_partial",
    "C53_dangling_refuted",
    "C53_flags_refuted",
    "C53_same_name_refuted"
   ],
   "note": "Proved when no empty value follows a non-empty one, one cookie per name. Otherwise the value of an earlier cookie is read after its release; also the flags are read from the wrong columns and cookies of the same name overwrite each other."
  },
  {
   "property": "C54",
   "status": "proved",
   "theorems": [
    "C54_payload_exact"
   ],
   "note": "Any sizes below 2^64."
  },
  {
   "property": "C55",
   "status": "proved",
   "theorems": [
    "C55_parts_found",
    "C55_relative",
    "C55_user_without_password_refuted",
    "C55_ipv6_refuted",
    "C55_port_refuted"
   ],
   "note": "Proved for all parts of admissible characters, ports below 2^31, texts below 2^32 bytes. Valid URLs with a user and no password are refused, IPv6 hosts are misread, ports are not checked (refuted cases outside the statement)."
  },
  {
   "property": "C56",
   "status": "partial",
   "theorems": [
    "C56_opened_partial",
    "C56_slash",
    "C56_no_sibling_partial",
    "C56_served",
    "C56_url_partial",
    "C56_sibling_refuted",
    "C56_relative_refuted",
    "C56_short_url_refuted",
    "C56_unconfigured"
   ],
   "note": "The resolved path of every opened file begins with files_path; it is inside the directory when files_path ends with a slash or no sibling name begins with the directory's name. False in general: /srv/www also gives access to /srv/www-secret; a relative files_path never serves anything; a URL shorter than url_prefix is read out of bounds. The file system is an oracle that does not change within one request (no race between realpath and fopen)."
  },
  {
   "property": "C57",
   "status": "partial",
   "theorems": [
    "C57_decision_partial",
    "C57_only_valid_partial",
    "C57_shared",
    "C57_answer_partial",
    "C57_empty_scope_refuted",
    "C57_no_lifetime_refuted",
    "C57_client_refuted",
    "C57_no_scope_refuted",
    "C57_overflow_refuted",
    "C57_reason"
   ],
   "note": "The decision is characterised exactly; C57_only_valid_partial gives C57 when the configured scope has no double, leading or trailing space. Missing from the full statement and refuted with witnesses: empty scopes match each other, a token without expires_in and with a future iat is accepted. Also shown: client tokens are never accepted, a token without a string scope makes the code free an uninitialised array (if split_string leaves it unset), iat + expires_in can overflow. JWT verification is an oracle."
  },
  {
   "property": "C58",
   "status": "partial",
   "theorems": [
    "C58_kept_partial",
    "C58_opcode_lost_refuted"
   ],
   "note": "Holds for messages without data. Refuted for every message with data: the opcode kept is 0. Missing: the full statement is false of the code."
  },
  {
   "property": "C59",
   "status": "proved",
   "theorems": [
    "C59_server",
    "C59_client"
   ],
   "note": "Server: header name spelled exactly Sec-WebSocket-Extensions (u_map_has_key is case sensitive). Client: rendered responses."
  },
  {
   "property": "C60",
   "status": "proved",
   "theorems": [
    "C60_both_ends_agree",
    "C60_windows"
   ],
   "note": "zlib initialisation is an oracle that succeeds for windows 9..15."
  },
  {
   "property": "C61",
   "status": "partial",
   "theorems": [
    "C61_out",
    "C61_in",
    "C61_error",
    "C61_round_trip",
    "C61_huge_message_refuted"
   ],
   "note": "zlib is an oracle with the contract stated in the definition zlib. Proved for messages below 2^32 bytes; for 2^32 bytes the function reads before the block when zlib has no output (refuted)."
  },
  {
   "property": "C62",
   "status": "partial",
   "theorems": [
    "C62_signalled_partial",
    "C62_signal_stays_partial",
    "C62_signal_reset_refuted"
   ],
   "note": "False: ulfius_start_websocket_cb resets the flag of a websocket already in the list. Proved: every counted websocket is signalled, and the signal stays unless the websocket's thread had not been started."
  },
  {
   "property": "C63",
   "status": "partial",
   "theorems": [
    "C63_after_sleep_partial",
    "C63_released_in_use_refuted"
   ],
   "note": "False: connected is 0 before the closing callbacks run. Proved for a caller that slept before the broadcast, without spurious wake-ups."
  },
  {
   "property": "C64",
   "status": "proved",
   "theorems": [
    "C64_any_text"
   ],
   "note": "Texts below 2^32 bytes. The port after the end of the text is read by atoi, modelled as the GNU library does it."
  },
  {
   "property": "C65",
   "status": "partial",
   "theorems": [
    "C65_options_faithful_partial",
    "C65_network_refuted",
    "C65_network_never_restricted"
   ],
   "note": "All options proved except the network type, which is false: U_USE_IPV4 or U_USE_IPV6 alone never restricts libcurl. curl_easy_init, the copy of the request and list allocations succeed."
  },
  {
   "property": "C66",
   "status": "partial",
   "theorems": [
    "C66_query_sent_partial",
    "C66_fragment_refuted"
   ],
   "note": "Proved for every URL without '#'; with a fragment the parameters are appended to the fragment (refuted). libcurl's escaping is taken from its documentation."
  },
  {
   "property": "C67",
   "status": "partial",
   "theorems": [
    "C67_form_sent",
    "C67_body_sent",
    "C67_content_type_refuted"
   ],
   "note": "Body and length proved. The content type is the form's, but a header of the same name in another case is sent too (refuted uniqueness)."
  },
  {
   "property": "C68",
   "status": "partial",
   "theorems": [
    "C68_headers_sent_partial",
    "C68_cookies_sent_partial",
    "C68_empty_header_refuted",
    "C68_line_break_refuted",
    "C68_cookies_refuted"
   ],
   "note": "Proved for names and values without separators, line breaks, outer blanks or empty values; refuted for each of these."
  },
  {
   "property": "C69",
   "status": "partial",
   "theorems": [
    "C69_mail_sent_partial",
    "C69_line_break_refuted",
    "C69_no_type_refuted"
   ],
   "note": "Text proved for fields without line breaks and outer blanks; refuted with a line break in the subject; a NULL content type is printed with %s."
  },
  {
   "property": "C70",
   "status": "partial",
   "theorems": [
    "C70_connects_partial",
    "C70_no_connection",
    "C70_port_refuted"
   ],
   "note": "Proved for ports 1..65535 or none; other ports are taken modulo 65536 and port 0 means the default (refuted). Name lookup, TCP and TLS are one arbitrary answer; gnutls is assumed to check the name it is given."
  },
  {
   "property": "C71",
   "status": "partial",
   "theorems": [
    "C71_request_read_partial",
    "C71_case_refuted",
    "C71_injection_refuted",
    "C71_host_refuted",
    "C71_credentials_refuted"
   ],
   "note": "Proved for URLs without credentials and for names and values without line breaks, outer blanks and names equal up to case; refuted for each of these. Sending is complete (WsSend models a send that fails)."
  },
  {
   "property": "C72",
   "status": "partial",
   "theorems": [
    "C72_opened_iff",
    "C72_ordered_use_partial",
    "C72_too_early_refuted",
    "C72_after_failure_refuted",
    "C72_after_close_refuted"
   ],
   "note": "No undefined behaviour in the intended order; refuted for other orders. Concurrency of the thread is in C50, C62, C63; allocation succeeds."
  },
  {
   "property": "C73",
   "status": "partial",
   "theorems": [
    "C73_valid_request_partial",
    "C73_lower_case_refuted"
   ],
   "note": "Proved when the caller's own headers do not use the names written by the two functions; refuted when one does in another case. The random key is any text (C59 treats its making)."
  },
  {
   "property": "C74",
   "status": "partial",
   "theorems": [
    "C74_body_partial",
    "C74_form_partial",
    "C74_no_body_refuted",
    "C74_url_kept_refuted",
    "C74_no_path_refuted",
    "C74_relative_refuted",
    "C74_nul_refuted",
    "C74_form_refuted",
    "C74_form_binary_refuted",
    "C74_length_twice_refuted",
    "C74_injection_refuted"
   ],
   "note": "For absolute URLs with a path, texts without line ends and a body without NUL below 2 GiB (or a form of UTF-8 values) the exported text reads as the request; the body is followed by an extra CR LF. The full statement is false of the code: the URL of the request is destroyed, a request without body has no end of header, a URL without path or host prints NULL, a NUL cuts the body, NULL or non-UTF-8 form values are lost, Content-Length can appear twice, headers can inject fields."
  },
  {
   "property": "C75",
   "status": "partial",
   "theorems": [
    "C75_body_partial",
    "C75_no_body_partial",
    "C75_cookies_lost_refuted",
    "C75_nul_refuted"
   ],
   "note": "For texts without line ends, a body without NUL below 2 GiB and no Set-Cookie header of its own the text reads as the response, the body being followed by an extra CR LF. False in general: a Set-Cookie header (any case) drops all cookies, a NUL cuts the body although the full length is announced."
  },
  {
   "property": "C76",
   "status": "partial",
   "theorems": [
    "C76_run_partial",
    "C76_growth_refuted",
    "C76_fresh",
    "C76_cached",
    "C76_plain"
   ],
   "note": "Invariant of the caches over any run, with zlib as an oracle that gives non-empty results; Content-Encoding must not be among the configured headers. False: the cache keeps one copy per spelling of a name, so it has no bound. Requests are served one at a time: the lookups made outside the lock are not modelled as concurrent."
  },
  {
   "property": "C77",
   "status": "partial",
   "theorems": [
    "C77_decision_partial",
    "C77_key",
    "C77_answer_partial",
    "C77_client_refuted",
    "C77_reason",
    "C77_shared"
   ],
   "note": "C77_key gives the statement when the configured scope has no double, leading or trailing space; C77_decision_partial is the exact decision for every scope, where empty words count. Missing: an answer is only shown when split_string(NULL) sets its array or the token has a string scope. C77_client_refuted: a client token without sub is answered with an error and the shared data of earlier callbacks is dropped."
  },
  {
   "property": "C78",
   "status": "proved",
   "theorems": [
    "C78_proof"
   ],
   "note": "Equivalence whenever the function returns; iat + max_iat overflow is undefined behaviour in the model. rhonabwy's parsing, import, verification and thumbprint are oracles. A NULL method or URL matches a missing claim, as the statement's text_claim says."
  },
  {
   "property": "C79",
   "status": "partial",
   "theorems": [
    "C79_decision",
    "C79_answer",
    "C79_bound",
    "C79_silent_refuted",
    "C79_path_refuted",
    "C79_reason"
   ],
   "note": "The decision is proved in full. Missing from the statement: refusals because of the scheme carry no WWW-Authenticate header (C79_silent_refuted), and an empty path makes the code read past its end (C79_path_refuted). iddawc's verification functions are oracles, the session lock is taken as held."
  },
  {
   "property": "C80",
   "status": "partial",
   "theorems": [
    "C80_decision_partial",
    "C80_same_content_partial",
    "C80_compresses",
    "C80_encoded_refuted",
    "C80_large_refuted",
    "C80_length_refuted",
    "C80_zlib_error"
   ],
   "note": "Proved for bodies below 4 GiB and responses without Content-Encoding, under the contract of zlib (zlib_ok). Refuted beyond: an encoded body is encoded again and its first coding forgotten, 4 GiB bodies are cut modulo 2^32, a Content-Length header keeps the old length."
  },
  {
   "property": "C81",
   "status": "proved",
   "theorems": [
    "C81_start",
    "C81_init",
    "C81_init_ipv6",
    "C81_init_accepts",
    "C81_no_endpoint_refuted",
    "C81_init_internal"
   ],
   "note": "The refuted theorem records that an instance whose endpoint list was never allocated is refused while the same instance with an emptied list starts; the claim counts the allocated list as part of well-formedness."
  },
  {
   "property": "C82",
   "status": "partial",
   "theorems": [
    "C82_safe",
    "C82_lifecycle_partial",
    "C82_client_certificates_partial",
    "C82_lost",
    "C82_second_start_refuted",
    "C82_client_certificates_refuted",
    "C82_own_options_refuted"
   ],
   "note": "Safety and status proved for all call sequences; one daemon per instance proved for programs that never start a running instance. Refuted otherwise: the second start is refused but forgets the running daemon, which then no call can stop, and switches the client certificates off."
  },
  {
   "property": "C83",
   "status": "partial",
   "theorems": [
    "C83_properties",
    "C83_last_value",
    "C83_own_value_refuted",
    "C83_timeout_type_refuted",
    "C83_negative_timeout_refuted",
    "C83_unknown_option_refuted",
    "C83_append_null_refuted"
   ],
   "note": "Proved for values of the types that va_arg reads. Missing because false: U_OPT_TIMEOUT with the documented type unsigned long is undefined (int and unsigned int are read), a negative int becomes a huge timeout, values pointing into the field they replace are read after free, an unknown option makes its value be read as an option, appending NULL dereferences it. Allocation succeeds."
  },
  {
   "property": "C84",
   "status": "partial",
   "theorems": [
    "C84_properties",
    "C84_wide_status_refuted",
    "C84_shared_partial",
    "C84_overwrite_refuted",
    "C84_given_twice_refuted",
    "C84_unanswered_refuted",
    "C84_free_kept",
    "C84_shared_result"
   ],
   "note": "Options: proved for status codes of 32 bits (wider ones are cut by the body options) and values in memory of the caller. Shared data: proved for requests that get a response of MHD and data only given by ulfius_set_response_shared_data; U_OPT_SHARED_DATA leaks the old data and leaves their free function to the new ones, the same data given twice are released twice, unanswered requests leak."
  },
  {
   "property": "C85",
   "status": "proved",
   "theorems": [
    "C85_read",
    "C85_round_trip",
    "C85_containers_only",
    "C85_other_case_refuted",
    "C85_unwritable_refuted"
   ],
   "note": "jansson's printer and parser are oracles with the contract in the hypothesis. The refuted theorems show that the condition on other spellings of Content-Type is needed and that a failed json_dumps empties the body."
  },
  {
   "property": "C86",
   "status": "partial",
   "theorems": [
    "C86_url",
    "C86_client",
    "C86_forms",
    "C86_ipv6_refuted"
   ],
   "note": "Proved except for the address of IPv6 clients, which is cut to the 16 bytes of struct sockaddr (refuted). GnuTLS and MHD are inputs; the header and query maps are in C18."
  },
  {
   "property": "C87",
   "status": "partial",
   "theorems": [
    "C87_released_partial",
    "C87_unreadable_certificate_refuted",
    "C87_memory_refuted",
    "C87_only_the_map_is_lost"
   ],
   "note": "Proved when memory for ulfius_uri_logger can be had and a verified certificate can be read. Otherwise false: a certificate that gnutls_x509_crt_import refuses is released twice, ulfius_init_request without memory frees pointers that were never set, and map_url_initial is lost when ulfius_uri_logger fails. The texts and maps inside the request are not followed here."
  },
  {
   "property": "C88",
   "status": "proved",
   "theorems": [
    "C88_parts",
    "C88_empty",
    "C88_round_trip",
    "C88_no_room_refuted"
   ],
   "note": "With max_parts = 0 a part is written all the same, outside an array of that size (C88_no_room_refuted)."
  },
  {
   "property": "C89",
   "status": "proved",
   "theorems": [
    "C89_parameters",
    "C89_round_trip",
    "C89_rest_refuted",
    "C89_bounds_refuted",
    "C89_empty"
   ],
   "note": "What one would expect beyond the statement fails: with more parameters than room the last value holds the other parameters and the delimiters (C89_rest_refuted); max_params = 0 and the delimiter NUL write outside (C89_bounds_refuted)."
  },
  {
   "property": "C90",
   "status": "partial",
   "theorems": [
    "C90_conversation",
    "C90_closed",
    "C90_extensions",
    "C90_extension_error",
    "C90_frames",
    "C90_endless_refuted"
   ],
   "note": "Proved for messages of fewer than 2^32 bytes, with C90_endless_refuted for longer ones of a client. Messages sent whole (no fragmentation: C35_fragmented_refuted) and with a socket that never refuses (C39 says what happens otherwise). With extensions: both sides list them in the same order, with the same user data for both directions (C44), and the bytes they make of a message are fewer than 2^32. ulfius_websocket_send_message with the close opcode is in C38."
  },
  {
   "property": "C91",
   "status": "partial",
   "theorems": [
    "C91_json_conversation",
    "C91_parsed",
    "C91_scalar_refuted",
    "C91_no_value"
   ],
   "note": "json_dumps and json_loadb are parameters. A value that json_dumps(JSON_COMPACT) cannot print, such as a number, a string or a boolean, is sent as an empty text message and U_OK is returned (C91_scalar_refuted)."
  },
  {
   "property": "C92",
   "status": "partial",
   "theorems": [
    "C92_answer_arrives",
    "C92_refused_header_refuted"
   ],
   "note": "The text of the head (RFC 9112 fields) and the splitting in lines are the specification of MHD and libcurl. Names and values have no line break and no space around them; cookies are read by libcurl and are in C53. If MHD refuses one header the answer is sent without it and without everything after it (C92_refused_header_refuted)."
  },
  {
   "property": "C93",
   "status": "partial",
   "theorems": [
    "C93_parameters_arrive",
    "C93_fragment_refuted",
    "C93_headers_arrive",
    "C93_cookies_arrive",
    "C93_form_arrives",
    "C93_body_arrives"
   ],
   "note": "The reading of query, fields, cookies and form by MHD is the specification (HttpText, SendSpec). The URL may have a query of its own. With a fragment in the URL the parameters are not sent (C93_fragment_refuted); the exceptions for header fields and forms are refuted in C66 to C68."
  },
  {
   "property": "C94",
   "status": "partial",
   "theorems": [
    "C94_exact",
    "C94_released",
    "C94_empty_endpoint_refuted",
    "C94_duplicate_refuted",
    "C94_duplicate_intended"
   ],
   "note": "Allocation succeeds; the steps of requests and of the program are taken one after the other (the library has no lock around the table). Excluded and refuted: adding the empty endpoint makes the clean stop early and leak (C94_empty_endpoint_refuted); ulfius_duplicate_endpoint_list writes outside its block for every non-empty list (C94_duplicate_refuted). The word arrays of ulfius_split_url are not modelled."
  },
  {
   "property": "C95",
   "status": "proved",
   "theorems": [
    "C95_text_logged",
    "C95_percent_refuted",
    "C95_doubled_refuted",
    "C95_null_text"
   ],
   "note": "Full for texts without '%'; the others are refuted. printf without flags, widths and precisions; y_log_message is printf without arguments."
  },
  {
   "property": "C96",
   "status": "partial",
   "theorems": [
    "C96_exact_partial",
    "C96_memory_partial",
    "C96_released_partial",
    "C96_grow_refuted",
    "C96_longer_refuted",
    "C96_second_refuted",
    "C96_copy_refuted"
   ],
   "note": "Full when only o_malloc and o_strdup may fail. When o_realloc may fail the statement is false (C96_grow_refuted, C96_longer_refuted, C96_second_refuted, C96_copy_refuted). Excluded: offsets beyond the end of a value (bytes that are not written), empty binary values that are not NULL, u_map_copy_into of a map into itself, the removals by value."
  },
  {
   "property": "C97",
   "status": "partial",
   "theorems": [
    "C97_exact_partial",
    "C97_memory_partial",
    "C97_released_partial",
    "C97_init_refuted",
    "C97_init_clean_refuted",
    "C97_clean_twice_refuted",
    "C97_incomplete_refuted",
    "C97_copy_cookie_refuted",
    "C97_copy_array_refuted",
    "C97_cookie_refuted",
    "C97_cookie_grow_refuted",
    "C97_socket_refuted",
    "C97_extension_refuted",
    "C97_copy_used_refuted"
   ],
   "note": "Proved when o_malloc and o_strdup may fail anywhere, except: inside ulfius_init_response after the map of headers, inside ulfius_copy_response, after the first allocation of a cookie or of ulfius_set_websocket_response with a protocol; o_realloc has memory; responses are duplicated only with complete cookies. For each of these exceptions a refuted theorem shows the leak, the double release or the NULL pointer. Not covered: shared_data and the stream callbacks."
  },
  {
   "property": "C98",
   "status": "partial",
   "theorems": [
    "C98_exact_partial",
    "C98_memory_partial",
    "C98_released_partial",
    "C98_init_refuted",
    "C98_init_map_refuted",
    "C98_clean_twice_refuted",
    "C98_string_length_refuted",
    "C98_copy_cert_refuted",
    "C98_import_twice_refuted",
    "C98_peer_cert_refuted",
    "C98_copy_used_refuted",
    "C98_missing_refuted"
   ],
   "note": "Proved when o_malloc, o_strdup and gnutls_x509_crt_init may fail anywhere, except: inside ulfius_init_request, and in ulfius_set_string_body_request when the program makes duplicates; o_realloc has memory; the certificate of a peer can be read by GnuTLS. The blocks lost with certificates are counted exactly; without certificates none is lost. For each exception a refuted theorem shows the uninitialised read, the NULL pointer, the double release or the leak. Not covered: the numbers, shared_data, U_OPT_HTTP_URL_APPEND; a certificate of GnuTLS is one block."
  },
  {
   "property": "C99",
   "status": "partial",
   "theorems": [
    "C99_exact_partial",
    "C99_memory_partial",
    "C99_released_partial",
    "C99_init_list_refuted",
    "C99_init_locks_refuted",
    "C99_push_refuted",
    "C99_pop_refuted",
    "C99_merge_refuted",
    "C99_no_message_refuted",
    "C99_no_data_refuted",
    "C99_clear_list_refuted",
    "C99_extension_refuted"
   ],
   "note": "Proved for any functions of the extensions and when o_malloc and o_strdup may fail anywhere, except: the list of incoming messages of a new websocket, the structure and the data of a message of the peer; o_realloc has memory and the locks can be made. The blocks lost with extensions that no list can take are counted exactly; without extensions none is lost. For each exception a refuted theorem shows the uninitialised read, the NULL pointer or the leak. The program and the threads take turns (the locks are treated by C59 to C62). Not covered: the texts of the handshake, the contexts that a match function makes for an extension that is then not used."
  }
 ]
}