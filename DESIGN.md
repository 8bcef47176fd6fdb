# Formal model of ulfius: design

The code (babelouest/ulfius, `/repo`, C) is read as text and never run. The model is written in Gallina (Coq 8.16.1)
under `rocq/theories` and everything claimed is proved there.

## 1. Method

* One model file per C area. Each model definition is a small total function that follows one C function and cites
  file and lines; simplifications are stated in its comment. Model files contain no proofs.
* One specification file per area: an abstract object (dictionary, inductive well-formedness relation, RFC table, ...)
  that does not call the model.
* Proof files connect the two. `*Props.v` files contain only the property theorems (`exact lemma.`), followed by
  `Print Assumptions`, and the non-vacuity examples.
* A property that the faithful model violates is *refuted*: a theorem named `..._refuted` gives a witness, and the
  strongest true statement is proved next to it. These are recorded as findings in section 5.
* Undefined behaviour is a value of the model (`UB`): an access outside an allocated block, a read of an
  uninitialised byte that matters, a use of a freed block. Where a theorem talks about memory safety it says the
  result is not `UB`.

### Conventions of the model

* A byte is a `Z` in 0..255; a C string is a `list Z` of bytes 1..255 without the terminator; `NULL` is `None`.
* `size_t`/`uint64_t` are `Z`; wrap-around is written explicitly (`mod 2^64`) where it can matter.
* Allocation (`o_malloc`, `o_realloc`, `o_strdup`, `msprintf`) is taken to succeed unless a definition says otherwise.
  Logging (`y_log_message`) has no effect.
* Library calls outside `/repo` (orcania strings, libc `strtok_r`/`qsort`/`memcmp`, libmicrohttpd, libcurl, gnutls,
  zlib, jansson) are modelled by their documented contract, either as a small definition or as a section variable /
  universally quantified function.
* Callbacks written by the user are universally quantified functions over an arbitrary state.
* Threads are modelled as interleavings of atomic steps (sequential consistency), with mutexes and condition variables
  as explicit state, spurious wake-ups allowed.

## 2. Properties and how they are handled

| id | modelled | proof |
|----|----------|-------|
| C01 | `u_map` as list of (key, buffer, length) with byte buffers, all operations | refinement to an association function, induction over histories |
| C02 | same model, every access bounds-checked with outcome `UB` | invariant "buffer holds length+1 bytes" over all histories with admissible calls; refuted for NULL value with non-zero length, for wrapping offsets, for long probes in has_value |
| C03 | `u_map_put_binary` | induction over the chunk list |
| C04 | `u_map_put_binary` | refuted (stale length and tail); true when the new value is not shorter |
| C05 | `u_map_remove_*`, loop from the end with in-place shift | equality with `filter` on the entry list |
| C06 | same | invariant (NoDup of keys) over histories |
| C07 | `*_case` lookups | equivalences through `find` |
| C08 | `u_map_copy` | equality of entry lists up to buffer slack |
| C09 | `u_map_copy_into` | refinement to map overlay |
| C10 | `u_map_has_value`, `u_map_remove_from_value` | refuted (prefix match); true characterisation as prefix search |
| C11-C13 | `ulfius_url_encode/decode` byte by byte, locale as a parameter | induction on the string; exhaustive check over the 256 byte values lifted by `forallb_forall` |
| C14 | `utf8_check` branch by branch with index | two-sided induction against `concat (map utf8_encode scalars)` |
| C15 | `strtok_r`, `ulfius_split_url`, `ulfius_url_format_match`, `ulfius_endpoint_match` | against an inductive pattern relation |
| C16 | qsort as any sorting permutation for the comparison function | theorem for every such function, plus an instance |
| C17, C25 | `ulfius_parse_url` over the map model | induction over the two word lists; alignment with C15 |
| C18 | `ulfius_fill_map(_check_utf8)` | fold over the pair list against a join specification |
| C19, C20 | endpoint array with sentinel | invariant over histories; refuted for the empty endpoint as argument |
| C21-C24 | dispatcher loop over an arbitrary callback oracle | induction over the endpoint list against a declarative trace specification; C24 "at most once" refuted |
| C26 | upload step | fold over chunks, invariant "body = firstn limit" |
| C27 | `mhd_iterate_post_data` | refuted for a split inside a character and for an empty first value; proved for ASCII data |
| C28 | cookie list | refinement to ordered dictionary |
| C29 | header text generation and an independent reader | round trip |
| C30 | heap of blocks with freed/live state | refuted for a cookie with NULL attributes; proved when all attributes are set |
| C31, C32 | request/response records | field-wise equality, invariant over histories |
| C33, C34 | `ulfius_build_frame`, `ulfius_read_incoming_message` over bytes | round trip for all payloads below 2^32; RFC header refuted for >= 2^54 bytes, proved below |
| C35 | sender fragment loop and receiver loop | refuted for every message that needs two or more fragments |
| C36-C38 | receive loop as a state machine over frames | invariants and equality with an independent reassembly specification |
| C39 | poll/send oracle | prefix theorem proved; completeness refuted |
| C40 | message list | refinement to a queue |
| C41 | `ulfius_check_list_match`, `ulfius_check_first_match` | list lemmas |
| C42 | handshake test of the dispatcher | equivalence with a declarative predicate |
| C43 | client handshake response check | refuted |
| C44 | extension pipeline | induction over the extension list; user data refuted |
| C45 | parameter parser | decision equivalence |
| C46 | `random_at_most` | exhaustive over 256 bytes |
| C47-C50 | transition systems with mutex/condition variable state | inductive invariants; C48, C49, C50 refuted by explicit schedules, with the true part proved |
| C51-C54 | client callbacks | folds over chunks; C53 refuted (dangling value) |
| C55 | yuarel parser over a byte buffer | round trip |
| C56 | path check | refuted (sibling directory sharing the prefix) |
| C57 | decision function over an abstract token | implication |
| C58 | sender fragment loop (shared with C39) | equality with the message given; refuted for the opcode |
| C59 | extension negotiation loops of both handshakes | invariant over offer and extension lists (permutation, disjoint bits, union) |
| C60 | both parsers of the compression parameters | composition: the client's parser applied to the server's answer |
| C61 | zlib loops over an output oracle | invariant of the growing block; round trip under the zlib contract; refuted at 2^32 bytes |
| C62 | interleaving model of C47-C49 with the close flags | signal and stability lemmas; refuted by a schedule (flag reset when the thread starts) |
| C63 | interleaving of waiter and websocket thread (as C50), with the release | invariant; refuted by a schedule |
| C64 | pointer-level model of the parser (`YuarelModel`), offsets into one block | refinement to a text-level reader; refuted texts |
| C65 | list of options set on a handle, libcurl's answers as an oracle (`SendModel`) | last value of each option against the request; refused options stop the request; refuted network type |
| C66 | URL loop of `SendModel`, libcurl's escaping as documented | round trip with an independent reader; refuted for URLs with a fragment |
| C67 | form loop of `SendModel` | round trip with the reader of C66; refuted uniqueness of the content type |
| C68 | header and cookie loops of `SendModel` | round trip; refuted for empty, broken and NULL values |
| C69 | options and text of `SendModel` | list of options, independent reader of fields; refuted for line breaks and a NULL content type |
| C70 | OpenModel, YuarelModel | refinement to the parts of the URL |
| C71 | OpenModel | round trip through an HTTP reader |
| C72 | OpenModel | invariant over sequences of calls |
| C73 | OpenModel, NegoSpec | end-to-end composition |
| C74 | ExportModel | round trip through an independent message reader; refuted by witnesses |
| C75 | ExportModel | round trip through an independent message reader; refuted by witnesses |
| C76 | StaticModel (compressed, caches) with StaticSpec | invariant of the caches along any run; growth refuted by an unbounded family of runs |
| C77 | TokenModel | decision equivalence against a specification on the token content |
| C78 | TokenModel | decision equivalence |
| C79 | TokenModel | decision equivalence |
| C80 | CompressModel with CompressSpec (contract of zlib) | loop invariant, decision equivalence |
| C81 | LifeModel | decision equivalence over all option combinations; refuted for instances with a default endpoint only |
| C82 | LifeModel | invariant over call sequences, abstract two-state automaton; refuted when a running instance is started again |
| C83 | typed variable arguments, request fields, array-level maps (PropModel) | refinement to a step function on views, induction over the options (PropProps) |
| C84 | response fields, calls of free functions as a trace (PropModel) | refinement by induction over the options; trace equality by induction over the calls (PropProps) |
| C85 | body block, array-level header map, jansson as two oracles (PropModel) | round trip through the abstract header map (PropProps) |
| C86 | connection information and request fields, GnuTLS and allocations as inputs (ConnModel) | functional correctness by case analysis, uniqueness of the path (ConnProps) |
| C87 | trace of allocations and releases (ConnModel) | balanced traces for all runs; refutations by witness (ConnProps) |
| C88 | offsets into the block of the path, array of pointers (QueryModel) | induction over the parts with the bytes kept before them; round trip (QueryProps) |
| C89 | offsets into the block of the query, array of key and value pointers (QueryModel) | induction over the pieces with the bytes kept before them; round trip (QueryProps) |
| C90 | sending program, frames and receiving manager put together (TalkModel) | composition of the sending and the receiving refinements, induction over the messages (TalkProps) |
| C91 | json_dumps and json_loadb as parameters (TalkModel) | corollary of the conversation (TalkProps) |
| C92 | DispatchModel and ClientModel put together over the text of the head (RoundSpec) | composition of refinements, splitting lemma for lines (RoundProps) |
| C93 | SendModel and InputModel put together over the texts on the wire (RoundSpec) | composition of refinements (RoundProps) |
| C94 | OwnModel: heap of named blocks, endpoints with pointers | refinement to the operations without memory, with a count of the blocks (OwnProofs) |
| C95 | LogModel: printf over bytes | induction over the pieces of a format (LogProps) |
| C96 | MapMemModel: every key, value and array a block of the heap, allocations that may fail | refinement to lists of names and values, with a count of the blocks (MapMemProofs, MapMemPut, MapMemRun, MapMemSteps) |
| C97 | RespMemModel: every text, array, map, handle and list a block of the heap, members that may be unset, allocations that may fail | refinement to records of values, with a count of the blocks (RespMemProofs, RespMemCalls, RespMemCookie, RespMemSteps) |
| C98 | ReqMemModel: every text, map, body, address, certificate and structure a block of the heap, members that may be unset, allocations that may fail | refinement to records of values, with a count of the blocks and of those lost (ReqMemProofs, ReqMemCalls, ReqMemCopy, ReqMemSteps) |
| C99 | WsMemModel: every message, its data, the lists, arrays, extensions, contexts, copies, frames, manager and structure a block of the heap, allocations that may fail | refinement to lists of messages and records of values, with a count of the blocks and of those lost (WsMemProofs, WsMemCalls, WsMemRecv, WsMemSteps) |
| C100 | HandMemModel: every extension, its texts, its context, the list, the texts of the answer, the websocket, its manager and the copy of the request a block of the heap, allocations that may fail | refinement to lists of extensions with a count of the blocks lost (HandMemProofs, HandMemSteps) |
| C101 | CliMemModel: the websocket, its manager, the copy of the request, the texts of the answer, the extensions, their texts and contexts blocks of the heap, allocations that may fail | refinement to handlers with a count of the blocks lost, misuse exactly where the specification says (CliMemProofs, CliMemSteps) |
| C102 | CacheModel: threads that load the arrays of the cache, read through the pointers, copy the value, or store a file under the lock; the cache a map of MapMemModel on the heap | simulation of every interleaving without a store during a lookup by atomic requests, invariant for constant files (CacheProofs) |
| C103 | RouteMemModel: every word, array, copy of a text or endpoint and map of the requests a block of the heap, allocations answer from given lists | refinement of a relational specification of the calls, crashes and lost blocks, for any sequence of requests (RouteMemProofs, RouteMemSteps, RouteMemRun) |
| C104 | AnswerMemModel: response, body, copy for libmicrohttpd, error and cookie texts blocks of the heap, callbacks as trees of calls, allocations and libmicrohttpd answer from given lists and functions | refinement of a relational specification of answers, released data, lost blocks and lost responses for any sequence of requests (AnswerMemProofs, AnswerMemSteps) |
| C105 | RecvMemModel: structure of the connection, its map, the request, post processor, bodies, values and texts blocks of the heap, allocations answer from given lists | invariant over any interleaving of connections and refinement of a relational specification of what is shown and lost (RecvMemProofs, RecvMemPieces, RecvMemSteps, RecvMemRun) |
| C106 | WaitModel: the clock in nanoseconds, the thread and the waiter as two processes with the lock and the condition | invariant over all interleavings, reachability of the return |
| C107 | HttpMemModel: the copy, the url, the form, the headers and the cookies as blocks, allocations from lists | heap invariant, relation to the request wanted, per failing allocation |
| C108 | PullMemModel: the response, the body and the copies of the cookies as blocks, allocations from lists | heap invariant, relation to the response wanted, per call of libcurl |
| C109 | DefMemModel: context, zlib streams, arrays of parameters, answer and data as blocks, allocations from lists | heap invariant over event histories, relation to DeflateModel |
| C110 | SiteMemModel: open files, copies of the url, paths, contents, zlib stream, cache entries, body and header as blocks, allocations and file system from lists | heap invariant over histories of requests, exact answers with memory |
| C111 | ZipMemModel: body, label, list of encodings, zlib stream and compressed data as blocks, allocations from lists | heap invariant over histories of passages, exact results with memory |
| C112 | MailMemModel: handle, url, recipients, line of copies and text as blocks, options answered by an oracle | heap invariant over histories of mails, exact orders and text |
| C113 | InstMemModel: realm, list of endpoints with its texts, default endpoint, headers, handler and locks as blocks | heap invariant over histories of lives, relation of every call to its meaning |
| C114 | LiveModel | simulation of all interleavings in which no change meets a request, measures for both ends; six refutations by schedules |
| C115 | CrowdModel | invariant over every interleaving (merge of the threads' messages, whole frames on the wire, extensions in step), witnesses of two threads that overtake each other |
| C116 | UwscModel | induction over the lines and the turns of the loop, witnesses for long lines, pipes and the end of the input |
| C117 | UwscModel | induction over the words of the command line against a table of what each option means |
| C118 | ByeModel | invariant over every interleaving (the log of who read which frame is a prefix of the frames sent), witnesses of frames that reach the wrong thread |
| C119 | ProxyModel | composition of the theorems of the client (C51-C53, C65-C68) and of copies (C30, C31), witnesses of what is changed |
| C120 | SheepModel: reads and writes of the counter by any number of threads | refinement of a sequential counter for requests in turn, invariant over all interleavings, witnesses of lost updates |
| C121 | FlowModel | induction over the calls of the reader, the bytes sent so far as the invariant |
| C122 | DoorModel, DispatchModel | the guard is before the protected endpoint in the sorted selection, was really called and did not pass; the example by cases on the selection |
| C123 | PrintModel | induction over the pairs; the block is the text so far and its NUL |
| C124 | PrintModel | induction over the visits, decimal round trip |
| C125 | EchoModel, TalkModel, WsRecvModel | C90 in both directions; the replies are what the server has seen |
| C126 | SafeModel, LifeModel | C81 for the start; the text in the block of read_file by computation on lists; case analysis on the arguments |
| C127 | VouchModel, TokenModel | invariant over the steps of the threads (who holds the lock, whose token is in the session), then C79; a measure for progress |
| C128 | HandModel | invariant over the callbacks: the response owns nothing or one object, with its function |
| C129 | OnceModel, WsRecvModel | invariant over the rounds of the thread (the close callback is the last output), then a case analysis of the handshake, then induction over the requests |
| C130 | UserModel, OnceModel, WsRecvModel | what happens to the block as a fold over the uses, on top of the order of the calls (C129) and the same invariant for the client |
| C131 | LockModel | invariant of all interleavings: no mutex has two owners, each thread takes mutexes in an order of ranks unless it already has a recursive one; the thread that waits for the highest one shows the way on |
| C132 | LockModel | the same invariant with, at each access, the mutex that protects the variable; refuted by schedules that bring two threads to the accesses |
| C133 | FiveModel, TalkModel, WsRecvModel | composition of the callback, the sending functions and the receiving loop; induction over the messages; refuted for every run in which the fragmented message is sent |
| C134 | LevelModel, DispatchModel, RouterModel | the selection is computed for every path by cases on its words; differing priorities leave one order; then the dispatcher step by step |
| C135 | ShowModel, ClientModel, PrintModel | strncpy by induction over the body; the pieces by C51_body_exact, the headers by C123_prints_partial; the streams by induction over the pieces |
| C136 | InjectModel, RouterModel, DispatchModel | the table by computation for each moment, then the filter of the router by induction over the table for all requests |
| C137 | SimpleModel, RouterModel, DispatchModel, PrintModel, CookieModel | which endpoint by induction over the pattern for all paths; the maps by C123 and C25 |
| C138 | TellModel, RouterModel, DispatchModel, PrintModel, ShowModel, CookieModel | which endpoint by induction over the words; strstr by induction; the maps by C123 |
| C139 | HerdModel, RouterModel, DispatchModel, SiteMemModel, PrintModel | which endpoints for all methods and paths; the name of the file by induction over the url |
| C140 | PortalModel, RouterModel, DispatchModel, SiteMemModel | which endpoint for all methods and paths; the name of the file by induction over the url |

Nothing in the list is outside what a model can express; the parts that rest on external libraries are listed in
section 4.

## 3. Trusted base

* The Coq 8.16.1 kernel (and `coqchk`, which re-checks the compiled files).
* `Print Assumptions` stands under every property theorem in the `*Props.v` files. For every one of them it lists
  nothing: "Closed under the global context". No axiom of the standard library is used, none of our own exists.
  (The loaded environment contains the seven parameters of `Coq.ssr.ssrunder.Under_rel`, which the standard library
  brings in with its tactics: `Over_rel`, `over_rel`, `over_rel_done`, `Under_rel`, `Under_rel_from_rel`, `Under_relE`,
  `under_rel_done`. No theorem depends on them.)
* The reading of the C code. The only tie between the model and the code is the citation in each definition's
  comment; nothing is extracted or compiled from `/repo`.
* The specifications (`*Spec.v`, `HttpText.v`) say what a property means: RFC 3629, 3986, 6455, 7230/9112, 7692,
  6265 as far as they are used, dictionaries, queues, ownership counts.
* The contracts of what is not in `/repo`. Each is either a definition (then it is trusted as written) or a universally
  quantified function (then only its stated hypothesis is trusted):

| what | how it enters | where |
|------|---------------|-------|
| orcania: `split_string`, `trimwhitespace`, `string_array_*`, `o_str*` | definitions from the documentation; what `split_string(NULL)` does to its array is a parameter | StrModel, TokenModel, ShowModel |
| libc text functions (`strtok_r`, `strchr`, `strstr`, `atoi`, `strtol`, `strcasecmp`, `isalnum`, ...) | definitions for the C locale; `isalnum` above 127 is a parameter; `atoi` as in the GNU library | StrModel, UrlModel, YuarelModel |
| `printf` family (`%s %d %c %zu` ... without flags and widths), `y_log_message` | definitions; `%s` of NULL is undefined behaviour; logging has no effect (except in LogModel) | Dec, LogModel, ExportModel |
| `qsort` | any function that returns a sorted permutation | RouterSpec, RouteMemSpec |
| `malloc`/`realloc`/`free` | succeed unless a definition takes the failure as input; blocks are never reused under the same name and `realloc` always moves (OwnModel); in MapMemModel and the models built on it they answer from given lists; `mstrcatf` of orcania releases the text it is given and gives a new one (HandMemModel, HttpMemModel), or NULL when there is no memory; `str_replace` gives one block; `curl_easy_escape` one, `curl_slist_append` two (HttpMemModel) | Base, OwnModel, ConnModel, CopyModel, MapMemModel |
| libmicrohttpd | in AnswerMemModel the creation of a response, each header, each cookie and the queue may be refused at will, a buffer that was taken is released once after the answer was sent; order of its callbacks (ConnModel, InputModel), which headers it refuses is a parameter (DispatchModel), `MHD_start_daemon`/`MHD_stop_daemon` as an oracle with a state (LifeModel), text of a response and splitting of queries, fields, cookies and forms as a specification (RoundSpec) | as named |
| libcurl | may call the callbacks in any way (ClientModel); with CURLOPT_ACCEPT_ENCODING it hands over a compressed body decompressed and the header lines unchanged (ProxySpec `handed`, only in C119_gzip_refuted); `curl_easy_escape` and the rule "`name:` removes a header" from its documentation (SendModel); `curl_slist_append` copies the text and answers NULL without changing the list, CURLOPT_HTTPHEADER and CURLOPT_MAIL_RCPT keep a pointer to the list, the other options are copied (HttpMemModel, MailMemModel); header buffers are NUL-terminated; line splitting in RoundSpec | as named |
| gnutls | random bytes, certificate verification and import, SHA-1 and base64, TLS connection: arbitrary functions; the host name check is assumed to check the name it is given; in ReqMemModel gnutls_x509_crt_init allocates one block or answers an error and writes NULL, gnutls_x509_crt_deinit releases it, an import does not allocate, and a certificate that was imported can be exported and imported again | ExtModel, ConnModel, NegoModel, OpenModel, ReqMemModel |
| zlib | an oracle with the contract of the definitions `zlib` / `zlib_ok` (what was deflated is inflated again, output never empty after a flush, windows 9..15 accepted) ; with failing allocations a stream is one block, a failed `…Init` has not written the stream's state, and each call writes at most what it is given room for | DeflateModel, CompressSpec, StaticModel, DefMemModel, SiteMemModel |
| jansson | printer and parser as parameters with the round trip as hypothesis; `JSON_COMPACT` prints containers only | PropModel, TalkModel, TokenModel |
| rhonabwy, iddawc | token parsing, verification, thumbprints: arbitrary functions | TokenModel |
| sockets, `poll`, name lookup | arbitrary schedules and answers | WsFrameModel, WsSendModel, WsRecvModel, OpenModel |
| file system | an oracle that does not change during one request; in SiteMemModel it changes between requests, and the length that `ftell` gives and the bytes that can be read are independent (directories, files that are cut) | StaticModel, SiteMemModel |
| threads | interleavings of the given atomic steps, sequentially consistent memory, spurious wake-ups allowed; whether `pthread_mutex_init` and `pthread_cond_init` succeed is given at will in InstMemModel | ConcModel, WsSendModel, LiveModel, InstMemModel |
| `getopt_long`, `fgets`, `ftell`, `fread` | definitions from the manual of the GNU library: options and other words may be mixed, long options may be abbreviated, unknown ones are '?'; `ftell` of a pipe is -1; `fread` stores as many bytes as there are | UwscModel |
| `va_arg` | reading an argument with a type that is not compatible is undefined behaviour (ISO C 7.16.1.1) | PropModel |
| user callbacks | arbitrary functions over an arbitrary state; in AnswerMemModel any finite or infinitely branching tree of calls of u_response.c, the next call chosen by the result; in WsMemModel an extension's function on the data of a message is an arbitrary function of the data that allocates what it gives, a match function allocates one context, and utf8_check an arbitrary test; in HandMemModel a match function refuses, or makes a context and releases it, or makes a context and a text | DispatchModel, WsRecvModel, ExtModel, WsMemModel, HandMemModel |
| reader callbacks of libmicrohttpd | the callback is asked at the position reached, asked again after 0 bytes, no more after the end mark or at the known size | FlowModel |
| the upgrade of libmicrohttpd | `MHD_queue_response` takes an upgrade answer or not (given at will); the upgrade handler is called once after the answer was sent, or never when the client is gone before | OnceModel |
| the session of iddawc | `i_set_str_parameter` stores a copy of the token, the verification reads it and writes the payload; each is one step | VouchModel |

## 4. Modelled and not modelled

Every definition of a `*Model.v` file cites the file and the lines it follows and states its simplifications. The
build that is modelled: x86-64 (64 bit `size_t`, signed `char`), all optional parts on (GnuTLS, websockets, jansson,
libcurl, MHD 0.9.53 or later), without DEBUG.

| model | code |
|-------|------|
| UMapModel | src/u_map.c: init, clean (values), enumeration, has/get/put/remove (plain, binary, `_case`, `_at`), copy, copy_into, count, empty |
| UrlModel, Utf8Model | src/ulfius.c: `ulfius_url_encode`, `ulfius_url_decode`, `utf8_check` |
| RouterModel | src/u_request.c 38-260 (splitting, matching, sorting, binding of URL parameters), src/ulfius.c: adding, removing, listing, comparing endpoints |
| InputModel | src/ulfius.c: query, header and cookie callbacks, form pieces, body chunks |
| CookieModel | src/u_response.c: cookies and their header text |
| CopyModel | src/u_request.c, src/u_response.c: bodies, copies and duplicates |
| DispatchModel | src/ulfius.c 590-1068: the last call of the dispatcher, callbacks, authentication, default endpoint, answer; `ulfius_set_response_header/cookie` |
| NegoModel | websocket handshake of server and client, list matching |
| WsFrameModel, WsSendModel, WsRecvModel, TalkModel | src/u_websocket.c: frames, masking, reading, sending, message lists, the receiving thread, the sending functions of the program |
| ExtModel, DeflateModel | extension pipelines, random keys, permessage-deflate |
| ConcModel | the list of active websockets, stop, close and wait between threads |
| OpenModel | websocket client: URL, request, connection, life of the handler |
| ClientModel, SendModel | src/u_send_request.c: everything before and after `curl_easy_perform`, for HTTP and mail |
| YuarelModel, QueryModel | src/yuarel.c: all of it |
| ExportModel | `ulfius_export_request_http`, `ulfius_export_response_http` |
| LifeModel, ConnModel | init, start, stop, clean of an instance; life of a request in MHD's callbacks |
| PropModel | `ulfius_set_request_properties`, `ulfius_set_response_properties`, JSON bodies, shared data, stream response fields |
| OwnModel | blocks of the endpoint table and of the copies made for a request |
| LogModel | `mhd_redirect_log` |
| StaticModel, CompressModel, TokenModel | example_callbacks: static files, compressed in-memory files, HTTP compression, OAuth2 / OIDC / iddawc tokens, DPoP proofs |
| MapMemModel | src/u_map.c: u_map_init, clean, clean_full, put, put_binary, remove_at, remove_from_key(_case), get, get_length, copy, copy_into, empty, with every key, value, array and structure a block of the heap; o_malloc, o_strdup and o_realloc answer from given lists. Not modelled there: the removals by value (UMapModel has their effect). |
| TalkExtModel | src/u_websocket.c: the reading thread (WsRecvModel) with extensions whose contexts go from one message to the next, also for messages in fragments. |
| RespMemModel | src/u_response.c: ulfius_init_response, clean_response(_full), copy_response, duplicate_response, clean_cookie, copy_cookie, add_(same_site_)cookie_to_response, set_string/binary/empty_body_response, the headers and the realm of set_response_properties; src/u_websocket.c: ulfius_set_websocket_response, add_websocket_extension_message_perform, free_websocket_extension; every text, array, map, handle, list and structure a block of the heap, allocations answer from given lists. Not modelled there: the numbers (CopyModel, CookieModel), shared_data, the stream callbacks; the struct _pointer_list of orcania is an array that grows by one. |
| ReqMemModel | src/u_request.c: ulfius_init_request, clean_request(_full), copy_request, duplicate_request, the texts and the maps of set_request_properties, set_string/binary/empty_body_request, export/import_client_certificate_pem; src/ulfius.c: the request in ulfius_uri_logger and in the first call of ulfius_webservice_dispatcher; every text, map, body, address, certificate and structure a block of the heap, allocations answer from given lists. A certificate of GnuTLS is one block. Not modelled there: the numbers (CopyModel, PropModel), shared_data, U_OPT_HTTP_URL_APPEND, the entries MHD gives (InputModel). |
| WsMemModel | src/u_websocket.c: ulfius_init_websocket(_manager), clear_websocket(_manager), push_websocket_message, websocket_pop_first_message, clear_websocket_message(_list), free_websocket_extension, the client's add_websocket_client_extension_message_perform, build_message, the blocks of build_frame, send_websocket_message_managed, websocket_send_fragmented_message, read_incoming_message, merge_fragmented_message, websocket_extension_message_in_perform_apply, the loop of ulfius_thread_websocket, close_websocket; every message, its data, list, array, extension, context, copy, frame, manager and structure a block of the heap, allocations answer from given lists. The program and the threads take turns. Not modelled there: the texts and the request of the handshake, the locks (C59 to C62), the mask (WsSendModel), TLS. |
| HandMemModel | src/u_websocket.c: ulfius_add_websocket_extension_message_perform, the blocks of check_list_match and check_first_match, ulfius_start_websocket_cb, clear_websocket; src/ulfius.c: the answer to a handshake in ulfius_webservice_dispatcher; src/u_response.c: the list of extensions in ulfius_clean_response; every extension, text, context, list, websocket, manager and copy of a request a block of the heap, allocations answer from given lists. The copy of a request is one block (ReqMemModel has all of them). Not modelled there: the values of the headers (NegoModel), the lists that split_string makes, the bodies of the answers, which belong to MHD. |
| CliMemModel | src/u_websocket.c: ulfius_add_websocket_client_extension_message_perform, the blocks of ulfius_open_websocket_client_connection and of the answer in ulfius_websocket_connection_handshake, clear_websocket(_manager), init_websocket(_manager), ulfius_websocket_client_connection_close, _status, _wait_close, _send_close_signal, ulfius_websocket_wait_close; the handler NULL, a websocket, or an address that was released; every websocket, manager, copy of a request, text, extension and context a block of the heap, allocations answer from given lists. The copy of a request is one block (ReqMemModel). Not modelled there: the maps of the headers, the lists that split_string makes, messages, a websocket opened while its thread runs. |
| CacheModel | example_callbacks/static_compressed_inmemory_website: the lookups u_map_has_key, u_map_get, u_map_get_length of callback_static_compressed_inmemory_website in config->gzip_files without the lock, the store with it, ulfius_set_binary_body_response; any number of threads whose steps are interleaved, the cache on the heap (MapMemModel). The steps are sequentially consistent; the comparison of a name and the read of its value are one step, so is the store. Not modelled there: the paths, types and headers (StaticModel), failing allocations, the other cache. |
| RouteMemModel | src/u_request.c: ulfius_split_url, ulfius_url_format_match, ulfius_endpoint_match, ulfius_parse_url; src/u_map.c: u_map_clean_enum; src/ulfius.c: the part of ulfius_webservice_dispatcher that finds the endpoints, runs them with u_map_empty, u_map_copy_into and ulfius_parse_url, and releases the copies, ulfius_copy_endpoint, the block of ulfius_url_decode; every word, array, text, copy of an endpoint and map a block of the heap, allocations answer from given lists. The words that strtok_r gives are computed at once, its text must still be in use. Not modelled there: the response, changes of the table. |
| AnswerMemModel | src/ulfius.c: ulfius_get_body_from_response and the part of ulfius_webservice_dispatcher that makes the response, copies default_headers, calls the callbacks, answers and releases the response; src/u_response.c: ulfius_generate_cookie_header, ulfius_set_response_header, ulfius_set_response_cookie (the blocks), ulfius_set_stream_response, ulfius_set_response_shared_data; the response, its members, the buffer given to libmicrohttpd, the texts of errors and cookies blocks of the heap, allocations answer from given lists. libmicrohttpd: the creation of a response, each header, each cookie and the queue answer what they want; a buffer it took is released once, after it was sent; it refuses a positive length at NULL. Not modelled there: websockets (HandMemModel), the request (ReqMemModel), the endpoints (RouteMemModel), libmicrohttpd before 0.9.61, the text of the cookie headers (CookieModel). |
| RecvMemModel | src/ulfius.c: ulfius_uri_logger, ulfius_fill_map_check_utf8, ulfius_fill_map, the first call and the calls with data of ulfius_webservice_dispatcher, mhd_iterate_post_data, mhd_request_completed; the structure of the connection, its map of url parameters, the request, the post processor, the bodies, the values of the maps and the texts made meanwhile blocks of the heap; each allocation answers from given lists. libmicrohttpd: the pairs come one after the other until the function answers MHD_NO, MHD_post_process delivers any pieces until it answers MHD_NO, no chunk comes after an answer MHD_NO, each connection ends once. Not modelled there: file_upload_callback, a piece with data NULL, the inside of the post processor (one block), websockets. |
| WaitModel | src/u_websocket.c: ulfius_websocket_wait_close with a timeout, beside the end of ulfius_thread_websocket; the clock counts nanoseconds and only goes forward, memory is sequentially consistent, time_t and long hold 64 bits. Not modelled there: the wait without a timeout (ConcModel), a clock that is set back, failures of clock_gettime and of the mutex. |
| HttpMemModel | src/u_send_request.c: ulfius_send_http_streaming_request_max_header from its start to curl_easy_perform and the releases behind it; the copy of the request, the url, the escaped texts, the body of a form, the headers, the curl_slist and the cookies blocks of the heap; each allocation answers from given lists, each group of curl_easy_setopt from a given list of booleans. libcurl is given by its results: curl_easy_escape makes one block, curl_slist_append two (the node and the text) and reads its text, curl_easy_setopt copies what it is given; str_replace and mstrcatf of orcania make one block each, mstrcatf releases the text it is given also when it answers NULL. Not modelled there: the handle of libcurl, what libcurl does with the request, the response (ClientModel, PullMemModel). |
| PullMemModel | src/u_send_request.c: ulfius_write_body, write_header, the cookies of ulfius_send_http_streaming_request_max_header, the ends of ulfius_send_http_request and ulfius_send_http_request_with_limit; the response, the body that comes and the copies of the parts of a cookie blocks of the heap; each call of libcurl comes with what the allocations answer meanwhile. libcurl is given by its calls and results: it stops at the first callback that says it handled fewer bytes, and gives a list of cookies in the Netscape format. Not modelled there: response = NULL, the status number, the flags of the cookies, the request (HttpMemModel). |
| DefMemModel | src/u_websocket.c: websocket_extension_server_match_deflate, websocket_extension_client_match_deflate, websocket_extension_message_out_deflate, websocket_extension_message_in_inflate, websocket_extension_deflate_free_context; the context, the zlib streams, the arrays of split_string, the text of the answer and the data blocks of the heap; each event comes with what the allocations answer meanwhile. A zlib stream is one block, an array with its texts is one block; deflateInit2 and inflateInit2 fail only for lack of memory and have not written the stream's state then; each call of deflate or inflate is given by its code and the bytes (at most 256) it writes. Not modelled there: other extensions in the same websocket; what its callers do with the data besides copying and releasing it; deflate_mask Z_BLOCK (never set). |
| SiteMemModel | example_callbacks/static_compressed_inmemory_website: callback_static_compressed_inmemory_website, callback_static_file_uncompressed and its stream; open files, the copy of the url, the paths, the list of encodings, the contents, the zlib stream, the cache entries, the body and the header Content-Encoding blocks of the heap; each request comes with the file system of its time and what the allocations answer. Linux opens a directory for reading, ftell at its end gives some number and no byte can be read; MHD asks again when a reader answers 0. Not modelled there: the other headers; the mutex (C102); requests at the same time; files_path NULL in the compressed branch (UB in the model); malloc of an impossible size. |
| ZipMemModel | example_callbacks/http_compression: callback_http_compression and what it calls of u_response.c; the body, the header Content-Encoding, the list of encodings, the zlib stream and the compressed data blocks of the heap; each passage comes with what the allocations and zlib answer. Not modelled there: the other headers, the status (which is kept), bodies of 2^32 bytes and more (CompressModel). |
| MailMemModel | src/u_send_request.c: ulfius_send_smtp_rich_email with smtp_payload_source; the handle of libcurl, the url, the nodes and texts of the list of recipients, the line of the copies and the text of the mail blocks of the heap; each mail comes with what the allocations and libcurl answer and with the blocks that libcurl wants to be filled. Not modelled there: what libcurl allocates for itself during the transfer, the clock and strftime (the date is a parameter). |
| InstMemModel | src/ulfius.c: internal_ulfius_init_instance, ulfius_clean_instance, ulfius_copy_endpoint, ulfius_add_endpoint, ulfius_remove_endpoint, ulfius_set_default_endpoint, ulfius_clean_endpoint_list, with u_map_init, u_map_put and u_map_clean_full of MapMemModel; realm, list of endpoints, texts, default endpoint, headers, handler and locks blocks of the heap; whether o_malloc, o_strdup, o_realloc and the pthread_*_init functions succeed is given. Not modelled there: the parameters and the other fields (LifeModel), failures of pthread_mutexattr_init and of the destroy functions, a running instance. |
| LiveModel | src/ulfius.c: ulfius_add_endpoint, ulfius_remove_endpoint and ulfius_set_default_endpoint in one thread of the program while any number of requests is in the part of ulfius_webservice_dispatcher that chooses the endpoints, with ulfius_endpoint_match of src/u_request.c; the array, its slots, the texts and the default endpoint are blocks that all threads share; every interleaving of their steps, o_realloc moves the array or not. Not modelled there: memory that is not sequentially consistent, two threads of the program that change the table, slots that are half written, failing allocations (InstMemModel), the copies that a request makes (OwnModel, RouteMemModel). |
| CrowdModel | several threads in ulfius_websocket_send_fragmented_message at once (u_websocket.c:1493-1588): the check of the connection, the loop over the extensions, the part under the write lock. Not modelled there: the steps inside the functions of an extension (two threads that are there at once are only shown to be there, C115_inside_refuted), fragment_len, CLOSE messages, ping_sent. |
| UwscModel | tools/uwsc/uwsc.c: the options (272-394), uwsc_manager_callback with read_file (77-161), uwsc_manager_incoming (163-186). Not modelled there: what is printed besides messages, the log file, the value of -f (it is never read), failing o_strdup, a text message without data, POSIXLY_CORRECT, print_help and the end of the program; sending itself is TalkModel, opening the connection OpenModel. |
| ByeModel | calls of ulfius_websocket_send_fragmented_message with CLOSE (u_websocket.c:1507-1539) in several threads, while ulfius_thread_websocket listens (674-804) and other threads send: the polls, the reading of a frame under read_lock as one step (a frame torn by connected = 0 is an event of the socket), the handling of a message. Not modelled there: close_flag, the steps of sending under write_lock (CrowdModel, WsSendModel), memory (WsMemModel), what two calls of poll on one struct pollfd do to each other. |
| ProxyModel | callback_get of proxy.c (66-85) with the models of ulfius_duplicate_request, ulfius_copy_response and ulfius_clean_response (CopyModel), of the options that libcurl gets (SendModel) and of what libcurl calls back (ClientModel); the URL block of lines 71-76 is a value. Not modelled there: failing allocations (HttpMemModel has those of the client), libmicrohttpd sending the response (RespModel), the main function. |
| SheepModel | sheep_counter.c: callback_sheep_counter_start, _reset, _add (70-124) as reads and writes of the shared counter, sequentially consistent. Not modelled there: failing allocations; the endpoints of the program are in HerdModel. |
| FlowModel | stream_example.c: callback_get_stream, callback_get_audio_stream, stream_data, stream_audio_file and their free functions. libmicrohttpd is represented by what it promises of a reader: it asks at the position reached, asks again after 0 bytes, stops at the end mark or at the known size. Not modelled there: read errors of the file, the threads, the headers. |
| DoorModel | auth_server.c: the three callbacks and the table of main, run by DispatchModel. The user and the password are given (libmicrohttpd decodes the header), so are the two names of a certificate. Not modelled there: failing allocations, a name that gnutls cannot give, read_file, auth_client.c. |
| PrintModel | print_map of six example programs, with its blocks and its ints; callback_post_test and the counter of callback_get_cookietest of simple_example.c. Not modelled there: the other callbacks of these programs, inet_ntoa, the memory of a text that is not freed. |
| EchoModel | websocket_server.c: websocket_echo_message_callback as the sends it makes, and the arguments it logs. Not modelled there: the deflate extension (TalkExtModel), the rest of the program. |
| SafeModel | simple_example.c, auth_server.c and websocket_server.c: read_file and the part of main that starts the server and says how. Not modelled there: what MHD makes of the key and the certificate (it may refuse them: the oracle ok), the rest of the programs. |
| VouchModel | iddawc_resource.c: callback_check_jwt_profile_access_token in several threads that share the session of the configuration. Not modelled there: json_deep_copy failing, the setup and the closing of the configuration, what i_verify_jwt_access_token does inside the session besides reading the token and writing the payload. |
| HandModel | the shared data of a response from callback to callback and its release by the dispatcher. Not modelled there: requests that end in an error before the release (AnswerMemModel). |
| OnceModel | the calls of the callbacks of a websocket of the server from the request to the end, with the list of the instance. Not modelled there: the pages for errors failing, the manager callback beginning late, what the default endpoint answers, memory (HandMemModel). |
| UserModel | the user data of websocket_server.c and websocket_client.c, and which callbacks an attempt of ulfius_open_websocket_client_connection leads to. Not modelled there: o_strdup failing, what the callbacks send, pthread_detach failing, what ulfius_websocket_client_connection_close waits for (C63, C106). |
| LockModel | which mutexes the functions of u_websocket.c and ulfius_stop_framework take, which shared variables they access, and when they call callbacks; every test is a choice. Not modelled there: the values of the variables, pthread_mutex_lock failing, the destruction of the mutexes, ulfius_clear_websocket called by a program, the mutexes inside libmicrohttpd and GnuTLS, the functions of extensions beyond their context. |
| FiveModel | the manager callbacks of websocket_server.c and websocket_client.c, on top of TalkModel and WsRecvModel. Not modelled there: extensions (the example negotiates deflate when it is asked to), json_pack failing, the log. |
| LevelModel | multiple_callbacks_example.c: the table of main and the nine callbacks, run by DispatchModel; response->shared_data is a block of memory. The user and the password are given (libmicrohttpd decodes the header). Not modelled there: print_map (PrintModel), failing allocations, max_post_body_size. |
| ShowModel | print_response of client.c and auth_client.c, print_response_limit, and the two write callbacks of stream_client.c. The output of printf is a text. o_strncpy of orcania (not in /repo) is taken to do nothing with a NULL source or the length 0 and to be strncpy otherwise; the room on the stack is a parameter. Not modelled there: the main functions that send the requests (the requests themselves are C46-C53). |
| InjectModel | injection_example.c: what main does to the table and the five callbacks, run by DispatchModel. A change of the table is made between two requests (LiveModel has the other case); memory does not run out. Not modelled there: getchar, the log messages, starting and stopping (LifeModel). |
| SimpleModel | simple_example.c: what main puts into the instance and the six callbacks, run by DispatchModel, with print_map of PrintModel and the cookies of CookieModel. %s of NULL is undefined. The text of inet_ntoa is given; msprintf has memory. Not modelled there: the limit of the body (InputModel), the start of the server (SafeModel, LifeModel). |
| TellModel | request_example/server.c: the endpoint of main and its callback, run by DispatchModel, with print_map of PrintModel, the array of ShowModel and the cookies of CookieModel. What printf makes of NULL is a parameter: undefined, or a text as glibc has it. What is on the console is the state. |
| HerdModel | sheep_counter.c: the table of main and its callbacks, run by DispatchModel, one request at a time (SheepModel has several at once), with print_map of PrintModel and the name of the file by SiteMemModel. Compression and what the web site answers for a name are given (ZipMemModel, SiteMemModel). Not modelled there: file_upload_callback, which logs, and the mime types. |
| PortalModel | websocket_server.c: what main puts into the instance and the three callbacks that open a websocket, run by DispatchModel, with the path of the request from its url (ulfius.c:230-234) and the name of the file by SiteMemModel. Whether ulfius_set_websocket_response has memory, the handshake and what the web site answers for a name are given. Not modelled there: the conversations (EchoModel, UserModel, FiveModel), the start of the server (SafeModel). |

Not modelled: DEBUG-only code; `ulfius_global_init/close` (calls of other libraries only);
the older MHD variants under `#if`; the example programs but for those named above (auth_server, print_map, proxy_example, sheep_counter, simple_example, request_example, stream_example, multiple_callbacks_example, injection_example, what the clients print, the websocket callbacks and uwsc), the tests; the C structures' layout; floating
point does not occur. Data races are explored as interleavings of the
steps that the models name (C39, C40, C47 to C50, C62, C63, C102, C106, C114, C115, C118, C120), not below the level of these steps.

## 5. Findings

### 5.1 Proved

Each row is a theorem whose witness (or family of witnesses) makes the natural statement false of the model. The
strongest true statement found stands beside it in the same file.

| theorem | finding |
|---------|---------|
| `C02_null_value_overflow_refuted` | a NULL value with a non-zero length leaves a one byte block recorded as longer; the next put writes past it |
| `C02_offset_wrap_refuted` | the guard (offset+length+1) <= SIZE_MAX can never fail on 64 bit, so a wrapping offset writes outside the block |
| `C02_long_probe_refuted` | a probe longer than a stored value makes memcmp read past the stored block |
| `C04_put_replaces_refuted` | a shorter value keeps the old length and the old tail; a copy carries it over |
| `C10_has_value_equality_refuted` | the search is a prefix search |
| `C12_locale_refuted` | in a locale whose isalnum accepts a byte above 127 the encoded text is not ASCII |
| `C13_negative_shift_refuted` | a bad first hex digit shifts a negative int to the left (undefined in ISO C) |
| `C17_query_segment_refuted` | a '?' segment in the format is dropped for matching but not for binding |
| `C17_nameless_refuted` | a nameless '@' makes parsing stop, later parameters are lost |
| `C18_empty_name_refuted` | false with an empty name: u_map_put refuses it, the callback answers MHD_NO and libmicrohttpd stops, so the pairs after it are lost |
| `C19_empty_endpoint_refuted` | adding the empty endpoint succeeds and hides every later endpoint |
| `C19_clean_then_remove_refuted` | cleaning does not reset the count, so a removal afterwards dereferences NULL |
| `C23_unknown_default_code_refuted` | an unknown code from the default endpoint at its second site: nothing is ever queued |
| `C23_upgrade_then_default_refuted` | a websocket upgrade by a callback that returns IGNORE is destroyed, and the body of the default endpoint goes out with status 101 |
| `C24_default_twice_refuted` | nothing matches and the default endpoint returns IGNORE: it runs twice |
| `C27_split_character_refuted` | false with check_utf8 (the default): a character cut by a piece boundary is lost, while the same value in one piece is kept |
| `C27_value_shortened_refuted` | on a byte boundary inside a longer value, the value is silently shortened |
| `C29_large_max_age_refuted` | false for max_age >= 2^31: "%d" prints a negative number, which a client takes as "already expired" |
| `C30_server_response_refuted` | false for a response as built by the server API: protocol is NULL, and a NULL copy is taken for an allocation failure |
| `C30_cookie_without_domain_refuted` | false for a cookie without domain: ulfius_duplicate_response reports success and the copy has dangling pointers, cleaning it frees blocks twice |
| `C31_used_dest_refuted` | false for ulfius_copy_request into a request that has a body when the source has none: the old body stays |
| `C32_string_body_oom_refuted` | false when o_strdup fails: NULL body with the old length |
| `C33_huge_refuted` | ulfius_read_incoming_message compares (unsigned int)len with the length (u_websocket.c:534): a frame of 2^32 bytes or more that ulfius itself builds, and that arrives whole, is read to its last byte and answered with U_ERROR; there is no message |
| `C34_huge_refuted` | from 2^54 bytes on the length of the frame is wrong (shift by 54 instead of 56) |
| `C34_masked_endless_refuted` | from 2^32 bytes on masking does not end: the index has 32 bits |
| `C34_fragment_opcode_refuted` | a first fragment has no opcode: its first byte is the RSV bits alone |
| `C34_fragment_trailing_refuted` | when the message needs the two-byte length but the fragment does not, the frame ends with two bytes that were never written |
| `C35_fragmented_refuted` | false for every message that needs two frames: whatever the bytes never written hold, whatever the schedule, nothing is ever delivered |
| `C38_manager_waits_refuted` | the close callback is not reached when the last fragment cannot follow: the loop ends with the connection still marked connected, so a manager callback that waits for the end of the connection never returns, and the thread waits for it for ever |
| `C39_silent_truncation_refuted` | a server connection that is not writable within the time limit: nothing is sent, U_OK is returned. Every message that is sent as one frame |
| `C39_unreported_failures_refuted` | the failing lock and the failing allocation for an empty message are not reported either |
| `C40_race_refuted` | false when the library's thread stores a message while the program takes one: there is no lock. One message in the list, both calls finish, and the next pop returns a pointer that was never written |
| `C40_out_of_memory_refuted` | a failed allocation loses the stored messages and leaves a list that must not be used |
| `C40_clear_refuted` | clearing a list does not reset its length: a message stored afterwards is behind slots never written |
| `C42_silent_refuted` | the text does not always say why: a request that is refused because it has a header twice gets a 400 without any text, since the lines are about what is missing only (ulfius.c:806-813) |
| `C43_cut_refuted` | fails: the server closes the connection in the middle of the header part, the socket of the client is closed, and the handshake is a success all the same (u_websocket.c:960-965 leaves the loop, 986 sets U_OK) |
| `C43_accept_never_checked_refuted` | Sec-WebSocket-Accept is never looked at |
| `C43_one_header_suffices_refuted` | one of Upgrade, Connection, the protocol, the extensions suffices |
| `C44_user_data_refuted` | with another user data for the incoming than for the outgoing function, the message is not restored although each function is the inverse of the other side's with its own user data |
| `C44_order_refuted` | the two sides go through their own lists; with the same extensions in another order the message is not restored |
| `C45_unknown_parameter_refuted` | parameters that RFC 7692 does not know are accepted |
| `C45_window_8_refuted` | a window of 8 is answered with a window of 9, larger than the client asked for |
| `C45_after_space_refuted` | an offer written after ", " is never accepted |
| `C47_hang_refuted` | six websockets, of which the one that read the empty list before the others stores its pointer in the middle of a removal; nothing is accessed outside of the list, all the websockets end, but the entry of one of them has been replaced by a second copy of another: it does not find itself, the count stays at 1, and the thread that stops the instance sleeps for ever |
| `C48_realloc_race_refuted` | two connections opening at the same time. Both read the pointer to the list; the second o_realloc is given the block that the first one has released |
| `C48_overflow_refuted` | both make room for one websocket, and the second is written after the end of the block |
| `C48_lost_entry_refuted` | a websocket that is open is not in the list: the stopping thread reads an entry that was never written |
| `C49_count_before_broadcast_refuted` | the thread of the last websocket decrements the count, the stopping thread sees zero, returns, and the instance is cleaned, before the websocket thread locks websocket_close_lock |
| `C49_late_opening_refuted` | a websocket opened after the stopping thread has looked at the count and before the daemon is stopped |
| `C50_missed_wakeup_refuted` | the thread ends between the test of [connected] and pthread_cond_wait; the waiter sleeps for ever |
| `C50_spurious_refuted` | after a spurious wake-up the function returns CLOSE although the websocket is open |
| `C52_status_line_refuted` | a reason phrase with a colon is taken for a header (and counted), and the protocol is not recorded |
| `C52_no_name_refuted` | a line that starts with the colon is taken for a name without a value, and the client prints NULL with %s |
| `C53_dangling_refuted` | an empty value after a non-empty one reads the released value of an earlier cookie |
| `C53_flags_refuted` | the flags. "Include subdomains" is recorded as Secure, Secure as HttpOnly |
| `C53_same_name_refuted` | two cookies of the same name for two paths are recorded as one |
| `C55_user_without_password_refuted` | a URL with a user and no password is refused |
| `C55_ipv6_refuted` | an IPv6 host is cut at its first colon |
| `C55_port_refuted` | ports are not checked and wrap |
| `C56_sibling_refuted` | files_path /srv/www also gives access to /srv/www-secret |
| `C56_relative_refuted` | a files_path that is not absolute, or not resolved, never serves anything |
| `C56_short_url_refuted` | a URL shorter than url_prefix: with url_prefix "/static" (as in the examples) and the URL "/static", the memory after the URL is read |
| `C57_empty_scope_refuted` | fails: two spaces in a row are an empty scope, which both lists then share |
| `C57_no_lifetime_refuted` | a token without a lifetime is accepted when its date is in the future |
| `C57_client_refuted` | a client token, which has no username, is never accepted although it fulfils every condition |
| `C57_no_scope_refuted` | undefined behaviour from the content of a verified token: a missing scope frees an uninitialised pointer (unless split_string sets it), a lifetime overflows |
| `C57_overflow_refuted` | iat + expires_in overflows |
| `C58_opcode_lost_refuted` | false for every message with data: it is kept with the opcode of a continuation frame |
| `C61_huge_message_refuted` | for a message of 2^32 bytes nothing is given to zlib, and if it has nothing to say the function looks in front of the block |
| `C62_signal_reset_refuted` | a close signal sent before the thread has started is reset by ulfius_start_websocket_cb |
| `C63_released_in_use_refuted` | the loop of the thread has ended, so that the caller finds [connected] = 0 and releases the websocket, which the thread still uses |
| `C65_network_refuted` | U_USE_IPV4 or U_USE_IPV6 alone never restricts libcurl: network_type & U_USE_ALL holds for each of them (u_send_request.c:396) |
| `C66_fragment_refuted` | with a fragment in the URL the parameters become part of the fragment |
| `C67_content_type_refuted` | a Content-Type header in another case is sent beside the one of the form |
| `C68_empty_header_refuted` | a header with an empty value is not sent: the line "name:" tells libcurl to leave the header out |
| `C68_line_break_refuted` | a line break in a header value makes a second header |
| `C68_cookies_refuted` | a cookie value with a separator is read as two cookies |
| `C69_line_break_refuted` | a line break in the subject makes a second mail header |
| `C69_no_type_refuted` | a NULL content type is printed with %s |
| `C70_port_refuted` | a port that is not one of TCP is taken modulo 65536, and port 0 is replaced by the port of the scheme |
| `C71_case_refuted` | without the conditions on the headers: two names that differ in their case get the value of the first one |
| `C71_injection_refuted` | a value or a path with a line break makes other headers |
| `C71_host_refuted` | a header Host of the request is sent beside the one of the URL |
| `C71_credentials_refuted` | the credentials of the URL are sent as "Basic: ", which no server reads as RFC 7617 wants (u_websocket.c:2576; compare u_request.c:829) |
| `C72_too_early_refuted` | asking for the status, sending the signal or waiting before there is a websocket dereferences NULL |
| `C72_after_failure_refuted` | opening again, or closing, after an opening that failed uses released memory |
| `C72_after_close_refuted` | closing twice or asking for the status after closing uses released memory; waiting again dereferences NULL |
| `C73_lower_case_refuted` | without the condition on the names: a header of the caller named in lower case is sent beside the one that is put in, and the request is not valid |
| `C74_no_body_refuted` | fails for every request without a body and without a form: the empty line that ends the header is not written. With it, the text would be the request |
| `C74_url_kept_refuted` | the URL of the request is cut into pieces: exporting twice gives a message, then nothing |
| `C74_no_path_refuted` | a URL without a path prints NULL with %s |
| `C74_relative_refuted` | a URL that is only a path, as a server sees it, prints NULL with %s |
| `C74_nul_refuted` | a body with a NUL: fewer bytes than the length announced |
| `C74_form_refuted` | a NULL value in a form, or one that is not UTF-8: the name is written as it is behind a question mark |
| `C74_form_binary_refuted` | a form value that is not UTF-8 is lost the same way |
| `C74_length_twice_refuted` | the length of the content given twice, with different values |
| `C74_injection_refuted` | a line end in a header starts a new field |
| `C75_cookies_lost_refuted` | with a Set-Cookie header of its own the response loses all its cookies |
| `C75_nul_refuted` | a NUL cuts the body although the full length is announced |
| `C76_growth_refuted` | one cached copy per spelling of a name: the cache has no bound |
| `C77_client_refuted` | the shared data of an earlier callback is lost when the token has no "sub" |
| `C79_silent_refuted` | a refusal because of the scheme carries no WWW-Authenticate header |
| `C79_path_refuted` | a request whose path is empty makes the URL of the proof start after its end |
| `C80_encoded_refuted` | a body that is already encoded is encoded again and the first coding forgotten |
| `C80_large_refuted` | a body of 4 GiB or more is cut to its length modulo 2^32 before it is compressed |
| `C80_length_refuted` | a Content-Length set by the callbacks before keeps the old length |
| `C81_no_endpoint_refuted` | "an instance whose endpoints are all complete can be started" is false: with a default endpoint only, no list was ever allocated; after adding and removing an endpoint the same instance starts |
| `C82_second_start_refuted` | a second start of a running instance is refused ("already started"), yet it forgets the daemon: the port stays taken and whatever the program does next, the server runs on |
| `C82_client_certificates_refuted` | a refused start switches the clients' certificates off in an instance that runs with them |
| `C82_own_options_refuted` | the start with own options checks nothing and gives up the daemon that runs; both answer U_OK |
| `C83_own_value_refuted` | a value that points into the field it sets is read after it was freed |
| `C83_timeout_type_refuted` | the documented type of U_OPT_TIMEOUT, unsigned long, is not the one that is read, for requests as for responses |
| `C83_negative_timeout_refuted` | a negative int gives a huge timeout |
| `C83_unknown_option_refuted` | an option the function does not know ends the work only after the next argument was read as an option: its value |
| `C83_append_null_refuted` | appending NULL dereferences it |
| `C84_wide_status_refuted` | the status of a body is 32 bits wide, the status of a response is a long |
| `C84_overwrite_refuted` | U_OPT_SHARED_DATA drops the data without releasing them, and leaves their free function to the new ones |
| `C84_given_twice_refuted` | the same data given twice are released twice |
| `C84_unanswered_refuted` | data of a request that gets no response of MHD are never released |
| `C85_other_case_refuted` | unless there was a Content-Type header in another case: put adds a second one, and the reader wants exactly one |
| `C85_unwritable_refuted` | a document jansson cannot write costs the body that was there |
| `C86_ipv6_refuted` | the address of an IPv6 client is cut: two clients in different networks look the same |
| `C87_unreadable_certificate_refuted` | the certificate that cannot be read is released twice |
| `C87_memory_refuted` | without memory for the maps of the request, pointers that were never set are freed; without memory for the request or its texts, the map of the URL is lost |
| `C88_no_room_refuted` | with max_parts = 0 a part is written all the same, outside an array of that size |
| `C89_rest_refuted` | beyond max_params the last value holds the other parameters, delimiter included |
| `C89_bounds_refuted` | no room: the first parameter is written all the same; the delimiter NUL: outside the text |
| `C90_endless_refuted` | the first call does not return |
| `C91_scalar_refuted` | json_dumps with JSON_COMPACT alone prints arrays and objects only. Any other value (parse_json reads them: JSON_DECODE_ANY) is sent as an empty text message, and U_OK is returned: the receiver gets no value |
| `C92_refused_header_refuted` | when MHD refuses one header the answer is sent without it and without everything after it |
| `C93_fragment_refuted` | a URL with a fragment: the parameters are put after it, in the part of the URL that is not sent to the server |
| `C94_empty_endpoint_refuted` | the empty endpoint is accepted by ulfius_add_endpoint and becomes an endpoint of the table; ulfius_clean_endpoint_list stops at it and the texts of the endpoints after it are never released |
| `C94_duplicate_refuted` | ulfius_duplicate_endpoint_list: the block has room for pointers, not for endpoints, so the copy of the first endpoint already goes outside, whatever the list |
| `C95_percent_refuted` | the text is used a second time as a format: a message whose text has a conversion, for instance a name sent by a client and quoted with %s, is undefined behaviour |
| `C95_doubled_refuted` | a doubled '%' in the text comes out single |
| `C96_grow_refuted` | refuted when o_realloc may fail: u_map_put on a new key stores the NULL of the failed o_realloc in the map; the array is lost, and u_map_clean_full (or u_map_put again) on this map, which has one value, reads through the NULL pointer |
| `C96_longer_refuted` | refuted when o_realloc may fail: u_map_put of a longer value on an existing key loses the old value, which is never released |
| `C96_second_refuted` | refuted when o_realloc may fail: when the array of values cannot grow, u_map_put releases the new key but leaves it in the array of keys; u_map_get_length then reads it after its release (and u_map_has_key and u_map_get do the same) |
| `C96_copy_refuted` | refuted when o_realloc may fail: u_map_copy of a map of two values, when the array of keys of the copy cannot grow for the second one, releases the incomplete copy through the NULL pointer |
| `C97_init_refuted` | refuted when u_map_init has no memory: ulfius_init_response answers U_ERROR_PARAMS and the map of headers is never released; when the websocket handle or its list has no memory, it answers U_ERROR_MEMORY and the map and its three arrays are never released (the caller cannot call ulfius_clean_response on the first, its other members are not initialised). The same is lost by ulfius_duplicate_response |
| `C97_init_clean_refuted` | refuted when the websocket handle's list has no memory: ulfius_init_response releases the handle and keeps the pointer; ulfius_clean_response on this response uses it after its release. And when u_map_init has no memory, ulfius_clean_response reads members that were never written |
| `C97_clean_twice_refuted` | refuted: ulfius_clean_response does not reset websocket_handle nor nb_cookies. A second ulfius_clean_response on the same response uses the handle after its release; with a cookie it reads the cookies through NULL |
| `C97_incomplete_refuted` | refuted when a cookie lacks a value, an expiration date, a domain or a path: ulfius_copy_cookie releases the texts it copied and keeps the pointers, ulfius_copy_response does not look at its result, and the duplicate, given as good, releases them again |
| `C97_copy_cookie_refuted` | refuted when o_strdup has no memory in ulfius_copy_cookie: the same with complete cookies |
| `C97_copy_array_refuted` | refuted when the array of cookies has no memory in ulfius_copy_response: nb_cookies is already set, and ulfius_duplicate_response releases the incomplete copy through the NULL array |
| `C97_cookie_refuted` | refuted when o_strdup has no memory in ulfius_add_cookie_to_response on the first cookie: the array stays in the response with nb_cookies 0, the next cookie takes a new array and the first one is never released |
| `C97_cookie_grow_refuted` | refuted when o_realloc may fail: ulfius_add_cookie_to_response stores the NULL of o_realloc and keeps nb_cookies; the old array is lost and ulfius_clean_response reads through NULL |
| `C97_socket_refuted` | refuted when o_strdup has no memory for the extensions in ulfius_set_websocket_response: the protocol is released and its pointer stays in the handle; ulfius_clean_response releases it again |
| `C97_extension_refuted` | refuted when pointer_list_append of orcania has no memory: ulfius_add_websocket_extension_message_perform answers an error and its extension, with its name, is never released |
| `C97_copy_used_refuted` | refuted: ulfius_copy_response into a response that is in use writes over its protocol, its realm, its cookies, its body and the parameters of its websocket handle without releasing them |
| `C98_init_refuted` | refuted when one of the four maps has no memory: ulfius_init_request calls ulfius_clean_request on the structure it did not fill, and http_protocol is read before it was ever written |
| `C98_init_map_refuted` | refuted when an array of a map has no memory: ulfius_init_request does not look at the results of u_map_init and answers U_OK; u_map_put on this map goes through NULL |
| `C98_clean_twice_refuted` | refuted: ulfius_clean_request resets http_protocol, http_verb, http_url and proxy, but not url_path, auth_basic_user, auth_basic_password, ca_path, the texts and the block of the certificate. A second ulfius_clean_request on the same request releases them again |
| `C98_string_length_refuted` | refuted when o_strdup has no memory in ulfius_set_string_body_request: the body becomes NULL and the old length stays; ulfius_duplicate_request then copies that many bytes from NULL |
| `C98_copy_cert_refuted` | refuted, with memory: ulfius_copy_request initialises the certificate of the copy and the import initialises it again, so the block of the first is never released: each duplicate of a request that has a certificate loses one |
| `C98_import_twice_refuted` | refuted, with memory: ulfius_import_client_certificate_pem on a request that has a certificate writes over it without releasing it |
| `C98_peer_cert_refuted` | refuted when GnuTLS cannot read the certificate of a peer (ulfius.c:519-521): it is released and the pointer is kept, and the end of the connection, ulfius_clean_request, releases it again |
| `C98_copy_used_refuted` | refuted: ulfius_copy_request into a request that already has texts, an address, a body or a certificate writes over them without releasing them |
| `C98_missing_refuted` | refuted when o_strdup has no memory: ulfius_set_request_properties and ulfius_duplicate_request answer as if all was well, with the text missing; for the duplicate of a request, the method or the URL |
| `C99_init_list_refuted` | refuted when the list of incoming messages has no memory: ulfius_init_websocket_manager goes to the end, where it releases message_list_outcoming, which was never written |
| `C99_init_locks_refuted` | refuted when a mutex or the condition cannot be made: ulfius_init_websocket_manager releases both lists before either was written |
| `C99_push_refuted` | refuted when the array of a list cannot grow: ulfius_push_websocket_message writes NULL over the only pointer to it and keeps the length. The message was sent and the call answers U_OK, but the message and the messages kept before are lost. Taking a message from the list goes through NULL; releasing the websocket keeps its close message after a place of the new array that was never written, and reads that place |
| `C99_pop_refuted` | refuted when the array of a list cannot shrink: ulfius_websocket_pop_first_message does not look at the result of o_realloc; the messages left are lost, and the next call goes through NULL |
| `C99_merge_refuted` | refuted when the data of a message in fragments cannot grow: ulfius_merge_fragmented_message writes NULL over the only pointer to it, and no release of the websocket gives its block back |
| `C99_no_message_refuted` | refuted when there is no memory for a message of the peer: ulfius_read_incoming_message answers U_OK and no message, and the thread reads the opcode through NULL |
| `C99_no_data_refuted` | refuted when there is no memory for the data of a message of the peer: the result of o_malloc is not looked at and the bytes are written through NULL |
| `C99_clear_list_refuted` | refuted, with memory: ulfius_clear_websocket_message_list, a function of the interface, releases the array and does not reset the length. A second call, taking a message, or releasing the websocket goes through NULL |
| `C99_extension_refuted` | refuted when there is no memory for the list of extensions: the extension that was just made is in no list, and its two blocks are never released |
| `C100_flood_refuted` | refuted for handshakes that are refused after an extension was accepted: the context that websocket_extension_server_match_deflate made, with its two zlib streams, is only released with a websocket, but the list of the extensions is still in the response, and ulfius_free_websocket_extension does not release contexts. Any client that offers permessage-deflate and asks for a protocol the server does not have makes the server lose one context per request, without end |
| `C100_same_bit_refuted` | refuted for two extensions with functions that use the same bit: the second one is accepted by its function, which makes a context and a text, and is then not enabled. Its context is not released with the websocket; when the client offers the extension again, the function makes new ones and writes them over the first. The handshake is an upgrade; when the websocket has ended two contexts and a text are still in use |
| `C100_mhd_refuted` | refuted when MHD_create_response_for_upgrade gives no response: the dispatcher answers an error and does nothing with the websocket, which stays in memory with its manager, its lists, its extensions and the copy of the request |
| `C100_no_websocket_refuted` | refuted when the websocket has no memory and the endpoint has a websocket_onclose_callback: the dispatcher goes on to report the error and reads websocket->websocket_manager through NULL to call it |
| `C100_no_thread_refuted` | refuted when pthread_create fails: ulfius_start_websocket_cb calls pthread_detach with the variable pthread_create did not write |
| `C101_lines_refuted` | refuted for an answer that has the header Sec-WebSocket-Protocol more than once (the same holds for Sec-WebSocket-Extensions): the text of the manager is written without releasing the one before. A server that sends n + 1 of these lines makes the client lose n blocks, for every n, even when the client closes its websocket |
| `C101_same_bit_refuted` | refuted for an extension that asks for a bit that is taken: its function made a context, the answer is refused, and the context is not released with the websocket because the extension is not used |
| `C101_open_twice_refuted` | refuted for a websocket that is opened again after its thread ended: the copy of the request, the texts of the answer and the list of headers are written over those of the first opening |
| `C101_list_refuted` | refuted when the list of extensions has no memory: ulfius_add_websocket_client_extension_message_perform answers U_ERROR_MEMORY and keeps the extension and its name |
| `C101_reopen_refuted` | refuted for a handler whose websocket could not be opened (the server refuses the upgrade, say): ulfius_open_websocket_client_connection releases the websocket and leaves its address in the handler. Opening the handler again, closing it, or adding an extension reads released memory |
| `C101_close_twice_refuted` | refuted for a handler that is closed twice, or looked at after it was closed: ulfius_websocket_client_connection_close leaves the address of the websocket it released in the handler |
| `C101_wait_twice_refuted` | refuted for a handler that has no websocket: ulfius_websocket_client_connection_status, ulfius_websocket_client_connection_send_close_signal and ulfius_websocket_client_connection_wait_close read through the NULL pointer that ulfius_websocket_client_connection_wait_close itself leaves in the handler; only ulfius_websocket_client_connection_close looks for it |
| `C101_no_manager_refuted` | refuted when the manager of a new websocket has no memory: ulfius_add_websocket_client_extension_message_perform answers an error but leaves the websocket without manager in the handler, and the next call reads through its NULL pointer |
| `C101_no_match_refuted` | refuted for an extension that is agreed on by its name and has a function to release contexts: the context that this function is given when the websocket is released was never written |
| `C101_no_thread_refuted` | refuted when pthread_create fails: pthread_detach is called with a thread that was never written |
| `C102_race_refuted` | false of the code: the cache is searched without the lock (static_compressed_inmemory_website_callback.c:346) while another request stores a file, and u_map_put_binary moves the array of the names: two requests for two small files that never change are enough for a read of memory that was released |
| `C102_grown_refuted` | false of the code for one file, too: two requests miss it, one stores it, a third one finds it and holds a pointer to the value; the file grows, the second request stores it again, the value moves, and the third one copies released memory (347) |
| `C102_mixed_refuted` | false of the code when a file changes: two requests miss it, one stores it, the file becomes shorter, the other one stores it over the first value (441), whose end stays: the cache holds, and the requests that follow get, bytes that are neither the compressed old content nor the compressed new one. No thread reads while another one writes |
| `C103_nameless_refuted` | refuted with memory: an endpoint with a parameter without a name (a word ":" or "@" of its format, which ulfius_add_endpoint accepts): u_map_put refuses the empty name, ulfius_parse_url returns U_ERROR_MEMORY without releasing the copies of the url and of the format nor the word (u_request.c:239-242), and ulfius_webservice_dispatcher logs the error and calls the callback. Every request loses three blocks, for any number of requests |
| `C103_text_refuted` | refuted without memory for the copy of the path, or of the format after a prefix: ulfius_split_url calls strtok_r on the NULL that o_strdup returned, which goes on from its saved pointer: NULL, or, after a prefix was cut, the released memory of the prefix (u_request.c:49-50, 66, 70-71) |
| `C103_sort_refuted` | refuted without memory for the copy of the second endpoint that matches: its NULL stays in the array that is sorted by qsort, and compare_endpoint_priorities reads through it (u_request.c:160-170, 184, 101-104) |
| `C103_array_refuted` | refuted without memory for the array of ulfius_endpoint_match, when there is no default endpoint: the dispatcher reads the first element of NULL (u_request.c:141, ulfius.c:596-617) |
| `C103_word_refuted` | refuted without memory for a word of the path or of a format: ulfius_split_url stops, and the words it has are compared as if they were all (u_request.c:58-61, 79-82). The request "/x/y", which no endpoint is for, runs the endpoint "/x", or the endpoint "/api/:id/@id" |
| `C103_prefix_refuted` | refuted without memory for the copy of the prefix in ulfius_parse_url: the words of the prefix are not skipped and the parameters take them (u_request.c:202-214); U_OK is returned. For the prefix "/api" and the format "/:id", the request "/api/7" is run with id = "api" |
| `C103_decode_refuted` | refuted without memory for a word of the path in ulfius_url_decode: the loop of ulfius_parse_url takes the NULL for the end of the path; the parameters that follow are missing and U_OK is returned (u_request.c:246) |
| `C103_format_refuted` | refuted without memory for the copy of the format in ulfius_parse_url: the copy of the path and the word are lost (u_request.c:217-220), and the callback is still called |
| `C103_grow_refuted` | refuted without memory for o_realloc: the array it could not grow is lost with its words or endpoints (u_request.c:52-56, 73-77, 158), and after a prefix whose array could not grow, the words of the format are written after the lost ones, in a new array whose first elements were never written: ulfius_url_format_match reads them |
| `C103_map_refuted` | refuted without memory for the map of the path: u_map_empty leaves no arrays, and u_map_copy_into writes the initial value through NULL (ulfius.c:638-639) |
| `C104_unknown_refuted` | with memory: a code that the default endpoint may return but the dispatcher does not know gives no answer, and the response is never released, one more with each request (ulfius.c:1014-1015, 1020-1041) |
| `C104_header_refuted` | with memory: when libmicrohttpd refuses a header in U_CALLBACK_UNAUTHORIZED, the body of the response is replaced by the text of an error that nobody reads, without the release of the old one (ulfius.c:890, 953), so one block is lost with each request |
| `C104_stream_refuted` | the default endpoint never streams: a stream that its callback sets is not looked at (ulfius.c:933-1017), the client gets an empty body, and stream_callback_free is never called; there is memory |
| `C104_create_refuted` | when MHD_create_response_from_buffer fails there is no answer, and the response, the buffer and the shared data are never released; when MHD_create_response_from_callback fails the stream is never released either (ulfius.c:653-662, 857-864, 1020-1041) |
| `C104_copy_refuted` | when the copy of the body cannot be made, the answer has the status 500 and no body at all, whatever the callback asked for: the text of the error becomes the body of the response, but not the body of the answer (ulfius.c:254-280), and the old body of the response is lost |
| `C104_stale_refuted` | in the default endpoint response_buffer_len still has the length of the body of an endpoint that said U_CALLBACK_IGNORE, so when the copy fails libmicrohttpd is asked for a response of 5 bytes at NULL: there is no answer, and the response is never released |
| `C104_text_refuted` | when the text of the error cannot be duplicated, U_CALLBACK_ERROR gives no answer, and the response and the shared data are never released (ulfius.c:915-927) |
| `C104_headers_refuted` | when default_headers cannot be copied response->map_header is NULL (ulfius.c:628-631 does not look): the callback is called all the same, its headers are refused as bad parameters, and neither headers nor cookies reach the client |
| `C105_body_refuted` | the full statement wants nothing lost. It is false, ulfius.c:571-574: when o_realloc of the body fails, its answer NULL is stored over the only pointer to the body; when the connection ended, the block of the body is still in use |
| `C105_erased_refuted` | a header that comes twice loses its value when msprintf finds no memory, ulfius.c:81-86 and 116-121: u_map_put gets NULL and erases what was there; the function answers MHD_YES and the request goes on to the callbacks, with the name and no value |
| `C105_headers_refuted` | when there is no memory for a pair, ulfius_fill_map answers MHD_NO, so libmicrohttpd gives no other pair of its kind, and the result of MHD_get_connection_values is not looked at, ulfius.c:535-543: the request goes on to the callbacks without the headers (url parameters, cookies) that follow, here without its Authorization |
| `C105_init_refuted` | the result of u_map_init(&con_info->map_url_initial) is not looked at, ulfius.c:216: when it finds no memory the arrays of the map are NULL and the first url parameter reads through them |
| `C105_map_refuted` | when there is no memory for the request, ulfius_uri_logger releases the structure of the connection and not the three arrays of its map of url parameters, ulfius.c:216-222: three blocks stay in use for each such connection, so in the end more than any number |
| `C105_filename_refuted` | the name of a file of a form is lost when msprintf or u_map_put finds no memory, ulfius.c:387-392: the error is only logged, the data is kept and the request goes on as if the client had sent no name |
| `C105_piece_refuted` | when o_realloc finds no memory for a further piece of a posted value, u_map.c:164-168 writes NULL over the only pointer and keeps the new length; mhd_iterate_post_data answers MHD_NO, but nobody looks at the result of MHD_post_process (ulfius.c:582-584), so the callbacks get a request whose value is NULL and has a length, and the block of the value is lost |
| `C105_write_refuted` | and a further piece of the same name, if it came, would be written through this NULL: u_map_get gives NULL, so the data goes to the beginning of the value, and its old length is enough for it, u_map.c:163-172 |
| `C106_spurious_refuted` | after a spurious wake-up, at once, the answer is "closed" although the websocket is open, u_websocket.c:2333-2335: when pthread_cond_timedwait does not return ETIMEDOUT, connected is not looked at, and the wait is not resumed |
| `C106_missed_refuted` | connected is tested before the lock is taken (u_websocket.c:2323, 2331); when the websocket closes in between nobody wakes the waiter, who sleeps for the whole timeout although the websocket is closed |
| `C107_text_refuted` | the copy of a text of the request that fails is not noticed, u_request.c:383-399: a DELETE is sent as a GET; the credentials are left out. Both answer U_OK |
| `C107_url_refuted` | mstrcatf answers NULL when there is no memory for the url with one more parameter, u_send_request.c:435-450, and the text so far is gone: the loop goes on with NULL, and the request goes to the url "&b=2", or libcurl gets none; the same when str_replace finds no memory for the url: it is then "?a=1%26&b=2" |
| `C107_form_refuted` | in the same way the pairs of a form are lost, u_send_request.c:481-495: the request is sent with the rest of the form, or with no body at all, and still answers U_OK |
| `C107_cookie_refuted` | a cookie is lost in the same way, u_send_request.c:583-585: the request is sent with the others, and answers U_OK |
| `C107_header_null_refuted` | u_send_request.c:549,556 do not look at the result of msprintf, and curl_slist_append reads the NULL text |
| `C107_header_list_refuted` | when curl_slist_append answers NULL, u_send_request.c:550,557 write it over the only pointer to the list of headers: the headers before this one, two blocks each, are never released |
| `C107_cookie_null_refuted` | u_send_request.c:578-585 do not look at the result of msprintf either: NULL is printed with %s into the cookies |
| `C107_cookie_log_refuted` | with memory: when libcurl refuses the cookies, for instance because they are too long for it, the message of u_send_request.c:590 prints the text of the last cookie, which was released at the end of its round of the loop, u_send_request.c:587 |
| `C107_cert_refuted` | a client certificate in the request (client_cert) costs one block with each request that is sent, as each copy of it does (C98) |
| `C108_header_refuted` | refuted: when an allocation fails while a header comes, the header is missing from the response, or, when it is a header that had come before, its values are gone; ulfius_send_http_request answers U_OK (u_send_request.c:147-155) |
| `C108_null_refuted` | refuted: two allocations fail while a header comes that had come before, msprintf and the copy of the value: u_map_put takes the name with NULL as its value. When the header comes again, u_map_get_case gives NULL, which is printed with %s (u_send_request.c:150) |
| `C108_chunk_refuted` | refuted: when o_realloc fails for a second piece of the body, its result NULL takes the place of body_data->data and the first piece is never released (u_send_request.c:104-108) |
| `C108_reuse_refuted` | refuted: a response that has a body is given to ulfius_send_http_request. The pointer to the new body replaces the old one, which is never released; when the server sends no body, the old one stays and looks like the body of the new response; and when there is no memory for the new body, the old one is lost too (u_send_request.c:205-213, 243-251) |
| `C108_cookie_refuted` | refuted: when there is no memory for a copy of the line of a cookie, the response lacks the cookie; when there is none for its path, the cookie has no path; in both cases the answer is U_OK (u_send_request.c:736-778) |
| `C108_cookie_log_refuted` | refuted: when there is no memory for a copy of the name of a cookie, ulfius_add_cookie_to_response refuses it and NULL is printed with %s in the log; so is the value, when there is none for it and the cookie cannot be added (u_send_request.c:770-771) |
| `C108_stale_refuted` | refuted: two cookies, the second without a value. The variable still has the value of the first one, which was released (u_send_request.c:732-776); C53 |
| `C109_window_refuted` | the array param_value is only released when server_max_window_bits has exactly one '=' (u_websocket.c:2166-2182, 2679-2694): an offer with k server_max_window_bits without a value, which is refused, leaves k blocks that nobody can release. A client without credentials can send as many as fit in a header, and connect again |
| `C109_init_refuted` | when deflateInit2 or inflateInit2 fails for lack of memory, deflateEnd or inflateEnd is called on the stream all the same (u_websocket.c:2217-2237, 2725-2748); the context comes from o_malloc and nobody wrote the member state, which they read and follow |
| `C109_answer_refuted` | the text of the answer is not checked (u_websocket.c:2238-2251): without memory for it, the extension is on with U_OK and the answer is NULL, or starts in the middle; the client is not told, and gets compressed messages |
| `C109_grow_refuted` | the result of o_realloc replaces the pointer (u_websocket.c:1985, 2076): when a message that is longer than 256 bytes cannot grow, what was already compressed or decompressed is lost |
| `C110_files_refuted` | static_compressed_inmemory_website_callback.c:371-380, 465: a request that accepts gzip (every browser does), for a file the type of which is not compressed (a picture), leaves its FILE open: fclose is only called in the branch that compresses. With enough memory, n such requests are all answered with the file and leave n files open, for every n; no function closes them, so the process runs out of descriptors |
| `C110_directory_refuted` | :192-206, 139-146: a directory of the site can be opened with fopen(.., "rb"); ftell at its end gives 2^63 - 1 (ext4) and no byte can be read. The request is answered with a stream of that length, the callback of which gives 0 for ever: the request never ends |
| `C110_truncated_refuted` | :385-398: the file is read into a block of the size that ftell gave, by a loop that ends early when fread gives less; the whole block is then compressed and sent (and kept in the cache), so for a file that is cut between the two the end of what is sent is memory that was never written |
| `C110_init_refuted` | :401-414, 457: when deflateInit2 fails for lack of memory deflateEnd is called nevertheless, on a z_stream the state of which was never written |
| `C110_label_refuted` | :442-454, 347-348: neither the result of ulfius_set_binary_body_response nor that of u_map_put is looked at. When the header cannot be stored the compressed bytes are sent without Content-Encoding; when the body cannot, an empty answer says that it is compressed. Both have the result that says that all is well |
| `C110_null_refuted` | :168-172, 316-320: o_strdup(http_request->http_url) is moved along and read without being looked at: when it fails a NULL pointer is followed |
| `C110_grow_refuted` | :418: data_zip = o_realloc(data_zip, ..) loses the block when it fails: nothing releases it any more |
| `C110_root_refuted` | static_compressed_inmemory_website_callback.c:366-369: a configuration without files_path is not looked at before a file is compressed; with memory, the first request that accepts a coding writes NULL with "%s" |
| `C111_label_refuted` | http_compression_callback.c:129: the result of u_map_put is not looked at. When the header cannot be stored the compressed bytes are sent without Content-Encoding, with the result that says that all is well |
| `C111_body_refuted` | :128: nor is the result of ulfius_set_binary_body_response, which releases the old body before it has memory for the new one. When there is none the response is sent without a body, with its old status, and labelled as compressed |
| `C111_grow_refuted` | :107: data_zip = o_realloc(data_zip, ..) loses the block when it fails: nothing releases it any more |
| `C112_recipients_refuted` | refuted: curl_slist_append answers NULL when it has no memory, u_send_request.c:922 and 929 write it to the variable that had the list, and curl_slist_free_all gets NULL: the recipients so far are never released |
| `C112_copies_refuted` | refuted: the result of msprintf or o_strdup for the line of the copies is not looked at, u_send_request.c:948-952: NULL is printed with %s into the text of the mail, also when the mail has no copies |
| `C112_type_refuted` | refuted: the content type is not looked at (u_send_request.c:847-849) and is written with "%s" (951-965); a mail without it, everything else being there and libcurl accepting everything, is undefined. ulfius_send_smtp_email always gives one |
| `C113_realm_refuted` | refuted: the copy of the authentication realm is not checked; without memory for it ulfius_init_instance answers U_OK and the instance has no realm |
| `C113_headers_refuted` | refuted: the result of u_map_init is not checked; without memory for the arrays of the default headers ulfius_init_instance answers U_OK, and the first u_map_put on the headers reads through NULL |
| `C113_lock_refuted` | refuted: when the first mutex cannot be initialised, ulfius_clean_instance is called before pthread_init has been set, and reads it |
| `C113_stuck_refuted` | refuted: when the second mutex or the condition cannot be initialised, the locks initialised before are never destroyed |
| `C113_method_refuted` | refuted: when the method of an endpoint cannot be copied, ulfius_add_endpoint answers U_ERROR_MEMORY, but the endpoint has been counted, the end of the list is not written, so the next request reads memory never written, and the texts copied are lost when the instance is cleaned |
| `C113_texts_refuted` | refuted: when both the prefix and the format cannot be copied, ulfius_add_endpoint answers U_ERROR_MEMORY, and ulfius_clean_instance goes beyond the endpoint into memory never written |
| `C113_route_refuted` | refuted: when only the format cannot be copied, ulfius_add_endpoint answers U_OK and the callback is registered for the url of the prefix alone; when only the prefix cannot, for the url of the format alone |
| `C113_silent_refuted` | refuted: when no text can be copied, the endpoint is the empty one: ulfius_add_endpoint answers U_OK, and it and all the endpoints added later are not seen |
| `C113_grow_refuted` | refuted: when o_realloc fails in ulfius_add_endpoint, all the endpoints are lost with their memory, the count is not reset and ulfius_remove_endpoint reads through NULL |
| `C113_shrink_refuted` | refuted: when o_realloc fails to make the list shorter, ulfius_remove_endpoint loses the endpoints that should stay, with their memory |
| `C113_remove_refuted` | refuted: the copies made by ulfius_remove_endpoint are not checked. Without memory it answers U_ERROR_NOT_FOUND for an endpoint that is there, or removes another endpoint of the same method and answers U_OK |
| `C114_moved_refuted` | an endpoint is added while a request looks at the table: o_realloc moves the array, and the request reads the array that was released |
| `C114_unwritten_refuted` | an endpoint is added and the array stays where it is: its new last slot is not written yet when the request comes to it, since the terminating slot is overwritten first |
| `C114_released_refuted` | an endpoint is removed while a request looks at the table: its texts are released before its slot is overwritten, and the request reads them |
| `C114_missed_refuted` | even when no memory is misused: while one endpoint is removed, a request for another endpoint, which is in the table before and after, is told that there is none, because the slots move towards the start of the array under the request |
| `C114_mixed_refuted` | the default endpoint is changed while a request copies it: the request gets the new function with the data of the old one |
| `C114_default_refuted` | the default endpoint is set for the first time while a request looks for it: the block is in place before its members are written |
| `C115_order_refuted` | two threads send at once on a websocket with an extension that keeps a context from one message to the next, as permessage-deflate does. The extensions are applied before the lock is taken (u_websocket.c:1548-1574, the lock is taken in 338-396), so that the message that was encoded second can go out first. Every call returns U_OK; the other end cannot decode the first message it gets, notices nothing and closes the connection |
| `C115_inside_refuted` | the functions of the extensions are called without a lock (u_websocket.c:1548): two threads that send data messages at once are in the function of the same extension, with the same context, at the same moment. The deflate extension keeps its z_stream there (u_websocket.c, websocket_extension_message_out_deflate), and zlib allows one thread at a time for a stream |
| `C116_long_refuted` | uwsc says that messages may have 256 characters (uwsc.c:400), but fgets reads 255 and the last character read is taken for the newline (uwsc.c:137, 151): of a line of 255 characters all but the last one are sent, then an empty message; of a longer line, one character out of 255 is lost and the rest is sent as a message of its own |
| `C116_quote_refuted` | any line that begins with "!q" ends uwsc, not only the line "!q" (uwsc.c:139, 157): "!quote of the day" is not sent, the websocket is closed |
| `C116_last_refuted` | the last character read is always taken for a newline (uwsc.c:151): of an input that does not end with one, as of printf hello piped into uwsc, the last character is not sent |
| `C116_end_refuted` | uwsc does not notice the end of its input (uwsc.c:136-157): fgets returns NULL and the loop turns without waiting and without sending anything, as long as the server leaves the websocket open; nothing is closed |
| `C116_pipe_refuted` | a file that cannot be sought, as a pipe given with -t /dev/stdin or <(command): ftell is -1 (uwsc.c:85), o_malloc gets length + 1, which is 0, and fread is told that there is room for 2^64 - 1 bytes: what the pipe holds is written after the end of the block |
| `C116_shrinks_refuted` | a file that gets shorter between ftell and fread: the result of fread is only compared with 0 (uwsc.c:92), the length that ftell told is sent, its end comes from memory that was never written |
| `C116_fragmentation_refuted` | the option -f (--fragmentation) is read (uwsc.c:349) and never used: files and lines are sent with ulfius_websocket_send_message, each in one frame, however small the length asked for |
| `C116_nul_refuted` | the text of a message is shown with %.*s (uwsc.c:171-174): a text message with a NUL, which is valid UTF-8, is shown up to it |
| `C117_extension_refuted` | the short options say that the argument of -e is optional ("e::", uwsc.c:275) while the long option requires one: in "uwsc -e foo ws://host/" the extension foo is taken for the url, and the url is ignored |
| `C117_together_refuted` | the options without an argument (i, l, s, q) are declared with an optional argument ("i::l::...s::q::", uwsc.c:275): in "-iq" the q is taken for the argument of i, and ignored; "-qs" goes on checking the certificate |
| `C117_unknown_refuted` | an option that uwsc does not know is reported by getopt_long and ignored (uwsc.c:373 default): "uwsc --nonlistening ws://host/" connects and listens |
| `C118_hole_refuted` | the thread that closes reads frames, whatever they are (u_websocket.c:1513), and drops them. When the other end sends a message in fragments meanwhile, the closing thread can take a fragment in the middle: the program is told a message that was never sent ("heo" for "hello"), while the websocket is open |
| `C118_ping_refuted` | a ping that the closing thread reads is dropped (u_websocket.c:1513-1533): it is never answered, although the websocket is open |
| `C118_twice_refuted` | the listening thread goes on reading while another thread closes. When it reads the answer to the close message it takes it for a request to close and sends a close message in turn (u_websocket.c:684-692): the other end gets two, the second when it has ended the connection |
| `C118_after_refuted` | connected stays 1 while the closing thread waits for the answer (u_websocket.c:1509-1539): other threads go on sending messages after the close message, which RFC 6455 (5.5.1) forbids; they are told U_OK |
| `C118_poll_refuted` | both threads call poll with the same struct pollfd of the manager (u_websocket.c:104, 108) without a lock: the answer of one is overwritten by the other while it is read |
| `C118_wait_refuted` | a closing call waits for 11 answers of poll (WEBSOCKET_MAX_CLOSE_TRY), but not when it reads: when both threads have seen the same data and the listening thread reads it, the closing thread waits in ulfius_read_incoming_message as long as nothing comes (u_websocket.c:140-157), for ever if the other end keeps the connection and says nothing |
| `C118_torn_refuted` | when connected becomes 0 while a thread is in the middle of a frame (another closing call has ended), it stops reading there (u_websocket.c:157). A listening thread that has already seen data then reads what follows in the frame as if it were a frame: the program is told a message that is a piece of the data of another |
| `C118_kept_refuted` | with keep_messages, what the closing thread reads is put into the list of incoming messages as it was read (u_websocket.c:1523): a fragment stands there as a message of its own |
| `C119_query_refuted` | refuted: the query. http_url is the whole URI with its query (ulfius.c:229), and the parameters read from it are added again: the origin gets each twice |
| `C119_host_refuted` | refuted: "Host". Names of header fields are the same in any case, but only the spelling "Host" is left out: with "host" the origin is asked for the site of the proxy |
| `C119_hop_refuted` | refuted: the fields that are about one connection (RFC 9110 7.6.1) are passed on, and the fields that "Connection" names too |
| `C119_form_refuted` | refuted: forms. The form is written again, but the Content-Length of the client's text is passed on: here 7 is announced and 5 bytes are sent |
| `C119_down_refuted` | refuted: an origin that does not answer. For every request and whatever the server does, when the transfer fails the client gets the status 200, none of the body and no cookie; when no header came the answer is empty |
| `C119_gzip_refuted` | refuted: compressed answers. "Accept-Encoding" of the client becomes CURLOPT_ACCEPT_ENCODING, so libcurl hands over the plain text, and the field Content-Encoding of the origin is given to the client with it, and the length of the compressed text. For every decoder and every body |
| `C119_cookies_refuted` | refuted: cookies. The field Set-Cookie is given to the client as the other fields are, two of them joined by a comma, and every cookie is given once more, with Expires a number, Secure for a cookie that is not secure, and without what only the field says (SameSite, HttpOnly, Max-Age) |
| `C119_reason_refuted` | refuted: status lines. With a colon in the reason phrase (which RFC 9112 allows) no protocol is recorded, ulfius_copy_response takes that for a lack of memory, its result is not looked at, and the client gets the status and nothing else: for every body |
| `C120_lost_refuted` | two additions at the same time, both answered with 1, and there is one sheep |
| `C120_all_lost_refuted` | any number of additions, one of which is held up between its read and its write while the others are served one after the other: they are answered 1, 2, 3, ..., and one sheep is left |
| `C120_reset_refuted` | an addition that began before a reset undoes it |
| `C120_answer_refuted` | the answer to a request with the number 7 is another number: the counter is read again for the answer |
| `C120_overflow_refuted` | after the number 9223372036854775807, which is a number jansson reads, the next addition is undefined |
| `C121_shorter_refuted` | the file gets shorter while it is sent. The reader gives 0 bytes, which is not the end: MHD asks for ever |
| `C121_special_refuted` | a file that is not a regular one (a directory, which fopen opens for reading): U_ERROR is the number of U_CALLBACK_IGNORE, so what the program refuses to serve is answered with status 200 and no body |
| `C121_memory_refuted` | without memory for the text of the stream, the reader prints NULL |
| `C121_room_refuted` | with no room at all the reader takes the length of a text it did not write; with room for one byte the reader of the texts gives 0 bytes for ever; with room for less than a line the lines are cut |
| `C122_tie_refuted` | a guard with the priority of what it guards. A qsort that sorts, and a request without user and password that reaches the page; the order of the registrations does not help |
| `C122_method_refuted` | a guard whose method is written for one method only does not cover the same path under "*": a request with another method reaches the page unguarded |
| `C123_empty_refuted` | a map without pairs gives NULL, which callback_post_test and the others print with %s: undefined for every request without a parameter |
| `C123_null_refuted` | a value that is NULL is printed with %s too. (No request makes one, see C18: a parameter without a value is stored as the empty text; a program can, with u_map_put.) |
| `C123_memory_refuted` | without memory, for the line or for the text, NULL is written to |
| `C123_long_refuted` | a line of INT_MAX bytes makes the int overflow, and a longer one is read from a block of no bytes |
| `C124_overflow_refuted` | the client writes the cookie. "2147483647" makes the int overflow, which is undefined; a longer number loses its upper bits, and what is no number counts as 0 |
| `C125_log_refuted` | the line that is logged for every message passes data_len, a size_t, where %.*s reads an int: undefined for every message (the same line of the other callback has the cast) |
| `C126_simple_refuted` | simple_example, asked for a secure server with files that cannot be read, serves in clear and logs "Start secure framework" |
| `C126_auth_refuted` | auth_server, given three files that cannot be read, serves in clear (the passwords of the clients too) and prints "Start secure framework" |
| `C126_trust_refuted` | if only the file of the authority cannot be read, auth_server starts without asking the clients for a certificate, and says nothing of it |
| `C126_websocket_refuted` | websocket_server with the option -https and fewer than two files serves in clear and logs "https mode" |
| `C126_pipe_refuted` | a pipe (the shell's <(...)), for which ftell gives -1: a block of no bytes is written to, before and after its bounds |
| `C126_directory_refuted` | a directory, which fopen opens and for which ftell gives LONG_MAX on Linux: the size of the block overflows |
| `C126_shrinks_refuted` | a file that is truncated between ftell and fread, or of which the reading fails: the key given to the TLS library has bytes that were never written |
| `C127_kept_refuted` | depends on iddawc: the callback does not look at what i_set_str_parameter answers. If a call that fails keeps the token that was in the session, the next request is let in on the token of the one before, and is taken for its owner |
| `C128_leak_refuted` | every request that oidc_resource.c lets in leaves its data behind |
| `C128_function_refuted` | behind a callback that handed on data of another kind, its JSON is released with the function of the other one (for example o_free), which is undefined |
| `C128_first_refuted` | the data of the first callback is lost, also when the kinds are the same |
| `C128_subject_refuted` | a token without "sub" loses the data of the callback before |
| `C129_alloc_refuted` | ulfius.c:835-837 calls the close callback with the manager of a websocket that is NULL; without a close callback nothing is called |
| `C129_create_refuted` | ulfius.c:746-748 tells nobody, the close callback is never called (and the websocket is lost, C100_mhd_refuted) |
| `C129_gone_refuted` | when libmicrohttpd does not upgrade: it refuses the response, or the client has gone before the answer is written. ulfius_start_websocket_cb is not called, and nothing else knows of the websocket: the close callback is never called and the websocket stays in the list of the instance, the stop of which waits for ever. A client that sends a handshake and closes its connection at once can cause it |
| `C129_default_refuted` | when the callback returns U_CALLBACK_IGNORE, no callback before it took the request and the instance has a default endpoint: the default endpoint is called as well, the upgrade is destroyed (ulfius.c:932-936), the page goes out with status 101 or not at all, and the websocket stays in the list as before |
| `C129_header_refuted` | when a header of the response is refused by libmicrohttpd and the program has set the status 101: the websocket is cleared (ulfius.c:839), but the upgrade still is there and is queued with the status of the response (1032): libmicrohttpd calls ulfius_start_websocket_cb with a websocket that has been released |
| `C129_code_refuted` | what the callback returns is not looked at (ulfius.c:664): a callback that has set the websocket and then answers U_CALLBACK_UNAUTHORIZED or U_CALLBACK_ERROR refuses nobody, the websocket is opened all the same |
| `C130_gone_refuted` | a client that sends a handshake and goes before the answer is written (or an upgrade that libmicrohttpd refuses): the user data of callback_websocket stay in memory for as long as the server runs, with each such request one block more |
| `C130_create_refuted` | an upgrade that libmicrohttpd cannot make (ulfius.c:746-748): the user data are lost although the instance does not count a websocket |
| `C130_thread_refuted` | a client that cannot make the thread: pthread_detach gets a thread that was never made (u_websocket.c:2623-2624, the result of pthread_create is looked at afterwards) |
| `C132_connected_refuted` | the thread of a websocket reads it at the head of its loop (674) while the manager callback, which has sent CLOSE, sets it (1538) |
| `C132_flag_refuted` | for close_flag: 675 reads it, the thread of the manager sets it, with read_lock, which the reader does not have (581), as ulfius_websocket_send_close_signal does without a mutex (2292) |
| `C132_keep_refuted` | for keep_messages, which a program sets while messages are sent |
| `C132_received_refuted` | for the list of received messages, with no more than the two threads the library itself makes: the thread of the websocket puts a message into it (735) while the manager callback, which has sent CLOSE, puts there a message it read while waiting for the answer (1523); both reallocate the list |
| `C132_sent_refuted` | for the list of sent messages when a program takes messages out of it with ulfius_websocket_pop_first_message, which takes no mutex |
| `C132_deflate_refuted` | for the context of the extensions for messages to send: the message callback and the manager callback send at the same time, and 1551-1571 takes no mutex (see C115_inside_refuted for what is sent then) |
| `C132_count_refuted` | for nb_websocket_active: ulfius_stop_framework reads it with websocket_close_lock (ulfius.c:1336), the thread of a websocket changes it with websocket_active_lock (1469) |
| `C132_array_refuted` | for the array of the websockets: two threads of libmicrohttpd that open websockets reallocate it at the same time, before they take the mutex (1422; what comes of it is in C48_realloc_race_refuted) |
| `C133_fragmented_refuted` | by the server to a program that uses ulfius, by the client always. Its first frame has no opcode (see C35_fragmented_refuted), the other side gives up the connection when it reads it, and neither this message nor any later one arrives: the ping is not answered, the binary and the JSON message are lost. Whatever happens to the later messages and whatever the bytes never written hold |
| `C134_open_refuted` | refuted: the page behind the password. callback_multiple_level_auth_check is registered for GET and PUT, the page for every method: with any other method, for example POST or DELETE, everybody gets "Hello World!", whatever the user and the password are |
| `C135_unterminated_refuted` | my_write_body prints the piece with %s, but what libcurl hands over has no NUL at its end (stream_client.c:27): for every piece without a NUL in it, memory after the piece is read |
| `C135_stack_refuted` | the array for the body is on the stack (auth_client.c:50, client.c:62, 74) and its size is what the server sent: whatever the room on the stack, there is a body that does not fit |
| `C135_no_header_refuted` | a response without headers: print_map gives NULL (C123), which client.c:66 and 78 print with %s |
| `C135_protocol_refuted` | a status line with a colon in its reason is taken for a header (u_send_request.c, ulfius_write_header): the protocol stays NULL and is printed with %s (client.c:66, 78) |
| `C135_nul_refuted` | a body with a NUL in it is printed up to there only, although its whole length is printed beside it (client.c:77-78) |
| `C137_param_refuted` | callback_all_test_foo prints the text of an empty map with %s, and print_map gives NULL for one (201-205): undefined for every request to /test/param/:foo that sends no cookie, whatever else it sends |
| `C137_multiple_refuted` | the endpoint /test/multiple/:multiple/:multiple/:not_multiple has NULL as its user data (123), which the same callback prints with %s (205): undefined for every request to it |
| `C137_readme_refuted` | README.md says that POST /test displays all the parameters of the request, its headers and cookies too. Two requests with the same body get the same answer, whatever their headers, their cookies, their query and their address |
| `C137_attribute_refuted` | the words of the path are decoded and put into Set-Cookie as they are (237-238): a link can give the cookie a domain, or any other attribute |
| `C138_null_refuted` | user_data is NULL (95) and is printed with %s (72): strictly, every request under /curl is undefined. On glibc it prints (null) |
| `C138_stack_refuted` | whatever libc prints for NULL, a client that sends a body larger than the stack brings the server down (62) |
| `C139_prefix_refuted` | the prefix of the web site is not looked at, only its length is: any six letters in the place of static give the same file |
| `C139_short_refuted` | GET of anything shorter than /upload, as of / itself, reads after the end of the copy of the url (static_compressed_inmemory_website_callback.c:319-320) |
| `C139_upload_refuted` | README.md has the upload service at /upload, where POST is 404 |
| `C139_nothing_refuted` | README.md says that the answer to an upload has information about it. The text is made and thrown away (133, 144): the answer is empty |
| `C139_method_refuted` | a method that is not a service of /sheep, PATCH say, is answered 200 with nothing, because compression is there for every method (230) |
| `C139_form_refuted` | a form without fields makes the server log NULL with %s (155) |
| `C139_cookie_refuted` | an upload without a cookie prints NULL with %s (133), however much of it is there |
| `C139_sheep_refuted` | GET of /sheep itself gets to the web site before compression, and reads after the end of the url, which is one byte too short |
| `C139_missing_refuted` | a file that is not there is not 404 but 200 with nothing: the web site leaves the request to the next callback (static_compressed_inmemory_website_callback.c:210-211, 218-219, redirect_on_404 being NULL) and there is none |
| `C139_order_refuted` | GET of /static/upload has two callbacks of the same priority. When the folder has a file of that name, the answer is the file or nothing, as qsort likes |
| `C140_slash_refuted` | the router leaves out empty words, so that //static/name is a file, but the web site skips seven bytes and looks for c/name |
| `C140_missing_refuted` | a file that is not there is not 404 but 200 with nothing: the web site leaves the request to the next callback (static_compressed_inmemory_website_callback.c:210-211, 218-219, redirect_on_404 being NULL) and there is none |

### 5.2 Observed while reading, not proved

These are notes taken while writing the model. They are not claims: no theorem stands behind them unless one is named.

Websockets
* `ulfius_websocket_send_frame` stops silently on a poll timeout or a send error; a failing `write_lock` and a failing
  allocation for an empty message return `U_OK`.
* Kept outgoing messages with data have opcode 0. `ping_sent` is never set to 1, so the test for a second ping never
  has an effect. RSV bits are accepted when any expected bit is set.
* Out of memory in the reading of a frame returns `U_OK` with a NULL message. `POLLRDHUP` seen before the data loses the
  pending data. Pushing to a message list without memory loses the list; clearing it does not reset its length.
* `in_perform` receives the user data of `out_perform` (u_websocket.c:616). A failing `out_perform` leaves the
  contexts of both sides out of step.
* Client handshake:
  the header is spelled "Sec-WebSocket-Extension" in one place; the Accept value is compared with the
  whole line; names of extensions without match function are compared untrimmed.
* Server handshake: `u_map_has_key` is case sensitive; no common extension gives 400; `ulfius_check_first_match` of NULL
  and NULL succeeds with a NULL protocol; `source_list` and the parameter values leak on some paths.
* `ulfius_set_websocket_request`: protocol "1.1" instead of "HTTP/1.1"; a `url` that is the request's own is used after it
  is freed. `ulfius_open_websocket_client_connection` does not check its handler for NULL; the socket is not closed when
  `gethostbyname` fails.
* `ulfius_init_websocket_manager` without memory frees list pointers that were never set; the manager's status lock and
  condition are never destroyed.

Dispatcher and instance
* `U_ERROR_PARAMS` and `U_CALLBACK_UNAUTHORIZED` are both 3, so "headers refused gives 500" has no effect.
* With MHD 0.9.61 or later the response buffer leaks on the error path (ulfius.c:1055-1058); the 404 path does not check
  the creation of the MHD response.
* `ulfius_add_endpoint`: a failed copy leaves the count incremented without a terminator.
* Content types of forms are compared case-sensitively. A failed certificate verification is only logged. A failed
  `realloc` of an upload loses the body.
* Setting a string or binary body after a stream keeps the stream callback, so the body is ignored; setting a second
  stream does not call the free callback of the first.

Clients and exports
* Header and mail fields are not checked for line breaks; memory of libcurl is freed with `o_free`; a failing
  `curl_slist_append` leaks the list; `int` is passed where libcurl expects `long`; smtps has default port 587.
* The exported status line lacks the space after the status code; a space in the query is not escaped.

Example callbacks
* Static files: race between `realpath` and `fopen`; an unreadable file gives an empty 200; a
  request for a directory never ends in static_file_callback.c either; the cache is looked up outside its lock, never refreshed and never bounded.
* Tokens: expired tokens are answered "Internal server error"; the Content-Type is looked up case-sensitively; old shared
  data leak; a lock is released after failing to take it.
* Compression: no `Vary` header; an existing Content-Encoding is ignored; the length is stale.

Handshakes
* `websocket_extension_server_match_deflate` does not release what `split_string` gave for "server_max_window_bits" when it
  has not two parts (u_websocket.c:2169-2186): an offer without a value loses these blocks.
* A handshake that the client refuses (not status 101): the body is only read if `response->binary_body` was already
  set, and then the pointer is overwritten without release; otherwise `binary_body_length` is the Content-Length while
  `binary_body` is NULL (u_websocket.c:966-982). A second handshake with the same response overwrites `protocol`.

u_map and others
* The second overflow check of `u_map_put_binary` can never hold. `ulfius_clean_request` does not reset all pointers, so
  cleaning twice frees twice. `ulfius_copy_response` copies the shared data but not their free function.

HTTP client
* The escaped keys and values of a form are made by `curl_easy_escape` and released by `o_free` instead of `curl_free`
  (u_send_request.c:473-509; the url parameters use `curl_free`): wrong as soon as libcurl and orcania have different
  allocators.
* A response that is used for a second request loses its `binary_body` without release (u_send_request.c:204-214 writes
  the new pointer over it).
* request_example/server.c:62 copies the body of the request into an array of `binary_body_length + 1` bytes on the
  stack; the length is chosen by the client (`max_post_body_size` is 0, no limit), so a large body ends the program.
* websocket_server.c:276 passes a text made by `msprintf` as the format of `y_log_message`; the text has no `%` in it, so
  nothing happens.
* uwsc in quiet mode writes two backspaces before each message although no prompt was written.
* autobahn's ulfius_ws_echo_server.c does not look at the result of `ulfius_start_secure_framework`.
