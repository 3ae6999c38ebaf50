# Formal model of nqminds/brski in Rocq (Coq 8.16.1)

The source in `/repo` is read as text; nothing is built or run from it. This
file says what is modelled, how each property of `properties.jsonl` is stated
and proved, and what is trusted.

## Layout of `rocq/theories`

| files | role |
|---|---|
| `Base.v` | bytes (`N` below 256), C strings, outcomes with an explicit undefined-behaviour case |
| `M*.v` | the model, function by function, each definition citing file and lines; no proofs |
| `S*.v` | specifications written independently of the model |
| `P*.v` | lemmas and proofs |
| `T*.v` | the property theorems only, each closed by `exact`, with `Print Assumptions` and non-vacuity examples |

## Modelling conventions

* A byte is an `N` below 256, a buffer is a list of bytes. A C string is its
  list of bytes without the terminator; it contains no 0 byte.
* Undefined behaviour (out-of-bounds access, NULL dereference, use after free,
  double free) is the distinct result `UB reason`, never a default value.
* Integer widths are unbounded except where the code can overflow: `size_t`
  computations in the base64 encoder and `sys_realloc_array` are written
  `mod 2^64`; the conversion of a negative `ssize_t` to `size_t` in the callers
  of the base64 decoder is explicit.
* Two layers. The value layer models contents (base64, JSON, voucher
  attributes, protocol decisions) and assumes allocations succeed unless the
  definition takes an explicit allocation flag. The heap layer models blocks,
  pointers, frees and allocation failure (lists, binary arrays, voucher
  attribute ownership, handlers' cleanup code).
* Outside code (OpenSSL, the file system, minIni, the HTTP library, the clock)
  is represented by function arguments collected in records. Theorems quantify
  over all such functions; an assumption about them is an explicit hypothesis.

## Trusted base

* Coq's kernel, 8.16.1, and `vm_compute`.
* `Print Assumptions` after each property theorem: all are expected to be
  "Closed under the global context"; any exception is listed at the end.
* The transcription of the C and C++ sources into the `M*.v` files.
* jsmn v1.1.0 is not part of `/repo` (fetched by `lib/jsmn.cmake`). It is
  modelled from its published source in the default mode the project uses
  (neither `JSMN_STRICT` nor `JSMN_PARENT_LINKS`).
* glibc `strftime`/`strptime` for the single format `%Y-%m-%dT%H:%M:%SZ`,
  `strncmp`, `strncpy`, `memccpy`, `snprintf`, `tolower` (C locale) are modelled
  from their documented behaviour.
* minIni is not part of `/repo`. C55 and C68 hold for every reader that returns
  C strings cut to the given room (`ini_ok`); C67 uses `minini`, the documented
  behaviour of `ini_gets`/`ini_browse` (first match; names compared exactly;
  values longer than INI_BUFFERSIZE = 512 cut by `ini_browse`).

## Per property

| id | modelled | how proved |
|---|---|---|
| C01 | `base64_gen_encode`, `base64_gen_decode` on byte lists with capacity-checked writes | induction on 3-byte groups against an arithmetic specification; bit identities by exhaustive check over bytes lifted with `forallb` |
| C02 | encoder incl. 64-bit size computation | independent RFC 4648 function on bit groups; equality and buffer bound by induction |
| C03 | decoder with capacity-checked writes | invariant: bytes written <= 3*(blocks), blocks <= capacity/3 |
| C04 | decoder | equality of decode with decode of the filtered input |
| C05 | decoder failure pointer | refuted by a witness; the exact failing set characterised |
| C06 | encoder and decoder | refuted for the empty array; proved for all others (C01) |
| C07 | `serialize_bool2str`, `serialize_str2bool` | case analysis on length at most 5 |
| C08 | `strftime`/`strptime` on the format | digit lemmas, composition of field parsers |
| C09 | `strptime` model | refuted (trailing text, 31 February); positive part: every accepted text starts with digits giving the fields, fields in range |
| C10 | `concatenate_keyvalue`, `serialize_keyvalue2json` with buffer capacities | induction on the list |
| C11-C13 | `dl_list` pointers in a block heap, `array.c`, `keyvalue.c` with an allocation oracle | representation predicate for circular doubly linked lists; refutation for C13 |
| C14 | `copy_binary_array`, `compare_binary_array` | direct |
| C15-C19 | voucher attributes as a record, all setters, getters, clear | case analysis; C18 by induction over histories |
| C20, C56, C64-C66 | `array.c` copy/free, the setters, `clear_attr_voucher`, `free_voucher` and `deserialize_voucher` over the block heap (`MVoucherHeap.v`) | invariant `vstate` (the voucher block points to distinct live blocks with the abstract contents, plus a list of lost blocks) kept by every operation under any allocation failures; the JSON reader by simulation with the value model; refutations by witness |
| C21, C27 | serialisation, jsmn, deserialisation composed | symbolic execution of jsmn over generated text |
| C22, C24 | same | refuted by witnesses; positive parts proved |
| C23, C26 | `deserialize_voucher` token loop | induction over the pair loop against a fold specification |
| C25, C28 | jsmn and the token loop with explicit bounds checks | invariant over the parser state |
| C29-C31, C33, C34, C36, C38, C60, C61, C63 | `request.c`, the certificate and CMS functions of `crypto_ossl.c` and the signing functions of `voucher.c` over an arbitrary OpenSSL record `ossl` | inversion of the decision code into the relations of `SRequest.v` (`says`, `signed_voucher`, `chains`); the safety theorems use the value invariant of parsed vouchers |
| C32 | same | refuted (request without serial number); the crashing inputs are characterised exactly |
| C35, C39, C40, C62 | same | C35 holds for requests made by `sign_voucher_request` (`TRequestMore.v`, assuming of OpenSSL that a message verifies with the text that was signed); C39: acceptance depends on serial number, pinned certificate and nonce only; otherwise refuted with the concrete OpenSSL record `toy` of `PRequest6.v`; C40 positive part for present stores; C62 for every record that follows the documentation of X509_build_chain |
| C37 | composition of the four protocol functions and C21, C25 | symbolic execution of the three messages; a size bound on the generated text keeps every message below 2^31 |
| C41-C44, C69-C72 | `masa_requestvoucher`, `registrar_requestvoucher` with `post_voucher_request`, `registrar_est_simpleenroll` and their helpers over the block heap (`MHandlers.v`); the MASA's HTTP answer, the client certificate's fields and the CA's signing function are arbitrary functions | ownership invariant `st` (the list of blocks the handler owns) kept by every acquisition and emptied by the clean-up; the value level by `C31_exact`/`C34_exact`; refutations by concrete configurations |
| C46, C47 | `post_voucher_pledge_request` with `voucher_pledge_request_to_array`, `voucher_pledge_request_to_base64`, `verify_masa_pledge_request` over the block heap (`MHandlers.v`); the two HTTP exchanges are arbitrary functions giving status, response and the server's certificate | ownership invariant `st` as for the handlers; success and every crash characterised exactly (`SPledge.v`); refutations by concrete configurations |
| C73, C74 | the pledge client over the registrar's handler over the MASA's handler (`SChain.v`); a server that does not survive gives no answer | C73 from C37's run, the exactness of the three message functions and the endpoint lemmas; C74 follows the contents through the three signed messages with the JSON round trip (C21); `C73_full_memory` repeats C73 over the handlers of C117 to C119 with every allocation counted (`PHonestHeap4.v`) |
| C45 | the MASA handler as a sequence of atomic steps over the shared context and the block heap (`MConcurrent.v`), a schedule picks the request that steps next; run alone it is `masa_requestvoucher` | requests served one after another proved by induction over the number of requests; refuted by a schedule of two overlapping requests that frees the shared certificate list under the other; the schedules that go wrong are given exactly (`C45_exact`) by an invariant over the requests that hold the shared certificate: once one has loaded it under another, the surplus of holders never shrinks, so some later read or release meets a freed block |
| C49, C50 | `os.c` on buffers | induction; refutations for size 0 and truncation |
| C51 | `printf_hex` with capacity-checked writes (`MLog.v`) | induction over the bytes against `hex_text`; refuted for a short buffer; the exact written text and returned length for every buffer |
| C52, C76 | `log.c` as a state (level, quiet, lock, file, meta) with the trace of lines, lock calls and file opens/closes (`MLog.v`) | induction over histories of calls against `history`/`effect`; refuted by the level text of an out-of-range level (C52) and a file opened twice (C76) |
| C75 | `time_to_str` over a `clock` record standing for `gettimeofday` and `localtime` | `snprintf` as decimal digits (`strf_num`); refuted by a year of five digits; the overflowing years are exactly characterised |
| C53 | `read_stdin` over the remaining input | refuted at the exact boundary (4096 bytes); the buffer for every shorter input, the overflow for every other |
| C54, C77, C79 | `httplib_wrapper.cpp` and the parts of `httplib.h` that register, route and write an answer (`MHttp.v`): multimap of headers, handler tables, error and exception handler; the route tables of both servers; handlers are arbitrary functions; std::regex is assumed only for patterns without special characters other than the dot (`regex_ok`) | induction over the table and over the header lines; findings by witness. `same_name` and `values_ci` are written with the model's `tolower`; `TCase.v` ties them to a list of the alphabet (`SCase.v`). Request lines, Range requests, keep-alive and length headers come with C100 and later |
| C78 | `httplib_start` with the outcome of the constructor and of `listen` as arguments | case analysis; refuted by `listen` failing and by an exception |
| C80, C81 | `pledge_request.cpp` 204-374 and its call in `main` (`MSignCert.v`) over the block heap, on top of the pledge client model; rand(), time(0), RAND_bytes, the stack array, key and certificate generation and the enrolment answer are arbitrary arguments; the OpenSSL objects inside `crypto_generate_eckey` and `crypto_generate_eccert` are not modelled | ownership of several caller arrays (`arrs`), run lemma over all branches; refuted by concrete runs |
| C82, C83, C84 | `brski.cpp` `process_options` (getopt and strtol included), `show_help` (its basename call), `main` with every command, `output_domain_cert` and the functions writing PEM and S/MIME files (`MMain.v`), on top of the configuration, pledge, sign-cert, base64 and standard input models; the file system, minIni, OpenSSL, PEM encoders, clock, registrar and MASA are the record `outside`. Not modelled: the log texts, the permissions of the written files, files left partly written by a run that ends with 1, the servers after `registrar_start`/`masa_start` | the line: induction over the words against the list-of-pieces specification `asks_for`/`stops`; the commands: run lemmas per command composed with the load of the configuration (`main_command`); refuted by concrete lines, names and configurations |
| C85-C88 | `crypto_ossl.c` over a ledger of OpenSSL objects with reference counts (`MObjects.v`): every creating or failing call takes the next number and its result is an arbitrary function of that number; what messages, stores, stacks and chains share is the record `inner`; values are those of `ossl`. Keys and certificates: the meta data is its shape, the DER parsers are Booleans | invariant `bl`: the references of each new object are those held by new objects plus those of the running function (`PObjects.v`-`PObjects5.v`), kept by every step; the use after free by counting (a released reference too many cannot balance, `PObjects6.v`); acceptance by inversion of the run (`PObjects9.v`) |
| C89 | the file functions of `crypto_ossl.c` (`MObjectFiles.v`) on the same ledger, FILE and BIO included | the same invariant |
| C90 | `registrar_est_simpleenroll` with `save_to_log` (`MEnrolLog.v`): the handler of C71 with the file as a byte string; the names in a certificate and whether the file opens are arbitrary | simulation with the handler without log, then the text of an entry; refuted by a client without certificate |
| C91 | `save_to_log`: the text appended by fprintf, `ASN1_INTEGER_get_uint64` | spec: relation between entries and lines, histories of enrolments; unique reading of a concatenation of entries; refuted by a holder with a quote and a newline, by numbers over 64 bits, by the name NULL |
| C92 | `save_to_log` over the block heap with the lists of `keyvalue.c` (`MEnrolLogHeap.v`), every allocation may fail | invariant: the live blocks are those of a list of key value lists (`PKlist.v`, `PEnrolLogHeap.v`); refuted by two failing allocations |
| C93, C94, C95, C98, C99 | `httplib_post_request`, `httplib_post_request_ca` with `SSLClient` (constructor, CA store, `load_certs`, `initialize_ssl`, destructor) and `ClientImpl::send` (`MTls.v`); the network is a function from the number of the connection to what happens on it; reading files, verifying chains and the system's CAs are the record `tls_world` | relation `exchange` with one case per course of the two connections; composed with the outcome of sign-cert (C80) |
| C96, C97 | `SSLServer::SSLServer`, `SSL_verify_fn`, `httplib_start`, `registrar_start`, `masa_start` (`MTls.v`) | case analysis; refuted by configurations |
| C100-C105 | httplib.h: what `ClientImpl` writes and reads and what `Server` reads and writes on a connection, from the bytes (`MWire.v`): request line, header lines, contents with a length, without and chunked, status line, up to five requests per connection | a stream is its bytes, any splitting into reads and the way it ends; each reading function is characterised on the bytes alone; refuted by byte sequences |
| C106-C109 | the programs joined (`MLink.v`): `pledge_request.cpp`, `registrar_api.cpp` and `masa_api.cpp` behind their routes, reached by the TLS clients of `MTls.v` over the bytes of `MWire.v` | each exchange is computed from C101 and the route tables; answers a caller does not tell apart are related and carried through `registrar_run` and `pledge_run`; C107 and C108 then follow from C73 and C74; C109 refuted |
| C110, C111 | the command sign-cert over the wire (`MLink.v`, `enroll_*`): `post_sign_cert` with its third request to the route of `registrar_est_simpleenroll` | the answers of that route over any connection are listed (`enrol_said`); C80's completeness and outcome then give both directions, with the voucher part from C107 and C108 |
| C112 | the registrar's two handlers as small-step programs sharing one heap (`MConcurrentReg.v`), any number of requests, any interleaving | ownership: each request holds blocks no other holds (`PConcurrentReg.v`), a step of one keeps what the others hold, so each reaches the answer it reaches alone; by induction over the schedule (`PConcurrentReg2.v`); the steps are shown to compose to the sequential handlers |
| C113 | the allocations of `serialize.c` 21-109, 255-397 and `voucher.c` 520-688 over the block heap (`MSerialHeap.v`): temporary strings, the key/value lists, realloc and strcat with exact block sizes; the plain fields of the voucher are a value, its strings and arrays are read from memory | the blocks held from the entry on are tracked exactly (`PHold.v`), function by function up to the whole (`PSerialHeap*.v`), with any allocations failing; reached from every history of setters (C20) and from reading (C65); the crash on a refused allocation is computed |
| C114 | `request.c` 21-215, `voucher.c` 970-1044 and the allocations of `crypto_verify_cms` and `bio_to_ptr` over the block heap (`MRequestHeap.v`); voucher attributes that own memory are in memory, the plain ones a value | the blocks held are tracked through every branch with any allocations failing (`PRequestHeap*.v`), on top of C20, C65 and C113; the content comes from C29 and C30; the crash and the leak are computed |
| C115 | `request.c` 217-446 over the block heap (`MRequestHeap.v`); the callback that finds the pinned certificate is a function of serial number and signers that returns a new buffer | as C114, with the list of signers and the inner request as further blocks (`PRequestHeap6.v` to `PRequestHeap9.v`); the content comes from C33 and C34; the two leaks and the crash are computed |
| C116 | `request.c` 448-581 and `array.c` 100-119 over the block heap (`MRequestHeap.v`) | as C114; the caller's struct is below the tracked blocks, so its change is stated apart (`PRequestHeap10.v` to `PRequestHeap12.v`); acceptance comes from C36; the two leaks and the crash are computed |
| C117 | `masa_api.cpp` 57-183 with `request.c` 217-446 running on the handler's heap (`MHandlerHeap.v`); memory suffices | C41, C42 and C115 joined: the blocks held are tracked through the handler (`PHandlerHeap.v` to `PHandlerHeap3.v`), induction over the requests; the loss is proved for any number of messages |
| C118 | `registrar_api.cpp` 135-304 with the key-value lists of the client's certificate and `request.c` 100-245 on the handler's heap (`MHandlerHeap.v`); memory suffices; what the MASA answers is an arbitrary function | as C117 with C44, C69, C92 and C114 (`PHandlerHeap4.v` to `PHandlerHeap6.v`); the loss is computed |
| C119 | `pledge_request.cpp` 92-202 and `pledge_utils.c` with `request.c` 20-98 and 448-583 on the client's heap (`MHandlerHeap.v`); memory suffices; the two connections are arbitrary functions | C17 and C114 to C116 joined (`PHandlerHeap7.v` to `PHandlerHeap10.v`); the loss is computed |
| C120 | the handlers of C117 to C119 connected (`SHonestHeap.v`); trusted messages are signatures of texts that `serialize_voucher` wrote | such texts are flat objects with different member names, which read without loss (`PVoucherPrefix.v`, `PVoucherHeapWritten.v`); with the round trip of C02 and OpenSSL giving back what was signed this discharges the conditions of C117 to C119 (`PHonestHeap.v` to `PHonestHeap3.v`) |
| C121 | `registrar_api.cpp` 354-432 with `save_to_log` (31-88) on the heap (`MEnrolHeap.v`), together with the handler of C118 over one memory and one log | the endpoint with memory runs as `enroll_logged` does (`PEnrolHeap.v`), so C90 gives the entries and C118 the rest; induction over the requests (`PEnrolHeap2.v`) |
| C122, C123 | `httplib.h` 668-741 (ThreadPool), 6229-6250, 6681-6760 (listen, stop, the accept loop), the worker's use of the server, and `httplib_wrapper.cpp` 191-236 (`MLife.v`): every access of a thread to the server object is a step, a schedule any list of steps | an invariant of all schedules (`PLife.v`, 20 parts: who holds which descriptor, where the queue's connections are, when the object is alive), from which the wrong endings are classified and the order of service follows (`PLife2.v`, `PLife3.v`); stopping in the right order is proved harmless (`PLife4.v`); `accept` is an oracle; sequentially consistent memory is assumed |
| C124 | `httplib.h` parse_range_header, get_range_offset_and_length, make_content_range_header_field, process_multipart_ranges_data, apply_ranges and the Range branch of process_request (`MRange.v`); the boundary of several parts (random) is an argument; the regular expressions are written out as matchers | the parser is inverted on the texts of `SRange.v`, the reply read back with the client of C101 (`PRange.v`, `PRange2.v`, `PRange3.v`); findings by witness |
| C125 | `read_content_chunked` and its callers, as modelled in `MWire.v` for C101 | the reader is inverted on the texts of `SChunk.v`, whole and cut, over streams delivered in any pieces (`PChunk.v`, `PChunk2.v`); findings by witness (`PChunk3.v`) |
| C126 | `create_socket`, `create_client_socket`, `bind_internal`, the client's connection (`send`, `send_`, `initialize_ssl`, `close_socket`, constructor and destructor), `SSLServer::process_and_close_socket`, `httplib_post_request`, `httplib_post_request_ca` (`MSocket.v`) as writers of a history of acquiring, using and giving back; every answer of kernel, resolver and OpenSSL is a function of the history (adversarial); the exchange of messages is one such answer (its content: C101) | a permutation invariant between the client's fields and what the history holds (`PSocket.v`, `PSocket2.v`); assumed: nothing is given out twice (`sound`), SSL_CTX_new succeeds; findings by witness (`PSocket3.v`) |
| C127 | `parse_request_line` with `split`, `trim` and `decode_url` inside `process_turn` (`MWire.v`) | the words of a line and the path of a target are relations of their own (`STarget.v`); splitting is shown to give exactly these words in both directions (`PTarget.v`), the rest by the reading lemmas of C100 (`PTarget2.v`); findings by witness (`PTarget3.v`) |
| C128 | `full_generate_sign_cert` with its two key/value lists on the heap and `full_post_sign_cert` over `full_post_voucher_pledge_request` (`MSignHeap.v`) | the lemmas of C80 about the caller's arrays with any other blocks beside them (`PSignHeap.v`); the lists are made, read and given back (`PSignHeap2.v`); what the pledge's exchange (C119) leaves is carried through (`PSignHeap3.v`) |
| C129 | no new code; `full_enrol_service` (`SSignHonest.v`) connects the device of C128 with the registrar of C121 | the messages of C73 go through the command of C128, whose result depends on the answers to what is sent only (`full_sign_ext`); the registrar's two requests by C121, clean because the pledge uses the library (`PSignHonest.v`) |
| C130 | `full_generate_sign_cert` of C128 with allocations refused in any pattern | the allocations are counted; each list operation is followed with the numbers of what it asked for (`PSignShort.v`), then the key and the certificate (`PSignShort2.v`) |
| C131 | `jsmn_parse` on the text of any JSON value (`SJsonTree.v`) | mutual induction over values, elements and members: what the loop does with the text of each, from any state (`PJsonTree*.v`) |
| C132 | `deserialize_voucher` on the same documents | C131 gives the tokens; the search and the pair loop are followed over the list of values and keys (`PJsonVoucher.v`) |
| C135, C136 | `serialize_voucher`, `deserialize_voucher`, `sign_pledge_voucher_request` as in C21 to C29 | induction over the attributes against a text with every name spelled out (`SVoucherRfc.v`), because the round trips C21 and C27 hold for any names; C136 is a finding by witness, with what always happens |
| C137 | `client_request` and what it uses (`MWire.v`), as in C100 | equality with a text spelled out in `SWireText.v`, because C100 only says that the library reads what it writes; the headers are computed, the path by induction |
| C138 | `connection`, `server_reply`, `routed_response` (`MWire.v`), as in C101 | equality with a text spelled out in `SAnswerText.v`: the request arrives (C100), the first handler for its path answers, the headers are computed |
| C133, C134 | `MultipartFormDataParser`, `read_content_core` and `process_request` for multipart/form-data (`MMultipart.v`), on top of the wire and range models; file names are not kept | the parser's state is related to the text still to come, and every turn of its loop keeps the relation wherever the bytes are cut (`PMultipart2.v`; the lines of the heads in `PHeadLines.v`), also by chunks (`PMultipart6.v`); framing and what an accepted form must contain (`PMultipart5.v`) or not (`PMultipart7.v`) for all streams by induction over the reads; four findings by witness |
| C48 | `load_cert_files`, `file_to_x509buf` over the block heap (`MConfig.v`), reading a certificate is an arbitrary function of the path | invariant of the linked list under construction (`PBlocks.v`), induction over the paths; refuted by a missing file |
| C55, C67, C68 | `config.c` over the block heap, minIni as an arbitrary record `ini` | slot invariant for the 32 fields kept by every load step; refuted by an allocation failure (C55) and a repeated key (C67) |
| C57-C59 | `deserialize_voucher` | refuted by witnesses. What holds (`SJsonMore.v`, `PJsonPrefix.v`, `PVoucherPrefix*.v`, `TVoucherMore.v`): C57 exactly which documents crash; C58 for voucher objects with plain members; C59 for dates, assertion and flag. The tokens of a beginning of the text stay, whatever follows (induction over jsmn's loop) |

## Assumptions of the handler theorems (`THandlers.v`, `TPledge.v`)

* `plenty`: allocations succeed. `heap_wf`: the heap is well formed at the call.
* `masa_config`, `registrar_config`: the configuration's pointers point to the
  strings and lists given by the record of file names; what the configuration
  loader builds is C55, C67 and C68.
* `world_ok`, `view_ok`, `post_ok`, `pledge_text_ok`: configured texts, responses, files and certificate fields hold bytes.
* A request body whose decoding fails with a negative length is passed on with
  that length as `size_t`; `with_cms` lets the callee fail on it, because
  `d2i_CMS_ContentInfo` of OpenSSL 3.0.0 refuses a length that is negative as
  `long` without reading.
* Not modelled: the handlers' calls of the log (the log itself is `MLog.v`), C++
  string allocation. The registrar's enrolment log (`save_to_log`) is left out of
  `MHandlers.v` and modelled apart (`MEnrolLog.v`, `MEnrolLogHeap.v`, C90-C92;
  `enroll_logged` is proved to answer as `registrar_est_simpleenroll`). OpenSSL
  objects (`X509` and others) are values here; their ownership is modelled apart
  (`MObjects.v`, C85-C88), with the finding C85 that applies to every voucher
  the MASA issues: C41, C42, C73 and C74 speak about the values, and hold where
  that use after free happens to have no effect.

## TLS (`MTls.v`)

The record `tls_world` stands for OpenSSL and the files: any function of that type.
A side that shows a chain holds the key of its first certificate (TLS). The
handshake itself, versions and ciphers are not modelled. Allocation succeeds.
`network_ok` (C93_sign_partial only): what arrives consists of bytes.

## HTTP messages (`MWire.v`)

Modelled from `httplib.h` as the project builds it (no zlib, no brotli, the
default limits). A stream is the sequence of bytes that arrive, an arbitrary
function for how many of them each read finds, and whether the peer closes in
good order. `MWire.v` ends with `Elsewhere` at a Range request or a multipart
body (the theorems about the project's client prove that it never sends one);
`MRange.v` carries on with Range requests (C124), and C124_without says that it
changes nothing else; `MMultipart.v` carries on with contents in parts (C133, C134), and
C133_others_partial says that it changes nothing else and leaves no request out. Not modelled: query parameters (no handler looks at
them), time-outs between requests, failures of writing, the C++ allocator. The
regular expression of the status line is modelled by the texts it accepts.

## The programs joined (`MLink.v`)

A `serving` is the server that is there for a client certificate and a body: its routes as
`setup_masa_routes`/`setup_registrar_routes` register them, with the handlers of `MHandlers.v`; it is
absent when the handler's run on that body is undefined behaviour, and the client's request then fails. `link` is the network in which every connection of a client leads to that server: the
handshake shows the chain of the context, the server lets the client in or not (`ssl_accepts`), and the
answer is `exchange_over` of `MWire.v`. A `way` says how the bytes of a connection are split and which
addresses its ends have. Not modelled: several requests to the registrar at once, and state kept between
the two requests of a pledge other than the heap at the start. Bodies above SIZE_MAX do not exist; such a
request fails in the model.
The enrolment request has its own `serving` and `link`; the handler of vouchers beside it is arbitrary, and so is that of enrolments beside the voucher requests.

## Concurrent requests to the registrar

httplib serves each connection in a thread of a pool, and the route handlers of the
registrar share the context of `registrar_start`, which they only read. C112 lets any
number of voucher and enrolment requests, each with the files, the clock, the client
certificate and the MASA's answers it finds, take their steps in any order. Unlike
the MASA (C45), whose handlers share `context->ldevid_ca_cert`, they do not
interfere. A step is one call into the library with the test of its result, so races
inside one library function are not visible: `localtime` returns a static buffer that
two threads may write at once, and `save_to_log` appends to one file. Both are outside
this theorem, as is the HTTP library's own locking. What the requests find on disk and
on the clock is fixed when they start.

## Assumptions about OpenSSL

Every theorem of `TRequest.v` quantifies over the record `ossl`. Used as
hypotheses, where named in a theorem:

* `ossl_sane`: content returned by `CMS_verify` is a byte string shorter than
  2^31 (its length is an `int` in the BIO interface), DER output consists of
  bytes.
* `genuine` (C35, C74 and `TLink.v`): verifying a signed message gives the content that was
  signed.
* `trusts` (C37 and C73): what a party signs is accepted, with the same content,
  by the party verifying it, and the signature adds at most `k` bytes.
* `no_store_builds` (C62 only): `X509_build_chain` without a store returns a
  non-empty chain, as its manual page says.
* `coherent` (C85): the signer certificates found by `CMS_verify` are the
  message's own or come from the given stack, and `CMS_get0_signers` returns
  them without references of its own (`CMS_get0_signers(3)`; cms_sd.c of 3.0.0).
* `signers_found` (C85, the MASA only): a message that `CMS_verify` accepts has a
  signer (it fails with CMS_R_NO_SIGNERS otherwise).
* `monotone` (C88 only): more untrusted certificates do not turn an acceptance
  into a refusal.
* `steady`: no call fails for lack of memory; `takes`: the store refuses nothing.

The examples show that the concrete record `toy` meets them.

## Mutation runs (`seeded/LOG.jsonl`)

Each run edits one definition in a scratch copy, rebuilds, and leaves out every proof that no longer
goes through; `theorems_failed` are the theorems that depend on such a proof. What this shows and what not:

* A theorem is listed when its proof breaks. That is weaker than its statement being false: a proof can
  break because its script mentions the edited text. Where an `Example` beside the theorem fails as well,
  the edit changes what the theorem says; the log does not record this for each run.
* One case was noticed: `match_disposition`, name must come first. The theorems were listed although they
  did not speak of parameters before the name yet. They do now, and the edit was run again.
* A command that takes more than 240 seconds counts as a broken proof.
* Many edits were built only as far as the theorem files near the definition, so a list can be too short.
* Edits are against the model at the time of the run. They were not all run again after later changes.
* Sixty edits were planned for the sixth batch; 33 were run, the rest not.
