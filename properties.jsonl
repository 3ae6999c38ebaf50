{"id": "C01", "title": "Base64 round trip", "statement": "Decoding the base64 text produced from any non-empty byte array returns exactly that byte array and its length.", "quantifier": "every non-empty byte array whose length is below SIZE_MAX/4", "why_tests_cant": "The input space is all byte strings; tests only sample a few lengths and contents.", "anchors": ["src/voucher/serialize.c:serialize_array2base64str", "src/voucher/serialize.c:serialize_base64str2array", "src/voucher/serialize.c:base64_gen_encode", "src/voucher/serialize.c:base64_gen_decode"]}
{"id": "C02", "title": "Base64 encoding is RFC 4648 text and fits its buffer", "statement": "For any byte array the encoder either refuses (length too large) or produces exactly the RFC 4648 padded encoding followed by a NUL byte, returns 4*ceil(n/3) as its length, and never writes past the buffer it allocated, with the buffer size computed in 64-bit wrapping arithmetic.", "quantifier": "every byte array and every length below 2^64", "why_tests_cant": "Overflow of the size computation only occurs for huge lengths and the format must hold for every input.", "anchors": ["src/voucher/serialize.c:base64_gen_encode"]}
{"id": "C03", "title": "Base64 decoding never writes outside its buffer", "statement": "For any input bytes whatsoever (malformed, wrong length, wrong padding, embedded NUL) the decoder never writes outside the buffer it allocated, and a non-negative return value is the length of initialised data inside that buffer.", "quantifier": "every byte string", "why_tests_cant": "Malformed inputs are unbounded; a missed padding/length combination would be a heap overflow.", "anchors": ["src/voucher/serialize.c:base64_gen_decode"]}
{"id": "C04", "title": "Base64 decoding ignores characters outside the alphabet", "statement": "Inserting or removing bytes that are neither alphabet characters nor '=' (for example line breaks) anywhere in the input never changes the result of decoding.", "quantifier": "every input string and every set of inserted positions", "why_tests_cant": "Quantifies over all strings and all insertion positions.", "anchors": ["src/voucher/serialize.c:base64_gen_decode"]}
{"id": "C05", "title": "A failing base64 decode hands back nothing to release", "statement": "Whenever decoding fails, the output pointer handed back to the caller is NULL, so the caller cannot use or free released memory.", "quantifier": "every input string", "why_tests_cant": "Only specific paddings trigger the failing path, so sampling does not settle it.", "anchors": ["src/voucher/serialize.c:base64_gen_decode", "src/voucher/serialize.c:serialize_base64str2array"]}
{"id": "C06", "title": "Every array that can be serialised can be read back", "statement": "Any array for which base64 serialisation succeeds (including the zero-length array) is accepted by base64 deserialisation and yields the same array.", "quantifier": "every byte array, including the empty one", "why_tests_cant": "Boundary behaviour over all arrays.", "anchors": ["src/voucher/serialize.c:serialize_array2base64str", "src/voucher/serialize.c:serialize_base64str2array"]}
{"id": "C07", "title": "Boolean text: accepted spellings and round trip", "statement": "Parsing a boolean returns 1 exactly for \"1\" and any-case \"true\", 0 exactly for \"0\" and any-case \"false\", and fails for every other NUL-free text of any length; printing then parsing gives back the value.", "quantifier": "every byte string and length, every bool", "why_tests_cant": "Set of rejected strings is infinite.", "anchors": ["src/voucher/serialize.c:serialize_bool2str", "src/voucher/serialize.c:serialize_str2bool"]}
{"id": "C08", "title": "Date-time text round trip", "statement": "For every calendar date-time with a four digit year, printing and then parsing gives back the same year, month, day, hour, minute and second, and the printed text is exactly 20 characters of the form YYYY-MM-DDTHH:MM:SSZ.", "quantifier": "every date-time with year 1000..9999", "why_tests_cant": "About 3*10^11 date-times.", "anchors": ["src/voucher/serialize.c:serialize_time2str", "src/voucher/serialize.c:serialize_str2time"]}
{"id": "C09", "title": "Date-time parsing accepts only real RFC 3339 UTC date-times", "statement": "A text is accepted as a date-time only if it is exactly a YYYY-MM-DDTHH:MM:SSZ text naming a real calendar date.", "quantifier": "every NUL-terminated string", "why_tests_cant": "All strings; the accepted set is defined by strptime semantics.", "anchors": ["src/voucher/serialize.c:serialize_str2time"]}
{"id": "C10", "title": "Key/value list to JSON", "statement": "For every key/value list the produced text is '{' followed by the key:value pairs joined by ',' in insertion order and '}', and no intermediate buffer is overrun.", "quantifier": "every list of key/value strings", "why_tests_cant": "Quantifies over list length and string lengths; buffer sizes are computed incrementally.", "anchors": ["src/voucher/serialize.c:serialize_keyvalue2json", "src/voucher/serialize.c:concatenate_keyvalue"]}
{"id": "C11", "title": "Array and key/value lists keep insertion order and own copies", "statement": "After any sequence of pushes, walking the list yields the pushed contents and flags in order, the list length equals the number of successful pushes, and the caller's buffers are neither retained nor modified.", "quantifier": "every sequence of pushes with arbitrary contents, in every heap", "why_tests_cant": "Pointer-linked structure: must hold for every length and heap shape.", "anchors": ["src/voucher/array.c:push_array_list", "src/voucher/array.c:init_array_list", "src/voucher/keyvalue.c:push_keyvalue_list", "src/voucher/array.h:dl_list_add_tail", "src/voucher/array.h:dl_list_len"]}
{"id": "C12", "title": "Freeing a list releases everything exactly once", "statement": "Freeing a list built by any sequence of pushes releases each node, each owned buffer and the head exactly once, touches no other memory and never performs an invalid access.", "quantifier": "every list length and every heap", "why_tests_cant": "Double frees and leaks over arbitrary lengths cannot be enumerated.", "anchors": ["src/voucher/array.c:free_array_list", "src/voucher/keyvalue.c:free_keyvalue_list", "src/voucher/array.h:dl_list_del"]}
{"id": "C13", "title": "Out-of-memory during push is reported, not fatal", "statement": "If memory runs out at any allocation inside a push, the push returns -1, the list is unchanged and no invalid memory access happens.", "quantifier": "every list and every allocation failure point", "why_tests_cant": "Crash points inside allocation sequences are not reachable by the unit tests.", "anchors": ["src/voucher/array.c:push_array_list", "src/voucher/keyvalue.c:push_keyvalue_list"]}
{"id": "C14", "title": "Copying and comparing binary arrays", "statement": "Comparing two arrays gives 1 exactly when both have the same length and bytes, 0 when both are present and differ, -1 when either pointer is missing; copying yields an array that compares equal to the source.", "quantifier": "every pair of arrays", "why_tests_cant": "All pairs of arrays.", "anchors": ["src/voucher/array.c:copy_binary_array", "src/voucher/array.c:compare_binary_array"]}
{"id": "C15", "title": "Setting then getting a voucher attribute", "statement": "After a successful set of any attribute through any of the setters, the matching getter returns exactly the value set, and the attribute is reported non-empty when the value is non-empty.", "quantifier": "every voucher, attribute and value", "why_tests_cant": "Cross product of attributes, values and prior states.", "anchors": ["src/voucher/voucher.c:set_attr_bool_voucher", "src/voucher/voucher.c:set_attr_time_voucher", "src/voucher/voucher.c:set_attr_enum_voucher", "src/voucher/voucher.c:set_attr_str_voucher", "src/voucher/voucher.c:set_attr_array_voucher", "src/voucher/voucher.c:get_attr_bool_voucher", "src/voucher/voucher.c:is_attr_voucher_nonempty"]}
{"id": "C16", "title": "Setting or clearing one attribute leaves all others unchanged", "statement": "Any set (successful or not) or clear of one attribute leaves the value of every other attribute unchanged.", "quantifier": "every voucher, every pair of distinct attributes, every value", "why_tests_cant": "All states and pairs.", "anchors": ["src/voucher/voucher.c:set_attr_voucher", "src/voucher/voucher.c:clear_attr_voucher"]}
{"id": "C17", "title": "A setter of the wrong kind or with a bad value is rejected without effect", "statement": "Calling a setter with an attribute of another kind, an out-of-range enum, an over-long serial number or unparsable text returns -1 and leaves every attribute of the voucher unchanged.", "quantifier": "every voucher, attribute number and value", "why_tests_cant": "All attribute numbers and values.", "anchors": ["src/voucher/voucher.c:set_attr_enum_voucher", "src/voucher/voucher.c:set_attr_nstr_voucher", "src/voucher/voucher.c:set_attr_array_voucher"]}
{"id": "C18", "title": "Vouchers stay well-formed under every history", "statement": "Starting from an empty voucher, after any sequence of set, clear and parse operations, the assertion is one of the defined values, the serial number is shorter than 128 bytes, and no attribute array is a NULL pointer with a non-zero length.", "quantifier": "every finite sequence of API calls with arbitrary arguments", "why_tests_cant": "Arbitrary histories.", "anchors": ["src/voucher/voucher.c:set_attr_voucher", "src/voucher/voucher.c:clear_attr_voucher", "src/voucher/voucher.c:set_keyvalue_voucher"]}
{"id": "C19", "title": "Clearing an attribute empties it", "statement": "Clearing an attribute makes it empty (zero date, unset assertion, no serial, no array, false) and clearing twice equals clearing once.", "quantifier": "every voucher and attribute", "why_tests_cant": "All states.", "anchors": ["src/voucher/voucher.c:clear_attr_voucher", "src/voucher/voucher.c:is_attr_voucher_nonempty"]}
{"id": "C20", "title": "No memory is lost over the life of a voucher", "statement": "After any sequence of attribute sets and clears followed by freeing the voucher, every block allocated for the voucher has been released exactly once.", "quantifier": "every finite history of voucher operations", "why_tests_cant": "Leaks depend on history, unit tests do not observe them.", "anchors": ["src/voucher/voucher.c:set_attr_nstr_voucher", "src/voucher/voucher.c:set_attr_array_voucher", "src/voucher/voucher.c:set_attr_base64_voucher", "src/voucher/voucher.c:clear_attr_voucher", "src/voucher/voucher.c:free_voucher", "src/voucher/array.c:copy_binary_array"]}
{"id": "C21", "title": "Voucher JSON round trip", "statement": "For every voucher whose serial number contains no quote, backslash or control byte, whose arrays are non-empty and whose dates have four digit years, serialising and deserialising yields a voucher with the same observable attributes.", "quantifier": "every well-formed voucher (any subset of attributes, any contents)", "why_tests_cant": "2^11 attribute subsets times unbounded contents.", "anchors": ["src/voucher/voucher.c:serialize_voucher", "src/voucher/voucher.c:deserialize_voucher", "src/voucher/voucher.c:voucher_to_keyvalue", "src/voucher/voucher.c:set_keyvalue_voucher", "lib/jsmn.cmake"]}
{"id": "C22", "title": "A serial number cannot change other attributes of the serialised voucher", "statement": "For every voucher and every serial number accepted by the setter, the serialised text, if it deserialises at all, yields a voucher with that serial number and no other attribute changed.", "quantifier": "every serial number string of up to 127 bytes", "why_tests_cant": "Injection strings are unbounded; sampling benign serials never reveals it.", "anchors": ["src/voucher/voucher.c:serialize_voucher", "src/voucher/serialize.c:serialize_escapestr"]}
{"id": "C23", "title": "Deserialisation accepts only known attributes with valid values", "statement": "If a JSON text deserialises, every key of the voucher object is one of the eleven attribute names and every value is valid for that attribute; an attribute that does not occur stays empty.", "quantifier": "every byte string", "why_tests_cant": "All inputs.", "anchors": ["src/voucher/voucher.c:deserialize_voucher", "src/voucher/voucher.c:set_keyvalue_voucher"]}
{"id": "C24", "title": "Only an object under the exact key ietf-voucher:voucher is read", "statement": "A JSON text deserialises only if it contains the member named exactly \"ietf-voucher:voucher\".", "quantifier": "every byte string", "why_tests_cant": "All inputs.", "anchors": ["src/voucher/voucher.c:deserialize_voucher"]}
{"id": "C25", "title": "Deserialisation never reads outside the input", "statement": "For every input byte string of length below 2^31 deserialisation terminates and reads only bytes inside the given buffer, and uses only token slots that were filled.", "quantifier": "every byte string below 2^31 bytes", "why_tests_cant": "Untrusted input; all strings.", "anchors": ["src/voucher/voucher.c:deserialize_voucher", "src/voucher/voucher.c:set_attr_strtime_voucher", "src/voucher/voucher.c:check_size_str_equal"]}
{"id": "C26", "title": "Repeated attributes: the last one wins", "statement": "When the same attribute occurs several times in the JSON voucher object the last occurrence decides the value.", "quantifier": "every list of repeated attributes", "why_tests_cant": "All multiplicities and orders.", "anchors": ["src/voucher/voucher.c:deserialize_voucher", "src/voucher/voucher.c:set_keyvalue_voucher"]}
{"id": "C27", "title": "Serialisation separates different vouchers", "statement": "Two well-formed vouchers that differ in some observable attribute never serialise to the same text.", "quantifier": "every pair of well-formed vouchers", "why_tests_cant": "All pairs.", "anchors": ["src/voucher/voucher.c:serialize_voucher"]}
{"id": "C28", "title": "JSON token offsets are inside the text", "statement": "Every token reported by the JSON tokenizer for a successfully tokenised text has 0 <= start <= end <= length and a non-negative child count, and the count of tokens equals the number of filled slots and never exceeds the slots given.", "quantifier": "every byte string and slot count", "why_tests_cant": "All inputs; memory safety of the caller depends on it.", "anchors": ["src/voucher/voucher.c:deserialize_voucher", "lib/jsmn.cmake"]}
{"id": "C29", "title": "What a pledge request says", "statement": "A successfully created pledge voucher-request carries exactly: assertion proximity, the given creation date, serial number and registrar certificate, the nonce when given, and nothing else.", "quantifier": "every argument combination and every signing backend", "why_tests_cant": "All arguments.", "anchors": ["src/voucher/request.c:sign_pledge_voucher_request"]}
{"id": "C30", "title": "What a registrar accepts", "statement": "A registrar voucher-request is created only if the pledge request's signature verifies, its serial number equals the one in the pledge's certificate, its proximity certificate equals the registrar's certificate and its assertion is proximity.", "quantifier": "every CMS blob, certificate and verification backend", "why_tests_cant": "All adversarial inputs.", "anchors": ["src/voucher/request.c:sign_voucher_request"]}
{"id": "C31", "title": "What a registrar request says", "statement": "The created registrar voucher-request carries the pledge's nonce, the pledge's serial number, the IDevID issuer, the given creation date, the whole pledge request as prior-signed-voucher-request, and nothing else.", "quantifier": "every accepted pledge request", "why_tests_cant": "All accepted inputs.", "anchors": ["src/voucher/request.c:sign_voucher_request"]}
{"id": "C32", "title": "A malformed pledge request never crashes the registrar", "statement": "For every pledge request blob the registrar either creates a request or returns an error; it never performs an invalid memory access.", "quantifier": "every CMS blob", "why_tests_cant": "Adversarial inputs with any subset of attributes.", "anchors": ["src/voucher/request.c:sign_voucher_request"]}
{"id": "C33", "title": "What a MASA accepts", "statement": "A voucher is issued only if the registrar request verifies, contains a pledge request that verifies, both name the same serial number and the domain callback approves.", "quantifier": "every CMS blob, callback and verification backend", "why_tests_cant": "All adversarial inputs.", "anchors": ["src/voucher/request.c:sign_masa_pledge_voucher"]}
{"id": "C34", "title": "What a MASA voucher says", "statement": "An issued voucher carries assertion proximity, the pledge's serial number, the registrar request's nonce if any, the pinned certificate chosen by the callback, revocation checks off, the configured expiry and nothing else.", "quantifier": "every accepted request", "why_tests_cant": "All accepted inputs.", "anchors": ["src/voucher/request.c:sign_masa_pledge_voucher"]}
{"id": "C35", "title": "A MASA voucher is bound to what the pledge signed", "statement": "Every issued voucher carries the nonce that the pledge itself signed, and is issued as proximity only if the pledge asserted proximity.", "quantifier": "every registrar request and inner pledge request", "why_tests_cant": "A malicious registrar chooses the outer request arbitrarily.", "anchors": ["src/voucher/request.c:sign_masa_pledge_voucher"]}
{"id": "C36", "title": "What a pledge accepts", "statement": "A voucher is accepted exactly when its signature verifies, its serial number equals the pledge's, its nonce equals the pledge's when the pledge has one, it has a pinned certificate, the registrar certificate chains to it, and then exactly the pinned certificate is handed out.", "quantifier": "every voucher blob, arguments and verification backend", "why_tests_cant": "All adversarial inputs.", "anchors": ["src/voucher/request.c:verify_masa_pledge_voucher"]}
{"id": "C37", "title": "The honest protocol run completes", "statement": "If pledge, registrar and MASA are configured consistently and signature verification returns what was signed, the pledge accepts the voucher produced for its own request and obtains the certificate chosen by the MASA.", "quantifier": "every serial number, nonce, date, certificate and consistent crypto backend", "why_tests_cant": "All contents and configurations.", "anchors": ["src/voucher/request.c:sign_pledge_voucher_request", "src/voucher/request.c:sign_voucher_request", "src/voucher/request.c:sign_masa_pledge_voucher", "src/voucher/request.c:verify_masa_pledge_voucher"]}
{"id": "C38", "title": "An accepted voucher was meant for this request", "statement": "With a nonce configured, a pledge accepts a voucher only if the signed content contains that very nonce and serial number; vouchers of other sessions or devices are rejected.", "quantifier": "every pair of sessions and every voucher blob", "why_tests_cant": "Replay over all histories.", "anchors": ["src/voucher/request.c:verify_masa_pledge_voucher"]}
{"id": "C39", "title": "Expired or wrong-kind vouchers are rejected by the pledge", "statement": "A pledge rejects vouchers whose expiry date has passed, whose assertion is not acceptable, or (when the pledge has a nonce-less configuration) that carry a foreign nonce.", "quantifier": "every voucher content", "why_tests_cant": "All contents.", "anchors": ["src/voucher/request.c:verify_masa_pledge_voucher", "src/voucher/voucher.h"]}
{"id": "C40", "title": "Only trusted signers are accepted", "statement": "A voucher or request is accepted only if its signer chains to a configured trust anchor, for every configuration of the verification store.", "quantifier": "every configuration and CMS blob", "why_tests_cant": "Depends on configuration shape and the OpenSSL flags.", "anchors": ["src/voucher/crypto_ossl.c:crypto_verify_cms", "src/voucher/crypto_ossl.c:get_certificate_store", "src/brski/config.c:load_cert_files"]}
{"id": "C41", "title": "MASA endpoint answers", "statement": "The MASA voucher endpoint answers 200 with the base64 of a voucher that satisfies the issuing conditions, or 400 with an empty body; nothing else.", "quantifier": "every request body and configuration", "why_tests_cant": "All bodies.", "anchors": ["src/brski/masa/masa_api.cpp:masa_requestvoucher"]}
{"id": "C42", "title": "The MASA endpoint survives every request body", "statement": "For every request body the MASA voucher endpoint performs no invalid memory access and releases everything it allocated.", "quantifier": "every request body", "why_tests_cant": "All bodies, including malformed base64.", "anchors": ["src/brski/masa/masa_api.cpp:masa_requestvoucher", "src/voucher/serialize.c:base64_gen_decode"]}
{"id": "C43", "title": "The registrar reports a MASA refusal to the pledge", "statement": "If the MASA refuses the voucher request, the registrar's answer to the pledge is an error status.", "quantifier": "every MASA response status and body", "why_tests_cant": "All upstream behaviours.", "anchors": ["src/brski/registrar/registrar_api.cpp:registrar_requestvoucher", "src/brski/registrar/registrar_api.cpp:post_voucher_request"]}
{"id": "C44", "title": "Registrar endpoint answers", "statement": "The registrar voucher endpoint answers only 200, 400, 500 or 502; it answers 200 with a non-empty body only if the MASA answered below 400 with that body to a request fulfilling the registrar conditions; without a client certificate it answers 400.", "quantifier": "every request, certificate and environment", "why_tests_cant": "All environments.", "anchors": ["src/brski/registrar/registrar_api.cpp:registrar_requestvoucher"]}
{"id": "C45", "title": "Concurrent MASA requests do not interfere", "statement": "For every interleaving of any number of MASA requests, each answer equals the answer the same request gets alone and no request touches memory released by another.", "quantifier": "every number of requests and every schedule", "why_tests_cant": "Schedules cannot be enumerated by tests.", "anchors": ["src/brski/masa/masa_api.cpp:masa_requestvoucher", "src/brski/masa/masa_api.cpp:voucher_req_cb", "src/brski/masa/masa_server.cpp:masa_start"]}
{"id": "C46", "title": "The pledge client's success means a verified voucher", "statement": "The pledge's voucher request call returns success only if the registrar answered below 400 and the answer passed voucher verification against the registrar certificate the pledge put in its request.", "quantifier": "every sequence of registrar answers and TLS peers", "why_tests_cant": "Adversarial network.", "anchors": ["src/brski/pledge/pledge_request.cpp:post_voucher_pledge_request", "src/brski/pledge/pledge_request.cpp:verify_masa_pledge_request"]}
{"id": "C47", "title": "A bad nonce or certificate path in the configuration is a clean error", "statement": "For every pledge configuration the pledge functions end with success or an error; none releases memory twice or uses released memory.", "quantifier": "every configuration (nonce text, certificate paths)", "why_tests_cant": "All configurations.", "anchors": ["src/brski/pledge/pledge_request.cpp:verify_masa_pledge_request", "src/brski/pledge/pledge_utils.c:voucher_pledge_request_to_array", "src/brski/config.c:load_cert_files"]}
{"id": "C48", "title": "Certificate files are loaded in order or not at all", "statement": "Loading a list of certificate paths yields the certificates in path order; a missing path gives an error and leaves no list behind; no paths gives no list.", "quantifier": "every list of paths and file contents", "why_tests_cant": "All lists.", "anchors": ["src/brski/config.c:load_cert_files"]}
{"id": "C49", "title": "Bounded string copy", "statement": "sys_strlcpy never writes outside the destination, always NUL-terminates, copies the longest prefix that fits and returns the source length, for every destination size.", "quantifier": "every source string and size", "why_tests_cant": "All sizes including 0 and exact fits.", "anchors": ["src/utils/os.c:sys_strlcpy"]}
{"id": "C50", "title": "Bounded duplication and length helpers", "statement": "sys_strnlen_s returns min(length, bound), sys_strndup yields the longest prefix of at most the given length, sys_memdup yields an equal copy, sys_realloc_array refuses sizes whose product overflows.", "quantifier": "every string, bound and 64-bit size", "why_tests_cant": "All sizes; overflow only for huge values.", "anchors": ["src/utils/os.c:sys_strnlen_s", "src/utils/os.c:sys_strndup", "src/utils/os.c:sys_memdup", "src/utils/os.c:sys_realloc_array"]}
{"id": "C51", "title": "Hex printing stays in its buffer and terminates the string", "statement": "printf_hex writes only inside the buffer, leaves a NUL-terminated string made of the first bytes of the input in hex, and returns that string's length.", "quantifier": "every buffer size and data", "why_tests_cant": "All size/data combinations, truncation points.", "anchors": ["src/utils/log.c:printf_hex"]}
{"id": "C52", "title": "Log level filtering", "statement": "A message is written exactly when its level is at least the configured level (log_error_exit_proc ignores the level) and logging is not quiet, on the stream and in the form the settings in force say, and every lock acquired is released, for every sequence of configuration calls and messages.", "quantifier": "every history of logging calls", "why_tests_cant": "Histories.", "anchors": ["src/utils/log.c:log_msg", "src/utils/log.c:log_levels", "src/utils/log.c:log_check_level"]}
{"id": "C53", "title": "Reading standard input stays inside its buffer", "statement": "Reading standard input never writes outside the 4096-byte buffer, for every input length.", "quantifier": "every input length", "why_tests_cant": "Boundary length.", "anchors": ["src/brski/brski.cpp:read_stdin", "src/brski/brski.cpp:main"]}
{"id": "C54", "title": "HTTP routing", "statement": "Every configured route is served by its handler with the method asked for; repeated request headers are joined in order with ', '; an unhandled path yields the error body.", "quantifier": "every route table, request and header multimap", "why_tests_cant": "All tables and headers.", "anchors": ["src/brski/http/httplib_wrapper.cpp:httplib_register_routes", "src/brski/http/httplib_wrapper.cpp:get_request_header"]}
{"id": "C55", "title": "Configuration failure leaves a releasable configuration", "statement": "Whether or not loading a configuration list succeeds, at every allocation failure point, releasing the configuration afterwards releases each block at most once.", "quantifier": "every configuration file and every allocation failure point", "why_tests_cant": "Crash points.", "anchors": ["src/brski/config.c:load_config_value_list", "src/brski/config.c:free_masa_config_content"]}
{"id": "C56", "title": "Setting an attribute to its own value keeps it", "statement": "Setting an array attribute of a voucher to the array obtained from that same voucher's getter leaves the attribute value unchanged.", "quantifier": "every voucher and array attribute", "why_tests_cant": "Aliasing.", "anchors": ["src/voucher/voucher.c:set_attr_array_voucher", "src/voucher/voucher.c:get_attr_array_voucher", "src/voucher/array.c:copy_binary_array"]}
{"id": "C57", "title": "A failed allocation during parsing is reported", "statement": "When the voucher cannot be allocated, deserialising any text returns NULL without an invalid memory access.", "quantifier": "every byte string, failing allocator", "why_tests_cant": "Allocation failure.", "anchors": ["src/voucher/voucher.c:deserialize_voucher", "src/voucher/voucher.c:set_attr_str_voucher"]}
{"id": "C58", "title": "Text outside the voucher object does not influence the voucher", "statement": "Two texts that agree up to the closing brace of the voucher object deserialise to vouchers with the same attributes, if both deserialise.", "quantifier": "every pair of texts with a common prefix", "why_tests_cant": "Malformed inputs in all shapes.", "anchors": ["src/voucher/voucher.c:deserialize_voucher"]}
{"id": "C59", "title": "Attribute values are JSON strings or words", "statement": "A JSON object or array given as the value of an attribute is rejected.", "quantifier": "every JSON text", "why_tests_cant": "Nested inputs in all shapes.", "anchors": ["src/voucher/voucher.c:deserialize_voucher", "src/voucher/voucher.c:set_keyvalue_voucher"]}
{"id": "C60", "title": "A malformed registrar request never crashes the MASA", "statement": "For every registrar request blob, store configuration and callback the MASA either issues a voucher or returns an error; it never performs an invalid memory access.", "quantifier": "every CMS blob, callback and crypto backend", "why_tests_cant": "Adversarial inputs with any subset of attributes at two nesting levels.", "anchors": ["src/voucher/request.c:sign_masa_pledge_voucher"]}
{"id": "C61", "title": "A malformed voucher never crashes the pledge", "statement": "For every voucher blob and every registrar certificate the pledge's verification either accepts or returns an error; it never performs an invalid memory access.", "quantifier": "every CMS blob and crypto backend", "why_tests_cant": "Adversarial inputs with any subset of attributes.", "anchors": ["src/voucher/request.c:verify_masa_pledge_voucher"]}
{"id": "C62", "title": "The pinned certificate authenticates the registrar", "statement": "A voucher is accepted only if the certificate of the registrar the pledge talks to chains to the certificate pinned by the voucher.", "quantifier": "every voucher, registrar certificate and domain store", "why_tests_cant": "Depends on how OpenSSL treats a missing store, for every certificate.", "anchors": ["src/voucher/request.c:verify_masa_pledge_voucher", "src/voucher/crypto_ossl.c:crypto_verify_cert", "src/brski/pledge/pledge_request.cpp:verify_masa_pledge_request"]}
{"id": "C63", "title": "Creating a pledge request never crashes", "statement": "For every serial number, nonce, registrar certificate, signing certificate and key, creating a pledge request ends with a request or an error without an invalid memory access.", "quantifier": "every combination of arguments", "why_tests_cant": "All combinations, including missing ones.", "anchors": ["src/voucher/request.c:sign_pledge_voucher_request"]}
{"id": "C64", "title": "A voucher owns its contents", "statement": "The getters of a voucher return exactly the last value successfully set for each string or array attribute (nothing after a clear), and neither later changes to nor release of the caller's buffers affect them; the caller's memory is never modified.", "quantifier": "every finite history of sets and clears, every later state of the caller's memory", "why_tests_cant": "Histories are unbounded and aliasing is invisible to value tests.", "anchors": ["src/voucher/voucher.c:set_attr_array_voucher", "src/voucher/voucher.c:set_attr_str_voucher", "src/voucher/voucher.c:clear_attr_voucher", "src/voucher/voucher.c:get_attr_array_voucher", "src/voucher/array.c:copy_binary_array"]}
{"id": "C65", "title": "Reading a voucher loses no memory", "statement": "For every text, reading a voucher from it and freeing the result releases every block allocated on the way exactly once and touches no other memory, whether the text is accepted or rejected.", "quantifier": "every JSON text and heap state", "why_tests_cant": "Leaks depend on the combination and repetition of members.", "anchors": ["src/voucher/voucher.c:deserialize_voucher", "src/voucher/voucher.c:set_attr_base64_voucher", "src/voucher/voucher.c:free_voucher"]}
{"id": "C66", "title": "A failed set changes nothing", "statement": "If setting an attribute fails, every attribute of the voucher keeps the value it had and the voucher can still be used and freed.", "quantifier": "every history, operation and pattern of allocation failures", "why_tests_cant": "Needs every allocation failure after every history.", "anchors": ["src/voucher/voucher.c:set_attr_array_voucher", "src/voucher/voucher.c:set_attr_nstr_voucher", "src/voucher/array.c:copy_binary_array"]}
{"id": "C67", "title": "Every value of a repeated list key is loaded", "statement": "If a configuration section gives a certificate-path key several times, the loaded list holds all the non-empty values in the order of the file.", "quantifier": "every configuration file", "why_tests_cant": "Any number of repetitions and positions.", "anchors": ["src/brski/config.c:load_config_value_list"]}
{"id": "C68", "title": "The configuration holds what the file says", "statement": "After a successful load, every documented string field of the pledge, registrar and MASA parts holds the value of its key (or its default), cut to its room, NULL if empty; every list field holds what its key gives.", "quantifier": "every configuration file while memory lasts", "why_tests_cant": "Unbounded file contents and all fields at once.", "anchors": ["src/brski/config.c:load_brski_config"]}
{"id": "C69", "title": "The registrar's voucher endpoint survives every request", "statement": "For every client certificate, body and answer of the MASA the registrar's voucher endpoint completes without undefined behaviour, and whenever it completes it has released everything it allocated and touched nothing else.", "quantifier": "every client, body, configuration and MASA", "why_tests_cant": "The bodies are chosen by the network.", "anchors": ["src/brski/registrar/registrar_api.cpp:registrar_requestvoucher", "src/brski/registrar/registrar_api.cpp:post_voucher_request"]}
{"id": "C70", "title": "Enrolment answers with the CA's signature", "statement": "The enrolment endpoint answers 200 with a body exactly when the CA signs the decoded certificate, the body being the signed certificate in base64; otherwise 400 with an empty body. It releases everything it allocated.", "quantifier": "every body, configuration and signing function", "why_tests_cant": "All bodies and files.", "anchors": ["src/brski/registrar/registrar_api.cpp:registrar_est_simpleenroll"]}
{"id": "C71", "title": "The enrolment endpoint survives every body", "statement": "For every body the enrolment endpoint completes without undefined behaviour.", "quantifier": "every body", "why_tests_cant": "The bodies are chosen by the network.", "anchors": ["src/brski/registrar/registrar_api.cpp:registrar_est_simpleenroll"]}
{"id": "C72", "title": "Only an identified client is enrolled", "statement": "A client that presents no certificate is not given a signed certificate.", "quantifier": "every body and configuration", "why_tests_cant": "Tests use honest clients.", "anchors": ["src/brski/registrar/registrar_api.cpp:registrar_est_simpleenroll", "src/brski/registrar/registrar_server.cpp:registrar_start"]}
{"id": "C73", "title": "An honest onboarding succeeds over HTTP", "statement": "When the pledge's client talks to the registrar's handler and that one to the MASA's, and the parties trust each other's signers, the pledge's voucher request returns success and the caller's array holds the domain certificate configured at the MASA.", "quantifier": "every serial number of plain characters, nonce, certificates, dates, trusted signers, memory layout and state of the MASA's context", "why_tests_cant": "Sizes and contents of all messages are unbounded; three processes and OpenSSL take part.", "anchors": ["src/brski/pledge/pledge_request.cpp:post_voucher_pledge_request", "src/brski/registrar/registrar_api.cpp:registrar_requestvoucher", "src/brski/masa/masa_api.cpp:masa_requestvoucher"]}
{"id": "C74", "title": "A successful onboarding pins the MASA's certificate", "statement": "If the pledge's voucher request returns success through the registrar's and the MASA's handlers, the caller's array holds exactly the domain certificate configured at the MASA, the pledge's request contained the registrar's own TLS certificate, and the registrar saw the pledge's serial number in the client certificate.", "quantifier": "every first connection (also to another server), configuration, client certificate and message", "why_tests_cant": "Adversarial first connection and arbitrary contents.", "anchors": ["src/brski/pledge/pledge_request.cpp:post_voucher_pledge_request", "src/brski/registrar/registrar_api.cpp:registrar_requestvoucher", "src/brski/masa/masa_api.cpp:masa_requestvoucher"]}
{"id": "C75", "title": "The time stamp of a log line stays in its buffer", "statement": "Formatting the current time for a log line never writes outside its 25-byte buffer and gives YYYY-MM-DD HH:MM:SS.mmm.", "quantifier": "every time localtime can return", "why_tests_cant": "Boundary years never reached in tests.", "anchors": ["src/utils/log.c:time_to_str", "src/utils/log.c:log_msg"]}
{"id": "C76", "title": "Every log file opened is closed", "statement": "Once log_close_file has been called, no log file opened before is left open, for every history of opening and closing.", "quantifier": "every history of opening and closing log files", "why_tests_cant": "Histories.", "anchors": ["src/utils/log.c:log_open_file", "src/utils/log.c:log_close_file"]}
{"id": "C77", "title": "Errors are plain text", "statement": "Every error answer (status 400 or more) of the servers carries exactly one Content-Type header, text/plain, as the comment on the error handler demands of BRSKI errors.", "quantifier": "every route table, handler and request", "why_tests_cant": "Any handler and any request can produce the error.", "anchors": ["src/brski/http/httplib_wrapper.cpp:set_error_handler", "src/brski/http/httplib_wrapper.cpp:set_response"]}
{"id": "C78", "title": "Starting a server", "statement": "A start that returns 0 has listened, a start that fails returns a negative value, leaves no server behind and does not crash.", "quantifier": "every route table, TLS configuration, listen outcome and exception", "why_tests_cant": "Failures of TLS set-up, sockets and regular expressions are not produced by tests.", "anchors": ["src/brski/http/httplib_wrapper.cpp:httplib_start", "src/brski/http/https_server.cpp:https_start"]}
{"id": "C79", "title": "A handler's answer is sent", "statement": "The status, body and headers a route handler returns are what the client receives; a handler's failure is never sent as success.", "quantifier": "every handler, status, header map, body and request", "why_tests_cant": "All statuses, headers and bodies.", "anchors": ["src/brski/http/httplib_wrapper.cpp:set_response", "src/brski/http/httplib.h:Server::process_request"]}
{"id": "C80", "title": "sign-cert succeeds only with a certificate for its key", "statement": "The command sign-cert ends with 0 exactly when it holds a new private key and a certificate issued for that key by the domain whose certificate the voucher pins; otherwise it ends with -1, both output arrays empty and all memory released. It reports every failure and survives every answer.", "quantifier": "every configuration, device, registrar, MASA and answer", "why_tests_cant": "Keys, answers and failures of every step combine without bound.", "anchors": ["src/brski/pledge/pledge_request.cpp:post_sign_cert", "src/brski/pledge/pledge_request.cpp:generate_sign_cert", "src/brski/brski.cpp:main"]}
{"id": "C81", "title": "Generated certificates are distinct", "statement": "Two certificates generated by sign-cert with different random values have different subject serial numbers, and certificates of different devices have different serial numbers.", "quantifier": "every pair of random values, generators and times", "why_tests_cant": "All pairs of 64-bit values and of start times.", "anchors": ["src/brski/pledge/pledge_request.cpp:generate_sign_cert", "src/brski/pledge/pledge_request.cpp:gen_rand64", "src/utils/os.c:printf_hex"]}
{"id": "C82", "title": "The command line is honoured", "statement": "The program runs the command named by the first word that is no option, with the configuration file, input file, output name, address and port given by the last use of each option, whatever their order and grouping; a line that cannot be understood, including a port that is no port number, runs no command.", "quantifier": "every list of words", "why_tests_cant": "Lines are unbounded lists of arbitrary words: options may be grouped, repeated, joined with their argument or not, after words, or behind --; tests try a handful.", "anchors": ["src/brski/brski.cpp:process_options", "src/brski/brski.cpp:get_command_id", "src/brski/brski.cpp:main"]}
{"id": "C83", "title": "The exit status and the requested place tell the result", "statement": "A command ends with status 0 exactly when its result (the signed request; the pinned certificate; the certificate and its key; the serial number) exists and is in the place asked for: on standard output as base64, or in the files named by -o with .crt, .key or .smime appended; otherwise it ends with status 1.", "quantifier": "every line, configuration file, file system, registrar and MASA behaviour, device and OpenSSL behaviour", "why_tests_cant": "Depends on the whole chain from the command line to two HTTP exchanges and the output files, with failures at any step; a test runs one chain.", "anchors": ["src/brski/brski.cpp:main", "src/brski/brski.cpp:output_domain_cert", "src/voucher/crypto_ossl.c:certbuf_to_file", "src/voucher/crypto_ossl.c:keybuf_to_file"]}
{"id": "C84", "title": "The program survives every line and configuration", "statement": "Whatever the command line, configuration file, registrar and input, the program ends with a status and without touching memory it does not own.", "quantifier": "every list of words, configuration file and behaviour of the outside", "why_tests_cant": "A crash needs one particular combination of missing keys, unreadable files and answers; tests do not enumerate these.", "anchors": ["src/brski/brski.cpp:main", "src/brski/brski.cpp:show_help", "src/brski/brski.cpp:process_options"]}
{"id": "C85", "title": "Asking for the signers' certificates is safe", "statement": "crypto_verify_cms called with out_certs uses no object after its release and releases only references it owns.", "quantifier": "every OpenSSL, message, certificate list, store and state of the objects", "why_tests_cant": "A use of an X509 structure right after its release reads memory that still looks valid; the existing test passes.", "anchors": ["src/voucher/crypto_ossl.c:crypto_verify_cms", "src/voucher/crypto_ossl.c:exatract_cms_certs", "src/voucher/request.c:sign_masa_pledge_voucher"]}
{"id": "C86", "title": "Verification and signing release what they create", "statement": "crypto_verify_cms (without out_certs), crypto_verify_cert and the crypto_sign_*cms functions use no released object, leave the caller's objects as they were, and afterwards only the returned buffer is left of what they created, also when a call fails.", "quantifier": "every OpenSSL, input and choice of failing calls", "why_tests_cant": "Leaks on error paths need each OpenSSL call to fail in turn, with every list length.", "anchors": ["src/voucher/crypto_ossl.c:crypto_verify_cms", "src/voucher/crypto_ossl.c:crypto_verify_cert", "src/voucher/crypto_ossl.c:sign_withkey_cms", "src/voucher/crypto_ossl.c:get_certificate_stack", "src/voucher/crypto_ossl.c:get_certificate_store"]}
{"id": "C87", "title": "Key and certificate generation survives failing calls", "statement": "crypto_generate_rsakey, crypto_generate_eckey, crypto_generate_eccert, crypto_generate_rsacert and crypto_sign_cert end without undefined behaviour whichever OpenSSL calls fail, and release all but their result; crypto_sign_cert replaces the caller's certificate exactly on success.", "quantifier": "every choice of results of the OpenSSL calls and every meta data shape", "why_tests_cant": "OpenSSL calls cannot be made to fail with each of their error codes from a test.", "anchors": ["src/voucher/crypto_ossl.c:crypto_generate_rsakey", "src/voucher/crypto_ossl.c:crypto_generate_eckey", "src/voucher/crypto_ossl.c:crypto_generate_eccert", "src/voucher/crypto_ossl.c:crypto_generate_rsacert", "src/voucher/crypto_ossl.c:crypto_sign_cert"]}
{"id": "C88", "title": "Lack of memory never turns a refusal into an acceptance", "statement": "Whichever OpenSSL calls fail, a message or chain that is accepted would also be accepted if none failed, with the same content, and a message that is signed has the content and the certificates it would have if none failed.", "quantifier": "every OpenSSL, input and choice of failing calls", "why_tests_cant": "The number of combinations of failing calls is unbounded.", "anchors": ["src/voucher/crypto_ossl.c:crypto_verify_cms", "src/voucher/crypto_ossl.c:crypto_verify_cert", "src/voucher/crypto_ossl.c:sign_withkey_cms", "src/voucher/crypto_ossl.c:get_certificate_stack"]}
{"id": "C89", "title": "Files are closed and objects released", "statement": "file_to_x509buf, file_to_keybuf, certbuf_to_file, keybuf_to_file, cmsbuf_to_file, crypto_cert2buf and crypto_getcert_issuer close every file they open and release every object they create except the returned array and its buffer, whichever call fails, and fail exactly when a call fails or the content cannot be parsed.", "quantifier": "every content and choice of failing calls", "why_tests_cant": "Descriptor leaks on error paths show only after many failing calls.", "anchors": ["src/voucher/crypto_ossl.c:file_to_x509buf", "src/voucher/crypto_ossl.c:file_to_keybuf", "src/voucher/crypto_ossl.c:certbuf_to_file", "src/voucher/crypto_ossl.c:keybuf_to_file", "src/voucher/crypto_ossl.c:cmsbuf_to_file", "src/voucher/crypto_ossl.c:crypto_cert2buf", "src/voucher/crypto_ossl.c:crypto_getcert_issuer"]}
{"id": "C90", "title": "Every enrolment is recorded", "statement": "Every certificate that the registrar issues on /.well-known/est/simpleenroll is entered in its log file with the time, the client and the certificate; refused requests leave the log unchanged.", "quantifier": "every certificate, request, registrar state, clock and log", "why_tests_cant": "Depends on the fields of two arbitrary certificates and on what the client presents.", "anchors": ["src/brski/registrar/registrar_api.cpp:save_to_log", "src/brski/registrar/registrar_api.cpp:registrar_est_simpleenroll"]}
{"id": "C91", "title": "The enrolment log can be read back", "statement": "Two different histories of enrolments never leave the same log.", "quantifier": "every history of any length", "why_tests_cant": "Quantifies over pairs of unbounded histories with arbitrary certificate fields.", "anchors": ["src/brski/registrar/registrar_api.cpp:save_to_log", "src/voucher/crypto_ossl.c:crypto_getcert_serial"]}
{"id": "C92", "title": "Recording an enrolment releases its memory", "statement": "Recording an enrolment ends without undefined behaviour, releases every list, text and file it creates, touches no block of the caller, and when an allocation fails leaves the log as it was.", "quantifier": "every pair of certificates and choice of failing allocations", "why_tests_cant": "Each of the allocations would have to fail in turn, with all shapes of certificates.", "anchors": ["src/brski/registrar/registrar_api.cpp:save_to_log", "src/voucher/crypto_ossl.c:crypto_getcert_meta", "src/voucher/keyvalue.c:push_keyvalue_list"]}
{"id": "C93", "title": "Enrolment happens with the pinned domain only", "statement": "sign-cert sends its enrolment request only to a server that the pinned certificate of the voucher certifies, under the configured name, and takes a certificate from no one else.", "quantifier": "every server chain, set of system CAs, pinned certificate, host name and network behaviour", "why_tests_cant": "Depends on the CAs of the machine, on what a stranger's server presents and on when connections fail.", "anchors": ["src/brski/http/httplib_wrapper.cpp:httplib_post_request_ca", "src/brski/http/httplib.h:SSLClient::load_certs", "src/brski/http/httplib.h:SSLClient::initialize_ssl", "src/brski/pledge/pledge_request.cpp:post_sign_cert"]}
{"id": "C94", "title": "The registrar asks a MASA it can trust", "statement": "The registrar hands voucher requests only to a server certified by a CA known to it, and takes vouchers from no one else.", "quantifier": "every server chain, CA file and network behaviour", "why_tests_cant": "Needs an impostor with each kind of certificate.", "anchors": ["src/brski/registrar/registrar_api.cpp:post_voucher_request", "src/brski/http/httplib_wrapper.cpp:httplib_post_request"]}
{"id": "C95", "title": "Requests carry the configured certificate", "statement": "Every request is sent over a connection authenticated with the configured client certificate; when certificate or key cannot be used nothing is sent and the call fails.", "quantifier": "every pair of paths, file contents and network behaviour", "why_tests_cant": "All contents of the files, with the retry inside the library.", "anchors": ["src/brski/http/httplib.h:SSLClient::SSLClient", "src/brski/http/httplib_wrapper.cpp:httplib_post_request", "src/brski/http/httplib_wrapper.cpp:httplib_post_request_ca"]}
{"id": "C96", "title": "Servers serve certified clients only", "statement": "The registrar and the MASA serve exactly the clients whose certificate chain leads to a CA of tlsCACertPath; no client without a certificate is served.", "quantifier": "every client chain, configuration and set of CAs", "why_tests_cant": "Needs every kind of client chain against every configuration.", "anchors": ["src/brski/http/httplib.h:SSLServer::SSLServer", "src/brski/http/httplib.h:SSL_verify_fn", "src/brski/registrar/registrar_server.cpp:registrar_start", "src/brski/masa/masa_server.cpp:masa_start"]}
{"id": "C97", "title": "A server with unusable TLS files refuses to start", "statement": "When the TLS certificate or key cannot be used, starting the registrar or the MASA fails with an error and without a crash.", "quantifier": "every configuration and file content", "why_tests_cant": "Tests start servers with good files.", "anchors": ["src/brski/http/httplib.h:SSLServer::SSLServer", "src/brski/http/httplib_wrapper.cpp:httplib_start", "src/brski/registrar/registrar_server.cpp:registrar_start"]}
{"id": "C98", "title": "The peer certificate belongs to the answer", "statement": "The certificate that a POST hands back is the one shown on the connection that gave the answer, also when the library connects again, and every certificate it obtains is released.", "quantifier": "every sequence of connections, chains and answers", "why_tests_cant": "The second connection happens only when a server closes at one particular moment.", "anchors": ["src/brski/http/httplib_wrapper.cpp:httplib_post_request", "src/brski/http/httplib.h:ClientImpl::send", "src/brski/http/httplib.h:SSLClient::initialize_ssl", "src/voucher/crypto_ossl.c:crypto_copycert"]}
{"id": "C99", "title": "A request is sent once", "statement": "One call sends its request at most once, and a call that fails has not delivered it.", "quantifier": "every sequence of connections and answers", "why_tests_cant": "Depends on when the server closes the connection.", "anchors": ["src/brski/http/httplib.h:ClientImpl::send", "src/brski/http/httplib.h:ClientImpl::process_request", "src/brski/pledge/pledge_request.cpp:post_sign_cert"]}
{"id": "C100", "title": "A request arrives as it was sent", "statement": "The path, content type and body given to SSLClient::Post are what the route handler of the server gets, and nothing else is handled on that connection, however TCP splits the bytes.", "quantifier": "every host, port, path and content type without characters special in URLs and headers, every body of any length, every splitting of the bytes, whatever follows", "why_tests_cant": "Every body and every splitting into reads.", "anchors": ["src/brski/http/httplib.h:ClientImpl::write_request", "src/brski/http/httplib.h:Server::process_request", "src/brski/http/httplib.h:read_headers", "src/brski/http/httplib.h:read_content_with_length", "src/brski/http/httplib.h:parse_request_line"]}
{"id": "C101", "title": "An answer arrives as the handler gave it", "statement": "The status and body a handler returns are what httplib_post_request returns to the client.", "quantifier": "every status, header map and body, every splitting of the bytes", "why_tests_cant": "All statuses and bodies, over the writing and the reading code together.", "anchors": ["src/brski/http/httplib.h:Server::write_response_core", "src/brski/http/httplib.h:ClientImpl::read_response_line", "src/brski/http/httplib.h:ClientImpl::process_request", "src/brski/http/httplib_wrapper.cpp:httplib_post_request"]}
{"id": "C102", "title": "A message that is cut off is not taken for a whole one", "statement": "When the connection ends or fails in the middle of a request no handler sees it, and in the middle of an answer the client reports a failure.", "quantifier": "every message, every position of the cut, every splitting of the bytes", "why_tests_cant": "Every position in messages of any length.", "anchors": ["src/brski/http/httplib.h:read_content", "src/brski/http/httplib.h:read_content_without_length", "src/brski/http/httplib.h:read_headers", "src/brski/http/httplib.h:getline"]}
{"id": "C103", "title": "The body of a request is never handled as a request", "statement": "All bytes of one HTTP message with a Content-Length belong to one request; none is taken for the beginning of another.", "quantifier": "every sequence of bytes on a connection", "why_tests_cant": "A hostile client chooses the bytes.", "anchors": ["src/brski/http/httplib.h:Server::process_request", "src/brski/http/httplib.h:Server::read_content", "src/brski/http/httplib.h:expect_content", "src/brski/http/httplib.h:prepare_content_receiver"]}
{"id": "C104", "title": "Header values arrive as they were sent", "statement": "The handlers get each header value as the client sent it, and no value contains a line end.", "quantifier": "every list of header lines", "why_tests_cant": "All values, with every special character.", "anchors": ["src/brski/http/httplib.h:parse_header", "src/brski/http/httplib.h:decode_url", "src/brski/http/httplib.h:read_headers"]}
{"id": "C105", "title": "Every request gets one answer", "statement": "The server gives exactly one answer, which the client can read, to each request it reads, malformed or not, and handles no more than five requests on a connection.", "quantifier": "every sequence of bytes on a connection", "why_tests_cant": "Malformed input is unbounded.", "anchors": ["src/brski/http/httplib.h:Server::process_request", "src/brski/http/httplib.h:process_server_socket_core", "src/brski/http/httplib.h:parse_request_line"]}
{"id": "C106", "title": "TLS and HTTP change nothing", "statement": "The pledge's voucher request over TLS and HTTP, through a registrar that itself asks the MASA over TLS and HTTP, ends as if the endpoints were called directly: with the same return code and the same pinned certificate; and the first request shows the certificate the registrar serves with.", "quantifier": "every configuration and state of the three parties, every splitting of the bytes on the connections", "why_tests_cant": "Three processes, two protocols and every splitting of the bytes.", "anchors": ["src/brski/pledge/pledge_request.cpp:post_voucher_pledge_request", "src/brski/registrar/registrar_api.cpp:registrar_requestvoucher", "src/brski/masa/masa_api.cpp:masa_requestvoucher", "src/brski/http/httplib.h:SSLClient", "src/brski/http/httplib.h:SSLServer"]}
{"id": "C107", "title": "Onboarding works over the wire", "statement": "When the parties trust the certificates they sign with, listen, and let the other in, the pledge ends with the domain certificate of the MASA.", "quantifier": "every such configuration, every splitting of the bytes", "why_tests_cant": "All key material, times and sizes.", "anchors": ["src/brski/pledge/pledge_request.cpp:post_voucher_pledge_request", "src/brski/registrar/registrar_api.cpp:registrar_requestvoucher", "src/brski/masa/masa_api.cpp:masa_requestvoucher"]}
{"id": "C108", "title": "Success over the wire is genuine", "statement": "Whoever answered the pledge's first connection, success means that the pledge holds the domain certificate the MASA is configured with, that the first connection showed the registrar's own TLS certificate and that the registrar saw the pledge's serial number in the client certificate.", "quantifier": "every first network, every configuration", "why_tests_cant": "The first connection is not authenticated, so its peer is arbitrary.", "anchors": ["src/brski/pledge/pledge_request.cpp:post_voucher_pledge_request", "src/brski/registrar/registrar_api.cpp:registrar_requestvoucher", "src/brski/masa/masa_api.cpp:masa_requestvoucher"]}
{"id": "C109", "title": "Vouchers are labelled as vouchers", "statement": "A voucher is sent with the media type application/voucher-cms+json (RFC 8995 5.5, 5.6), by the registrar and by the MASA.", "quantifier": "every request answered with a voucher", "why_tests_cant": "All requests.", "anchors": ["src/brski/registrar/registrar_api.cpp:registrar_requestvoucher", "src/brski/masa/masa_api.cpp:masa_requestvoucher"]}
{"id": "C110", "title": "Enrolment works over the wire", "statement": "When onboarding over the wire can succeed and the registrar's TLS chain is trusted by the pinned certificate (or the system), the command sign-cert ends with 0, the generated key, and the certificate that the registrar's authority made from the pledge's own certificate; nothing else stays allocated.", "quantifier": "every such configuration, device and memory, every splitting of the bytes", "why_tests_cant": "All key material, times and sizes; three parties and three connections.", "anchors": ["src/brski/pledge/pledge_request.cpp:post_sign_cert", "src/brski/registrar/registrar_api.cpp:registrar_est_simpleenroll", "src/brski/pledge/pledge_request.cpp:httplib_post_request_ca"]}
{"id": "C111", "title": "A certificate obtained over the wire is the registrar's for the pledge's own key", "statement": "Whoever answered the first connection, when sign-cert succeeds the pinned certificate was the MASA's domain certificate, the registrar's chain was trusted by it or by the system, and the pledge holds what the registrar's authority made from the certificate the pledge generated for the key it holds.", "quantifier": "every first network, every configuration, device and memory", "why_tests_cant": "The first connection is not authenticated, so its peer is arbitrary.", "anchors": ["src/brski/pledge/pledge_request.cpp:post_sign_cert", "src/brski/registrar/registrar_api.cpp:registrar_est_simpleenroll", "src/brski/pledge/pledge_request.cpp:httplib_post_request_ca"]}
{"id": "C112", "title": "Concurrent requests to the registrar do not interfere", "statement": "However the thread pool interleaves voucher and enrolment requests, as long as memory suffices each gets the status and body it gets when served alone, every request is answered after its own finitely many steps, the configuration is not changed, and all memory is released; the server stops only at a request it does not survive alone.", "quantifier": "every number of requests, every interleaving, every configuration and contents of the files each request finds", "why_tests_cant": "Interleavings are unbounded in number and a test sees few of them.", "anchors": ["src/brski/registrar/registrar_api.cpp:registrar_requestvoucher", "src/brski/registrar/registrar_api.cpp:registrar_est_simpleenroll", "src/brski/registrar/registrar_server.cpp:registrar_start", "src/brski/http/httplib.h:ThreadPool"]}
{"id": "C113", "title": "Serialising a voucher loses no memory", "statement": "Serialising a voucher leaves the voucher and all other memory as it was and creates nothing but the returned text, which is exactly as long as its allocation; if it fails, for whatever reason, nothing is left allocated and NULL is returned.", "quantifier": "every voucher, every history that made it, every pattern of failing allocations", "why_tests_cant": "Allocation failures can hit any of an unbounded number of allocations.", "anchors": ["src/voucher/voucher.c:serialize_voucher", "src/voucher/voucher.c:voucher_to_keyvalue", "src/voucher/serialize.c:serialize_keyvalue2json", "src/voucher/serialize.c:serialize_escapestr", "src/voucher/keyvalue.c:push_keyvalue_list"]}
{"id": "C114", "title": "Signing a voucher request loses no memory", "statement": "sign_pledge_voucher_request and sign_voucher_request leave their arguments and all other memory as they were and create nothing but the returned array and its buffer, which hold the signed request; if they fail, for whatever reason, nothing is left allocated and NULL is returned.", "quantifier": "every argument, every received request, every pattern of failing allocations", "why_tests_cant": "The registrar signs in answer to bytes of the network for as long as it runs, and an allocation failure can hit any allocation.", "anchors": ["src/voucher/request.c:sign_pledge_voucher_request", "src/voucher/request.c:sign_voucher_request", "src/voucher/voucher.c:sign_cms_voucher", "src/voucher/voucher.c:verify_cms_voucher", "src/voucher/crypto_ossl.c:crypto_verify_cms"]}
{"id": "C115", "title": "Signing a voucher loses no memory", "statement": "sign_masa_pledge_voucher leaves its arguments and all other memory as they were and creates nothing but the returned array and its buffer, which hold the signed voucher; if it fails, for whatever reason, nothing is left allocated and NULL is returned.", "quantifier": "every argument, every received request, every pattern of failing allocations", "why_tests_cant": "The MASA signs in answer to bytes of the network for as long as it runs, and an allocation failure can hit any allocation.", "anchors": ["src/voucher/request.c:sign_masa_pledge_voucher", "src/voucher/voucher.c:verify_cms_voucher", "src/voucher/crypto_ossl.c:crypto_verify_cms", "src/voucher/voucher.c:sign_cms_voucher"]}
{"id": "C116", "title": "Checking a voucher loses no memory", "statement": "verify_masa_pledge_voucher changes nothing but the caller's pinned_domain_cert. On success it holds a new buffer with the certificate pinned by the voucher and nothing else is left allocated (but the list of signers if asked for); on failure, for whatever reason, nothing is left and pinned_domain_cert is as it was.", "quantifier": "every argument, every received voucher, every pattern of failing allocations", "why_tests_cant": "The voucher comes from the network and an allocation failure can hit any allocation.", "anchors": ["src/voucher/request.c:verify_masa_pledge_voucher", "src/voucher/array.c:copy_binary_array", "src/voucher/array.c:push_array_list", "src/voucher/voucher.c:verify_cms_voucher"]}
{"id": "C117", "title": "A MASA that serves for long loses no memory", "statement": "Serving requests one after another, whatever they contain, the MASA gives each the right answer, does not change its configuration, and after the last one holds no memory that it did not hold before, counting every allocation of the handler and of the functions of request.c it calls.", "quantifier": "every sequence of requests of any length, every configuration", "why_tests_cant": "The server runs for years on requests from the network; a leak needs the right request.", "anchors": ["src/brski/masa/masa_api.cpp:masa_requestvoucher", "src/voucher/request.c:sign_masa_pledge_voucher", "src/voucher/voucher.c:verify_cms_voucher"]}
{"id": "C118", "title": "A registrar that serves for long loses no memory", "statement": "Serving voucher requests one after another, whatever they contain and whatever the MASA answers, the registrar gives each the right answer, does not change its configuration, and after the last one holds no memory that it did not hold before, counting every allocation of the handler, of reading the client's certificate and of sign_voucher_request.", "quantifier": "every sequence of requests of any length, every client certificate, every configuration", "why_tests_cant": "The server runs for years on requests from the network; a leak needs the right request.", "anchors": ["src/brski/registrar/registrar_api.cpp:registrar_requestvoucher", "src/voucher/request.c:sign_voucher_request", "src/voucher/crypto_ossl.c:crypto_getcert_meta"]}
{"id": "C119", "title": "The pledge's exchange loses no memory", "statement": "Asking a registrar for a voucher, whatever the registrar answers, leaves the pledge's configuration unchanged and, after success, exactly one new block holding the pinned certificate, after an error no new block, counting every allocation of the client and of the functions of request.c it calls.", "quantifier": "every configuration, every behaviour of the registrar on both connections", "why_tests_cant": "The exchange allocates in dozens of places; which of them run depends on the answer from the network.", "anchors": ["src/brski/pledge/pledge_request.cpp:post_voucher_pledge_request", "src/brski/pledge/pledge_utils.c:voucher_pledge_request_to_array", "src/voucher/request.c:sign_pledge_voucher_request", "src/voucher/request.c:verify_masa_pledge_voucher"]}
{"id": "C120", "title": "Honest parties cost each other no memory", "statement": "If the peers that a party trusts use this library, then the registrar and the MASA end every sequence of requests (trusted or not) with the memory they had, the pledge ends the exchange with exactly the pinned certificate or with nothing, and when the three are connected the certificate the pledge is left with is the domain certificate the MASA is configured with; in particular every text the library writes is read without loss.", "quantifier": "every configuration, every sequence of requests, every voucher the library can write", "why_tests_cant": "The losses of C117 to C119 need particular messages; that no honest message is among them is a statement about every voucher, certificate and serial number.", "anchors": ["src/brski/masa/masa_api.cpp:masa_requestvoucher", "src/brski/registrar/registrar_api.cpp:registrar_requestvoucher", "src/brski/pledge/pledge_request.cpp:post_voucher_pledge_request", "src/voucher/voucher.c:serialize_voucher", "src/voucher/voucher.c:deserialize_voucher"]}
{"id": "C121", "title": "A registrar that serves voucher requests and enrolments for long", "statement": "Serving any mixture of voucher requests and enrolment requests, the registrar stops only at a request it would not survive alone, gives each request the right answer, appends to its log exactly one entry for every enrolment that it can describe, in their order, does not change its configuration and holds afterwards no memory that it did not hold before.", "quantifier": "every sequence of requests of any length, every client certificate, every certificate issued, every outcome of opening the log", "why_tests_cant": "The endpoints share the configuration, the memory and the log; an effect of one on a later one needs the right sequence.", "anchors": ["src/brski/registrar/registrar_api.cpp:registrar_est_simpleenroll", "src/brski/registrar/registrar_api.cpp:registrar_requestvoucher", "src/brski/registrar/registrar_api.cpp:save_to_log"]}
{"id": "C122", "title": "A server serves until it is stopped", "statement": "A started registrar or MASA accepts connections until somebody stops it: its workers take every connection, in the order in which they came, no thread uses released memory or closes a descriptor twice, the call that started it does not return before it is stopped, and when it has returned every connection is closed and stopping the server is harmless.", "quantifier": "every number of workers, every interleaving of the listening thread and the workers, every answer of accept", "why_tests_cant": "Which thread moves next and how accept fails are outside a test's control.", "anchors": ["src/brski/http/httplib.h:Server::listen_internal", "src/brski/http/httplib.h:ThreadPool", "src/brski/http/httplib_wrapper.cpp:httplib_start", "src/brski/registrar/registrar_server.cpp:registrar_start", "src/brski/masa/masa_server.cpp:masa_start"]}
{"id": "C123", "title": "A running server can be stopped", "statement": "registrar_stop and masa_stop may be called at any time while the server runs: the listening thread leaves its loop, the connections that were accepted are served to their end, the call that started the server returns, and no thread uses memory of the server after it is released or closes a descriptor twice.", "quantifier": "every number of workers, every interleaving of the listening thread, the workers and the stopping thread", "why_tests_cant": "The wrong interleavings depend on the scheduler and show no symptom in most runs.", "anchors": ["src/brski/http/httplib.h:Server::stop", "src/brski/http/httplib.h:Server::listen_internal", "src/brski/http/httplib_wrapper.cpp:httplib_stop", "src/brski/registrar/registrar_server.cpp:registrar_stop", "src/brski/masa/masa_server.cpp:masa_stop"]}
{"id": "C124", "title": "A client that asks for a part of an answer gets that part and can tell it", "statement": "A client whose request carries a Range header gets exactly the bytes asked for, with status 206 and a Content-Range that tells their place, also when it asks for several parts; a part that does not exist or a header that cannot be understood is answered with 416, no handler runs for the latter, and the content of the refused request is never taken for another request.", "quantifier": "all servers with usual handlers, all answers, ranges, request contents, connections and timings", "why_tests_cant": "The ranges, lengths and segmentations are unbounded, and the reply looks like a success.", "anchors": ["src/brski/http/httplib.h:detail::parse_range_header", "src/brski/http/httplib.h:detail::get_range_offset_and_length", "src/brski/http/httplib.h:detail::make_content_range_header_field", "src/brski/http/httplib.h:Server::apply_ranges", "src/brski/http/httplib.h:Server::process_request", "src/brski/http/httplib_wrapper.cpp:set_response"]}
{"id": "C125", "title": "Messages sent in chunks arrive whole or not at all", "statement": "A request or an answer that its sender splits into chunks of any sizes, with extensions on the size lines and header lines behind the last chunk, arrives as the same bytes in one piece, with everything behind it left for the next message; if the connection ends before the last byte the request is never handled and the answer never taken; only hexadecimal sizes are read, header lines behind the content do not count as lines of the head, and codings listed together are understood.", "quantifier": "all requests, answers, chunks, extensions, trailers, connections, timings and cuts", "why_tests_cant": "The number and sizes of chunks, the segmentation and the place of the cut are unbounded.", "anchors": ["src/brski/http/httplib.h:detail::read_content_chunked", "src/brski/http/httplib.h:detail::is_chunked_transfer_encoding", "src/brski/http/httplib.h:detail::read_content", "src/brski/http/httplib.h:Server::process_request", "src/brski/http/httplib.h:ClientImpl::process_request"]}
{"id": "C126", "title": "Connections leave nothing behind", "statement": "Every socket, address list, TLS object, TLS context, store and certificate that is acquired for posting a request, for binding a server or for serving a connection is given back exactly once and not used afterwards, but for the socket a server listens on and the copy of the peer's certificate handed to the caller; the addresses of a host are tried in their order up to the first that works; a peer that can be reached is reached.", "quantifier": "all answers of the kernel, the resolver, the network and OpenSSL, all histories before", "why_tests_cant": "The orders of failures of some twenty calls and the number of addresses are unbounded, and leaks are not visible in replies.", "anchors": ["src/brski/http/httplib.h:detail::create_socket", "src/brski/http/httplib.h:detail::create_client_socket", "src/brski/http/httplib.h:detail::wait_until_socket_is_ready", "src/brski/http/httplib.h:Server::bind_internal", "src/brski/http/httplib.h:ClientImpl::send_", "src/brski/http/httplib.h:ClientImpl::close_socket", "src/brski/http/httplib.h:SSLClient::initialize_ssl", "src/brski/http/httplib.h:SSLServer::process_and_close_socket", "src/brski/http/httplib_wrapper.cpp:httplib_post_request", "src/brski/http/httplib_wrapper.cpp:httplib_post_request_ca"]}
{"id": "C127", "title": "Requests are served for the path their target names", "statement": "A request is handled only if its first line is a known method, a target and a known version of HTTP as three words within 8192 bytes, any other line is answered with 400 or 414; the handlers get the path the target names, that is its part before the query and the fragment with the percent escapes decoded, in origin form or in absolute form; a target without a path or with wrong escapes is not served.", "quantifier": "all bytes arriving on a connection, all targets, all ways of writing a path, all chunkings of the stream", "why_tests_cant": "A path of n characters can be written in exponentially many ways, and the lines that are to be refused are infinitely many.", "anchors": ["src/brski/http/httplib.h:Server::parse_request_line", "src/brski/http/httplib.h:detail::split", "src/brski/http/httplib.h:detail::trim", "src/brski/http/httplib.h:detail::decode_url", "src/brski/http/httplib.h:Server::process_request"]}
{"id": "C128", "title": "Enrolling a device loses no memory", "statement": "The command sign-cert, whatever the registrar answers to any of its three requests, leaves the pledge's configuration unchanged; after success exactly the two arrays of the caller with the generated key and the answered certificate are new, after an error the two arrays are empty and nothing else is new, counting every allocation, those for the names in the generated certificate and for reading the voucher included; it succeeds whenever there is a certificate to obtain.", "quantifier": "all configurations, worlds, registrars, devices, memory contents", "why_tests_cant": "Answers, vouchers and memory states are unbounded, and a lost block is not visible in any result.", "anchors": ["src/brski/pledge/pledge_request.cpp:generate_sign_cert", "src/brski/pledge/pledge_request.cpp:post_sign_cert", "src/voucher/keyvalue.c:push_keyvalue_list", "src/voucher/keyvalue.c:free_keyvalue_list", "src/brski/pledge/pledge_request.cpp:post_voucher_pledge_request"]}
{"id": "C129", "title": "An honest enrolment costs no memory", "statement": "If pledge, registrar and MASA use this library, are configured to trust each other and the registrar's server is vouched for by the pinned certificate, then the command sign-cert succeeds; the device ends with the key it made and the certificate the registrar's authority issued for it, and nothing else is new in its memory; the registrar answers the voucher request and the enrolment with 200, writes one log entry for the enrolment if the log can be opened and the certificates' names can be read, and ends with the memory it had.", "quantifier": "all trusting configurations, devices, memory contents, authorities", "why_tests_cant": "Three programs with their complete memories take part; tests cover a few configurations and see no memory.", "anchors": ["src/brski/pledge/pledge_request.cpp:post_sign_cert", "src/brski/registrar/registrar_api.cpp:registrar_requestvoucher", "src/brski/registrar/registrar_api.cpp:registrar_est_simpleenroll", "src/brski/masa/masa_api.cpp:masa_requestvoucher"]}
{"id": "C130", "title": "A device short of memory does not mistake nothing for a key", "statement": "generate_sign_cert, called with two empty arrays, survives a lack of memory; it returns 0 only if the arrays hold the generated key and the certificate made for it; otherwise it returns -1, leaves both arrays empty and keeps nothing.", "quantifier": "all patterns of refused allocations, devices, memory contents", "why_tests_cant": "Every one of the thirteen allocations may be the one refused, in any combination; tests do not refuse allocations.", "anchors": ["src/brski/pledge/pledge_request.cpp:generate_sign_cert", "src/voucher/keyvalue.c:push_keyvalue_list"]}
{"id": "C131", "title": "Every JSON document is tokenized as it is written", "statement": "For every JSON document, of any shape, depth and layout, the tokenizer used for vouchers returns one token for every value and every key, in the order of the text; each token has the right kind, the right number of elements or members, and delimits exactly the text of its value. With fewer slots than values and keys it reports a lack of room and nothing else.", "quantifier": "all JSON values of any depth, all white space, all numbers of slots", "why_tests_cant": "Nesting, escapes and white space can be combined in unboundedly many ways; the super-token bookkeeping of the tokenizer depends on all of what was opened before.", "anchors": ["lib/jsmn.cmake", "src/voucher/voucher.c:deserialize_voucher"]}
{"id": "C132", "title": "A voucher document is read by its structure", "statement": "deserialize_voucher accepts a JSON document exactly if the object under its top-level key ietf-voucher:voucher has known members with valid values, and the voucher then holds these values; what else is in the document does not matter.", "quantifier": "all JSON documents of any shape, depth and layout", "why_tests_cant": "The documents of the tests have one flat object; which of the nested texts the search picks up is only visible for other shapes.", "anchors": ["src/voucher/voucher.c:deserialize_voucher", "src/voucher/voucher.c:set_keyvalue_voucher"]}
{"id": "C133", "title": "The content of a request in parts is never handled as a request", "statement": "When a client sends a request with Content-Type multipart/form-data and a Content-Length, the bytes behind its head that the length counts are its content: they are read as parts or refused, and never handled as a request of their own; the next request begins behind them.", "quantifier": "all byte streams and all ways they arrive, all boundaries, all lengths", "why_tests_cant": "Where the content of a refused request ends on the connection depends on how much of it was read when it was refused, which depends on how the bytes arrive.", "anchors": ["src/brski/http/httplib.h:MultipartFormDataParser::parse", "src/brski/http/httplib.h:Server::read_content_core", "src/brski/http/httplib.h:parse_multipart_boundary"]}
{"id": "C134", "title": "A content in parts is read the same however its bytes arrive", "statement": "A form with fields of any names and contents (none containing the line between the parts) is read as exactly these fields, however the network cuts its bytes.", "quantifier": "all boundaries, numbers of parts, names and contents, and all ways of cutting the bytes", "why_tests_cant": "A test sends a form in one or a few pieces; the parser keeps a state between the pieces and every place of a cut is another case.", "anchors": ["src/brski/http/httplib.h:MultipartFormDataParser::parse", "src/brski/http/httplib.h:MultipartFormDataParser::buf_find", "src/brski/http/httplib.h:parse_disposition_params"]}
{"id": "C135", "title": "A voucher is written as RFC 8366 says", "statement": "For every voucher with dates of four-digit years, a plain serial number and non-empty arrays, serialize_voucher gives exactly the JSON text of RFC 8366: the object ietf-voucher:voucher with one member for each attribute that is set, under the name RFC 8366 gives it and with the value as quoted text, base64 or truth value; this text is read back as the same voucher.", "quantifier": "all vouchers", "why_tests_cant": "Another implementation reads the text by the names: a name that is wrong in the same way when writing and when reading passes every round-trip test.", "anchors": ["src/voucher/voucher.c:serialize_voucher", "src/voucher/voucher.c:deserialize_voucher", "src/voucher/voucher_defs.h:VOUCHER_ATTRIBUTE_NAMES", "src/voucher/voucher_defs.h:VOUCHER_ROOT_NAME"]}
{"id": "C136", "title": "A voucher request is written and read under its own name", "statement": "The requests of the pledge and the registrar are JSON documents under the name ietf-voucher-request:voucher, as RFC 8995 says, and documents under this name are accepted as requests.", "quantifier": "all voucher requests", "why_tests_cant": "The tests of the project only read what the project wrote, which is consistent with itself.", "anchors": ["src/voucher/voucher_defs.h:VOUCHER_REQUEST_ROOT_NAME", "src/voucher/voucher.c:serialize_voucher", "src/voucher/voucher.c:deserialize_voucher", "src/voucher/request.c:sign_pledge_voucher_request"]}
{"id": "C137", "title": "The request of the client is byte for byte one of HTTP/1.1", "statement": "SSLClient::Post sends a request line with the path percent-encoded in upper-case digits, the headers Accept, Connection, Content-Length, Content-Type, Host and User-Agent, each as name, colon, space and value ended by CR LF, an empty line and the body; the length is that of the body in decimal, the host is in brackets if it has a colon and is followed by the port unless that is 443.", "quantifier": "every host, port, path and content type without characters special in URLs and headers, every body of any length", "why_tests_cant": "The tests send requests to the same library, which reads what it writes; another server reads only what the standard says.", "anchors": ["src/brski/http/httplib.h:ClientImpl::write_request", "src/brski/http/httplib.h:write_headers", "src/brski/http/httplib.h:encode_url", "src/brski/http/httplib.h:ClientImpl::adjust_host_string"]}
{"id": "C138", "title": "The answer of the server is byte for byte one of HTTP/1.1", "statement": "When the first handler for the path answers a request of the client with a status and a Content-Type, all the server writes on the connection is one answer: the status line with the status and its reason, Connection: close, Content-Length with the length of the body in decimal, the content type, an empty line and the body; an error without a text gets the text Router error, and an error has text/plain as a second content type. Without a handler for the path the answer is that of 404; when the handler throws, one with status 505 and what it threw, up to 8191 bytes.", "quantifier": "every server, destination, path, content type and body of the request, every status from 100 to 999, every plain content type and every body of the answer, every splitting of the bytes", "why_tests_cant": "The tests read the answers with the same library; another client reads only what the standard says.", "anchors": ["src/brski/http/httplib.h:Server::write_response_core", "src/brski/http/httplib.h:write_headers", "src/brski/http/httplib.h:status_message", "src/brski/http/httplib_wrapper.cpp:set_response", "src/brski/http/httplib_wrapper.cpp:set_error_handler"]}
