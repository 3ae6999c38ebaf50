{
 "claims": [
  {
   "property": "C01",
   "status": "proved",
   "theorems": [
    "C01_base64_roundtrip"
   ],
   "note": "All non-empty arrays below SIZE_MAX/4 bytes."
  },
  {
   "property": "C02",
   "status": "proved",
   "theorems": [
    "C02_base64_encode_rfc",
    "C02_base64_encode_length",
    "C02_base64_encode_no_memory"
   ],
   "note": "Includes the 64-bit size computation and the capacity check of every write."
  },
  {
   "property": "C03",
   "status": "proved",
   "theorems": [
    "C03_base64_decode_safe",
    "C03_base64_decode_value"
   ],
   "note": "Every input; the value theorem gives the exact result."
  },
  {
   "property": "C04",
   "status": "proved",
   "theorems": [
    "C04_base64_decode_ignores"
   ],
   "note": ""
  },
  {
   "property": "C05",
   "status": "partial",
   "theorems": [
    "C05_base64_failed_decode_null_refuted",
    "C05_base64_failed_decode_partial",
    "C05_base64_bad_padding"
   ],
   "note": "The full statement is false of the code: on invalid padding the caller receives a pointer to released memory (serialize.c 243-245). The exact set of such inputs is proved."
  },
  {
   "property": "C06",
   "status": "partial",
   "theorems": [
    "C06_empty_array_refuted",
    "C01_base64_roundtrip"
   ],
   "note": "The full statement is false for the empty array; it holds for all other arrays (C01)."
  },
  {
   "property": "C07",
   "status": "proved",
   "theorems": [
    "C07_bool_parse",
    "C07_bool_roundtrip"
   ],
   "note": "NUL-free texts of every length; embedded NUL bytes cannot reach this function from the JSON tokenizer."
  },
  {
   "property": "C08",
   "status": "proved",
   "theorems": [
    "C08_time_roundtrip",
    "C08_years",
    "C08_time_year10000_refuted"
   ],
   "note": "Years 1000..9999 as stated; a date-time is printed exactly for the years -9999..99999, so the text always fits its buffer. Additional finding: year 10000 prints but does not read back."
  },
  {
   "property": "C09",
   "status": "partial",
   "theorems": [
    "C09_time_trailing_refuted",
    "C09_time_unreal_refuted",
    "C09_time_accept_partial",
    "C09_exact"
   ],
   "note": "The full statement is false of the code: trailing text, blanks, short fields and dates such as 31 February are accepted. The accepted texts and the values they get are given exactly."
  },
  {
   "property": "C10",
   "status": "proved",
   "theorems": [
    "C10_keyvalue_json",
    "C10_keyvalue_json_empty"
   ],
   "note": "Lists of fewer than 2^32 elements; allocations succeed."
  },
  {
   "property": "C11",
   "status": "proved",
   "theorems": [
    "C11_array",
    "C11_keyvalue",
    "C11_array_accepts",
    "C11_keyvalue_accepts"
   ],
   "note": "Pushed pointers exist before the list is created or are NULL."
  },
  {
   "property": "C12",
   "status": "proved",
   "theorems": [
    "C12_array",
    "C12_keyvalue"
   ],
   "note": ""
  },
  {
   "property": "C13",
   "status": "partial",
   "theorems": [
    "C13_refuted",
    "C13_keyvalue_refuted",
    "C13_array_partial",
    "C13_keyvalue_partial"
   ],
   "note": "False: when the copy of the data cannot be allocated, the clean-up of the push unlinks a node that was never linked and dereferences NULL. Exact characterisation proved."
  },
  {
   "property": "C14",
   "status": "proved",
   "theorems": [
    "C14_compare",
    "C14_compare_missing",
    "C14_copy"
   ],
   "note": ""
  },
  {
   "property": "C15",
   "status": "proved",
   "theorems": [
    "C15_set_get",
    "C15_set_accepts",
    "C15_set_base64"
   ],
   "note": "Value layer; ownership is C20/C56."
  },
  {
   "property": "C16",
   "status": "proved",
   "theorems": [
    "C16_frame"
   ],
   "note": ""
  },
  {
   "property": "C17",
   "status": "partial",
   "theorems": [
    "C17_rejected",
    "C17_null_array_refuted",
    "C17_oom_refuted",
    "C17_null_date_refuted"
   ],
   "note": "All wrong-kind and invalid-value calls are refused without effect. The full statement is false for a NULL array with a length, an exhausted allocator and a NULL date."
  },
  {
   "property": "C18",
   "status": "proved",
   "theorems": [
    "C18_history",
    "C18_step",
    "C18_parsed"
   ],
   "note": ""
  },
  {
   "property": "C19",
   "status": "proved",
   "theorems": [
    "C19_clear"
   ],
   "note": ""
  },
  {
   "property": "C20",
   "status": "partial",
   "theorems": [
    "C20_safe",
    "C20_exact",
    "C20_partial",
    "C20_refuted"
   ],
   "note": "False: setting an attribute that has a value loses the old block (the setters do not clear first). Proved: no double free or use after free for any history and any allocation failure; exactly one block is lost per overwrite."
  },
  {
   "property": "C21",
   "status": "proved",
   "theorems": [
    "C21_json_roundtrip"
   ],
   "note": "Texts below 2^31 bytes (the tokenizer's offsets are int); allocations succeed."
  },
  {
   "property": "C22",
   "status": "partial",
   "theorems": [
    "C22_refuted",
    "C21_json_roundtrip"
   ],
   "note": "The full statement is false: serial numbers are not escaped. It holds for serial numbers without quote, backslash and NUL (C21)."
  },
  {
   "property": "C23",
   "status": "partial",
   "theorems": [
    "C23_refuted",
    "C23_only_partial",
    "C23_flat_partial"
   ],
   "note": "False for texts with nested values. Proved: every accepted value comes from a valid entry of the text (every byte string); documents with flat members are accepted exactly when all keys are known and values valid (C26_last_wins is the other direction)."
  },
  {
   "property": "C24",
   "status": "partial",
   "theorems": [
    "C24_refuted",
    "C24_root_partial"
   ],
   "note": "The full statement is false: any prefix of the name is accepted as key. Keys that are not a prefix are rejected."
  },
  {
   "property": "C25",
   "status": "proved",
   "theorems": [
    "C25_deserialize_safe"
   ],
   "note": ""
  },
  {
   "property": "C26",
   "status": "proved",
   "theorems": [
    "C26_last_wins",
    "C26_too_many"
   ],
   "note": "Documents with flat members, any white space, up to 14 members (the tokenizer's slots); texts below 2^31 bytes. Documents with more members are rejected."
  },
  {
   "property": "C27",
   "status": "proved",
   "theorems": [
    "C27_serialize_injective"
   ],
   "note": "Texts below 2^31 bytes."
  },
  {
   "property": "C28",
   "status": "proved",
   "theorems": [
    "C28_token_bounds"
   ],
   "note": "The tokenizer is an external dependency (jsmn v1.1.0); it is modelled from its published source."
  },
  {
   "property": "C29",
   "status": "proved",
   "theorems": [
    "C29_pledge_request",
    "C29_exact"
   ],
   "note": ""
  },
  {
   "property": "C30",
   "status": "proved",
   "theorems": [
    "C30_registrar_accepts",
    "C31_exact"
   ],
   "note": ""
  },
  {
   "property": "C31",
   "status": "proved",
   "theorems": [
    "C31_registrar_request",
    "C31_exact"
   ],
   "note": ""
  },
  {
   "property": "C32",
   "status": "partial",
   "theorems": [
    "C32_refuted",
    "C32_registrar_crash_partial"
   ],
   "note": "False: a verified request without serial number is dereferenced. Proved: this is exactly the crashing case."
  },
  {
   "property": "C33",
   "status": "proved",
   "theorems": [
    "C33_masa_accepts",
    "C34_exact"
   ],
   "note": ""
  },
  {
   "property": "C34",
   "status": "proved",
   "theorems": [
    "C34_masa_voucher",
    "C34_exact"
   ],
   "note": ""
  },
  {
   "property": "C35",
   "status": "partial",
   "theorems": [
    "C35_refuted",
    "C35_honest_registrar_partial"
   ],
   "note": "False for arbitrary registrars: the nonce is taken from the registrar's request and the assertion is always proximity. Holds if the registrar's request was made by sign_voucher_request."
  },
  {
   "property": "C36",
   "status": "proved",
   "theorems": [
    "C36_pledge_accepts"
   ],
   "note": "Chaining is OpenSSL's X509_build_chain; see C62 for what it means without a domain store."
  },
  {
   "property": "C37",
   "status": "proved",
   "theorems": [
    "C37_honest_run"
   ],
   "note": "Serial numbers without JSON special characters, non-empty arrays, years 1000-9999, messages below 2^31 bytes."
  },
  {
   "property": "C38",
   "status": "proved",
   "theorems": [
    "C38_foreign_rejected"
   ],
   "note": ""
  },
  {
   "property": "C39",
   "status": "partial",
   "theorems": [
    "C39_refuted",
    "C39_nonce_only_partial"
   ],
   "note": "False in all three respects; one witness shows all. Acceptance depends on nothing but serial number, pinned certificate and (if configured) nonce."
  },
  {
   "property": "C40",
   "status": "partial",
   "theorems": [
    "C40_refuted",
    "C40_store_partial"
   ],
   "note": "False without a store. With a store every accepted message passed OpenSSL's signer check against exactly the configured entries."
  },
  {
   "property": "C41",
   "status": "proved",
   "theorems": [
    "C41_masa_answers"
   ],
   "note": "For every sequence of requests served one after another."
  },
  {
   "property": "C42",
   "status": "partial",
   "theorems": [
    "C42_refuted",
    "C42_exact_partial",
    "C42_partial",
    "C42_released"
   ],
   "note": "False: a body with bad base64 padding, or a configured certificate that cannot be read, makes the endpoint free a block twice. Exactly the crashing requests are characterised; every history that is survived leaves nothing behind."
  },
  {
   "property": "C43",
   "status": "partial",
   "theorems": [
    "C43_refuted",
    "C43_exact_partial"
   ],
   "note": "False: a refusal of the MASA reaches the pledge as 200 with an empty body. The answer is given exactly for every answer of the MASA."
  },
  {
   "property": "C44",
   "status": "proved",
   "theorems": [
    "C44_registrar_answers",
    "C44_no_client",
    "C43_exact_partial"
   ],
   "note": ""
  },
  {
   "property": "C45",
   "status": "partial",
   "theorems": [
    "C45_refuted",
    "C45_exact",
    "C45_overlap_partial",
    "C45_serial_partial"
   ],
   "note": "False: two requests that are each answered with a voucher alone share context->ldevid_ca_cert and, interleaved, use memory the other released. C45_exact gives the schedules exactly: with a complete configuration, requests that run to their end use released memory iff one of them does so alone or one loads the certificate while another holds its own. For all other schedules, finished or not, the answers are those given alone. Serial schedules are proved for every configuration."
  },
  {
   "property": "C46",
   "status": "partial",
   "theorems": [
    "C46_refuted",
    "C46_exact_partial",
    "C46_complete"
   ],
   "note": "False: the pledge connects twice and checks the voucher against the certificate of the second connection, not the one in its request. With the second certificate success is characterised exactly."
  },
  {
   "property": "C47",
   "status": "partial",
   "theorems": [
    "C47_refuted",
    "C47_check_refuted",
    "C47_exact_partial",
    "C47_request_partial",
    "C47_check_partial"
   ],
   "note": "False: a nonce with bad padding, or a certificate path that cannot be read, frees a block twice; the response check does so for every nonce that does not decode. The crashing configurations and answers are characterised exactly."
  },
  {
   "property": "C48",
   "status": "partial",
   "theorems": [
    "C48_success",
    "C48_empty",
    "C48_failure",
    "C48_refuted",
    "C48_partial"
   ],
   "note": "False: on failure the out parameter keeps a pointer to the released list. Success, empty lists and every pattern of allocation failures are proved."
  },
  {
   "property": "C49",
   "status": "partial",
   "theorems": [
    "C49_strlcpy",
    "C49_strlcpy_size0_refuted"
   ],
   "note": "Proved for every size above 0; false for size 0, which writes before the buffer."
  },
  {
   "property": "C50",
   "status": "proved",
   "theorems": [
    "C50_strnlen",
    "C50_strndup",
    "C50_memdup",
    "C50_memdup_fail",
    "C50_realloc_array"
   ],
   "note": ""
  },
  {
   "property": "C51",
   "status": "partial",
   "theorems": [
    "C51_refuted",
    "C51_empty_refuted",
    "C51_text_partial",
    "C51_length_partial",
    "C51_nothing",
    "C51_empty"
   ],
   "note": "False for a buffer that cuts a byte in two (the result is not the length) and for no data (the old text stays). The exact text, length condition and buffer bounds are proved for all inputs."
  },
  {
   "property": "C52",
   "status": "partial",
   "theorems": [
    "C52_refuted",
    "C52_history_partial",
    "C52_total_partial",
    "C52_exact_partial"
   ],
   "note": "A level above 4 reads behind the name table. For all other histories the exact events are proved."
  },
  {
   "property": "C53",
   "status": "partial",
   "theorems": [
    "C53_refuted",
    "C53_partial",
    "C53_over_partial"
   ],
   "note": "False: inputs of 4096 bytes and more write past the buffer; proved for all shorter inputs."
  },
  {
   "property": "C54",
   "status": "partial",
   "theorems": [
    "C54_refuted",
    "C54_method_refuted",
    "C54_second_refuted",
    "C54_headers_refuted",
    "C54_headers_partial",
    "C54_names",
    "C54_names_meant",
    "C54_registers_partial",
    "C54_served_partial",
    "C54_unmatched_partial",
    "C54_masa",
    "C54_registrar"
   ],
   "note": "Findings: the dot of '/.well-known' is a regular-expression wildcard, so other paths are served; routes with HEAD, CONNECT, TRACE and PRI are accepted and never served; a repeated route is never served; header names differing in case are not joined. Names are compared by the letters, proved against a list of the alphabet. Proved for literal names and for plain patterns, all tables and requests."
  },
  {
   "property": "C55",
   "status": "partial",
   "theorems": [
    "C55_refuted",
    "C55_partial",
    "C55_again",
    "C55_strings"
   ],
   "note": "False: an allocation failure inside a path list leaves a pointer to a released list and the clean-up frees it again. Proved otherwise."
  },
  {
   "property": "C56",
   "status": "partial",
   "theorems": [
    "C56_refuted",
    "C56_partial"
   ],
   "note": "False: copy_binary_array zeroes the destination length before reading the source, so a self-set gives an empty array and reports success. Copying from another attribute of the same voucher is proved right."
  },
  {
   "property": "C57",
   "status": "partial",
   "theorems": [
    "C57_refuted",
    "C57_any_partial",
    "C57_document_partial"
   ],
   "note": "False: NULL dereference when the voucher cannot be allocated and a serial number is present. Texts without \"serial-number\" are refused cleanly; a document crashes exactly if its first member is an acceptable serial number."
  },
  {
   "property": "C58",
   "status": "partial",
   "theorems": [
    "C58_refuted",
    "C58_empty_refuted",
    "C58_same_partial"
   ],
   "note": "False for malformed members (a key without colon) and for the empty voucher object; holds for voucher objects with at least one plain member."
  },
  {
   "property": "C59",
   "status": "partial",
   "theorems": [
    "C59_refuted",
    "C59_array_refuted",
    "C59_rejected_partial"
   ],
   "note": "False for the serial number (an object is stored as its text) and the base64 attributes; holds for dates, the assertion and the revocation flag."
  },
  {
   "property": "C60",
   "status": "proved",
   "theorems": [
    "C60_masa_safe"
   ],
   "note": ""
  },
  {
   "property": "C61",
   "status": "proved",
   "theorems": [
    "C61_pledge_safe"
   ],
   "note": "A NULL registrar certificate is outside the statement (it is dereferenced)."
  },
  {
   "property": "C62",
   "status": "partial",
   "theorems": [
    "C62_refuted",
    "C62_any_registrar"
   ],
   "note": "False: the pledge passes no domain store, and then OpenSSL's documented behaviour accepts any registrar certificate."
  },
  {
   "property": "C63",
   "status": "proved",
   "theorems": [
    "C63_pledge_request_safe"
   ],
   "note": "With a creation date; a NULL date is dereferenced (C17_null_date_refuted)."
  },
  {
   "property": "C64",
   "status": "proved",
   "theorems": [
    "C64_contents"
   ],
   "note": "While allocations succeed; the array attributes and the serial number (the attributes that own memory)."
  },
  {
   "property": "C65",
   "status": "partial",
   "theorems": [
    "C65_refuted",
    "C65_partial",
    "C65_written",
    "C65_safe",
    "C65_same"
   ],
   "note": "False for texts that repeat an owning member. Proved: no loss when no owning name is repeated or the text is a flat voucher object with different member names, hence for every text the library writes; memory safety whenever the voucher struct itself could be allocated; agreement with the value model."
  },
  {
   "property": "C66",
   "status": "partial",
   "theorems": [
    "C66_refuted",
    "C66_partial"
   ],
   "note": "False: when the copy cannot be allocated the old value is lost. Proved: only that attribute is affected and the voucher can still be freed."
  },
  {
   "property": "C67",
   "status": "partial",
   "theorems": [
    "C67_refuted",
    "C67_partial",
    "C67_exact"
   ],
   "note": "False: ini_gets is asked for the key again, so the first value is loaded once per repetition. The list is right exactly if all values given for the key are the same."
  },
  {
   "property": "C68",
   "status": "proved",
   "theorems": [
    "C68_contents"
   ],
   "note": ""
  },
  {
   "property": "C69",
   "status": "partial",
   "theorems": [
    "C69_refuted",
    "C69_exact_partial",
    "C69_released"
   ],
   "note": "False: bad base64 padding frees a block twice, a verified request without a serial number is compared as NULL. Exactly the crashing requests are characterised; the release holds for all others."
  },
  {
   "property": "C70",
   "status": "proved",
   "theorems": [
    "C70_enroll_answers"
   ],
   "note": ""
  },
  {
   "property": "C71",
   "status": "partial",
   "theorems": [
    "C71_refuted",
    "C71_exact_partial"
   ],
   "note": "False exactly for bodies with bad base64 padding."
  },
  {
   "property": "C72",
   "status": "partial",
   "theorems": [
    "C72_refuted",
    "C72_anyone"
   ],
   "note": "False: the client certificate is never looked at; a client without one is enrolled."
  },
  {
   "property": "C73",
   "status": "proved",
   "theorems": [
    "C73_honest_onboarding",
    "C73_full_memory"
   ],
   "note": "Also with the complete memory of all three parties, if OpenSSL gives back what was signed."
  },
  {
   "property": "C74",
   "status": "proved",
   "theorems": [
    "C74_onboarding_sound"
   ],
   "note": "Assumes that OpenSSL returns what was signed."
  },
  {
   "property": "C75",
   "status": "partial",
   "theorems": [
    "C75_refuted",
    "C75_exact_partial",
    "C75_text_partial"
   ],
   "note": "False for years outside -999..9999, proved exactly."
  },
  {
   "property": "C76",
   "status": "partial",
   "theorems": [
    "C76_refuted",
    "C76_partial"
   ],
   "note": "False: opening a second file loses the first; proved when a file is opened only while none is open."
  },
  {
   "property": "C77",
   "status": "partial",
   "theorems": [
    "C77_refuted",
    "C77_exact_partial",
    "C77_thrown_partial",
    "C54_unmatched_partial"
   ],
   "note": "Finding: the error handler adds a second Content-Type to every error answer of a handler; the registrar's errors are sent as application/voucher-cms+json and text/plain. Holds for unmatched requests."
  },
  {
   "property": "C78",
   "status": "partial",
   "theorems": [
    "C78_refuted",
    "C78_throw_refuted",
    "C78_exact_partial",
    "C78_context_partial",
    "C78_paths_partial"
   ],
   "note": "Findings: the result of listen is ignored (0 although nothing listens); on an exception httplib_stop gets the address of the pointer and deletes it. The crash condition is exact; otherwise result and context agree."
  },
  {
   "property": "C79",
   "status": "partial",
   "theorems": [
    "C79_refuted",
    "C54_served_partial"
   ],
   "note": "Finding: a handler's -1 is sent as 200. For every other status the answer is sent as given (an empty error body becomes 'Router error', errors get a second content type, C77)."
  },
  {
   "property": "C80",
   "status": "partial",
   "theorems": [
    "C80_refuted",
    "C80_crash_refuted",
    "C80_generated_refuted",
    "C80_exact_partial",
    "C80_complete_partial",
    "C80_survives_partial"
   ],
   "note": "Findings: the answer is never compared with the generated key or even parsed; a badly padded answer is released twice; a failed key or certificate generation goes unnoticed (a size_t is compared with 0). The outcome, when it succeeds and when it crashes are characterised exactly. Missing: the claim itself, which is false."
  },
  {
   "property": "C81",
   "status": "partial",
   "theorems": [
    "C81_refuted",
    "C81_serial_refuted",
    "C81_generated_partial",
    "C81_subject_partial",
    "C81_serial_partial"
   ],
   "note": "Findings: the sixteenth hex digit of the random value is cut off; the serial number comes from rand() seeded with the time in seconds. Exact conditions for equal subjects and serial numbers are proved."
  },
  {
   "property": "C82",
   "status": "partial",
   "theorems": [
    "C82_refuted",
    "C82_line_partial",
    "C82_stops_partial",
    "C82_port_partial"
   ],
   "note": "Finding: a port that is no number is silently ignored and -1 or numbers above 65535 are accepted. The reading of the line is proved exactly for every list of words."
  },
  {
   "property": "C83",
   "status": "partial",
   "theorems": [
    "C83_names_refuted",
    "C83_exact_partial",
    "C83_unread",
    "C83_names_partial"
   ],
   "note": "Finding: the output names are cut after 254 characters; from 253 characters the key overwrites the certificate and the status is 0. Otherwise proved exactly, for every command."
  },
  {
   "property": "C84",
   "status": "partial",
   "theorems": [
    "C84_help_refuted",
    "C84_export_refuted",
    "C84_request_refuted",
    "C84_exact_partial",
    "C84_unread",
    "C84_stops_partial"
   ],
   "note": "Findings: -h, an empty line and a missing command read behind the copied program name; a configuration without tlsCertPath or cmsSignCertPath dereferences NULL. The lines and configurations that crash are given exactly."
  },
  {
   "property": "C85",
   "status": "partial",
   "theorems": [
    "C85_refuted",
    "C85_exact_partial",
    "C85_masa_refuted"
   ],
   "note": "Finding: exatract_cms_certs releases the certificates of CMS_get0_signers, which belong to the message; every accepted message with signers is a use after free, exactly; so is every voucher the MASA issues."
  },
  {
   "property": "C86",
   "status": "partial",
   "theorems": [
    "C86_refuted",
    "C86_push_refuted",
    "C86_verify_partial",
    "C86_sign_partial",
    "C86_chain_partial"
   ],
   "note": "Findings: a certificate the store refuses, and one that sk_X509_push cannot push, are never released. Never undefined whichever calls fail; exact when no call fails and the store refuses nothing."
  },
  {
   "property": "C87",
   "status": "partial",
   "theorems": [
    "C87_refuted",
    "C87_cert_refuted",
    "C87_rsakey_partial",
    "C87_eckey_partial",
    "C87_cert_partial",
    "C87_sign_cert"
   ],
   "note": "Findings: a negative result of EVP_PKEY_keygen leads to i2d_PrivateKey(NULL); the certificate and key leak when X509_set_pubkey fails. The conditions are exact."
  },
  {
   "property": "C88",
   "status": "partial",
   "theorems": [
    "C88_refuted",
    "C88_accepted",
    "C88_monotone",
    "C88_chain",
    "C88_signed_partial"
   ],
   "note": "Finding: a failing sk_X509_push is ignored, so a message is signed without one of its certificates. Acceptance is proved fail-closed for every choice of failing calls."
  },
  {
   "property": "C89",
   "status": "proved",
   "theorems": [
    "C89_reads",
    "C89_writes",
    "C89_writes_cms",
    "C89_cert2buf",
    "C89_issuer",
    "C89_read_result",
    "C89_write_result",
    "C89_write_cms_result",
    "C89_cert_result",
    "C89_issuer_result"
   ],
   "note": "For every choice of failing calls; the result theorems say exactly which calls must work."
  },
  {
   "property": "C90",
   "status": "partial",
   "theorems": [
    "C90_refuted",
    "C90_exact_partial"
   ],
   "note": "Finding: a client without a certificate, or with one whose names cannot be read, is enrolled without an entry. Otherwise exact."
  },
  {
   "property": "C91",
   "status": "partial",
   "theorems": [
    "C91_refuted",
    "C91_numbers_refuted",
    "C91_null_refuted",
    "C91_partial",
    "C91_grows"
   ],
   "note": "Findings: a quote and newline in a subject's serial number forge entries; every certificate number above 64 bits is logged as 0; a holder called NULL looks like none. Histories of plain entries are read back, whatever their length."
  },
  {
   "property": "C92",
   "status": "partial",
   "theorems": [
    "C92_refuted",
    "C92_crash_refuted",
    "C92_partial"
   ],
   "note": "Findings: a list is lost when the second of a pair cannot be allocated; a failing copy in push_keyvalue_list dereferences NULL. Exact otherwise."
  },
  {
   "property": "C93",
   "status": "partial",
   "theorems": [
    "C93_refuted",
    "C93_unread_refuted",
    "C93_host_refuted",
    "C93_trusted_partial",
    "C93_partial",
    "C93_exact_partial",
    "C93_sign_partial"
   ],
   "note": "Findings: the library adds the CAs of the system to the pinned certificate, so any of them certifies an enrolment server; an unreadable pinned certificate is ignored; the host name is not checked. Exact otherwise, also for the whole command sign-cert."
  },
  {
   "property": "C94",
   "status": "partial",
   "theorems": [
    "C94_refuted",
    "C94_exact_partial"
   ],
   "note": "Finding: the registrar does not verify the MASA's certificate at all; whoever answers at the address is believed."
  },
  {
   "property": "C95",
   "status": "partial",
   "theorems": [
    "C95_refuted",
    "C95_partial"
   ],
   "note": "Finding: with an empty path the request goes out without a certificate. Proved for other paths."
  },
  {
   "property": "C96",
   "status": "partial",
   "theorems": [
    "C96_refuted",
    "C96_open_refuted",
    "C96_masa_partial",
    "C96_registrar_partial"
   ],
   "note": "Findings: the registrar serves any client with any certificate; so does a MASA without tlsCACertPath. Exact for both servers."
  },
  {
   "property": "C97",
   "status": "partial",
   "theorems": [
    "C97_refuted",
    "C97_silent_refuted",
    "C97_exact_partial"
   ],
   "note": "Findings: SSL_CTX_set_verify is called with the context just released and set to NULL: a registrar with unusable files crashes; a MASA with tlsCACertPath starts without listening. The condition for the crash is exact."
  },
  {
   "property": "C98",
   "status": "partial",
   "theorems": [
    "C98_peer",
    "C98_refuted",
    "C98_lost_partial",
    "C98_enrol_partial"
   ],
   "note": "The certificate is proved to belong to the answer. Finding: on the second connection the first server's certificate is overwritten without release."
  },
  {
   "property": "C99",
   "status": "partial",
   "theorems": [
    "C99_refuted",
    "C99_failed_refuted",
    "C99_partial"
   ],
   "note": "Findings: a request is sent again when the server closes without answer; a failed call may have delivered it, even twice. At most two, exactly in that case."
  },
  {
   "property": "C100",
   "status": "proved",
   "theorems": [
    "C100_request",
    "C100_only"
   ],
   "note": "For texts that do not change on the wire by design (no percent signs, line ends, query or fragment marks); bodies up to SIZE_MAX. Query parameters, Range and multipart are not modelled."
  },
  {
   "property": "C101",
   "status": "partial",
   "theorems": [
    "C101_status_refuted",
    "C101_content_refuted",
    "C101_exchange_partial",
    "C101_reply_partial",
    "C101_unread_partial"
   ],
   "note": "Findings: a status without three digits makes the client fail; the text of a 204 is lost. Exact otherwise, except for status 100."
  },
  {
   "property": "C102",
   "status": "partial",
   "theorems": [
    "C102_part_refuted",
    "C102_handled_refuted",
    "C102_request_partial",
    "C102_answer_partial"
   ],
   "note": "Holds between the project's own client and server, for every cut. Findings: without Content-Length a failed connection counts as the end of the body, for answers and requests."
  },
  {
   "property": "C103",
   "status": "partial",
   "theorems": [
    "C103_get_refuted",
    "C103_coding_refuted",
    "C103_lengths_refuted",
    "C103_number_refuted",
    "C103_framed_partial",
    "C103_length_partial"
   ],
   "note": "Findings: bodies of GET requests, of POST requests in an unsupported coding, behind a second Content-Length and behind a Content-Length that is no number are handled as requests (request smuggling). What a handled request's bytes are is proved, without Transfer-Encoding; a length in digits of any size is believed exactly."
  },
  {
   "property": "C104",
   "status": "partial",
   "theorems": [
    "C104_value_refuted",
    "C104_line_refuted",
    "C104_lines_partial"
   ],
   "note": "Findings: percent sequences in header values are decoded, which changes values and brings line ends into them. Proved for plain lines of any client."
  },
  {
   "property": "C105",
   "status": "partial",
   "theorems": [
    "C105_refuted",
    "C105_refused_partial",
    "C105_handled_partial",
    "C105_silent_partial",
    "C105_five_partial"
   ],
   "note": "Finding: after a bad request line the header lines are read as requests, each with an answer of its own. Readable answers, silence and the limit of five are proved."
  },
  {
   "property": "C106",
   "status": "proved",
   "theorems": [
    "C106_transparent",
    "C106_first_contact"
   ],
   "note": "For requests and answers up to SIZE_MAX, hosts and addresses that are plain text; TLS itself is the interface of MTls.v."
  },
  {
   "property": "C107",
   "status": "proved",
   "theorems": [
    "C107_onboarding"
   ],
   "note": "As C73, over the connections of C106."
  },
  {
   "property": "C108",
   "status": "proved",
   "theorems": [
    "C108_onboarding_sound"
   ],
   "note": "As C74, over the connections of C106; the first connection goes to any network."
  },
  {
   "property": "C109",
   "status": "partial",
   "theorems": [
    "C109_refuted",
    "C109_masa_partial",
    "C109_registrar_partial"
   ],
   "note": "Finding: the MASA sends vouchers as text/plain (masa_api.cpp 79). The registrar labels its answers; both exactly."
  },
  {
   "property": "C110",
   "status": "proved",
   "theorems": [
    "C110_enrolment"
   ],
   "note": "Over the connections of C106; the authority's signing is an oracle (`sign_cert_fn`)."
  },
  {
   "property": "C111",
   "status": "proved",
   "theorems": [
    "C111_enrolment_sound"
   ],
   "note": "The first connection goes to any network; the other two reach the registrar."
  },
  {
   "property": "C112",
   "status": "proved",
   "theorems": [
    "C112_together",
    "C112_steps"
   ],
   "note": "A step is a library call; data races inside a library function (localtime's buffer, the log file) and the HTTP library are outside the model. Allocation does not fail (plenty)."
  },
  {
   "property": "C113",
   "status": "partial",
   "theorems": [
    "C113_memory_partial",
    "C113_exact",
    "C113_history_partial",
    "C113_reread",
    "C113_refuted"
   ],
   "note": "Missing: failing cleanly when an allocation inside the list is refused; the code dereferences NULL then (C113_refuted). With enough memory the claim is proved in full (C113_exact)."
  },
  {
   "property": "C114",
   "status": "partial",
   "theorems": [
    "C114_pledge",
    "C114_pledge_partial",
    "C114_registrar",
    "C114_registrar_partial",
    "C114_crash_refuted",
    "C114_leak_refuted"
   ],
   "note": "Missing: failing cleanly when an allocation is refused (NULL dereference, C114_crash_refuted), and losing nothing on a signed request that repeats a member (C114_leak_refuted). With enough memory and no repeated member the claim is proved in full (C114_pledge, C114_registrar)."
  },
  {
   "property": "C115",
   "status": "partial",
   "theorems": [
    "C115_masa",
    "C115_masa_partial",
    "C115_leak_refuted",
    "C115_data_leak_refuted",
    "C115_crash_refuted"
   ],
   "note": "Missing: losing nothing when a trusted registrar signed something that is no voucher (C115_leak_refuted) or repeats a member, or when the list of signers gets no memory (C115_data_leak_refuted), and failing cleanly without memory (C115_crash_refuted). With enough memory and a request that is a voucher without repeated members, or is rejected for its signature, the claim is proved in full (C115_masa)."
  },
  {
   "property": "C116",
   "status": "partial",
   "theorems": [
    "C116_pledge",
    "C116_pledge_partial",
    "C116_leak_refuted",
    "C116_twice_refuted",
    "C116_crash_refuted"
   ],
   "note": "Missing: losing nothing when an allocation is refused (the copy of the pinned certificate is lost, C116_leak_refuted) or a member is repeated (C116_twice_refuted), failing cleanly without memory (C116_crash_refuted), and what a failing check leaves when the list of signers is wanted (the pledge does not want it). With enough memory and no repeated member the claim is proved in full for the pledge's call (C116_pledge)."
  },
  {
   "property": "C117",
   "status": "partial",
   "theorems": [
    "C117_exact",
    "C117_answers_partial",
    "C117_wasted",
    "C117_refuted"
   ],
   "note": "False: each message of a trusted registrar that carries no voucher costs the MASA memory (shown for any number of messages), as does a repeated member. All else holds, for every sequence of requests, while memory suffices."
  },
  {
   "property": "C118",
   "status": "partial",
   "theorems": [
    "C118_exact",
    "C118_answers_partial",
    "C118_refuted"
   ],
   "note": "False: a pledge's request that repeats a member is granted and costs the registrar a block each time. All else holds, for every sequence of requests, while memory suffices."
  },
  {
   "property": "C119",
   "status": "partial",
   "theorems": [
    "C119_exact",
    "C119_outcome_partial",
    "C119_refuted"
   ],
   "note": "False: a voucher that repeats a member is accepted and leaves a further block. All else holds, for every configuration and every answer, while memory suffices and the request is shorter than the address space."
  },
  {
   "property": "C120",
   "status": "proved",
   "theorems": [
    "C120_registrar",
    "C120_masa",
    "C120_pledge",
    "C120_exchange",
    "C65_written"
   ],
   "note": "Assumes that OpenSSL gives back what was signed and can write the certificates of the signers it lists, and that memory suffices."
  },
  {
   "property": "C121",
   "status": "partial",
   "theorems": [
    "C121_exact",
    "C121_answers_partial",
    "C121_refuted"
   ],
   "note": "False only in the memory lost to voucher requests of trusted pledges that repeat a member (C65). All else holds for every sequence, while memory suffices."
  },
  {
   "property": "C122",
   "status": "partial",
   "theorems": [
    "C122_partial",
    "C122_goes_on_partial",
    "C122_ends",
    "C122_refuted",
    "C122_stopped_after"
   ],
   "note": "False in one point: a failure of accept other than EMFILE, EINTR and EAGAIN, such as ECONNABORTED, which a client can cause, or ENFILE, ends the server. All else holds for every schedule."
  },
  {
   "property": "C123",
   "status": "partial",
   "theorems": [
    "C123_refuted",
    "C123_close_refuted",
    "C123_exact_partial",
    "C123_never",
    "C123_waited_partial"
   ],
   "note": "False: httplib_stop deletes the server without waiting for the listening thread (use after free), and a stop that meets a failing accept closes the listening socket twice. C123_exact_partial proves that nothing else goes wrong."
  },
  {
   "property": "C124",
   "status": "partial",
   "theorems": [
    "C124_one_partial",
    "C124_wrong_partial",
    "C124_without",
    "C124_status_refuted",
    "C124_place_refuted",
    "C124_several_refuted",
    "C124_content_refuted"
   ],
   "note": "One part is cut exactly and a missing one answered with 416, for all requests. False: the status stays 200 (set_response sets it before httplib would choose 206), Content-Range repeats the request, an open part among several is empty, and the content of a request with a wrong Range header is handled as the next request."
  },
  {
   "property": "C125",
   "status": "partial",
   "theorems": [
    "C125_request_partial",
    "C125_request_cut",
    "C125_answer",
    "C125_answer_cut",
    "C125_size_refuted",
    "C125_trailer_refuted",
    "C125_codings_refuted"
   ],
   "note": "Requests and answers in chunks arrive whole or not at all, for all chunkings. False: sizes such as 0x4 are read (strtoul), lines of the trailer become headers of the request (also a Content-Type), and with a list of codings the chunk sizes become part of the content."
  },
  {
   "property": "C126",
   "status": "partial",
   "theorems": [
    "C126_post_partial",
    "C126_post_ca",
    "C126_bind_partial",
    "C126_served",
    "C126_connect_order",
    "C126_bind_order",
    "C126_bound",
    "C126_unbound",
    "C126_connected",
    "C126_unconnected_partial",
    "C126_certificate_refuted",
    "C126_select_refuted",
    "C126_port_refuted"
   ],
   "note": "Everything is given back once in every environment, with one exception proved exact; sockets are bound or connected exactly if the kernel says so. False: server_cert_ of the first connection is lost when the request is sent again; a client with a descriptor of 1024 or more cannot wait for its connection (select); bind_internal for port 0 keeps the socket when it fails."
  },
  {
   "property": "C127",
   "status": "partial",
   "theorems": [
    "C127_handled_partial",
    "C127_refused",
    "C127_long",
    "C127_served_partial",
    "C127_absolute_refuted",
    "C127_query_refuted",
    "C127_escape_refuted"
   ],
   "note": "Proved for every stream: only three-word lines are handled, others get 400 or 414; POST requests for any spelling of a path (escapes, query, fragment, blanks) are handled with that path. False: absolute-form targets get 404; of a target without a path the query is taken for the path; %uXXXX and other wrong escapes are served."
  },
  {
   "property": "C128",
   "status": "partial",
   "theorems": [
    "C128_outcome_partial",
    "C128_complete",
    "C128_exact",
    "C128_refuted"
   ],
   "note": "False: a voucher that repeats a member is accepted and leaves a further block. All else holds for every configuration, device and answer while memory suffices."
  },
  {
   "property": "C129",
   "status": "proved",
   "theorems": [
    "C129_enrolment"
   ],
   "note": "For all parties that trust each other, with the complete memory of device and registrar; the MASA's memory is C120."
  },
  {
   "property": "C130",
   "status": "partial",
   "theorems": [
    "C130_outcome_partial",
    "C130_error",
    "C130_exact",
    "C130_refuted",
    "C130_silent_refuted"
   ],
   "note": "False as stated: a refused copy of a text of the subject dereferences NULL (free_keyvalue_list_el unlinks a node that was never linked), and without memory for the key 0 is returned with both arrays empty and the length SIZE_MAX, because the size_t results are compared with 0. Proved: what is left in every case, exactly when -1 is returned, exactly when the device does not survive."
  },
  {
   "property": "C131",
   "status": "proved",
   "theorems": [
    "C131_read",
    "C131_exact",
    "C131_full"
   ],
   "note": ""
  },
  {
   "property": "C132",
   "status": "partial",
   "theorems": [
    "C132_exact_partial",
    "C132_members_partial",
    "C132_full",
    "C132_refuted",
    "C132_many_refuted"
   ],
   "note": "False as stated: the root key is searched among all values and keys (a list under another key supplies the voucher), and a document with more than 32 values and keys is refused. Proved: which pairs decide for documents of any shape; the claim itself for a voucher object that comes first and holds neither objects nor lists, whatever follows."
  },
  {
   "property": "C133",
   "status": "partial",
   "theorems": [
    "C133_boundary_refuted",
    "C133_part_refuted",
    "C133_framed_partial",
    "C133_next_partial",
    "C133_others_partial"
   ],
   "note": "Findings: without a boundary the content is left unread and handled as the next request, and after a part that is not valid so is what had not arrived yet (request smuggling). Proved for every handled request in parts with a length and without Transfer-Encoding: what is left is what follows its content, and the handler gets an empty body; a well-formed form whose first line arrives at once is one request and the next begins behind it. All other requests are read as before."
  },
  {
   "property": "C134",
   "status": "partial",
   "theorems": [
    "C134_cut_refuted",
    "C134_late_refuted",
    "C134_read_partial",
    "C134_chunked_partial",
    "C134_whole_partial",
    "C134_heads_partial"
   ],
   "note": "Findings: a form is refused when the first line of its content does not arrive at once, or when a text after its last line arrives later. Proved: if the first line arrives at once, forms of up to 1024 parts, whose heads are any sequences of lines with a name (with any other parameters before and behind it), a type or something else, are read exactly, however the rest is cut, with a length or in chunks; for all contents that are not in chunks, what is accepted has a boundary, its first and last line and at most 1024 parts; a first part whose head begins with an invalid line is refused with 400. File names are not kept by the model, and the extended ones (filename*) are covered only where they are refused."
  },
  {
   "property": "C135",
   "status": "proved",
   "theorems": [
    "C135_text"
   ],
   "note": "The specification spells out every name and the order of the members; it shares no function with the writer but the record of the voucher, and uses the RFC 4648 and date texts of C02 and C08."
  },
  {
   "property": "C136",
   "status": "partial",
   "theorems": [
    "C136_refuted",
    "C136_never",
    "C136_refused_partial"
   ],
   "note": "Finding: VOUCHER_REQUEST_ROOT_NAME is defined and never used. Requests are written under the name of a voucher, and requests of RFC 8995 are refused. Refused is proved for documents with up to 14 plain members."
  },
  {
   "property": "C137",
   "status": "proved",
   "theorems": [
    "C137_text"
   ],
   "note": "The specification spells out the request and has its own percent encoding and decimals; it shares no function with the writer. Query parameters, and paths with a tabulator, number sign, percent sign or question mark, are outside."
  },
  {
   "property": "C138",
   "status": "proved",
   "theorems": [
    "C138_text",
    "C138_unmatched",
    "C138_thrown"
   ],
   "note": "The specification spells out the answer; it shares no function with the writer. Handlers that set further headers are outside; those of this project set only Content-Type. The statement includes the second Content-Type of errors, which is the finding of C77."
  }
 ]
}