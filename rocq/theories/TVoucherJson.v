(** Property theorems C18 (parsed vouchers), C21-C27, C57-C59: the JSON form. *)
From Verif Require Import Base MBase64 SBase64 MSerialize SSerialize MJsmn MVoucher SVoucher SJson PVoucherJson PVoucherRound.
Open Scope N_scope.

(** C18, parsed vouchers. *)
Theorem C18_parsed : forall js v, bytes_ok js -> blen js < 2147483648 ->
  deserialize_voucher true (Some js) = Ok (Some v) -> voucher_wf v.
Proof. exact parsed_wf. Qed.
Print Assumptions C18_parsed.

Example C18_parsed_case : deserialize_voucher true
  (Some (s2b " {""ietf-voucher:voucher"" : { ""nonce"":""AQID"", ""assertion"":""logged"" } } ")) =
  Ok (Some (with_assertion (with_nonce init_voucher (ba_of [1;2;3])) 2)).
Proof. vm_compute. reflexivity. Qed.

(** C21. *)
Theorem C21_json_roundtrip : forall v, json_ready v -> exists text,
  serialize_voucher (Some v) = Ok (Some text) /\
  (blen text < 2147483648 -> exists w, deserialize_voucher true (Some text) = Ok (Some w) /\ same_voucher v w).
Proof. exact json_roundtrip. Qed.
Print Assumptions C21_json_roundtrip.

Example C21_case : json_ready full_voucher.
Proof. exact full_ready. Qed.
Example C21_text : serialize_voucher (Some (with_nonce (with_serial init_voucher (Some (s2b "A1"))) (ba_of [1;2;3]))) =
  Ok (Some (s2b "{""ietf-voucher:voucher"":{""serial-number"":""A1"",""domain-cert-revocation-checks"":false,""nonce"":""AQID""}}")).
Proof. vm_compute. reflexivity. Qed.

(** C22 is false: a serial number accepted by the setter that adds a nonce. For
    serial numbers of plain characters it holds (C21_json_roundtrip). *)
Theorem C22_refuted : exists s v w text, cstr_ok s /\
  set_attr_str true (Some init_voucher) ASerial (Some (s ++ [0])) = Ok (0%Z, Some v) /\
  serialize_voucher (Some v) = Ok (Some text) /\ deserialize_voucher true (Some text) = Ok (Some w) /\
  get_attr_str (Some w) ASerial = Some (Some (s2b "x")) /\ get_attr_str (Some v) ASerial = Some (Some s) /\ s <> s2b "x" /\
  get_attr_array (Some v) ANonce = Some ba_null /\ get_attr_array (Some w) ANonce = Some (ba_of [0; 0; 0]).
Proof. exact injection_refuted. Qed.
Print Assumptions C22_refuted.

(** C23 is false for texts with nested values: the member "foo" is accepted
    and a member of the nested object becomes the nonce. *)
Theorem C23_refuted : exists json v,
  json = s2b "{""ietf-voucher:voucher"":{""serial-number"":{""nonce"":""AAAA""},""foo"":""x""}}" /\
  deserialize_voucher true (Some json) = Ok (Some v) /\
  get_attr_str (Some v) ASerial = Some (Some (s2b "{""nonce"":""AAAA""}")) /\
  get_attr_array (Some v) ANonce = Some (ba_of [0; 0; 0]) /\
  (forall a, In a all_attrs -> attr_name a <> s2b "foo").
Proof. exact unknown_key_refuted. Qed.
Print Assumptions C23_refuted.

(** What holds for every byte string: the voucher holds exactly the values of
    entries of the text, each a valid text behind the name of its attribute. *)
Theorem C23_only_partial : forall js v, bytes_ok js -> blen js < 2147483648 ->
  deserialize_voucher true (Some js) = Ok (Some v) ->
  exists es, Forall (entry_ok js) es /\ holds_exactly v (map entry_kv es).
Proof. exact deserialize_only. Qed.
Print Assumptions C23_only_partial.

(** The full statement for documents with flat members: a document with an
    unknown key or an invalid value is rejected. *)
Theorem C23_flat_partial : forall w key ms, layout_ok w -> Forall plain_char key -> prefix_of_root key ->
  Forall member_ok ms -> (List.length ms <= 14)%nat -> blen (document w key ms) < 2147483648 ->
  (forall kvs, ~ meaning ms kvs) -> deserialize_voucher true (Some (document w key ms)) = Ok None.
Proof. exact document_rejects. Qed.
Print Assumptions C23_flat_partial.

Example C23_case : document (mk_lay [32] [] [] [10] [] [] []) root_name
    [mk_mem [] (s2b "nonce") [] [32] (JQuoted (s2b "AAAA")) []; mk_mem [] (s2b "foo") [] [] (JBare (s2b "true")) []]
  = s2b " {""ietf-voucher:voucher"":" ++ [10] ++ s2b "{""nonce"": ""AAAA"",""foo"":true}}" /\
  deserialize_voucher true (Some (s2b " {""ietf-voucher:voucher"":" ++ [10] ++ s2b "{""nonce"": ""AAAA"",""foo"":true}}")) = Ok None.
Proof. split; vm_compute; reflexivity. Qed.

(** C24 is false: the key may be any prefix of the name, even the empty one. *)
Theorem C24_refuted : exists json v, bytes_ok json /\ ~ occurs root_name json /\
  deserialize_voucher true (Some json) = Ok (Some v) /\ get_attr_str (Some v) ASerial = Some (Some (s2b "12")).
Proof. exact empty_root_refuted. Qed.
Print Assumptions C24_refuted.

(** What holds: a key that is not a prefix of the name is not read. *)
Theorem C24_root_partial : forall w key ms, layout_ok w -> Forall plain_char key -> ~ prefix_of_root key ->
  Forall member_ok ms -> (List.length ms <= 14)%nat -> blen (document w key ms) < 2147483648 ->
  deserialize_voucher true (Some (document w key ms)) = Ok None.
Proof. exact document_wrong_root. Qed.
Print Assumptions C24_root_partial.

Example C24_case : deserialize_voucher true (Some (s2b "{""ietf-voucher:vouchers"":{""serial-number"":""12""}}")) = Ok None /\
  deserialize_voucher true (Some (s2b "{""ietf"":{""serial-number"":""12""}}")) = Ok (Some (with_serial init_voucher (Some (s2b "12")))).
Proof. split; vm_compute; reflexivity. Qed.

(** C25. *)
Theorem C25_deserialize_safe : forall js, bytes_ok js -> blen js < 2147483648 ->
  exists r, deserialize_voucher true (Some js) = Ok r.
Proof. exact deserialize_safe. Qed.
Print Assumptions C25_deserialize_safe.

Example C25_case : deserialize_voucher true (Some (s2b "{""ietf-voucher:voucher"":{""nonce"":")) = Ok None /\
  deserialize_voucher true (Some (s2b "{""ietf-voucher:voucher""")) = Ok None /\
  deserialize_voucher true (Some (s2b "{""ietf-voucher:voucher"":{""nonce""}}")) = Ok None.
Proof. vm_compute. repeat split. Qed.

(** C26. [holds_exactly] takes the last value of each attribute. *)
Theorem C26_last_wins : forall w key ms kvs, layout_ok w -> Forall plain_char key -> prefix_of_root key ->
  Forall member_ok ms -> (List.length ms <= 14)%nat -> blen (document w key ms) < 2147483648 -> meaning ms kvs ->
  exists v, deserialize_voucher true (Some (document w key ms)) = Ok (Some v) /\ holds_exactly v kvs.
Proof. exact document_accepts. Qed.
Print Assumptions C26_last_wins.

Example C26_case : deserialize_voucher true
  (Some (s2b "{""ietf-voucher:voucher"":{""serial-number"":""A"",""nonce"":""AQID"",""serial-number"":""B""}}")) =
  Ok (Some (with_serial (with_nonce init_voucher (ba_of [1;2;3])) (Some (s2b "B")))) /\
  last_of ASerial [(ASerial, PStr (s2b "A")); (ANonce, PArr [1;2;3]); (ASerial, PStr (s2b "B"))] = Some (PStr (s2b "B")).
Proof. split; vm_compute; reflexivity. Qed.

(** C27. *)
Theorem C27_serialize_injective : forall v w text, json_ready v -> json_ready w -> blen text < 2147483648 ->
  serialize_voucher (Some v) = Ok (Some text) -> serialize_voucher (Some w) = Ok (Some text) -> same_voucher v w.
Proof. exact serialize_injective. Qed.
Print Assumptions C27_serialize_injective.

Example C27_case : serialize_voucher (Some (with_nonce init_voucher (ba_of [1]))) <>
  serialize_voucher (Some (with_nonce init_voucher (ba_of [1;0]))).
Proof. vm_compute. discriminate. Qed.

(** C57 is false: with a failed allocation of the voucher the serial number is
    written through a NULL pointer. *)
Theorem C57_refuted : exists json, bytes_ok json /\ deserialize_voucher false (Some json) = UB NullDeref.
Proof. exact parse_oom_refuted. Qed.
Print Assumptions C57_refuted.

(** C58 is false: the text behind the end of the voucher object decides. *)
Theorem C58_refuted : exists text s1 s2 v1 v2,
  text = s2b "{""ietf-voucher:voucher"":{""nonce"" ""AAAA""}" /\
  deserialize_voucher true (Some (text ++ s1)) = Ok (Some v1) /\
  deserialize_voucher true (Some (text ++ s2)) = Ok (Some v2) /\
  get_attr_array (Some v1) ANonce = Some (ba_of [4; 16; 65]) /\
  get_attr_array (Some v2) ANonce = Some (ba_of [8; 32; 130]).
Proof. exact outside_refuted. Qed.
Print Assumptions C58_refuted.

(** C59 is false: an object is taken as the text of the serial number. *)
Theorem C59_refuted : exists json v, bytes_ok json /\
  json = s2b "{""ietf-voucher:voucher"":{""serial-number"":{""a"":[1,2]}}}" /\
  deserialize_voucher true (Some json) = Ok (Some v) /\
  get_attr_str (Some v) ASerial = Some (Some (s2b "{""a"":[1,2]}")).
Proof. exact object_value_refuted. Qed.
Print Assumptions C59_refuted.
