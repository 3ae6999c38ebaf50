(** C26 and C57-C59: what holds of vouchers with too many members, without memory,
    with text behind the voucher object and with nested values. *)
From Verif Require Import Base SBase64 MSerialize SSerialize MJsmn MVoucher SVoucher SJson SJsonMore PVoucherPrefix PVoucherPrefix2.
Open Scope N_scope.

(** C26: the parser has room for 14 members; documents with more are rejected. *)
Theorem C26_too_many : forall w key ms, layout_ok w -> Forall plain_char key -> Forall member_ok ms -> (14 < List.length ms)%nat ->
  deserialize_voucher true (Some (document w key ms)) = Ok None.
Proof. exact too_many. Qed.
Print Assumptions C26_too_many.

Example C26_too_many_case : let m := mk_mem [] (s2b "nonce") [] [] (JQuoted (s2b "AAAA")) [] in let w := mk_lay [] [] [] [] [] [] [] in
  deserialize_voucher true (Some (document w root_name (repeat m 15))) = Ok None /\
  deserialize_voucher true (Some (document w root_name (repeat m 14))) = Ok (Some (with_nonce init_voucher (ba_of [0; 0; 0]))).
Proof. split; vm_compute; reflexivity. Qed.

(** C57, what holds: without memory for the voucher, a text that does not contain
    "serial-number" is refused without an invalid access. The full statement (for
    every text) is false, C57_refuted. *)
Theorem C57_any_partial : forall js, bytes_ok js -> blen js < 2147483648 ->
  deserialize_voucher false (Some js) = Ok None \/
  deserialize_voucher false (Some js) = UB NullDeref /\ occurs (s2b "serial-number") js.
Proof. exact none_any. Qed.
Print Assumptions C57_any_partial.

(** C57 for documents: the crash happens exactly if the first member is a serial
    number of less than 128 bytes. *)
Theorem C57_document_partial : forall w key ms, layout_ok w -> Forall plain_char key -> prefix_of_root key ->
  Forall member_ok ms -> (List.length ms <= 14)%nat -> blen (document w key ms) < 2147483648 ->
  (starts_with_serial ms -> deserialize_voucher false (Some (document w key ms)) = UB NullDeref) /\
  (~ starts_with_serial ms -> deserialize_voucher false (Some (document w key ms)) = Ok None).
Proof. exact none_document. Qed.
Print Assumptions C57_document_partial.

Example C57_case : let w := mk_lay [] [] [] [] [] [] [] in let n := mk_mem [] (s2b "nonce") [] [] (JQuoted (s2b "AAAA")) [] in
  let s := mk_mem [] (s2b "serial-number") [] [] (JQuoted (s2b "A")) [] in
  deserialize_voucher false (Some (document w root_name [n; s])) = Ok None /\
  deserialize_voucher false (Some (document w root_name [s; n])) = UB NullDeref.
Proof. split; vm_compute; reflexivity. Qed.

(** C58, what holds: if the voucher object has at least one member and its members
    are plain (a key, a colon, a text or word), then two texts that agree up to its
    closing brace give the same voucher, the one that the members say. Full
    statement: for every voucher object, false by C58_refuted and C58_empty_refuted. *)
Theorem C58_same_partial : forall w key ms s1 s2 v1 v2, layout_ok w -> Forall plain_char key -> prefix_of_root key ->
  Forall member_ok ms -> ms <> [] -> (List.length ms <= 14)%nat ->
  blen (voucher_part w key ms ++ s1) < 2147483648 -> blen (voucher_part w key ms ++ s2) < 2147483648 ->
  deserialize_voucher true (Some (voucher_part w key ms ++ s1)) = Ok (Some v1) ->
  deserialize_voucher true (Some (voucher_part w key ms ++ s2)) = Ok (Some v2) ->
  v1 = v2 /\ exists kvs, meaning ms kvs /\ holds_exactly v1 kvs.
Proof. exact behind_same. Qed.
Print Assumptions C58_same_partial.

Example C58_case : let w := mk_lay [] [] [] [] [] [] [] in let n := mk_mem [] (s2b "nonce") [] [] (JQuoted (s2b "AAAA")) [] in
  deserialize_voucher true (Some (voucher_part w root_name [n] ++ s2b "}")) = Ok (Some (with_nonce init_voucher (ba_of [0; 0; 0]))) /\
  deserialize_voucher true (Some (voucher_part w root_name [n] ++ s2b ",""nonce"":""BBBB"",""serial-number"":[""x""]}")) = Ok (Some (with_nonce init_voucher (ba_of [0; 0; 0]))) /\
  deserialize_voucher true (Some (voucher_part w root_name [n])) = Ok None.
Proof. split; [|split]; vm_compute; reflexivity. Qed.

(** C58 is false for the empty voucher object: text behind it becomes a member. *)
Theorem C58_empty_refuted : exists w s1 s2 v1 v2, layout_ok w /\
  deserialize_voucher true (Some (voucher_part w root_name [] ++ s1)) = Ok (Some v1) /\
  deserialize_voucher true (Some (voucher_part w root_name [] ++ s2)) = Ok (Some v2) /\
  get_attr_array (Some v1) ANonce = Some (mk_ba None 0) /\ get_attr_array (Some v2) ANonce = Some (ba_of [0; 0; 0]).
Proof. exact behind_empty. Qed.
Print Assumptions C58_empty_refuted.

(** C59, what holds: an object or array as the value of a date, of the assertion or
    of the revocation flag is rejected, behind any plain members and whatever
    follows. Full statement: for every attribute, false for the serial number
    (C59_refuted) and for the base64 attributes (C59_array_refuted). *)
Theorem C59_rejected_partial : forall w key ms w1 a w2 w3 c s, layout_ok w -> Forall plain_char key -> prefix_of_root key -> Forall member_ok ms -> (List.length ms <= 14)%nat ->
  Forall ws_char w1 -> Forall ws_char w2 -> Forall ws_char w3 -> In a all_attrs -> kind a = KTime \/ kind a = KEnum \/ kind a = KBool -> c = 123 \/ c = 91 ->
  bytes_ok (opening w key ms ++ comma_if ms ++ member_start w1 (attr_name a) w2 w3 ++ c :: s) ->
  blen (opening w key ms ++ comma_if ms ++ member_start w1 (attr_name a) w2 w3 ++ c :: s) < 2147483648 ->
  deserialize_voucher true (Some (opening w key ms ++ comma_if ms ++ member_start w1 (attr_name a) w2 w3 ++ c :: s)) = Ok None.
Proof. exact nested_rejected. Qed.
Print Assumptions C59_rejected_partial.

Example C59_case : let w := mk_lay [] [] [] [] [] [] [] in let n := mk_mem [] (s2b "nonce") [] [] (JQuoted (s2b "AAAA")) [] in
  opening w root_name [n] ++ comma_if [n] ++ member_start [] (attr_name AAssertion) [] [32] ++ 91 :: s2b """logged""]}}"
    = s2b "{""ietf-voucher:voucher"":{""nonce"":""AAAA"",""assertion"": [""logged""]}}" /\
  deserialize_voucher true (Some (s2b "{""ietf-voucher:voucher"":{""nonce"":""AAAA"",""assertion"": [""logged""]}}")) = Ok None /\
  deserialize_voucher true (Some (s2b "{""ietf-voucher:voucher"":{""nonce"":""AAAA"",""assertion"": ""logged""}}"))
    = Ok (Some (with_assertion (with_nonce init_voucher (ba_of [0; 0; 0])) 2%Z)).
Proof. split; [|split]; vm_compute; reflexivity. Qed.

Theorem C59_array_refuted : exists json v, bytes_ok json /\ json = s2b "{""ietf-voucher:voucher"":{""nonce"":[""AAAA""]}}" /\
  deserialize_voucher true (Some json) = Ok (Some v) /\ get_attr_array (Some v) ANonce = Some (ba_of [0; 0; 0]).
Proof. exact array_taken. Qed.
Print Assumptions C59_array_refuted.
