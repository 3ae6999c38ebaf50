(** Property theorems C01-C06: base64. *)
From Verif Require Import Base MBase64 SBase64 PBase64.
Open Scope N_scope.

(** C01. Decoding the text produced from a non-empty array gives it back. *)
Theorem C01_base64_roundtrip : forall src,
  bytes_ok src -> src <> [] -> blen src < SIZE_MAX / 4 ->
  exists n cap text,
    serialize_array2base64str true src = Ok (n, PBuf cap (text ++ [0])) /\
    cstr_ok text /\ n = Z.of_N (blen text) /\
    exists cap', serialize_base64str2array true text
                 = Ok (Z.of_N (blen src), PBuf cap' src).
Proof. exact roundtrip. Qed.
Print Assumptions C01_base64_roundtrip.

Example C01_case :
  serialize_array2base64str true [0; 255; 10; 61]
    = Ok (8%Z, PBuf 9 (s2b "AP8KPQ==" ++ [0])) /\
  serialize_base64str2array true (s2b "AP8KPQ==")
    = Ok (4%Z, PBuf 6 [0; 255; 10; 61]).
Proof. vm_compute. split; reflexivity. Qed.

(** C02. The encoder refuses over-long arrays and otherwise writes exactly the
    RFC 4648 text and a NUL; the result [Ok] says that no write left the
    buffer of the size computed in 64-bit arithmetic. *)
Theorem C02_base64_encode_rfc : forall src, bytes_ok src ->
  serialize_array2base64str true src =
  if blen src <? SIZE_MAX / 4
  then Ok (Z.of_N (rfc_len (blen src)),
           PBuf (rfc_len (blen src) + 1) (rfc_encode src ++ [0]))
  else Ok ((-1)%Z, PNull).
Proof. exact encode_spec. Qed.
Print Assumptions C02_base64_encode_rfc.

Theorem C02_base64_encode_length : forall src, blen (rfc_encode src) = rfc_len (blen src).
Proof. exact rfc_encode_len. Qed.
Print Assumptions C02_base64_encode_length.

Theorem C02_base64_encode_no_memory : forall src, bytes_ok src ->
  serialize_array2base64str false src = Ok ((-1)%Z, PNull).
Proof. exact encode_no_mem. Qed.
Print Assumptions C02_base64_encode_no_memory.

Example C02_case : rfc_encode (s2b "foobar") = s2b "Zm9vYmFy" /\
  rfc_encode (s2b "fooba") = s2b "Zm9vYmE=" /\ rfc_encode (s2b "foob") = s2b "Zm9vYg==".
Proof. vm_compute. repeat split. Qed.

(** C03. The decoder never leaves its buffer, whatever the input. *)
Theorem C03_base64_decode_safe : forall mok src, bytes_ok src ->
  exists ret out, serialize_base64str2array mok src = Ok (ret, out) /\
  ((0 <= ret)%Z ->
   exists cap d, out = PBuf cap d /\ ret = Z.of_N (blen d) /\ blen d <= cap).
Proof. exact decode_safe. Qed.
Print Assumptions C03_base64_decode_safe.

(** C03, in full: the value returned for every input. *)
Theorem C03_base64_decode_value : forall src, bytes_ok src ->
  serialize_base64str2array true src =
  match rfc_decode src with
  | Some d => Ok (Z.of_N (blen d),
                  PBuf (decode_olen (blen (filter b64_relevant src))) d)
  | None => Ok ((-1)%Z, match filter b64_relevant src with
                        | [] => PNull | _ => PFreed end)
  end.
Proof. exact decode_spec. Qed.
Print Assumptions C03_base64_decode_value.

Example C03_case : rfc_decode (s2b "!Zm-9v*Y") = Some (s2b "foo") -> False.
Proof. vm_compute. discriminate. Qed.
Example C03_case2 :
  serialize_base64str2array true (s2b "Zm9=xxxx====") = Ok (2%Z, PBuf 9 (s2b "fo")).
Proof. vm_compute. reflexivity. Qed.

(** C04. Bytes outside the alphabet and '=' do not influence decoding. *)
Theorem C04_base64_decode_ignores : forall mok s1 s2, bytes_ok s1 -> bytes_ok s2 ->
  filter b64_relevant s1 = filter b64_relevant s2 ->
  serialize_base64str2array mok s1 = serialize_base64str2array mok s2.
Proof. exact decode_ignores. Qed.
Print Assumptions C04_base64_decode_ignores.

Example C04_case :
  filter b64_relevant (s2b "Zm 9v" ++ [10; 0] ++ s2b "YmFy") = filter b64_relevant (s2b "Zm9vYmFy") /\
  serialize_base64str2array true (s2b "Zm 9v" ++ [10; 0] ++ s2b "YmFy") = Ok (6%Z, PBuf 6 (s2b "foobar")).
Proof. vm_compute. split; reflexivity. Qed.

(** C05. Full statement, refuted: "whenever decoding fails the pointer handed
    back is NULL". The input "====" fails and hands back a released block. *)
Theorem C05_base64_failed_decode_null_refuted :
  exists src ret out, bytes_ok src /\
    serialize_base64str2array true src = Ok (ret, out) /\ (ret < 0)%Z /\ out = PFreed.
Proof. exact failed_decode_null_refuted. Qed.
Print Assumptions C05_base64_failed_decode_null_refuted.

(** C05, what holds: failure returns -1, and hands back NULL except on inputs
    whose first padded group has three or more '='. *)
Theorem C05_base64_failed_decode_partial : forall mok src, bytes_ok src ->
  forall ret out, serialize_base64str2array mok src = Ok (ret, out) -> (ret < 0)%Z ->
  ret = (-1)%Z /\
  ((out = PNull /\ (mok = false \/ filter b64_relevant src = [])) \/
   (out = PFreed /\ mok = true /\ filter b64_relevant src <> [] /\
    rfc_decode_groups (filter b64_relevant src) = None)).
Proof. exact decode_fail_pointer. Qed.
Print Assumptions C05_base64_failed_decode_partial.

Theorem C05_base64_bad_padding : forall l,
  rfc_decode_groups l = None <->
  exists g, first_padded l = Some g /\ (3 <= pads g)%nat.
Proof. exact decode_groups_fail. Qed.
Print Assumptions C05_base64_bad_padding.

Example C05_case : serialize_base64str2array true (s2b "Zm9vY") = Ok ((-1)%Z, PFreed) /\
  serialize_base64str2array true (s2b "-?!") = Ok ((-1)%Z, PNull).
Proof. vm_compute. split; reflexivity. Qed.

(** C06. Full statement, refuted: "every array that serialises reads back".
    The empty array serialises (to the empty text) and does not read back. *)
Theorem C06_empty_array_refuted :
  exists src text, bytes_ok src /\
    serialize_array2base64str true src = Ok (Z.of_N (blen text), PBuf (blen text + 1) (text ++ [0])) /\
    serialize_base64str2array true text = Ok ((-1)%Z, PNull).
Proof. exact empty_array_refuted. Qed.
Print Assumptions C06_empty_array_refuted.
