(** Property theorems C135 and C136: the texts of vouchers and voucher requests have the form and the names of
    RFC 8366 and RFC 8995. *)
From Verif Require Import Base MSerialize SSerialize MVoucher SVoucher SJson PVoucherRound MCrypto MRequest PRequest6 SVoucherRfc PVoucherRfc.
Open Scope N_scope.

(** C135. *)
Theorem C135_text : forall v, json_ready v -> serialize_voucher (Some v) = Ok (Some (rfc8366_text v)) /\
  (blen (rfc8366_text v) < 2147483648 -> exists w, deserialize_voucher true (Some (rfc8366_text v)) = Ok (Some w) /\ same_voucher v w).
Proof. exact text_both. Qed.
Print Assumptions C135_text.

Example C135_ready : json_ready full_voucher.
Proof. exact full_ready. Qed.
Example C135_case : serialize_voucher (Some full_voucher) = Ok (Some (s2b
  "{""ietf-voucher:voucher"":{""created-on"":""2020-06-04T03:02:01Z"",""expires-on"":""2020-06-04T03:02:01Z"",""assertion"":""proximity"",""serial-number"":""pledge-1"",""idevid-issuer"":""AQ=="",""pinned-domain-cert"":""AgM="",""domain-cert-revocation-checks"":true,""nonce"":""BAUG"",""last-renewal-date"":""2020-06-04T03:02:01Z"",""prior-signed-voucher-request"":""BwgJCg=="",""proximity-registrar-cert"":""/w==""}}")).
Proof. vm_compute. reflexivity. Qed.

(** C136. Full statement, refuted: a voucher request is written, and read, under the name of RFC 8995. The
    pledge writes its request under the name of a voucher. *)
Theorem C136_refuted : exists created serial nonce rtls cert key t, sign_pledge_voucher_request toy created serial nonce rtls cert key None = Ok (Some (1 :: t)) /\ ~ request_text t.
Proof. exact made_refuted. Qed.
Print Assumptions C136_refuted.

(** C136: nothing that is written is a voucher request of RFC 8995. *)
Theorem C136_never : forall v, json_ready v -> exists t, serialize_voucher (Some v) = Ok (Some t) /\ ~ request_text t.
Proof. exact never_request. Qed.
Print Assumptions C136_never.

(** C136: every request of RFC 8995 with up to 14 plain members is refused, whatever its members and layout. *)
Theorem C136_refused_partial : forall w ms, layout_ok w -> Forall member_ok ms -> (List.length ms <= 14)%nat -> blen (document w request_name ms) < 2147483648 ->
  deserialize_voucher true (Some (document w request_name ms)) = Ok None.
Proof. exact requests_refused. Qed.
Print Assumptions C136_refused_partial.

Example C136_case : document no_ws request_name [mk_mem [] (s2b "nonce") [] [] (JQuoted (s2b "AQID")) []] = s2b "{""ietf-voucher-request:voucher"":{""nonce"":""AQID""}}" /\
  deserialize_voucher true (Some (s2b "{""ietf-voucher-request:voucher"":{""nonce"":""AQID""}}")) = Ok None /\
  deserialize_voucher true (Some (s2b "{""ietf-voucher:voucher"":{""nonce"":""AQID""}}")) = Ok (Some (with_nonce init_voucher (ba_of [1; 2; 3]))).
Proof. vm_compute. repeat split; reflexivity. Qed.
