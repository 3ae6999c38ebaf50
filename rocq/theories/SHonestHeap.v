(** Specification vocabulary for parties whose trusted peers use this library. *)
From Verif Require Import Base MBase64 MSerialize MVoucher MCrypto MRequest MHeap MArray MVoucherHeap MConfig MHandlers MHandlerHeap SBase64 SHeap SArray SConfig SJson SVoucher SRequest SHandlers SPledge SHandlerHeap.
Open Scope N_scope.

(** [cms] is a signature, made with some certificate and key, of the text that
    voucher.c writes for [v]. *)
Definition authored (o : ossl) (v : voucher) (cms : bytes) : Prop :=
  exists cert key extra text, json_ready v /\ serialize_voucher (Some v) = Ok (Some text) /\ signed o KAuto cert key extra text cms.

(** If the message passes verification, then it was made in this way. *)
Definition from_library (o : ossl) (cms : barray) (certs store : option certlist) : Prop :=
  forall c st json, verified o cms certs store c st json -> exists v d, holds_bytes cms d /\ authored o v d.

(** Trusted pledges use this library. *)
Definition honest_pledge (o : ossl) (w : world) (f : registrar_files) (body : bytes) : Prop :=
  forall m vcerts vstore, rfc_decode (c_string body) = Some m -> cert_list (w_cert w) (rf_verify f) vcerts -> cert_list (w_cert w) (rf_store f) vstore -> from_library o (ba_of m) vcerts vstore.

(** Trusted registrars use this library, and so do the trusted pledges whose
    requests they pass on. *)
Definition honest_registrar (o : ossl) (w : world) (f : masa_files) (body : bytes) : Prop :=
  forall m rv rs pv ps c st json, rfc_decode (c_string body) = Some m ->
    cert_list (w_cert w) (mf_verify f) rv -> cert_list (w_cert w) (mf_store f) rs -> cert_list (w_cert w) (mf_pverify f) pv -> cert_list (w_cert w) (mf_pstore f) ps ->
    verified o (ba_of m) rv rs c st json ->
    exists v, authored o v m /\ forall p, get_attr_array (Some v) APrior = Some p -> from_library o p pv ps.

(** The trusted MASA that answers the pledge's request uses this library. *)
Definition honest_masa (o : ossl) (w : world) (f : pledge_files) (post1 post2 : post_cert_fn) : Prop :=
  forall tls1 cms tls response m vc vs, first_contact post1 tls1 -> pledge_asks o w f tls1 cms -> blen cms < SIZE_MAX / 4 -> second_contact post2 (rfc_encode cms) tls response -> rfc_decode (c_string response) = Some m ->
    cert_list (w_cert w) (pf_verify f) vc -> cert_list (w_cert w) (pf_store f) vs -> from_library o (ba_of m) vc vs.

(** OpenSSL can write the certificates of the signers it lists. *)
Definition signers_written (o : ossl) : Prop :=
  forall b c st xs, bytes_ok b -> d2i_cms o b = Some c -> cms_signers o c st = Some xs -> Forall (fun x => i2d_x509 o x <> None) xs.

(** The three parties connected, each with its complete memory. A server that does
    not survive a request gives no answer. *)
Definition full_masa_service (o : ossl) (w : world) (c : masa_conf) (h : heap) : post_fn := fun body =>
  match full_masa_requestvoucher o w c 0 h body with Ok (status, response, _, _) => (status, response) | UB _ => ((-1)%Z, []) end.
Definition full_registrar_service (o : ossl) (w : world) (c : registrar_conf) (nn : bytes -> N) (post : post_fn) (h : heap) (client server : cert_view) : post_cert_fn := fun body =>
  match full_registrar_requestvoucher o w c nn post h (Some client) body with Ok (status, response, _) => (status, response, Some server) | UB _ => ((-1)%Z, [], None) end.

(** The pledge sends [cms] to whoever answered the first connection. *)
Definition pledge_sends (o : ossl) (w : world) (f : pledge_files) (post1 : post_cert_fn) (cms : bytes) : Prop :=
  exists tls1, first_contact post1 tls1 /\ pledge_asks o w f tls1 cms /\ blen cms < SIZE_MAX / 4.

(** The client's certificate can be written into a voucher request. *)
Definition client_values (client : cert_view) : Prop :=
  (forall s, client_serial client s -> Forall plain_char s /\ blen s < 128) /\ (forall i, cv_issuer_text client = Some i -> blen i < SIZE_MAX / 8).
