(** Specification vocabulary for the HTTP handlers and the pledge client. *)
From Verif Require Import Base MOs MHeap MArray MVoucher MCrypto MSerialize MConfig MHandlers SHeap SArray SBase64 SVoucher SRequest.
Open Scope N_scope.

(** A pointer of the configuration to a list of file names. *)
Definition path_list (h : heap) (p : N) (ts : list bytes) : Prop :=
  p = 0 /\ ts = [] \/
  exists xs, dl_list_for_each arr_off h p = Ok xs /\ dl_list_len arr_off h p = Ok (N.of_nat (List.length xs)) /\
    Forall2 (fun x t => exists q, get_ptr h x 0 = Ok q /\ heap_string h q = Ok t) xs ts.

(** Text that base64 decoding releases without resetting the pointer (C05). *)
Definition bad_padding (src : bytes) : Prop := exists g, first_padded (filter b64_relevant src) = Some g /\ (3 <= pads g)%nat.

(** The certificates of a list of files; an empty list counts as absent. *)
Definition cert_list (rd : bytes -> option bytes) (ts : list bytes) (l : option certlist) : Prop :=
  match l with
  | None => ts = []
  | Some l => ts <> [] /\ Forall2 (fun t e => rd t = Some (fst e) /\ snd e = 0%Z) ts l
  end.
Definition missing (rd : bytes -> option bytes) (ts : list bytes) : Prop := exists t, In t ts /\ rd t = None.

(** DER files hold bytes. *)
Definition world_ok (w : world) : Prop :=
  (forall t d, w_cert w t = Some d -> bytes_ok d) /\ (forall t d, w_key w t = Some d -> bytes_ok d).

(** ** The MASA *)

(** What the MASA's configuration says. *)
Record masa_files := mk_mfiles {
  mf_expires : option bytes; mf_ldevid : bytes; mf_cert : bytes; mf_key : bytes;
  mf_verify : list bytes; mf_store : list bytes; mf_pverify : list bytes; mf_pstore : list bytes; mf_add : list bytes }.
Definition masa_config (h : heap) (c : masa_conf) (f : masa_files) : Prop :=
  opt_string h (mc_expires c) = Ok (mf_expires f) /\
  heap_string h (mc_ldevid c) = Ok (mf_ldevid f) /\ heap_string h (mc_cert c) = Ok (mf_cert f) /\ heap_string h (mc_key c) = Ok (mf_key f) /\
  path_list h (mc_verify c) (mf_verify f) /\ path_list h (mc_store c) (mf_store f) /\
  path_list h (mc_pverify c) (mf_pverify f) /\ path_list h (mc_pstore c) (mf_pstore f) /\ path_list h (mc_add c) (mf_add f).
Definition masa_lists (f : masa_files) : list (list bytes) := [mf_verify f; mf_store f; mf_pverify f; mf_pstore f; mf_add f].

(** The MASA's own material is there and it issues the voucher [cms] for the
    request [m]: the registrar's signature and, over the inner request, the
    pledge's verify, both name the same serial number, and [cms] is a signed
    voucher for it with the registrar's nonce and the configured domain
    certificate and expiry time. *)
Definition masa_issues (o : ossl) (w : world) (f : masa_files) (m cms : bytes) : Prop :=
  exists t ldc cert key rv rs pv ps add vr regs p pvr s n,
    serialize_str2time (mf_expires f) = Some t /\ w_cert w (mf_ldevid f) = Some ldc /\
    w_cert w (mf_cert f) = Some cert /\ w_key w (mf_key f) = Some key /\
    cert_list (w_cert w) (mf_verify f) rv /\ cert_list (w_cert w) (mf_store f) rs /\
    cert_list (w_cert w) (mf_pverify f) pv /\ cert_list (w_cert w) (mf_pstore f) ps /\ cert_list (w_cert w) (mf_add f) add /\
    says o (ba_of m) rv rs true vr regs /\ get_attr_array (Some vr) APrior = Some (ba_of p) /\ says o (ba_of p) pv ps false pvr None /\
    get_attr_str (Some vr) ASerial = Some (Some s) /\ get_attr_str (Some pvr) ASerial = Some (Some s) /\ nonce_is vr n /\
    signed_voucher o (Some (ba_of cert)) (Some (ba_of key)) add (masa_content t s n ldc) cms.

(** The answer to a request is a voucher in base64 issued for the decoded body,
    or a refusal when there is none (that can be written). *)
Definition masa_answer (o : ossl) (w : world) (f : masa_files) (body : bytes) (answer : Z * bytes) : Prop :=
  fst answer = 200%Z /\ (exists m cms, rfc_decode (c_string body) = Some m /\ masa_issues o w f m cms /\ snd answer = rfc_encode cms) \/
  fst answer = 400%Z /\ snd answer = [] /\ ~ (exists m cms, rfc_decode (c_string body) = Some m /\ masa_issues o w f m cms /\ blen cms < SIZE_MAX / 4).

(** The requests the endpoint does not survive: a body with bad padding, or any
    body when a certificate of a list cannot be read. *)
Definition masa_crash (w : world) (f : masa_files) (body : bytes) : Prop :=
  serialize_str2time (mf_expires f) <> None /\
  (bad_padding (c_string body) \/
   w_cert w (mf_ldevid f) <> None /\ w_cert w (mf_cert f) <> None /\ w_key w (mf_key f) <> None /\ Exists (missing (w_cert w)) (masa_lists f)).

(** Requests served one after another by one MASA. *)
Fixpoint masa_serves (o : ossl) (w : world) (c : masa_conf) (ld : N) (h : heap) (bodies : list bytes) : outcome (list (Z * bytes) * heap) :=
  match bodies with
  | [] => Ok ([], h)
  | b :: r =>
    obind (masa_requestvoucher o w c ld h b) (fun x =>
      let '(status, response, ld, h) := x in
      obind (masa_serves o w c ld h r) (fun y => Ok ((status, response) :: fst y, snd y)))
  end.

(** ** The registrar *)

Record registrar_files := mk_rfiles {
  rf_tls : bytes; rf_cert : bytes; rf_key : bytes; rf_verify : list bytes; rf_store : list bytes; rf_add : list bytes }.
Definition registrar_config (h : heap) (c : registrar_conf) (f : registrar_files) : Prop :=
  heap_string h (rc_tls_cert c) = Ok (rf_tls f) /\ heap_string h (rc_cert c) = Ok (rf_cert f) /\ heap_string h (rc_key c) = Ok (rf_key f) /\
  path_list h (rc_verify c) (rf_verify f) /\ path_list h (rc_store c) (rf_store f) /\ path_list h (rc_add c) (rf_add f).

(** A client certificate consists of bytes. *)
Definition view_ok (v : cert_view) : Prop :=
  (forall n t, cv_issuer_entry v n = Some (Some t) -> bytes_ok t) /\ (forall n t, cv_subject_entry v n = Some (Some t) -> bytes_ok t) /\
  (forall t, cv_issuer_text v = Some t -> bytes_ok t) /\ (forall d, cv_der v = Some d -> bytes_ok d).

(** The client certificate names its holder: the names are readable and the
    subject has a serial number. *)
Definition client_serial (v : cert_view) (s : bytes) : Prop :=
  (forall n, In n NNAMES -> cv_issuer_entry v n <> None /\ cv_subject_entry v n <> None) /\
  exists t, cv_subject_entry v (s2b "serialNumber") = Some (Some t) /\ s = c_string t.

(** The registrar's own material is there and [cms] is its request to the MASA for
    the pledge's request [m]: that one verifies, names the client certificate's
    serial number, carries the registrar's own TLS certificate and asserts
    proximity; [cms] is signed and contains the pledge's request, its nonce, the
    serial number and the issuer of the client certificate. *)
Definition registrar_posts (o : ossl) (w : world) (f : registrar_files) (v : cert_view) (m cms : bytes) : Prop :=
  exists t s i tls cert key vcerts vstore add pvr prox n,
    w_now w = Some t /\ client_serial v s /\ cv_issuer_text v = Some i /\ i <> [] /\
    w_cert w (rf_tls f) = Some tls /\ w_cert w (rf_cert f) = Some cert /\ w_key w (rf_key f) = Some key /\
    cert_list (w_cert w) (rf_verify f) vcerts /\ cert_list (w_cert w) (rf_store f) vstore /\ cert_list (w_cert w) (rf_add f) add /\
    says o (ba_of m) vcerts vstore false pvr None /\ get_attr_str (Some pvr) ASerial = Some (Some s) /\
    get_attr_array (Some pvr) AProximity = Some prox /\ same_bytes prox (ba_of tls) /\ get_attr_enum (Some pvr) AAssertion = Some 3%Z /\
    nonce_is pvr n /\ signed_voucher o (Some (ba_of cert)) (Some (ba_of key)) add (registrar_content t s n i m) cms.

(** The client presented a certificate that names its holder and its issuer. *)
Definition client_known (peer : option cert_view) : Prop :=
  exists v s, peer = Some v /\ client_serial v s /\ cv_issuer_text v <> None.

(** The registrar's clock and files can be read. *)
Definition registrar_ready (w : world) (f : registrar_files) : Prop :=
  w_now w <> None /\ w_cert w (rf_tls f) <> None /\ w_cert w (rf_cert f) <> None /\ w_key w (rf_key f) <> None /\
  Forall (fun ts => ~ missing (w_cert w) ts) [rf_verify f; rf_store f; rf_add f].

(** The answer to a pledge: the MASA's answer to such a request, nothing when the
    MASA refused, a fixed text when the MASA could not be reached; 400 when the
    client is not known or its request cannot be passed on, 500 when the
    registrar is not ready. *)
Definition registrar_answer (o : ossl) (w : world) (f : registrar_files) (post : post_fn) (peer : option cert_view) (body : bytes) (answer : Z * bytes) : Prop :=
  (exists v m cms, peer = Some v /\ rfc_decode (c_string body) = Some m /\ registrar_posts o w f v m cms /\
     (fst answer = 200%Z /\ (blen cms < SIZE_MAX / 4 /\ (0 <= fst (post (rfc_encode cms)) < 400)%Z) /\ snd answer = snd (post (rfc_encode cms)) \/
      fst answer = 200%Z /\ (blen cms < SIZE_MAX / 4 /\ (400 <= fst (post (rfc_encode cms)))%Z) /\ snd answer = [] \/
      fst answer = 502%Z /\ ((fst (post (rfc_encode cms)) < 0)%Z \/ SIZE_MAX / 4 <= blen cms) /\ snd answer = masa_unreachable)) \/
  answer = (400%Z, []) /\ (~ client_known peer \/ registrar_ready w f /\ ~ exists v m cms, peer = Some v /\ rfc_decode (c_string body) = Some m /\ registrar_posts o w f v m cms) \/
  answer = (500%Z, []) /\ client_known peer /\ ~ registrar_ready w f.

(** The requests the endpoint does not survive: an identified client sends a body
    with bad padding, or a verified request without a serial number. *)
Definition registrar_unsafe (o : ossl) (w : world) (f : registrar_files) (peer : option cert_view) (body : bytes) : Prop :=
  exists v s, peer = Some v /\ client_serial v s /\ cv_issuer_text v <> None /\
    (bad_padding (c_string body) \/
     exists m tls cert key vcerts vstore add pvr, w_now w <> None /\ rfc_decode (c_string body) = Some m /\
       w_cert w (rf_tls f) = Some tls /\ w_cert w (rf_cert f) = Some cert /\ w_key w (rf_key f) = Some key /\
       cert_list (w_cert w) (rf_verify f) vcerts /\ cert_list (w_cert w) (rf_store f) vstore /\ cert_list (w_cert w) (rf_add f) add /\
       says o (ba_of m) vcerts vstore false pvr None /\ get_attr_str (Some pvr) ASerial = Some None).

(** ** Enrolment *)

(** The registrar's CA signs the certificate [tbs] as [out]. *)
Definition enrolls (sign_cert : sign_cert_fn) (w : world) (cert key : bytes) (tbs out : bytes) : Prop :=
  exists c k, w_cert w cert = Some c /\ w_key w key = Some k /\ sign_cert k c tbs = Some out.

(** The answer is the signed certificate in base64, or a refusal when there is none. *)
Definition enroll_answer (sign_cert : sign_cert_fn) (w : world) (cert key : bytes) (body : bytes) (answer : Z * bytes) : Prop :=
  (exists tbs out, rfc_decode (c_string body) = Some tbs /\ enrolls sign_cert w cert key tbs out /\ blen out < SIZE_MAX / 4 /\ answer = (200%Z, rfc_encode out)) \/
  answer = (400%Z, []) /\ ~ exists tbs out, rfc_decode (c_string body) = Some tbs /\ enrolls sign_cert w cert key tbs out /\ blen out < SIZE_MAX / 4.
