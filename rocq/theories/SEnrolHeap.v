(** What a registrar that serves voucher requests and enrolments is expected to do. *)
From Verif Require Import Base MBase64 MSerialize MVoucher MCrypto MRequest MHeap MArray MConfig MHandlers MEnrolLog MEnrolHeap SBase64 SHeap SArray SConfig SVoucher SRequest SHandlers SEnrolLog SEnrolLogHeap SHandlerHeap.
Open Scope N_scope.

(** The registrar's CA: where its certificate and key are. *)
Record ca_files := mk_ca { ca_cert : bytes; ca_key : bytes }.
Definition ca_config (h : heap) (c : registrar_conf) (ca : ca_files) : Prop :=
  heap_string h (rc_ca_cert c) = Ok (ca_cert ca) /\ heap_string h (rc_ca_key c) = Ok (ca_key ca).

(** Requests of bytes, from clients whose certificates can be represented. *)
Definition arrival_ok (o : ossl) (w : world) (f : registrar_files) (a : arrival) : Prop :=
  match a with
  | Asks peer body => request_ok o w f (option_map cs_view peer, body)
  | Enrols peer body _ _ => bytes_ok body /\ forall i, peer = Some i -> short_view (cs_view i)
  end.

(** The requests the registrar does not survive (C69, C71). *)
Definition fatal (o : ossl) (w : world) (f : registrar_files) (a : arrival) : Prop :=
  match a with
  | Asks peer body => registrar_unsafe o w f (option_map cs_view peer) body
  | Enrols _ body _ _ => bad_padding (c_string body)
  end.

(** The answers (C44, C70). *)
Definition right_answer (o : ossl) (sc : sign_cert_fn) (w : world) (f : registrar_files) (ca : ca_files) (post : post_fn) (a : arrival) (answer : Z * bytes) : Prop :=
  match a with
  | Asks peer body => registrar_answer o w f post (option_map cs_view peer) body answer
  | Enrols _ body _ _ => enroll_answer sc w (ca_cert ca) (ca_key ca) body answer
  end.

(** The enrolment [e] of this request can be recorded: a certificate is issued, the
    file opens, and the client's certificate and the new one have readable names. *)
Definition enrols (sc : sign_cert_fn) (w : world) (ca : ca_files) (seen : bytes -> option cert_seen) (a : arrival) (e : enrolled) : Prop :=
  exists i body now tbs out l, a = Enrols (Some i) body now true /\ rfc_decode (c_string body) = Some tbs /\ SHandlers.enrolls sc w (ca_cert ca) (ca_key ca) tbs out /\ blen out < SIZE_MAX / 4 /\
    seen out = Some l /\ describes now i l e.

(** The log after the requests: one entry for every such enrolment, in their order,
    behind what was there. *)
Inductive recorded (sc : sign_cert_fn) (w : world) (ca : ca_files) (seen : bytes -> option cert_seen) : list arrival -> bytes -> bytes -> Prop :=
| recorded_none : forall log, recorded sc w ca seen [] log log
| recorded_entry : forall a r e line log log', enrols sc w ca seen a e -> entry_text e line -> recorded sc w ca seen r (log ++ line) log' -> recorded sc w ca seen (a :: r) log log'
| recorded_skip : forall a r log log', (forall e, ~ enrols sc w ca seen a e) -> recorded sc w ca seen r log log' -> recorded sc w ca seen (a :: r) log log'.

(** No voucher request of a trusted pledge repeats a member (C65). *)
Definition arrival_clean (o : ossl) (w : world) (f : registrar_files) (a : arrival) : Prop :=
  match a with
  | Asks _ body => registrar_clean o w f body
  | Enrols _ _ _ _ => True
  end.
