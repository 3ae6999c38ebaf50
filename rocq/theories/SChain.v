(** The three parties connected: the registrar's HTTP client talks to the MASA's
    handler, the pledge's client to the registrar's handler. *)
From Verif Require Import Base MOs MHeap MArray MVoucher MCrypto MSerialize MConfig MHandlers SHeap SArray SBase64 SJson SVoucher SRequest SHandlers SPledge.
Open Scope N_scope.

(** [ld] is what the server's context holds from an earlier request, or 0. A server process that does not survive a request gives no answer. *)
Definition masa_service (o : ossl) (w : world) (c : masa_conf) (ld : N) (h : heap) : post_fn := fun body =>
  match masa_requestvoucher o w c ld h body with Ok (status, response, _, _) => (status, response) | UB _ => ((-1)%Z, []) end.
(** [client] is the pledge's certificate as the registrar sees it, [server] the
    registrar's as the pledge sees it. *)
Definition registrar_service (o : ossl) (w : world) (c : registrar_conf) (post : post_fn) (h : heap) (client server : cert_view) : post_cert_fn := fun body =>
  match registrar_requestvoucher o w c post h (Some client) body with Ok (status, response, _) => (status, response, Some server) | UB _ => ((-1)%Z, [], None) end.

(** OpenSSL gives back what was signed. *)
Definition genuine (o : ossl) : Prop :=
  forall cert key extra text cms certs store c st json, signed o KAuto cert key extra text cms -> verified o (ba_of cms) certs store c st json -> json = text.

(** Values that can be written as JSON (C21). *)
Definition bytes_ready (d : bytes) : Prop := d <> [] /\ bytes_ok d /\ blen d < SIZE_MAX / 4.
Definition pledge_ready (w : world) (f : pledge_files) : Prop :=
  (forall t, pledge_time w f = Some t -> date_ready t) /\ (forall s, pf_serial f = Some s -> Forall plain_char s) /\
  (forall n d, nonce_given f n -> n = Some d -> bytes_ready d).
Definition registrar_values (w : world) (client : cert_view) : Prop :=
  (forall t, w_now w = Some t -> date_ready t) /\ (forall i, cv_issuer_text client = Some i -> bytes_ready i).
Definition masa_values (w : world) (f : masa_files) : Prop :=
  (forall t, serialize_str2time (mf_expires f) = Some t -> date_ready t) /\ (forall d, w_cert w (mf_ldevid f) = Some d -> bytes_ready d).

(** What each party has on disk and in its configuration. *)
Definition pledge_material (w : world) (f : pledge_files) (cert key : bytes) (add verify store : option certlist) : Prop :=
  w_cert w (pf_cert f) = Some cert /\ w_key w (pf_key f) = Some key /\ cert_list (w_cert w) (pf_add f) add /\
  cert_list (w_cert w) (pf_verify f) verify /\ cert_list (w_cert w) (pf_store f) store.
Definition registrar_material (w : world) (f : registrar_files) (tls cert key : bytes) (add verify store : option certlist) : Prop :=
  w_cert w (rf_tls f) = Some tls /\ w_cert w (rf_cert f) = Some cert /\ w_key w (rf_key f) = Some key /\ cert_list (w_cert w) (rf_add f) add /\
  cert_list (w_cert w) (rf_verify f) verify /\ cert_list (w_cert w) (rf_store f) store.
Definition masa_material (w : world) (f : masa_files) (ldevid cert key : bytes) (add rverify rstore pverify pstore : option certlist) : Prop :=
  w_cert w (mf_ldevid f) = Some ldevid /\ w_cert w (mf_cert f) = Some cert /\ w_key w (mf_key f) = Some key /\ cert_list (w_cert w) (mf_add f) add /\
  cert_list (w_cert w) (mf_verify f) rverify /\ cert_list (w_cert w) (mf_store f) rstore /\
  cert_list (w_cert w) (mf_pverify f) pverify /\ cert_list (w_cert w) (mf_pstore f) pstore.
