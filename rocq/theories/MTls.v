(** Model of the TLS side of the servers and clients: src/brski/http/httplib.h (SSLServer,
    SSLClient, the sending of a request), httplib_wrapper.cpp 199-288, https_server.cpp,
    https_client.cpp, and their callers registrar_server.cpp 48-75, masa_server.cpp 66-93,
    registrar_api.cpp 103-125, pledge_request.cpp 92-138, 299-345. *)
From Verif Require Import Base MSerialize MHandlers MHttp MSignCert.
Open Scope N_scope.
Open Scope ub_scope.

(** What OpenSSL makes of files and certificates. A chain is the list of certificates a
    side presents, its own first; whoever presents one holds its key (TLS). Allocation
    succeeds. CRLs are not looked at (no verification flag asks for them). *)
Record tls_world := mk_tls {
  tw_server_pair : bytes -> bytes -> option (list cert_view);   (** SSL_CTX_use_certificate_chain_file and SSL_CTX_use_PrivateKey_file: the chain *)
  tw_client_pair : bytes -> bytes -> option cert_view;          (** SSL_CTX_use_certificate_file and SSL_CTX_use_PrivateKey_file *)
  tw_ca_file : bytes -> list cert_view;                         (** what SSL_CTX_load_verify_locations adds *)
  tw_pem : bytes -> option (list cert_view);                    (** PEM_X509_INFO_read_bio *)
  tw_system : list cert_view;                                   (** what SSL_CTX_set_default_verify_paths adds *)
  tw_verifies : list cert_view -> list cert_view -> bool;       (** trusted certificates, chain: X509_V_OK *)
  tw_names : cert_view -> bytes -> bool }.                      (** httplib.h 9291-9420 verify_host *)

(** ** Servers *)

(** The client certificates a context lets in (SSL_CTX_set_verify): all, or those verified
    with a store. Both ways a client without certificate is refused. *)
Inductive clients := AnyClient | Verified (store : list cert_view).
Record server_ctx := mk_sctx { sx_chain : list cert_view; sx_clients : clients }.

(** httplib.h 8874-8920 SSLServer::SSLServer, the callback at 8867-8871;
    client_ca_cert_dir_path and the password are NULL (httplib_wrapper.cpp 210-212). [None]:
    ctx_ is null. SSL_CTX_set_verify writes to the context it gets. *)
Definition ssl_server (w : tls_world) (cert key : bytes) (client_ca : option bytes) : outcome (option server_ctx) :=
  let ctx := match tw_server_pair w cert key with
             | None => None
             | Some chain => Some (mk_sctx chain (match client_ca with Some f => Verified (tw_ca_file w f) | None => AnyClient end))
             end in
  match client_ca with
  | Some _ => Ok ctx
  | None => match ctx with None => UB NullDeref | Some _ => Ok ctx end
  end.

(** SSL_accept with that context for a client that presents a chain. *)
Definition ssl_accepts (w : tls_world) (ctx : server_ctx) (chain : list cert_view) : bool :=
  match chain with
  | [] => false
  | _ => match sx_clients ctx with AnyClient => true | Verified store => tw_verifies w store chain end
  end.

(** httplib_wrapper.cpp 199-236 httplib_start with the context; httplib.h 6229-6233,
    6651-6655: without context it does not listen. The result also has the context of the
    server in use. *)
Definition httplib_start_tls (w : tls_world) (cp : compile) (cert key client_ca : option bytes) (routes : list route)
           (listen : server -> option bool) : outcome (Z * bool * option server_ctx) :=
  match cert, key with
  | Some c, Some k =>
    do ctx <- ssl_server w c k client_ca;
    do x <- httplib_start cp cert key true routes (fun s => match ctx with None => Some false | Some _ => listen s end);
    Ok (x, ctx)
  | _, _ => Ok ((-1)%Z, false, None)
  end.

(** registrar_server.cpp 48-75 [registrar_start], masa_server.cpp 66-93 [masa_start]; [cert] and
    [key] of the own section, [ca] is tlsCACertPath of the registrar section. *)
Definition registrar_start (w : tls_world) (cp : compile) (cert key ca : option bytes) (requestvoucher simpleenroll : handle) (listen : server -> option bool) :=
  httplib_start_tls w cp cert key None (setup_registrar_routes requestvoucher simpleenroll) listen.
Definition masa_start (w : tls_world) (cp : compile) (cert key ca : option bytes) (requestvoucher : handle) (listen : server -> option bool) :=
  httplib_start_tls w cp cert key ca (setup_masa_routes requestvoucher) listen.

(** ** Clients *)

(** What happens on a connection once the request is written: the server closes without
    an answer (httplib.h 7836-7846, SSLPeerCouldBeClosed_), something else fails, or an
    answer is read. *)
Inductive reply := Closed | Failed | Replied (status : Z) (body : bytes).
(** The n-th connection a client makes: none comes about; or the handshake ends for
    the client and the server has presented a chain. The reply depends on the client's
    certificate and on the body. *)
Inductive attempt := Unreachable | Reached (chain : list cert_view) (answer : option cert_view -> bytes -> reply).
Definition network := nat -> attempt.

(** A request written to a connection. *)
Record sent := mk_sent { sn_chain : list cert_view; sn_identity : option cert_view; sn_body : bytes }.

(** An SSLClient: the two switches of httplib_wrapper.cpp, the context (certificate and
    store), server_cert_, whether load_certs has run, the connections made; and,
    for the proofs, the requests written and the certificates server_cert_ held when it
    was overwritten. *)
Record client := mk_client {
  cl_verify : bool; cl_verify_host : bool; cl_host : bytes;
  cl_ctx : option (option cert_view * list cert_view);
  cl_cert : option cert_view; cl_loaded : bool; cl_made : nat;
  cl_sent : list sent; cl_lost : list cert_view }.

(** httplib.h 9007-9030 SSLClient::SSLClient. *)
Definition ssl_client (w : tls_world) (host cert key : bytes) (verify verify_host : bool) : client :=
  let ctx := match cert, key with
             | _ :: _, _ :: _ => match tw_client_pair w cert key with Some c => Some (Some c, []) | None => None end
             | _, _ => Some (None, [])
             end in
  mk_client verify verify_host host ctx None false 0 [] [].

(** httplib.h 8613-8642 create_ca_cert_store, 9065-9081 set_ca_cert_store,
    load_ca_cert_store. *)
Definition load_ca_cert_store (w : tls_world) (ca : bytes) (c : client) : client :=
  match tw_pem w ca, cl_ctx c with
  | Some l, Some (id, _) => mk_client (cl_verify c) (cl_verify_host c) (cl_host c) (Some (id, l)) (cl_cert c) (cl_loaded c) (cl_made c) (cl_sent c) (cl_lost c)
  | _, _ => c
  end.

(** httplib.h 9166-9198 load_certs: no CA path is set, so the system's certificates
    are added, once. *)
Definition load_certs (w : tls_world) (store : list cert_view) (c : client) : list cert_view :=
  if cl_loaded c then store else store ++ tw_system w.

(** httplib.h 9200-9268 initialize_ssl, from SSL_get_verify_result on: does the client go on?
    Without a chain the verify result is X509_V_OK. *)
Definition server_accepted (w : tls_world) (c : client) (store chain : list cert_view) : bool :=
  if cl_verify c then
    match chain with
    | [] => false
    | leaf :: _ => tw_verifies w store chain && (negb (cl_verify_host c) || tw_names w leaf (cl_host c))
    end
  else true.

(** httplib.h 7343-7430 send_ (the bool overload), 9092-9095: one connection, one request. The
    path is not empty. The result of the reply is [None] for false. *)
Inductive send_result := SAnswer (status : Z) (body : bytes) | SClosed | SError.
Definition send_once (w : tls_world) (net : network) (body : bytes) (c : client) : send_result * client :=
  match cl_ctx c with
  | None => (SError, c)
  | Some (id, store) =>
    let made := S (cl_made c) in
    match net (cl_made c) with
    | Unreachable => (SError, mk_client (cl_verify c) (cl_verify_host c) (cl_host c) (cl_ctx c) (cl_cert c) (cl_loaded c) made (cl_sent c) (cl_lost c))
    | Reached chain answer =>
      let store := if cl_verify c then load_certs w store c else store in
      let loaded := cl_verify c || cl_loaded c in
      let c := mk_client (cl_verify c) (cl_verify_host c) (cl_host c) (Some (id, store)) (cl_cert c) loaded made (cl_sent c) (cl_lost c) in
      if negb (server_accepted w c store chain) then (SError, c)
      else
        let lost := if cl_verify c then cl_lost c else cl_lost c ++ (match cl_cert c with Some x => [x] | None => [] end) in
        let cert := if cl_verify c then cl_cert c else hd_error chain in
        let c := mk_client (cl_verify c) (cl_verify_host c) (cl_host c) (Some (id, store)) cert loaded made (cl_sent c ++ [mk_sent chain id body]) lost in
        match answer id body with
        | Closed => (SClosed, c)
        | Failed => (SError, c)
        | Replied status b => (SAnswer status b, c)
        end
    end
  end.

(** httplib.h 7333-7341 send. *)
Definition send (w : tls_world) (net : network) (body : bytes) (c : client) : send_result * client :=
  match send_once w net body c with
  | (SClosed, c) => send_once w net body c
  | x => x
  end.

(** What is left of a request: the requests written and the certificates never
    released (the destructor, 9049-9061, releases the last one). *)
Record trace := mk_trace { tr_sent : list sent; tr_lost : list cert_view }.
Definition trace_of (c : client) : trace := mk_trace (cl_sent c) (cl_lost c).

(** crypto_ossl.c 603-617 [crypto_copycert]; cert_to_derbuf's -1 becomes SIZE_MAX, with
    which d2i_X509 fails. A certificate's DER form is read back as that certificate. *)
Definition crypto_copycert (c : option cert_view) : option cert_view :=
  match c with Some v => match cv_der v with Some _ => Some v | None => None end | None => None end.

(** httplib_wrapper.cpp 238-263 [httplib_post_request]: status, body and certificate; the last
    two are not set when it is -1. *)
Definition httplib_post_request (w : tls_world) (net : network) (key cert host : bytes) (verify : bool) (body : bytes)
  : (Z * bytes * option cert_view) * trace :=
  let c := ssl_client w host cert key verify false in
  let (r, c) := send w net body c in
  match r with
  | SAnswer status b => ((status, b, crypto_copycert (cl_cert c)), trace_of c)
  | _ => (((-1)%Z, [], None), trace_of c)
  end.

(** httplib_wrapper.cpp 265-288 [httplib_post_request_ca]. *)
Definition httplib_post_request_ca (w : tls_world) (net : network) (key cert ca host : bytes) (body : bytes) : (Z * bytes) * trace :=
  let c := load_ca_cert_store w ca (ssl_client w host cert key true false) in
  let (r, c) := send w net body c in
  match r with
  | SAnswer status b => ((status, b), trace_of c)
  | _ => (((-1)%Z, []), trace_of c)
  end.

(** ** The callers *)

(** pledge_request.cpp 119-121, 147-149: both voucher requests of the pledge. *)
Definition pledge_post (w : tls_world) (net : network) (idevid_key idevid_cert host : bytes) : bytes -> (Z * bytes * option cert_view) * trace :=
  httplib_post_request w net idevid_key idevid_cert host false.
(** registrar_api.cpp 111-114: the request to the MASA. *)
Definition registrar_post (w : tls_world) (net : network) (tls_key tls_cert host : bytes) : bytes -> (Z * bytes * option cert_view) * trace :=
  httplib_post_request w net tls_key tls_cert host false.
(** pledge_request.cpp 340-342: the enrolment; [pinned] is the base64 text of the pinned
    certificate. *)
Definition enrol_post (w : tls_world) (net : network) (idevid_key idevid_cert host pinned : bytes) : bytes -> (Z * bytes) * trace :=
  httplib_post_request_ca w net idevid_key idevid_cert (create_cert_string pinned) host.
