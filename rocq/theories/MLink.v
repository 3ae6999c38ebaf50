(** Model of the programs joined by TLS and HTTP: the clients of MTls.v reach servers that run
    the handlers of MHandlers.v behind the routes of MHttp.v, over the bytes of MWire.v. *)
From Verif Require Import Base MSerialize MVoucher MCrypto MRequest MHeap MHandlers MHttp MSignCert MTls MWire.
Open Scope N_scope.

(** registrar_api.cpp 103-104, 150; pledge_request.cpp 115-116. *)
Definition voucher_cms : bytes := s2b "application/voucher-cms+json".
Definition voucher_type : smap := [(s2b "Content-Type", voucher_cms)].

(** masa_api.cpp 57-183 as a route handler, its content type at 79; registrar_api.cpp 135-304,
    its content type at 150. [Throws] stands for a handler that does not return; the
    definitions below use it for no such request. *)
Definition masa_handle (o : ossl) (w : world) (c : masa_conf) (ld : N) (h : heap) : handle := fun _ body =>
  match masa_requestvoucher o w c ld h body with Ok (st, r, _, _) => Answers st plain_text r | UB _ => Throws None end.
Definition registrar_handle (o : ossl) (w : world) (c : registrar_conf) (post : post_fn) (h : heap) (peer : option cert_view) : handle := fun _ body =>
  match registrar_requestvoucher o w c post h peer body with Ok (st, r, _) => Answers st voucher_type r | UB _ => Throws None end.

(** The server that is there for a client and the body it sends; none when the process does
    not survive the handler's run on that body. No std::string is longer than
    SIZE_MAX. *)
Definition serving := option cert_view -> bytes -> option server.
Definition registered (cp : compile) (routes : list route) : option server :=
  match register_routes cp no_handlers routes with Some (_, s) => Some s | None => None end.
Definition masa_serving (cp : compile) (o : ossl) (w : world) (c : masa_conf) (ld : N) (h : heap) : serving := fun _ body =>
  match masa_requestvoucher o w c ld h body with
  | UB _ => None
  | Ok (_, r, _, _) => if SIZE_MAX <? blen r then None else registered cp (setup_masa_routes (masa_handle o w c ld h))
  end.
Definition registrar_serving (cp : compile) (o : ossl) (w : world) (c : registrar_conf) (post : post_fn) (h : heap) (simpleenroll : handle) : serving := fun peer body =>
  match registrar_requestvoucher o w c post h peer body with
  | UB _ => None
  | Ok (_, r, _) => if SIZE_MAX <? blen r then None else registered cp (setup_registrar_routes (registrar_handle o w c post h peer) simpleenroll)
  end.

(** How the bytes of a connection travel. *)
Record way := mk_way { wy_conn : conn; wy_server_pick : nat -> N; wy_client_pick : nat -> N }.

(** The network in which the address of a client leads to that server: httplib.h 8970-9000
    SSLServer::process_and_close_socket after SSL_accept. A client shows its own certificate
    only (SSL_CTX_use_certificate_file). A server that refuses it or that ends
    gives no answer. *)
Definition link (tw : tls_world) (ctx : server_ctx) (sv : serving) (ways : nat -> way) (host : bytes) (port : Z) (path ctype : bytes) : network := fun n =>
  Reached (sx_chain ctx) (fun id body =>
    if SIZE_MAX <? blen body then Failed
    else if negb (ssl_accepts tw ctx (match id with Some v => [v] | None => [] end)) then Failed
    else match sv id body with
         | None => Failed
         | Some s => exchange_over (wy_conn (ways n)) s (wy_server_pick (ways n)) (wy_client_pick (ways n)) (client_request host port path ctype body)
         end).

(** registrar_api.cpp 90-133: the registrar's request to the MASA; pledge_request.cpp 92-161:
    the pledge's to the registrar. *)
Definition voucher_link (tw : tls_world) (ctx : server_ctx) (sv : serving) (ways : nat -> way) (host : bytes) (port : Z) : network :=
  link tw ctx sv ways host port PATH_BRSKI_REQUESTVOUCHER voucher_cms.
Definition ask_masa (tw : tls_world) (net : network) (key cert host : bytes) : post_fn := fun body =>
  let '(st, r, _) := fst (registrar_post tw net key cert host body) in (st, r).
Definition ask_registrar (tw : tls_world) (net : network) (key cert host : bytes) : post_cert_fn := fun body => fst (pledge_post tw net key cert host body).

(** registrar_api.cpp 354-432 as a route handler, its content type at 374; the server of a client
    that enrols; pledge_request.cpp 340-342: the pledge's request, with the path and content type of 306-307. *)
Definition enroll_handle (sc : sign_cert_fn) (w : world) (c : registrar_conf) (h : heap) (peer : option cert_view) : handle := fun _ body =>
  match registrar_est_simpleenroll sc w c h peer body with Ok (st, r, _) => Answers st plain_text r | UB _ => Throws None end.
Definition enroll_serving (cp : compile) (sc : sign_cert_fn) (w : world) (c : registrar_conf) (h : heap) (requestvoucher : handle) : serving := fun peer body =>
  match registrar_est_simpleenroll sc w c h peer body with
  | UB _ => None
  | Ok (_, r, _) => if SIZE_MAX <? blen r then None else registered cp (setup_registrar_routes requestvoucher (enroll_handle sc w c h peer))
  end.
Definition enroll_link (tw : tls_world) (ctx : server_ctx) (sv : serving) (ways : nat -> way) (host : bytes) (port : Z) : network :=
  link tw ctx sv ways host port PATH_EST_SIMPLEENROLL voucher_cms.
Definition ask_enroll (tw : tls_world) (net : network) (key cert host : bytes) : post_ca_fn := fun ca body => fst (httplib_post_request_ca tw net key cert ca host body).
