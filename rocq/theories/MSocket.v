(** Model of how sockets are made, used and closed, with the TLS objects and
    certificates that go with them. src/brski/http/httplib.h 3168-3305 (create_socket),
    3398-3478 (create_client_socket), 6634-6679 (binding), 7214-7415 (the client's
    connection), 8650-8735, 8970-9065, 9093-9095, 9200-9283 (TLS) and httplib_wrapper.cpp
    238-288. What the kernel and OpenSSL answer may depend on everything done before. *)
From Verif Require Import Base.
Open Scope N_scope.

(** What is acquired and given back: a descriptor, a list of getaddrinfo, a TLS object,
    a certificate, a TLS context, a store of certificates. *)
Inductive res := Sock (n : N) | Addrs (n : N) | Tls (n : N) | Cert (n : N) | Ctx (n : N) | Store (n : N).
(** What is done: acquiring, using, giving back; trying to bind or connect the socket
    [fd] to the address [x]; an assert. *)
Inductive op := Gets (r : res) | Uses (r : res) | Drops (r : res) | Tries (fd x : N) | Asserts (b : bool).
(** What was done so far, the latest first. *)
Definition hist := list op.

(** connect(2) on a socket that does not block: done, failed, or in progress (EINPROGRESS). *)
Inductive conn := CDone | CFails | CProgress.
(** What comes of the exchange of messages (C101): nothing; the peer has closed its TLS
    connection before answering (SSL_peek 7864-7868); an answer with its status, with or
    without "Connection: close". *)
Inductive talk := TFails | TClosed | TAnswer (status : Z) (closes : bool).

(** The kernel and OpenSSL. [e_addrs]: getaddrinfo, the list with its addresses. The
    contexts (SSL_CTX_new) are taken to be made always. *)
Record env := mk_env {
  e_addrs : hist -> option (N * list N); e_socket : hist -> option N; e_cloexec : hist -> bool;
  e_bind : hist -> bool; e_listen : hist -> bool; e_sockname : hist -> option N;
  e_connect : hist -> conn; e_ready : hist -> bool; e_alive : hist -> bool;
  e_ctx : hist -> N; e_files : hist -> bool; e_store : hist -> option N;
  e_ssl : hist -> option N; e_load : hist -> bool; e_handshake : hist -> bool; e_verified : hist -> bool; e_peer : hist -> option N;
  e_talk : hist -> talk; e_copy : hist -> option N }.

Definition FD_SETSIZE : N := 1024.

(** httplib.h 3232-3300, the loop over the addresses; options of a socket (3262-3287) are
    one use of it. [attempt] is bind_or_connect. AF_UNIX (3194-3222) is never asked for
    by this library and left out. *)
Fixpoint each_address (e : env) (attempt : N -> N -> hist -> bool * hist) (a : N) (l : list N) (h : hist) : option N * hist :=
  match l with
  | [] => (None, h)
  | x :: l =>
    let h := Uses (Addrs a) :: h in
    match e_socket e h with
    | None => each_address e attempt a l h
    | Some fd =>
      let h := Uses (Sock fd) :: Gets (Sock fd) :: h in
      if e_cloexec e h
      then let (ok, h) := attempt fd x (Uses (Sock fd) :: h) in
           if ok then (Some fd, h) else each_address e attempt a l (Drops (Sock fd) :: h)
      else each_address e attempt a l (Drops (Sock fd) :: h)
    end
  end.
(** httplib.h 3168-3305 create_socket. *)
Definition create_socket (e : env) (attempt : N -> N -> hist -> bool * hist) (h : hist) : option N * hist :=
  match e_addrs e h with
  | None => (None, h)
  | Some (a, l) => let (r, h) := each_address e attempt a l (Gets (Addrs a) :: h) in (r, Drops (Addrs a) :: h)
  end.

(** httplib.h 6634-6649: bind and listen. *)
Definition binds (e : env) (fd x : N) (h : hist) : bool * hist :=
  let h := Tries fd x :: h in
  if e_bind e h then let h := Uses (Sock fd) :: h in (e_listen e h, h) else (false, h).
(** httplib.h 6651-6679 bind_internal with a valid context: what it returns and
    svr_sock_. *)
Definition bind_internal (e : env) (port : Z) (h : hist) : Z * option N * hist :=
  match create_socket e (binds e) h with
  | (None, h) => ((-1)%Z, None, h)
  | (Some fd, h) =>
    if (port =? 0)%Z
    then let h := Uses (Sock fd) :: h in match e_sockname e h with None => ((-1)%Z, Some fd, h) | Some p => (Z.of_N p, Some fd, h) end
    else (port, Some fd, h)
  end.

(** httplib.h 2963-3024 wait_until_socket_is_ready (select) and 3404-3469: connect; no
    interface is set. *)
Definition connects (e : env) (fd x : N) (h : hist) : bool * hist :=
  let h := Tries fd x :: Uses (Sock fd) :: h in
  match e_connect e h with
  | CDone => (true, Uses (Sock fd) :: h)
  | CFails => (false, h)
  | CProgress => if FD_SETSIZE <=? fd then (false, h) else
      let h := Uses (Sock fd) :: h in if e_ready e h then (true, Uses (Sock fd) :: h) else (false, h)
  end.

(** SSLClient: ctx_ with the store loaded into it, socket_.sock, socket_.ssl and
    server_cert_. *)
Record client := mk_client { cl_ctx : option N; cl_store : option N; cl_sock : option N; cl_ssl : option N; cl_cert : option N }.

(** httplib.h 9009-9030: the constructor; the certificate and key are read from files if
    both paths are given. *)
Definition new_client (e : env) (files : bool) (h : hist) : client * hist :=
  let x := e_ctx e h in let h := Gets (Ctx x) :: h in
  if files
  then let h := Uses (Ctx x) :: h in if e_files e h then (mk_client (Some x) None None None None, h) else (mk_client None None None None None, Drops (Ctx x) :: h)
  else (mk_client (Some x) None None None None, h).
(** httplib.h 9067-9084, 8612-8646 load_ca_cert_store: the context owns the store, or it
    is released at once. *)
Definition load_ca (e : env) (c : client) (h : hist) : client * hist :=
  match e_store e h with
  | None => (c, h)
  | Some s => match cl_ctx c with
    | Some x => (mk_client (Some x) (Some s) (cl_sock c) (cl_ssl c) (cl_cert c), Uses (Ctx x) :: Gets (Store s) :: h)
    | None => (c, Drops (Store s) :: Gets (Store s) :: h)
    end
  end.

(** httplib.h 9268-9283 shutdown_ssl_impl with 8690-8703 ssl_delete. *)
Definition shutdown_ssl (graceful : bool) (c : client) (h : hist) : client * hist :=
  match cl_sock c with
  | None => (c, Asserts (match cl_ssl c with None => true | _ => false end) :: h)
  | Some fd => match cl_ssl c with
    | Some p => (mk_client (cl_ctx c) (cl_store c) (Some fd) None (cl_cert c), Drops (Tls p) :: (if graceful then Uses (Sock fd) :: Uses (Tls p) :: h else h))
    | None => (c, h)
    end
  end.
(** httplib.h 7254-7260, 7262-7284 shutdown_socket, close_socket. *)
Definition shutdown_socket (c : client) (h : hist) : hist := match cl_sock c with None => h | Some fd => Uses (Sock fd) :: h end.
Definition close_socket (c : client) (h : hist) : client * hist :=
  let h := Asserts (match cl_ssl c with None => true | _ => false end) :: h in
  match cl_sock c with None => (c, h) | Some fd => (mk_client (cl_ctx c) (cl_store c) None (cl_ssl c) (cl_cert c), Drops (Sock fd) :: h) end.
(** The three together, as in 7354-7356, 7413-7415, 7480-7482. *)
Definition hang_up (graceful : bool) (c : client) (h : hist) : client * hist :=
  let (c, h) := shutdown_ssl graceful c h in close_socket c (shutdown_socket c h).

(** httplib.h 9200-9262 initialize_ssl with 8652-8688 ssl_new; the host is not verified
    (httplib_wrapper.cpp 249, 275). *)
Definition initialize_ssl (e : env) (verify : bool) (x fd : N) (c : client) (h : hist) : bool * client * hist :=
  let fails p h := let h := Drops (Tls p) :: Uses (Sock fd) :: Uses (Tls p) :: h in
    let (c, h) := close_socket c (shutdown_socket c h) in (false, c, h) in
  let h := Uses (Ctx x) :: h in
  match e_ssl e h with
  | None => let (c, h) := close_socket c (shutdown_socket c h) in (false, c, h)
  | Some p =>
    let h := Uses (Sock fd) :: Gets (Tls p) :: h in
    if verify && negb (e_load e h) then fails p h
    else
      let h := Uses (Sock fd) :: Uses (Tls p) :: h in
      if negb (e_handshake e h) then fails p h
      else if verify
      then
        if negb (e_verified e h) then fails p h
        else match e_peer e h with
        | None => fails p h
        | Some y => (true, mk_client (cl_ctx c) (cl_store c) (cl_sock c) (Some p) (cl_cert c), Drops (Cert y) :: Gets (Cert y) :: h)
        end
      else match e_peer e h with
      | None => (true, mk_client (cl_ctx c) (cl_store c) (cl_sock c) (Some p) None, h)
      | Some y => (true, mk_client (cl_ctx c) (cl_store c) (cl_sock c) (Some p) (Some y), Gets (Cert y) :: h)
      end
  end.

(** httplib.h 7338-7430 send_ with 7445-7515 handle_request and 9285-9292: what came of
    it; keep_alive_ is off, no proxy is set, no redirect is followed. *)
Definition send_once (e : env) (verify : bool) (c : client) (h : hist) : talk * client * hist :=
  let '(alive, c, h) :=
    match cl_sock c with
    | None => (false, c, h)
    | Some fd => let h := Uses (Sock fd) :: h in if e_alive e h then (true, c, h) else let (c, h) := hang_up false c h in (false, c, h)
    end in
  let '(ok, c, h) :=
    if alive then (true, c, h)
    else match cl_ctx c with
    | None => (false, c, h)
    | Some x => match create_socket e (connects e) h with
      | (None, h) => (false, c, h)
      | (Some fd, h) => initialize_ssl e verify x fd (mk_client (cl_ctx c) (cl_store c) (Some fd) (cl_ssl c) (cl_cert c)) h
      end
    end in
  if negb ok then (TFails, c, h)
  else match cl_sock c, cl_ssl c with
  | Some fd, Some p =>
    let h := Uses (Sock fd) :: Uses (Tls p) :: h in
    let t := e_talk e h in
    let (c, h) := match t with TAnswer _ true => hang_up true c h | _ => (c, h) end in
    let (c, h) := hang_up true c h in (t, c, h)
  | _, _ => (TFails, c, Asserts false :: h)
  end.
(** httplib.h 7324-7336 send: a second time if the peer has closed. *)
Definition send (e : env) (verify : bool) (c : client) (h : hist) : option Z * client * hist :=
  let '(t, c, h) := send_once e verify c h in
  match t with
  | TAnswer st _ => (Some st, c, h)
  | TFails => (None, c, h)
  | TClosed => let '(t, c, h) := send_once e verify c h in (match t with TAnswer st _ => Some st | _ => None end, c, h)
  end.
Definition drop {A} (f : A -> res) (o : option A) (h : hist) : hist := match o with Some x => Drops (f x) :: h | None => h end.
(** httplib.h 9049-9062, 7157-7161: the destructors; SSL_CTX_free releases the store. *)
Definition end_client (c : client) (h : hist) : hist :=
  let h := drop Store (cl_store c) (drop Ctx (cl_ctx c) h) in
  let h := drop Cert (cl_cert c) h in
  let (c, h) := shutdown_ssl true c h in snd (close_socket c (shutdown_socket c h)).

(** httplib_wrapper.cpp 238-263 httplib_post_request: the status or -1, and the copy of the
    peer's certificate (crypto_ossl.c 603-617). *)
Definition post_request (e : env) (files verify : bool) (h : hist) : Z * option N * hist :=
  let (c, h) := new_client e files h in
  let '(r, c, h) := send e verify c h in
  match r with
  | None => ((-1)%Z, None, end_client c h)
  | Some st =>
    match cl_cert c with
    | None => (st, None, end_client c h)
    | Some y => let h := Uses (Cert y) :: h in
      match e_copy e h with
      | None => (st, None, end_client c h)
      | Some z => (st, Some z, end_client c (Gets (Cert z) :: h))
      end
    end
  end.
(** httplib_wrapper.cpp 265-290 httplib_post_request_ca. *)
Definition post_request_ca (e : env) (files : bool) (h : hist) : Z * hist :=
  let (c, h) := new_client e files h in
  let (c, h) := load_ca e c h in
  let '(r, c, h) := send e true c h in
  (match r with None => (-1)%Z | Some st => st end, end_client c h).

(** httplib.h 8970-9000 SSLServer::process_and_close_socket for the accepted connection
    [fd]: whether it was served; [served] is the exchange of messages. *)
Definition serve_socket (e : env) (served : hist -> bool) (x fd : N) (h : hist) : bool * hist :=
  let bye h := Drops (Sock fd) :: Uses (Sock fd) :: h in
  let h := Uses (Ctx x) :: h in
  match e_ssl e h with
  | None => (false, bye h)
  | Some p =>
    let h := Uses (Sock fd) :: Uses (Tls p) :: Uses (Sock fd) :: Gets (Tls p) :: h in
    if negb (e_handshake e h) then (false, bye (Uses (Sock fd) :: Drops (Tls p) :: Uses (Sock fd) :: Uses (Tls p) :: h))
    else
      let h := Uses (Sock fd) :: Uses (Tls p) :: h in
      let ok := served h in
      (ok, bye (Drops (Tls p) :: (if ok then Uses (Sock fd) :: Uses (Tls p) :: h else h)))
  end.
