(** Model of the registrar's enrolment endpoint with all its memory:
    src/brski/registrar/registrar_api.cpp 354-432 with the recording of 31-88, and of
    a registrar that serves voucher requests and enrolments (registrar_server.cpp 26-46). *)
From Verif Require Import Base MOs MBase64 MSerialize MVoucher MCrypto MRequest MHeap MArray MVoucherHeap MConfig MHandlers MRequestHeap MEnrolLog MEnrolLogHeap MHandlerHeap.
Open Scope N_scope.
Open Scope ub_scope.

(** registrar_api.cpp 414-419: crypto_cert2context (crypto_ossl.c) makes an object,
    given by [seen] and one block, which is released after the recording. *)
Definition record_enrolment (nn : bytes -> N) (seen : bytes -> option cert_seen) (now : Z) (opens : bool) (log : bytes) (peer : option cert_seen) (out : bytes) (h : heap) : outcome (bytes * heap) :=
  match seen out with
  | None => Ok (log, h)
  | Some l =>
    let (scert, h) := alloc h (Buf out) in
    if scert =? 0 then Ok (log, h)
    else
      do (log, h) <- h_save_to_log nn now opens log peer l h;
      do h <- sys_free h scert;
      Ok (log, h)
  end.

(** registrar_api.cpp 354-432 [registrar_est_simpleenroll]. The result also has the
    log file afterwards. *)
Definition full_est_simpleenroll (sign_cert : sign_cert_fn) (w : world) (c : registrar_conf) (nn : bytes -> N) (seen : bytes -> option cert_seen) (now : Z) (opens : bool) (log : bytes)
           (h : heap) (peer : option cert_seen) (body : bytes) : outcome (Z * bytes * heap * bytes) :=
  do cert_str <- c_str body;
  let fail h ca_cert ca_key cert :=
    do h <- cleanup h [OBuf cert; OArr ca_cert; OArr ca_key]; Ok (400%Z, [], h, log) in
  do r <- h_base64str2array h cert_str;
  let '(rc, cert, h) := r in
  if (rc <? 0)%Z then fail h 0 0 cert
  else
  do x <- h_file_to_cert w h (rc_ca_cert c);
  let (ca_cert, h) := x in
  if ca_cert =? 0 then fail h 0 0 cert
  else
  do x <- h_file_to_keybuf w h (rc_ca_key c);
  let (ca_key, h) := x in
  if ca_key =? 0 then fail h ca_cert 0 cert
  else
  do bkey <- h_barray h ca_key;
  do bcert <- h_barray h ca_cert;
  do d <- load_buf h cert;
  match bkey, bcert, d with
  | Some bkey, Some bcert, Some d =>
    do kb <- ba_read bkey;
    do cb <- ba_read bcert;
    do tb <- take_mem d (Z.to_N rc);
    match sign_cert kb cb tb with
    | None => fail h ca_cert ca_key cert
    | Some out =>
      let (n, h) := alloc h (Buf out) in
      if n =? 0 then fail h ca_cert ca_key cert
      else
      do h <- sys_free h cert;
      do r <- serialize_array2base64str (negb (hp_oom h (hp_next h))) out;
      let (z, p) := r in
      match p with
      | PBuf _ text =>
        let (a, h) := alloc h (Buf text) in
        if (z <? 0)%Z then fail h ca_cert ca_key n
        else
        do s <- heap_string h a;
        do x <- record_enrolment nn seen now opens log peer out h;
        let (log, h) := x in
        do h <- cleanup h [OBuf a; OBuf n; OArr ca_cert; OArr ca_key];
        Ok (200%Z, s, h, log)
      | _ => fail (if hp_oom h (hp_next h) then snd (alloc h (Buf [])) else h) ca_cert ca_key n
      end
    end
  | _, _, None => fail h ca_cert ca_key cert
  | _, _, _ => fail h ca_cert ca_key cert
  end.

(** registrar_server.cpp 26-46: a request to one of the two endpoints that do more
    than answer with their name. [now] and [opens] are what time(NULL) and fopen
    give when the enrolment is recorded. *)
Inductive arrival :=
| Asks (peer : option cert_seen) (body : bytes)
| Enrols (peer : option cert_seen) (body : bytes) (now : Z) (opens : bool).

(** The requests served one after another, with the log file. *)
Fixpoint registrar_works (o : ossl) (sign_cert : sign_cert_fn) (w : world) (c : registrar_conf) (nn : bytes -> N) (seen : bytes -> option cert_seen) (post : post_fn)
         (h : heap) (log : bytes) (l : list arrival) : outcome (list (Z * bytes) * heap * bytes) :=
  match l with
  | [] => Ok ([], h, log)
  | a :: r =>
    do x <- match a with
            | Asks peer body => do x <- full_registrar_requestvoucher o w c nn post h (option_map cs_view peer) body; Ok (x, log)
            | Enrols peer body now opens => full_est_simpleenroll sign_cert w c nn seen now opens log h peer body
            end;
    let '(status, response, h, log) := x in
    do y <- registrar_works o sign_cert w c nn seen post h log r;
    let '(answers, h, log) := y in
    Ok ((status, response) :: answers, h, log)
  end.
