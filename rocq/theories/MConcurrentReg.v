(** The registrar's handlers as small-step programs. The requests are served by a
    pool of threads (src/brski/http/httplib.h 97-102, 5999) and every handler gets
    the same context (registrar_server.cpp 26-78), which the handlers of
    registrar_api.cpp only read. A step is one call of a library function together
    with the test of its result. What the requests share is the heap. Not modelled:
    the static buffer of localtime, the enrolment log and the HTTP library. *)
From Verif Require Import Base MOs MBase64 MSerialize MVoucher MCrypto MRequest MHeap MArray MVoucherHeap MConfig MHandlers MConcurrent.
Open Scope N_scope.
Open Scope ub_scope.

(** A step that does not touch the pointer [MConcurrent] keeps for the MASA. *)
Definition act (f : heap -> outcome (heap * prog)) : prog :=
  Step (fun h ld => do x <- f h; let (h, p) := x in Ok (h, ld, p)).

(** registrar_api.cpp 135-304 [registrar_requestvoucher], step by step; the
    sequential execution is [MHandlers.registrar_requestvoucher]. *)
Definition registrar_steps (o : ossl) (w : world) (c : registrar_conf) (post : post_fn) (peer : option cert_view) (body : bytes) : prog :=
  let ret status response vars := clean_steps vars (Ret status response) in
  act (fun h =>
  do cms_str <- c_str body;
  do m <- crypto_getcert_meta peer;
  match m with
  | None => Ok (h, Ret 400%Z [])
  | Some (_, subject) =>
    match crypto_getcert_serial subject with
    | None => Ok (h, Ret 400%Z [])
    | Some serial_number =>
      Ok (h, act (fun h =>
      do x <- crypto_getcert_issuer h peer;
      let (issuer, h) := x in
      if issuer =? 0 then Ok (h, Ret 400%Z [])
      else
      Ok (h, act (fun h =>
      let (pcms, h) := alloc h (Struct [P 0; I 0]) in
      if pcms =? 0 then UB NullDeref
      else
      Ok (h, act (fun h =>
      do r <- h_base64str2array h cms_str;
      let '(rc, arr, h) := r in
      do h <- set_field h pcms 0 (P arr);
      do h <- set_field h pcms 1 (I rc);
      Ok (h, act (fun h =>
      match w_now w with
      | None => Ok (h, ret 500%Z [] [OArr pcms; OArr issuer])
      | Some created_on =>
        Ok (h, act (fun h =>
        do x <- h_file_to_cert w h (rc_tls_cert c);
        let (tls, h) := x in
        if tls =? 0 then Ok (h, ret 500%Z [] [OArr pcms; OArr issuer])
        else
        Ok (h, act (fun h =>
        do x <- h_file_to_cert w h (rc_cert c);
        let (cert, h) := x in
        if cert =? 0 then Ok (h, ret 500%Z [] [OArr tls; OArr pcms; OArr issuer])
        else
        Ok (h, act (fun h =>
        do x <- h_file_to_keybuf w h (rc_key c);
        let (key, h) := x in
        if key =? 0 then Ok (h, ret 500%Z [] [OArr cert; OArr tls; OArr pcms; OArr issuer])
        else
        Ok (h, act (fun h =>
        do x <- load_cert_files (w_cert w) h (rc_verify c);
        let '(z, pv, h) := x in
        if (z <? 0)%Z then Ok (h, ret 500%Z [] [OArr key; OArr cert; OArr tls; OArr pcms; OArr issuer])
        else
        Ok (h, act (fun h =>
        do x <- load_cert_files (w_cert w) h (rc_store c);
        let '(z, ps, h) := x in
        if (z <? 0)%Z then Ok (h, ret 500%Z [] [OList pv; OArr key; OArr cert; OArr tls; OArr pcms; OArr issuer])
        else
        Ok (h, act (fun h =>
        do x <- load_cert_files (w_cert w) h (rc_add c);
        let '(z, add, h) := x in
        if (z <? 0)%Z then Ok (h, ret 500%Z [] [OList ps; OList pv; OArr key; OArr cert; OArr tls; OArr pcms; OArr issuer])
        else
        Ok (h, act (fun h =>
        do bissuer <- h_barray h issuer;
        do btls <- h_barray h tls;
        do bcert <- h_barray h cert;
        do bkey <- h_barray h key;
        do lpv <- h_certlist h pv;
        do lps <- h_certlist h ps;
        do ladd <- h_certlist h add;
        do v <- with_cms h rc arr (fun b => sign_voucher_request o b (Some created_on) (Some serial_number) bissuer btls bcert bkey lpv lps ladd);
        let vars := [OList add; OList ps; OList pv; OArr key; OArr cert; OArr tls; OArr pcms; OArr issuer] in
        match v with
        | None => Ok (h, ret 400%Z [] vars)
        | Some v =>
          do x <- h_new_array h (Some v);
          let (vr, h) := x in
          if vr =? 0 then Ok (h, ret 400%Z [] vars)
          else
          Ok (h, act (fun h =>
          do y <- post_voucher_request post h vr;
          let '(z, response, h) := y in
          if (z <? 0)%Z then Ok (h, ret 502%Z masa_unreachable (OArr vr :: vars))
          else Ok (h, ret 200%Z (match response with None => [] | Some r => r end) (OArr vr :: vars))))
        end))))))))))))))
      end))))))))
    end
  end).

(** registrar_api.cpp 354-432 [registrar_est_simpleenroll], step by step; the
    sequential execution is [MHandlers.registrar_est_simpleenroll]. *)
Definition enroll_steps (sign_cert : sign_cert_fn) (w : world) (c : registrar_conf) (body : bytes) : prog :=
  let fail ca_cert ca_key cert := clean_steps [OBuf cert; OArr ca_cert; OArr ca_key] (Ret 400%Z []) in
  act (fun h =>
  do cert_str <- c_str body;
  do r <- h_base64str2array h cert_str;
  let '(rc, cert, h) := r in
  if (rc <? 0)%Z then Ok (h, fail 0 0 cert)
  else
  Ok (h, act (fun h =>
  do x <- h_file_to_cert w h (rc_ca_cert c);
  let (ca_cert, h) := x in
  if ca_cert =? 0 then Ok (h, fail 0 0 cert)
  else
  Ok (h, act (fun h =>
  do x <- h_file_to_keybuf w h (rc_ca_key c);
  let (ca_key, h) := x in
  if ca_key =? 0 then Ok (h, fail ca_cert 0 cert)
  else
  Ok (h, act (fun h =>
  do bkey <- h_barray h ca_key;
  do bcert <- h_barray h ca_cert;
  do d <- load_buf h cert;
  match bkey, bcert, d with
  | Some bkey, Some bcert, Some d =>
    do kb <- ba_read bkey;
    do cb <- ba_read bcert;
    do tb <- take_mem d (Z.to_N rc);
    match sign_cert kb cb tb with
    | None => Ok (h, fail ca_cert ca_key cert)
    | Some out =>
      let (n, h) := alloc h (Buf out) in
      if n =? 0 then Ok (h, fail ca_cert ca_key cert)
      else
      do h <- sys_free h cert;
      Ok (h, act (fun h =>
      do r <- serialize_array2base64str (negb (hp_oom h (hp_next h))) out;
      let (z, p) := r in
      match p with
      | PBuf _ text =>
        let (a, h) := alloc h (Buf text) in
        if (z <? 0)%Z then Ok (h, fail ca_cert ca_key n)
        else
        Ok (h, act (fun h =>
        do s <- heap_string h a;
        Ok (h, clean_steps [OBuf a; OBuf n; OArr ca_cert; OArr ca_key] (Ret 200%Z s))))
      | _ => Ok (if hp_oom h (hp_next h) then snd (alloc h (Buf [])) else h, fail ca_cert ca_key n)
      end))
    end
  | _, _, None => Ok (h, fail ca_cert ca_key cert)
  | _, _, _ => Ok (h, fail ca_cert ca_key cert)
  end))))))).

(** A request as the HTTP layer hands it to the registrar (registrar_server.cpp
    20-90): what the request finds on disk and on the clock, what the MASA answers
    to the body that is posted, the client's certificate, the body. *)
Inductive reg_request :=
| RVoucher (w : world) (post : post_fn) (peer : option cert_view) (body : bytes)
| REnroll (w : world) (peer : option cert_view) (body : bytes).

Definition reg_steps (o : ossl) (sign_cert : sign_cert_fn) (c : registrar_conf) (r : reg_request) : prog :=
  match r with
  | RVoucher w post peer body => registrar_steps o w c post peer body
  | REnroll w _ body => enroll_steps sign_cert w c body
  end.
(** The same request served alone. *)
Definition reg_alone (o : ossl) (sign_cert : sign_cert_fn) (c : registrar_conf) (h : heap) (r : reg_request) : outcome (Z * bytes * heap) :=
  match r with
  | RVoucher w post peer body => registrar_requestvoucher o w c post h peer body
  | REnroll w peer body => registrar_est_simpleenroll sign_cert w c h peer body
  end.
