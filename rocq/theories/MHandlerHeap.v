(** Model of the HTTP handlers and the pledge client with the memory of the
    functions of request.c they call: src/brski/masa/masa_api.cpp 57-183,
    src/brski/registrar/registrar_api.cpp 135-304, src/brski/pledge/pledge_utils.c
    23-158 and src/brski/pledge/pledge_request.cpp 35-202. MHandlers has the same
    functions with the results of request.c as new blocks; here the functions of
    MRequestHeap run on the heap of the handler. A handler is written once, with
    the call of request.c as an argument. *)
From Verif Require Import Base MOs MBase64 MSerialize MVoucher MCrypto MRequest MHeap MArray MVoucherHeap MConfig MHandlers MSerialHeap MRequestHeap MEnrolLog MEnrolLogHeap.
Open Scope N_scope.
Open Scope ub_scope.

(** ** The MASA *)

(** The call at masa_api.cpp 138-142: the result and the pointer of the decoding,
    the expiry time, the result of the callback, the certificate, the key and the
    five lists. *)
Definition masa_sign_fn := heap -> Z -> N -> tm -> Z * barray -> N -> N -> N -> N -> N -> N -> N -> outcome (N * heap).

(** masa_api.cpp 57-183 [masa_requestvoucher]. *)
Definition masa_handler (sign : masa_sign_fn) (w : world) (c : masa_conf) (ld : N) (h : heap) (body : bytes) : outcome (Z * bytes * N * heap) :=
  do cms_str <- c_str body;
  let fail h ld cert key rv rs pv ps add cms voucher :=
    do h <- cleanup h [OArr ld; OArr cert; OArr key; OList rv; OList rs; OList pv; OList ps; OList add; OBuf cms; OArr voucher];
    Ok (400%Z, [], ld, h) in
  do ex <- opt_string h (mc_expires c);
  match serialize_str2time ex with
  | None => fail h ld 0 0 0 0 0 0 0 0 0
  | Some t =>
    do r <- h_base64str2array h cms_str;
    let '(rc, cms, h) := r in
    do x <- h_file_to_cert w h (mc_ldevid c);
    let (ld, h) := x in
    if ld =? 0 then fail h ld 0 0 0 0 0 0 0 cms 0
    else
    do x <- h_file_to_cert w h (mc_cert c);
    let (cert, h) := x in
    if cert =? 0 then fail h ld 0 0 0 0 0 0 0 cms 0
    else
    do x <- h_file_to_keybuf w h (mc_key c);
    let (key, h) := x in
    if key =? 0 then fail h ld cert 0 0 0 0 0 0 cms 0
    else
    do x <- load_cert_files (w_cert w) h (mc_verify c);
    let '(z, rv, h) := x in
    if (z <? 0)%Z then fail h ld cert key rv 0 0 0 0 cms 0
    else
    do x <- load_cert_files (w_cert w) h (mc_store c);
    let '(z, rs, h) := x in
    if (z <? 0)%Z then fail h ld cert key rv rs 0 0 0 cms 0
    else
    do x <- load_cert_files (w_cert w) h (mc_pverify c);
    let '(z, pv, h) := x in
    if (z <? 0)%Z then fail h ld cert key rv rs pv 0 0 cms 0
    else
    do x <- load_cert_files (w_cert w) h (mc_pstore c);
    let '(z, ps, h) := x in
    if (z <? 0)%Z then fail h ld cert key rv rs pv ps 0 cms 0
    else
    do x <- load_cert_files (w_cert w) h (mc_add c);
    let '(z, add, h) := x in
    if (z <? 0)%Z then fail h ld cert key rv rs pv ps add cms 0
    else
    do pinned <- voucher_req_cb h ld;
    do x <- sign h rc cms t pinned cert key rv rs pv ps add;
    let (voucher, h) := x in
    if voucher =? 0 then fail h ld cert key rv rs pv ps add cms 0
    else
      do y <- h_array2base64 h voucher;
      let (text, h) := y in
      match text with
      | None => fail h ld cert key rv rs pv ps add cms voucher
      | Some text =>
        do h <- cleanup h [OArr ld; OArr key; OArr cert; OList rv; OList rs; OList pv; OList ps; OList add; OBuf cms; OArr voucher];
        Ok (200%Z, text, ld, h)
      end
  end.

(** request.c 247-446 called with the address of [voucher_request_cms]
    (masa_api.cpp 66), a block while the call runs. A negative length is refused
    as in [with_cms]. *)
Definition masa_sign (o : ossl) : masa_sign_fn := fun h rc cms t pinned cert key rv rs pv ps add =>
  if (rc <? 0)%Z then Ok (0, h)
  else
    let (s, h) := local h (Struct [P cms; I rc]) in
    do r <- h_sign_masa_pledge_voucher o h (s, 0%nat) (Some t) (Some (fun _ _ => pinned)) cert key rv rs pv ps add;
    do h <- sys_free (snd r) s;
    Ok (fst r, h).

Definition full_masa_requestvoucher (o : ossl) := masa_handler (masa_sign o).

(** ** The registrar *)

(** The call at registrar_api.cpp 277-283: the result of the decoding, the
    request, the time, the issuer, the three arrays and the three lists. *)
Definition registrar_sign_fn := heap -> Z -> N -> N -> tm -> N -> N -> N -> N -> N -> N -> N -> outcome (N * heap).

(** registrar_api.cpp 179-304: [registrar_requestvoucher] after the serial number
    of the client was found. *)
Definition registrar_handler (sign : registrar_sign_fn) (w : world) (c : registrar_conf) (post : post_fn) (h : heap)
           (peer : option cert_view) (cms_str : bytes) : outcome (Z * bytes * heap) :=
  let ret h status response vars :=
    do h <- cleanup h vars; Ok (status, response, h) in
  do x <- crypto_getcert_issuer h peer;
  let (issuer, h) := x in
  if issuer =? 0 then Ok (400%Z, [], h)
  else
  let (pcms, h) := alloc h (Struct [P 0; I 0]) in
  if pcms =? 0 then UB NullDeref
  else
  do r <- h_base64str2array h cms_str;
  let '(rc, arr, h) := r in
  do h <- set_field h pcms 0 (P arr);
  do h <- set_field h pcms 1 (I rc);
  match w_now w with
  | None => ret h 500%Z [] [OArr pcms; OArr issuer]
  | Some created_on =>
    do x <- h_file_to_cert w h (rc_tls_cert c);
    let (tls, h) := x in
    if tls =? 0 then ret h 500%Z [] [OArr pcms; OArr issuer]
    else
    do x <- h_file_to_cert w h (rc_cert c);
    let (cert, h) := x in
    if cert =? 0 then ret h 500%Z [] [OArr tls; OArr pcms; OArr issuer]
    else
    do x <- h_file_to_keybuf w h (rc_key c);
    let (key, h) := x in
    if key =? 0 then ret h 500%Z [] [OArr cert; OArr tls; OArr pcms; OArr issuer]
    else
    do x <- load_cert_files (w_cert w) h (rc_verify c);
    let '(z, pv, h) := x in
    if (z <? 0)%Z then ret h 500%Z [] [OArr key; OArr cert; OArr tls; OArr pcms; OArr issuer]
    else
    do x <- load_cert_files (w_cert w) h (rc_store c);
    let '(z, ps, h) := x in
    if (z <? 0)%Z then ret h 500%Z [] [OList pv; OArr key; OArr cert; OArr tls; OArr pcms; OArr issuer]
    else
    do x <- load_cert_files (w_cert w) h (rc_add c);
    let '(z, add, h) := x in
    if (z <? 0)%Z then ret h 500%Z [] [OList ps; OList pv; OArr key; OArr cert; OArr tls; OArr pcms; OArr issuer]
    else
    do x <- sign h rc arr pcms created_on issuer tls cert key pv ps add;
    let (vr, h) := x in
    let vars := [OList add; OList ps; OList pv; OArr key; OArr cert; OArr tls; OArr pcms; OArr issuer] in
    if vr =? 0 then ret h 400%Z [] vars
    else
      do y <- post_voucher_request post h vr;
      let '(z, response, h) := y in
      if (z <? 0)%Z then ret h 502%Z masa_unreachable (OArr vr :: vars)
      else ret h 200%Z (match response with None => [] | Some r => r end) (OArr vr :: vars)
  end.

(** request.c 100-245 called with the serial number at [serial]. *)
Definition registrar_sign (o : ossl) (serial : N) : registrar_sign_fn := fun h rc _ pcms created_on issuer tls cert key pv ps add =>
  if (rc <? 0)%Z then Ok (0, h)
  else h_sign_voucher_request o h (pcms, 0%nat) (Some created_on) serial issuer tls cert key pv ps add.

(** crypto_ossl.c 1716-1726 [crypto_getcert_serial]: the address of the value, or
    NULL. *)
Fixpoint h_find_serial (h : heap) (xs : list N) : outcome N :=
  match xs with
  | [] => Ok 0
  | x :: r =>
    do k <- get_ptr h x 0;
    do key <- heap_string h k;
    if beqb key (s2b "serialNumber") then get_ptr h x 1 else h_find_serial h r
  end.
Definition h_getcert_serial (h : heap) (subject : N) : outcome N :=
  do xs <- dl_list_for_each kv_off h subject; h_find_serial h xs.

(** registrar_api.cpp 135-304 [registrar_requestvoucher]: 152-164 [CrypoCertMeta] makes
    two lists and throws std::bad_alloc when one cannot be made, which the HTTP
    library answers with 500 (src/brski/http/httplib.h 7079-7104) and which leaves the other
    list; its destructor runs last. *)
Definition full_registrar_requestvoucher (o : ossl) (w : world) (c : registrar_conf) (nn : bytes -> N) (post : post_fn) (h : heap)
           (peer : option cert_view) (body : bytes) : outcome (Z * bytes * heap) :=
  do cms_str <- c_str body;
  do (issuer, h) <- init_keyvalue_list h;
  do (subject, h) <- init_keyvalue_list h;
  if (issuer =? 0) || (subject =? 0) then Ok (500%Z, [], h)
  else
    let ret status response h := do h <- free_lists h [issuer; subject]; Ok (status, response, h) in
    do (z, h) <- h_getcert_meta nn peer h issuer subject;
    if (z <? 0)%Z then ret 400%Z [] h
    else
      do serial_number <- h_getcert_serial h subject;
      if serial_number =? 0 then ret 400%Z [] h
      else
        do r <- registrar_handler (registrar_sign o serial_number) w c post h peer cms_str;
        let '(status, response, h) := r in
        ret status response h.

(** ** The pledge *)

(** The call at pledge_utils.c 86-89: the time, the nonce, the registrar's
    certificate, the pledge's certificate and key and the list. *)
Definition pledge_sign_fn := heap -> tm -> N -> N -> N -> N -> N -> outcome (N * heap).

(** pledge_utils.c 23-111 [voucher_pledge_request_to_array]. *)
Definition pledge_request_handler (sign : pledge_sign_fn) (w : world) (c : pledge_conf) (h : heap) (tls : N) : outcome (N * heap) :=
  if tls =? 0 then Ok (0, h)
  else
    do cr <- opt_string h (pl_created c);
    match (match cr with None => w_now w | Some _ => serialize_str2time cr end) with
    | None => Ok (0, h)
    | Some created_on =>
      do x <- load_nonce h (pl_nonce c);
      let '(ok, nonce, h) := x in
      if negb ok then do h <- h_free_binary_array h nonce; Ok (0, h)
      else
      let fin h r cert key add :=
        do h <- cleanup h [OArr nonce; OArr cert; OArr key; OList add]; Ok (r, h) in
      do x <- h_file_to_cert w h (pl_cert c);
      let (cert, h) := x in
      if cert =? 0 then fin h 0 0 0 0
      else
      do x <- h_file_to_keybuf w h (pl_key c);
      let (key, h) := x in
      if key =? 0 then fin h 0 cert 0 0
      else
      do x <- load_cert_files (w_cert w) h (pl_add c);
      let '(z, add, h) := x in
      if (z <? 0)%Z then fin h 0 cert key add
      else
      do x <- sign h created_on nonce tls cert key add;
      let (cms, h) := x in
      fin h cms cert key add
    end.

(** request.c 20-98. *)
Definition pledge_sign (o : ossl) (c : pledge_conf) : pledge_sign_fn := fun h created_on nonce tls cert key add =>
  h_sign_pledge_voucher_request o h (Some created_on) (pl_serial c) nonce tls cert key add.

(** pledge_utils.c 136-158 [voucher_pledge_request_to_base64] and the copy into a
    std::string at pledge_request.cpp 137-147. *)
Definition full_pledge_request_to_base64 (o : ossl) (w : world) (c : pledge_conf) (h : heap) (tls : N) : outcome (option bytes * heap) :=
  do x <- pledge_request_handler (pledge_sign o c) w c h tls;
  let (cms, h) := x in
  if cms =? 0 then Ok (None, h)
  else
    do y <- h_array2base64 h cms;
    let (text, h) := y in
    do h <- h_free_binary_array h cms;
    Ok (text, h).

(** The call at pledge_request.cpp 71-73: the result and the pointer of the
    decoding, the nonce, the registrar's certificate, the two lists and the
    caller's array. *)
Definition pledge_verify_fn := heap -> Z -> N -> N -> N -> N -> N -> N -> outcome (Z * heap).

(** pledge_request.cpp 35-90 [verify_masa_pledge_request]. *)
Definition pledge_verify_handler (verify : pledge_verify_fn) (w : world) (c : pledge_conf) (h : heap) (rc : Z) (arr tls pinned : N) : outcome (Z * heap) :=
  let fin h r nonce vc vs :=
    do h <- cleanup h [OArr nonce; OList vc; OList vs]; Ok (r, h) in
  do x <- load_nonce h (pl_nonce c);
  let '(ok, nonce, h) := x in
  if negb ok then
    do h <- h_free_binary_array h nonce;
    fin h (-1)%Z nonce 0 0
  else
  do x <- load_cert_files (w_cert w) h (pl_verify c);
  let '(z, vc, h) := x in
  if (z <? 0)%Z then fin h (-1)%Z nonce vc 0
  else
  do x <- load_cert_files (w_cert w) h (pl_store c);
  let '(z, vs, h) := x in
  if (z <? 0)%Z then fin h (-1)%Z nonce vc vs
  else
  do x <- verify h rc arr nonce tls vc vs pinned;
  let (z, h) := x in
  fin h (if (z <? 0)%Z then (-1)%Z else 0%Z) nonce vc vs.

(** request.c 448-581 called with the address of [masa_pledge_voucher_cms]
    (pledge_request.cpp 178), a block while the call runs. *)
Definition pledge_verify (o : ossl) (c : pledge_conf) : pledge_verify_fn := fun h rc arr nonce tls vc vs pinned =>
  if (rc <? 0)%Z then Ok ((-1)%Z, h)
  else
    let (s, h) := local h (Struct [P arr; I rc]) in
    do r <- h_verify_masa_pledge_voucher o h (s, 0%nat) (pl_serial c) nonce tls 0 vc vs false pinned;
    let '(z, _, h) := r in
    do h <- sys_free h s;
    Ok (z, h).

(** pledge_request.cpp 92-202 [post_voucher_pledge_request]. *)
Definition full_post_voucher_pledge_request (o : ossl) (w : world) (c : pledge_conf) (post1 post2 : post_cert_fn) (h : heap) (pinned : N) : outcome (Z * heap) :=
  let '(status, _, peer1) := post1 [] in
  if (status <? 0)%Z then Ok ((-1)%Z, h)
  else
  do x <- crypto_cert2buf h peer1;
  let (tls, h) := x in
  if tls =? 0 then Ok ((-1)%Z, h)
  else
  do y <- full_pledge_request_to_base64 o w c h tls;
  let (text, h) := y in
  do h <- h_free_binary_array h tls;
  match text with
  | None => Ok ((-1)%Z, h)
  | Some body =>
    let '(status, response, peer2) := post2 body in
    if (status <? 0)%Z then Ok ((-1)%Z, h)
    else if (400 <=? status)%Z then Ok ((-1)%Z, h)
    else
    do x <- crypto_cert2buf h peer2;
    let (tls, h) := x in
    if tls =? 0 then Ok ((-1)%Z, h)
    else
    do s <- c_str response;
    do r <- h_base64str2array h s;
    let '(rc, arr, h) := r in
    do v <- pledge_verify_handler (pledge_verify o c) w c h rc arr tls pinned;
    let (z, h) := v in
    do h <- cleanup h [OBuf arr; OArr tls];
    Ok ((if (z <? 0)%Z then (-1)%Z else 0%Z), h)
  end.
