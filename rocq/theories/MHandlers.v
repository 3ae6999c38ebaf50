(** Model of the HTTP handlers and the pledge client: src/brski/masa/masa_api.cpp,
    src/brski/registrar/registrar_api.cpp, src/brski/pledge/pledge_utils.c and
    src/brski/pledge/pledge_request.cpp, over the block heap. Configurations are
    given by their pointers. The protocol functions of request.c are those of
    MRequest on the contents behind the pointers; memory they use and release
    themselves is not modelled, their result is a new block. *)
From Verif Require Import Base MOs MBase64 MSerialize MVoucher MCrypto MRequest MHeap MArray MVoucherHeap MConfig.
Open Scope N_scope.
Open Scope ub_scope.

(** What the handlers see of the outside during one request: the certificate
    (key) in the PEM file of a path, in DER, and the clock (os.c 95-112
    [get_localtime]). *)
Record world := mk_world {
  w_cert : bytes -> option bytes;
  w_key : bytes -> option bytes;
  w_now : option tm }.

(** crypto_ossl.c 286-322, 324-360: both functions have the same shape. *)
Definition h_file_to_cert (w : world) := h_file_to_x509buf (w_cert w).
Definition h_file_to_keybuf (w : world) := h_file_to_x509buf (w_key w).

(** [s.c_str()] of a std::string as a C string. *)
Definition c_str (s : bytes) : outcome bytes :=
  do n <- strlen (s ++ [0]); take_mem (s ++ [0]) n.

(** A C string behind a pointer that may be NULL. *)
Definition opt_string (h : heap) (p : N) : outcome (option bytes) :=
  if p =? 0 then Ok None else do s <- heap_string h p; Ok (Some s).

(** The BinaryArray behind a pointer. *)
Definition h_barray (h : heap) (p : N) : outcome (option barray) :=
  if p =? 0 then Ok None
  else
    do a <- get_ptr h p 0;
    do n <- get_int h p 1;
    do d <- load_buf h a;
    Ok (Some (mk_ba d (Z.to_N n))).

(** The elements of a BinaryArrayList. *)
Definition h_certlist (h : heap) (l : N) : outcome (option certlist) :=
  if l =? 0 then Ok None else do xs <- array_items h l; Ok (Some xs).

(** A new BinaryArray with a buffer, as the functions of request.c, crypto_cert2buf
    and crypto_getcert_issuer return them; NULL when out of memory. *)
Definition h_new_array (h : heap) (d : option bytes) : outcome (N * heap) :=
  let (c, h) := alloc h (Struct [P 0; I 0]) in
  if c =? 0 then Ok (0, h)
  else
    match d with
    | None => Ok (c, h)
    | Some d =>
      let (b, h) := alloc h (Buf d) in
      if b =? 0 then do h <- sys_free h c; Ok (0, h)
      else
        do h <- set_field h c 0 (P b);
        do h <- set_field h c 1 (I (Z.of_N (blen d)));
        Ok (c, h)
    end.

(** The clean-up code: which function is called on which pointer. *)
Inductive owned := OArr (p : N) | OList (p : N) | OBuf (p : N).
Definition free_owned (h : heap) (x : owned) : outcome heap :=
  match x with
  | OArr p => h_free_binary_array h p
  | OList p => free_array_list h p
  | OBuf p => sys_free h p
  end.
Fixpoint cleanup (h : heap) (l : list owned) : outcome heap :=
  match l with
  | [] => Ok h
  | x :: r => do h <- free_owned h x; cleanup h r
  end.

(** A call of a function of request.c whose CMS argument was filled by
    [x.length = serialize_base64str2array(.., &x.array)]: [rc] is the result.
    A negative result becomes a length that d2i_CMS_ContentInfo sees as negative
    and refuses without reading (OpenSSL 3, ASN1_R_TOO_SMALL), so the callee
    fails. *)
Definition with_cms {A} (h : heap) (rc : Z) (arr : N) (f : option barray -> outcome (option A)) : outcome (option A) :=
  if (rc <? 0)%Z then Ok None
  else do d <- load_buf h arr; f (Some (mk_ba d (Z.to_N rc))).

(** serialize.c 255-268 on the contents of a BinaryArray, a copy of the text
    (std::string) and the release of the text: [None] for a negative result. *)
Definition h_array2base64 (h : heap) (p : N) : outcome (option bytes * heap) :=
  do a <- get_ptr h p 0;
  do n <- get_int h p 1;
  do d <- load_buf h a;
  do src <- match d with None => if (n =? 0)%Z then Ok [] else UB NullDeref | Some d => take_mem d (Z.to_N n) end;
  do r <- serialize_array2base64str (negb (hp_oom h (hp_next h))) src;
  let (z, out) := r in
  match out with
  | PBuf _ d =>
    let (c, h) := alloc h (Buf d) in
    if (z <? 0)%Z then Ok (None, h)
    else do s <- heap_string h c; do h <- sys_free h c; Ok (Some s, h)
  | _ => Ok (None, if hp_oom h (hp_next h) then snd (alloc h (Buf [])) else h)
  end.

(** ** The MASA *)

(** masa_config.h 16-29 and the two registrar lists the handler uses. *)
Record masa_conf := mk_mconf {
  mc_expires : N; mc_ldevid : N; mc_cert : N; mc_key : N;
  mc_verify : N; mc_store : N; mc_pverify : N; mc_pstore : N; mc_add : N }.

(** masa_api.cpp 27-55 [voucher_req_cb]; [ld] is context->ldevid_ca_cert. *)
Definition voucher_req_cb (h : heap) (ld : N) : outcome (Z * barray) :=
  if ld =? 0 then Ok ((-1)%Z, ba_null)
  else
    do b <- h_barray h ld;
    do r <- copy_binary_array true ba_null b;
    if (fst r <? 0)%Z then Ok ((-1)%Z, ba_null) else Ok (0%Z, snd r).

(** masa_api.cpp 57-183 [masa_requestvoucher]. [ld] is context->ldevid_ca_cert,
    which outlives the call. The result is the status, the response body, the
    new context->ldevid_ca_cert and the heap. The test of the decoded length at
    85-90 compares a [size_t] with 0 and never holds. [fail] is the code at
    171-182. The callback does not depend on its arguments, so its result is
    computed before the call. *)
Definition masa_requestvoucher (o : ossl) (w : world) (c : masa_conf) (ld : N) (h : heap) (body : bytes) : outcome (Z * bytes * N * heap) :=
  do cms_str <- c_str body;
  let fail h ld cert key rv rs pv ps add cms voucher :=
    do h <- cleanup h [OArr ld; OArr cert; OArr key; OList rv; OList rs; OList pv; OList ps; OList add; OBuf cms; OArr voucher];
    Ok (400%Z, [], ld, h) in
  do ex <- opt_string h (mc_expires c);
  match serialize_str2time ex with
  | None => fail h ld 0 0 0 0 0 0 0 0 0
  | Some t =>
    do r <- h_base64str2array h cms_str;
    let '(rc, cms, h) := r in
    do x <- h_file_to_cert w h (mc_ldevid c);
    let (ld, h) := x in
    if ld =? 0 then fail h ld 0 0 0 0 0 0 0 cms 0
    else
    do x <- h_file_to_cert w h (mc_cert c);
    let (cert, h) := x in
    if cert =? 0 then fail h ld 0 0 0 0 0 0 0 cms 0
    else
    do x <- h_file_to_keybuf w h (mc_key c);
    let (key, h) := x in
    if key =? 0 then fail h ld cert 0 0 0 0 0 0 cms 0
    else
    do x <- load_cert_files (w_cert w) h (mc_verify c);
    let '(z, rv, h) := x in
    if (z <? 0)%Z then fail h ld cert key rv 0 0 0 0 cms 0
    else
    do x <- load_cert_files (w_cert w) h (mc_store c);
    let '(z, rs, h) := x in
    if (z <? 0)%Z then fail h ld cert key rv rs 0 0 0 cms 0
    else
    do x <- load_cert_files (w_cert w) h (mc_pverify c);
    let '(z, pv, h) := x in
    if (z <? 0)%Z then fail h ld cert key rv rs pv 0 0 cms 0
    else
    do x <- load_cert_files (w_cert w) h (mc_pstore c);
    let '(z, ps, h) := x in
    if (z <? 0)%Z then fail h ld cert key rv rs pv ps 0 cms 0
    else
    do x <- load_cert_files (w_cert w) h (mc_add c);
    let '(z, add, h) := x in
    if (z <? 0)%Z then fail h ld cert key rv rs pv ps add cms 0
    else
    do pinned <- voucher_req_cb h ld;
    do bcert <- h_barray h cert;
    do bkey <- h_barray h key;
    do lrv <- h_certlist h rv;
    do lrs <- h_certlist h rs;
    do lpv <- h_certlist h pv;
    do lps <- h_certlist h ps;
    do ladd <- h_certlist h add;
    do v <- with_cms h rc cms (fun b => sign_masa_pledge_voucher o b (Some t) (Some (fun _ _ => pinned)) bcert bkey lrv lrs lpv lps ladd);
    match v with
    | None => fail h ld cert key rv rs pv ps add cms 0
    | Some v =>
      do x <- h_new_array h (Some v);
      let (voucher, h) := x in
      if voucher =? 0 then fail h ld cert key rv rs pv ps add cms 0
      else
      do y <- h_array2base64 h voucher;
      let (text, h) := y in
      match text with
      | None => fail h ld cert key rv rs pv ps add cms voucher
      | Some text =>
        do h <- cleanup h [OArr ld; OArr key; OArr cert; OList rv; OList rs; OList pv; OList ps; OList add; OBuf cms; OArr voucher];
        Ok (200%Z, text, ld, h)
      end
    end
  end.

(** masa_api.cpp 185-327: the remaining routes answer with their name. *)
Definition masa_voucher_status : Z * bytes := (200%Z, s2b "masa_voucher_status").
Definition masa_requestauditlog : Z * bytes := (200%Z, s2b "masa_requestauditlog").
Definition masa_enrollstatus : Z * bytes := (200%Z, s2b "masa_enrollstatus").
Definition get_est_cacerts : Z * bytes := (503%Z, s2b "get_est_cacerts").
Definition post_est_simpleenroll : Z * bytes := (503%Z, s2b "post_est_simpleenroll").
Definition post_est_simplereenroll : Z * bytes := (503%Z, s2b "post_est_simplereenroll").
Definition post_est_fullcmc : Z * bytes := (503%Z, s2b "post_est_fullcmc").
Definition post_est_serverkeygen : Z * bytes := (503%Z, s2b "post_est_serverkeygen").
Definition get_est_csrattrs : Z * bytes := (503%Z, s2b "get_est_csrattrs").

(** ** The registrar *)

(** What the code reads of a certificate object: for the issuer and subject
    names the first entry of a given kind converted to UTF-8 ([None]: conversion
    error, [Some None]: absent), the issuer printed in one line, the DER form. *)
Record cert_view := mk_view {
  cv_issuer_entry : bytes -> option (option bytes);
  cv_subject_entry : bytes -> option (option bytes);
  cv_issuer_text : option bytes;
  cv_der : option bytes }.

(** crypto_ossl.c 44-53. *)
Definition NNAMES : list bytes :=
  [s2b "C"; s2b "ST"; s2b "L"; s2b "O"; s2b "OU"; s2b "CN"; s2b "emailAddress"; s2b "serialNumber"; s2b "SN"; s2b "GN"].

(** crypto_ossl.c 669-690 [get_x509_keyvalue]: the pairs pushed; push_keyvalue_list
    copies C strings. *)
Fixpoint get_x509_keyvalue (entry : bytes -> option (option bytes)) (names : list bytes) : outcome (option (list (bytes * bytes))) :=
  match names with
  | [] => Ok (Some [])
  | n :: r =>
    match entry n with
    | None => Ok None
    | Some None => get_x509_keyvalue entry r
    | Some (Some s) =>
      do v <- c_str s;
      do l <- get_x509_keyvalue entry r;
      match l with None => Ok None | Some l => Ok (Some ((n, v) :: l)) end
    end
  end.

(** crypto_ossl.c 692-745 [crypto_getcert_meta]: the two lists, [None] for -1. The
    X509 name getters do not fail. *)
Definition crypto_getcert_meta (cert : option cert_view) : outcome (option (list (bytes * bytes) * list (bytes * bytes))) :=
  match cert with
  | None => Ok None
  | Some c =>
    do i <- get_x509_keyvalue (cv_issuer_entry c) NNAMES;
    match i with
    | None => Ok None
    | Some i =>
      do s <- get_x509_keyvalue (cv_subject_entry c) NNAMES;
      match s with None => Ok None | Some s => Ok (Some (i, s)) end
    end
  end.

(** crypto_ossl.c 1716-1726 [crypto_getcert_serial]. *)
Fixpoint crypto_getcert_serial (subject : list (bytes * bytes)) : option bytes :=
  match subject with
  | [] => None
  | (k, v) :: r => if beqb k (s2b "serialNumber") then Some v else crypto_getcert_serial r
  end.

(** crypto_ossl.c 747-797 [crypto_getcert_issuer]; an empty text leaves the array
    NULL (362-380). *)
Definition crypto_getcert_issuer (h : heap) (cert : option cert_view) : outcome (N * heap) :=
  match cert with
  | None => Ok (0, h)
  | Some c =>
    match cv_issuer_text c with
    | None => Ok (0, h)
    | Some [] => h_new_array h None
    | Some t => h_new_array h (Some t)
    end
  end.

(** registrar_config.h 14-26: the pointers the handlers use. *)
Record registrar_conf := mk_rconf {
  rc_tls_cert : N; rc_cert : N; rc_key : N; rc_verify : N; rc_store : N; rc_add : N;
  rc_ca_cert : N; rc_ca_key : N }.

(** The answer of an HTTPS server to a body: a negative status when there is
    none (httplib_wrapper.cpp 238-262). *)
Definition post_fn := bytes -> Z * bytes.

(** registrar_api.cpp 90-133 [post_voucher_request]: the result and, when it is
    assigned, the response. *)
Definition post_voucher_request (post : post_fn) (h : heap) (cms : N) : outcome (Z * option bytes * heap) :=
  do y <- h_array2base64 h cms;
  let (text, h) := y in
  match text with
  | None => Ok ((-1)%Z, None, h)
  | Some body =>
    let (status, response) := post body in
    if (status <? 0)%Z then Ok ((-1)%Z, None, h)
    else if (400 <=? status)%Z then Ok (400%Z, None, h)
    else Ok (0%Z, Some response, h)
  end.

(** registrar_api.cpp 297-299. *)
Definition masa_unreachable : bytes :=
  s2b "Voucher request to the MASA server failed. Please contact the webmaster of the registrar server if this error persists.".

(** registrar_api.cpp 135-304 [registrar_requestvoucher]: status, response, heap.
    The unique_ptr variables are released in reverse order; the key/value lists
    of [idev_meta] are not modelled. The BinaryArray at 191 is malloc'ed and not
    checked for NULL; the test at 194-199 never holds. *)
Definition registrar_requestvoucher (o : ossl) (w : world) (c : registrar_conf) (post : post_fn) (h : heap)
           (peer : option cert_view) (body : bytes) : outcome (Z * bytes * heap) :=
  do cms_str <- c_str body;
  let ret h status response vars :=
    do h <- cleanup h vars; Ok (status, response, h) in
  do m <- crypto_getcert_meta peer;
  match m with
  | None => Ok (400%Z, [], h)
  | Some (_, subject) =>
    match crypto_getcert_serial subject with
    | None => Ok (400%Z, [], h)
    | Some serial_number =>
      do x <- crypto_getcert_issuer h peer;
      let (issuer, h) := x in
      if issuer =? 0 then Ok (400%Z, [], h)
      else
      let (pcms, h) := alloc h (Struct [P 0; I 0]) in
      if pcms =? 0 then UB NullDeref
      else
      do r <- h_base64str2array h cms_str;
      let '(rc, arr, h) := r in
      do h <- set_field h pcms 0 (P arr);
      do h <- set_field h pcms 1 (I rc);
      match w_now w with
      | None => ret h 500%Z [] [OArr pcms; OArr issuer]
      | Some created_on =>
        do x <- h_file_to_cert w h (rc_tls_cert c);
        let (tls, h) := x in
        if tls =? 0 then ret h 500%Z [] [OArr pcms; OArr issuer]
        else
        do x <- h_file_to_cert w h (rc_cert c);
        let (cert, h) := x in
        if cert =? 0 then ret h 500%Z [] [OArr tls; OArr pcms; OArr issuer]
        else
        do x <- h_file_to_keybuf w h (rc_key c);
        let (key, h) := x in
        if key =? 0 then ret h 500%Z [] [OArr cert; OArr tls; OArr pcms; OArr issuer]
        else
        do x <- load_cert_files (w_cert w) h (rc_verify c);
        let '(z, pv, h) := x in
        if (z <? 0)%Z then ret h 500%Z [] [OArr key; OArr cert; OArr tls; OArr pcms; OArr issuer]
        else
        do x <- load_cert_files (w_cert w) h (rc_store c);
        let '(z, ps, h) := x in
        if (z <? 0)%Z then ret h 500%Z [] [OList pv; OArr key; OArr cert; OArr tls; OArr pcms; OArr issuer]
        else
        do x <- load_cert_files (w_cert w) h (rc_add c);
        let '(z, add, h) := x in
        if (z <? 0)%Z then ret h 500%Z [] [OList ps; OList pv; OArr key; OArr cert; OArr tls; OArr pcms; OArr issuer]
        else
        do bissuer <- h_barray h issuer;
        do btls <- h_barray h tls;
        do bcert <- h_barray h cert;
        do bkey <- h_barray h key;
        do lpv <- h_certlist h pv;
        do lps <- h_certlist h ps;
        do ladd <- h_certlist h add;
        do v <- with_cms h rc arr (fun b => sign_voucher_request o b (Some created_on) (Some serial_number) bissuer btls bcert bkey lpv lps ladd);
        let vars := [OList add; OList ps; OList pv; OArr key; OArr cert; OArr tls; OArr pcms; OArr issuer] in
        match v with
        | None => ret h 400%Z [] vars
        | Some v =>
          do x <- h_new_array h (Some v);
          let (vr, h) := x in
          if vr =? 0 then ret h 400%Z [] vars
          else
          do y <- post_voucher_request post h vr;
          let '(z, response, h) := y in
          if (z <? 0)%Z then ret h 502%Z masa_unreachable (OArr vr :: vars)
          else ret h 200%Z (match response with None => [] | Some r => r end) (OArr vr :: vars)
        end
      end
    end
  end.

(** registrar_api.cpp 306-352. *)
Definition registrar_voucher_status : Z * bytes := (200%Z, s2b "registrar_voucher_status").
Definition registrar_requestauditlog : Z * bytes := (200%Z, s2b "registrar_requestauditlog").
Definition registrar_enrollstatus : Z * bytes := (200%Z, s2b "registrar_enrollstatus").

(** crypto_ossl.c 1106-1186 [crypto_sign_cert] is the argument [sign_cert] below:
    the certificate in DER with the issuer and signature replaced, or failure;
    it replaces [*cert] only when it succeeds (1166-1168). *)
Definition sign_cert_fn := bytes -> bytes -> bytes -> option bytes.

(** registrar_api.cpp 354-432 [registrar_est_simpleenroll]. The entry appended to
    the log file (414-419, 31-88) is left to MEnrolLog.v; it has no effect on the
    answer. The peer certificate is an argument of the C++ function that only
    the log uses. *)
Definition registrar_est_simpleenroll (sign_cert : sign_cert_fn) (w : world) (c : registrar_conf) (h : heap)
           (peer : option cert_view) (body : bytes) : outcome (Z * bytes * heap) :=
  do cert_str <- c_str body;
  let fail h ca_cert ca_key cert :=
    do h <- cleanup h [OBuf cert; OArr ca_cert; OArr ca_key]; Ok (400%Z, [], h) in
  do r <- h_base64str2array h cert_str;
  let '(rc, cert, h) := r in
  if (rc <? 0)%Z then fail h 0 0 cert
  else
  do x <- h_file_to_cert w h (rc_ca_cert c);
  let (ca_cert, h) := x in
  if ca_cert =? 0 then fail h 0 0 cert
  else
  do x <- h_file_to_keybuf w h (rc_ca_key c);
  let (ca_key, h) := x in
  if ca_key =? 0 then fail h ca_cert 0 cert
  else
  do bkey <- h_barray h ca_key;
  do bcert <- h_barray h ca_cert;
  do d <- load_buf h cert;
  match bkey, bcert, d with
  | Some bkey, Some bcert, Some d =>
    do kb <- ba_read bkey;
    do cb <- ba_read bcert;
    do tb <- take_mem d (Z.to_N rc);
    match sign_cert kb cb tb with
    | None => fail h ca_cert ca_key cert
    | Some out =>
      let (n, h) := alloc h (Buf out) in
      if n =? 0 then fail h ca_cert ca_key cert
      else
      do h <- sys_free h cert;
      do r <- serialize_array2base64str (negb (hp_oom h (hp_next h))) out;
      let (z, p) := r in
      match p with
      | PBuf _ text =>
        let (a, h) := alloc h (Buf text) in
        if (z <? 0)%Z then fail h ca_cert ca_key n
        else
        do s <- heap_string h a;
        do h <- cleanup h [OBuf a; OBuf n; OArr ca_cert; OArr ca_key];
        Ok (200%Z, s, h)
      | _ => fail (if hp_oom h (hp_next h) then snd (alloc h (Buf [])) else h) ca_cert ca_key n
      end
    end
  | _, _, None => fail h ca_cert ca_key cert
  | _, _, _ => fail h ca_cert ca_key cert
  end.

(** ** The pledge *)

(** pledge_config.h 16-28. *)
Record pledge_conf := mk_pconf {
  pl_created : N; pl_serial : N; pl_nonce : N; pl_cert : N; pl_key : N;
  pl_add : N; pl_verify : N; pl_store : N }.

(** pledge_utils.c 50-66 and pledge_request.cpp 45-58: the nonce of the
    configuration decoded into a new BinaryArray: the array and whether the
    decoding failed. *)
Definition load_nonce (h : heap) (p : N) : outcome (bool * N * heap) :=
  if p =? 0 then Ok (true, 0, h)
  else
    let (nonce, h) := alloc h (Struct [P 0; I 0]) in
    if nonce =? 0 then Ok (false, 0, h)
    else
      do s <- heap_string h p;
      do r <- h_base64str2array h s;
      let '(rc, arr, h) := r in
      do h <- set_field h nonce 0 (P arr);
      if (rc <? 0)%Z then Ok (false, nonce, h)
      else do h <- set_field h nonce 1 (I rc); Ok (true, nonce, h).

(** pledge_utils.c 23-111 [voucher_pledge_request_to_array]; [tls] points to the
    registrar certificate. The result is the new array or NULL. *)
Definition voucher_pledge_request_to_array (o : ossl) (w : world) (c : pledge_conf) (h : heap) (tls : N) : outcome (N * heap) :=
  if tls =? 0 then Ok (0, h)
  else
    do cr <- opt_string h (pl_created c);
    match (match cr with None => w_now w | Some _ => serialize_str2time cr end) with
    | None => Ok (0, h)
    | Some created_on =>
      do x <- load_nonce h (pl_nonce c);
      let '(ok, nonce, h) := x in
      if negb ok then do h <- h_free_binary_array h nonce; Ok (0, h)
      else
      let fin h r cert key add :=
        do h <- cleanup h [OArr nonce; OArr cert; OArr key; OList add]; Ok (r, h) in
      do x <- h_file_to_cert w h (pl_cert c);
      let (cert, h) := x in
      if cert =? 0 then fin h 0 0 0 0
      else
      do x <- h_file_to_keybuf w h (pl_key c);
      let (key, h) := x in
      if key =? 0 then fin h 0 cert 0 0
      else
      do x <- load_cert_files (w_cert w) h (pl_add c);
      let '(z, add, h) := x in
      if (z <? 0)%Z then fin h 0 cert key add
      else
      do serial <- opt_string h (pl_serial c);
      do bnonce <- h_barray h nonce;
      do btls <- h_barray h tls;
      do bcert <- h_barray h cert;
      do bkey <- h_barray h key;
      do ladd <- h_certlist h add;
      do v <- sign_pledge_voucher_request o (Some created_on) serial bnonce btls bcert bkey ladd;
      match v with
      | None => fin h 0 cert key add
      | Some v =>
        do x <- h_new_array h (Some v);
        let (cms, h) := x in
        fin h cms cert key add
      end
    end.

(** pledge_utils.c 136-158 [voucher_pledge_request_to_base64] and the copy into a
    std::string at pledge_request.cpp 137-147. *)
Definition voucher_pledge_request_to_base64 (o : ossl) (w : world) (c : pledge_conf) (h : heap) (tls : N) : outcome (option bytes * heap) :=
  do x <- voucher_pledge_request_to_array o w c h tls;
  let (cms, h) := x in
  if cms =? 0 then Ok (None, h)
  else
    do y <- h_array2base64 h cms;
    let (text, h) := y in
    do h <- h_free_binary_array h cms;
    Ok (text, h).

(** pledge_request.cpp 35-90 [verify_masa_pledge_request]. The voucher is given by
    the result and the pointer of the decoding (see [with_cms]); [pinned] is the
    caller's empty BinaryArray. *)
Definition verify_masa_pledge_request (o : ossl) (w : world) (c : pledge_conf) (h : heap) (rc : Z) (arr tls pinned : N) : outcome (Z * heap) :=
  let fin h r nonce vc vs :=
    do h <- cleanup h [OArr nonce; OList vc; OList vs]; Ok (r, h) in
  do x <- load_nonce h (pl_nonce c);
  let '(ok, nonce, h) := x in
  if negb ok then
    do h <- h_free_binary_array h nonce;
    fin h (-1)%Z nonce 0 0
  else
  do x <- load_cert_files (w_cert w) h (pl_verify c);
  let '(z, vc, h) := x in
  if (z <? 0)%Z then fin h (-1)%Z nonce vc 0
  else
  do x <- load_cert_files (w_cert w) h (pl_store c);
  let '(z, vs, h) := x in
  if (z <? 0)%Z then fin h (-1)%Z nonce vc vs
  else
  do serial <- opt_string h (pl_serial c);
  do bnonce <- h_barray h nonce;
  do btls <- h_barray h tls;
  do lvc <- h_certlist h vc;
  do lvs <- h_certlist h vs;
  do v <- with_cms h rc arr (fun b => verify_masa_pledge_voucher o b serial bnonce btls None lvc lvs false true);
  match v with
  | None => fin h (-1)%Z nonce vc vs
  | Some (p, _) =>
    do d <- ba_read p;
    let (b, h) := alloc h (Buf d) in
    if b =? 0 then fin h (-1)%Z nonce vc vs
    else
    do h <- set_field h pinned 0 (P b);
    do h <- set_field h pinned 1 (I (Z.of_N (blen d)));
    fin h 0%Z nonce vc vs
  end.

(** The answer to an HTTPS POST and the server's certificate. *)
Definition post_cert_fn := bytes -> Z * bytes * option cert_view.

(** crypto_ossl.c 262-284 [crypto_cert2buf]. *)
Definition crypto_cert2buf (h : heap) (cert : option cert_view) : outcome (N * heap) :=
  match cert with
  | None => Ok (0, h)
  | Some c => match cv_der c with None => Ok (0, h) | Some d => h_new_array h (Some d) end
  end.

(** pledge_request.cpp 92-202 [post_voucher_pledge_request]: the two POSTs are
    [post1] (empty body) and [post2]. The three configured strings at 100-113
    are present. The certificate objects are not modelled. The test at 180-186
    never holds. *)
Definition post_voucher_pledge_request (o : ossl) (w : world) (c : pledge_conf) (post1 post2 : post_cert_fn) (h : heap) (pinned : N) : outcome (Z * heap) :=
  let '(status, _, peer1) := post1 [] in
  if (status <? 0)%Z then Ok ((-1)%Z, h)
  else
  do x <- crypto_cert2buf h peer1;
  let (tls, h) := x in
  if tls =? 0 then Ok ((-1)%Z, h)
  else
  do y <- voucher_pledge_request_to_base64 o w c h tls;
  let (text, h) := y in
  do h <- h_free_binary_array h tls;
  match text with
  | None => Ok ((-1)%Z, h)
  | Some body =>
    let '(status, response, peer2) := post2 body in
    if (status <? 0)%Z then Ok ((-1)%Z, h)
    else if (400 <=? status)%Z then Ok ((-1)%Z, h)
    else
    do x <- crypto_cert2buf h peer2;
    let (tls, h) := x in
    if tls =? 0 then Ok ((-1)%Z, h)
    else
    do s <- c_str response;
    do r <- h_base64str2array h s;
    let '(rc, arr, h) := r in
    do v <- verify_masa_pledge_request o w c h rc arr tls pinned;
    let (z, h) := v in
    do h <- cleanup h [OBuf arr; OArr tls];
    Ok ((if (z <? 0)%Z then (-1)%Z else 0%Z), h)
  end.
