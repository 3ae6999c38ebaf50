(** Model of the memory used by src/voucher/request.c and the signing and
    verifying functions of src/voucher/voucher.c 970-1044, over the block heap.
    Pointers to plain data ([struct tm]) are given by their contents. The
    objects OpenSSL makes for itself and releases are not here (MObjects has
    them); what it hands over is. *)
From Verif Require Import Base MBase64 MSerialize MOs MJsmn MVoucher MCrypto MRequest MHeap MArray MVoucherHeap MConfig MHandlers MSerialHeap.
Open Scope N_scope.
Open Scope ub_scope.

(** The array behind a [struct BinaryArray *]. *)
Definition h_array (h : heap) (b : baptr) : outcome (option barray) :=
  if fst b =? 0 then Ok None
  else
    do p <- get_ptr h (fst b) (snd b);
    do n <- get_int h (fst b) (snd b + 1);
    do d <- load_buf h p;
    Ok (Some (mk_ba d (Z.to_N n))).

(** The variable argument of [set_attr_voucher]. *)
Inductive hvalue := HTime (t : option tm) | HInt (z : Z) | HStr (p : N) | HArr (b : baptr).

(** voucher.c 291-338 [set_attr_voucher] on the voucher at [v] whose plain
    fields are those of [pl]. *)
Definition h_set_attr (h : heap) (v : N) (pl : voucher) (a : attr) (x : hvalue) : outcome (Z * voucher * heap) :=
  let plain x :=
    do r <- set_attr true (Some pl) a x;
    Ok (fst r, match snd r with Some pl => pl | None => pl end, h) in
  match x with
  | HTime t => plain (VTime t)
  | HInt z => plain (VInt z)
  | HStr p => do r <- h_set_attr_str h v a p; Ok (fst r, pl, snd r)
  | HArr b => do r <- h_set_attr_array h v a b; Ok (fst r, pl, snd r)
  end.

(** [if (set_attr_voucher(v, a, x) < 0) goto fail;] *)
Definition h_set_or {A} (h : heap) (v : N) (pl : voucher) (a : attr) (x : hvalue) (fail : heap -> outcome A)
           (k : voucher -> heap -> outcome A) : outcome A :=
  do r <- h_set_attr h v pl a x;
  let '(rc, pl, h) := r in
  if (rc <? 0)%Z then fail h else k pl h.

(** crypto_ossl.c 362-380 [bio_to_ptr]: the result and [*data]. *)
Definition h_bio_to_ptr (h : heap) (d : bytes) : Z * N * heap :=
  match d with
  | [] => (0%Z, 0, h)
  | _ :: _ => let (b, h) := alloc h (Buf d) in (if b =? 0 then (-1)%Z else Z.of_N (blen d), b, h)
  end.

(** voucher.c 970-1015 [sign_cms_voucher]. *)
Definition h_sign_cms_voucher (o : ossl) (h : heap) (v : N) (pl : voucher) (cert key certs : N) : outcome (N * heap) :=
  if v =? 0 then Ok (0, h)
  else if cert =? 0 then Ok (0, h)
  else if key =? 0 then Ok (0, h)
  else
    do r <- h_serialize_voucher h v pl;
    let (s, h) := r in
    if s =? 0 then Ok (0, h)
    else
      let (cms, h) := alloc h (Struct [P 0; I 0]) in
      if cms =? 0 then do h <- sys_free h s; Ok (0, h)
      else
        do text <- heap_string h s;
        do bc <- h_barray h cert;
        do bk <- h_barray h key;
        do lc <- h_certlist h certs;
        do d <- match bc, bk with Some bc, Some bk => crypto_sign o KAuto text bc bk lc | _, _ => UB NullDeref end;
        let '(n, b, h) := match d with None => ((-1)%Z, 0, h) | Some d => h_bio_to_ptr h d end in
        do h <- set_field h cms 0 (P b);
        do h <- sys_free h s;
        if (n <? 0)%Z then do h <- h_free_binary_array h cms; Ok (0, h)
        else do h <- set_field h cms 1 (I n); Ok (cms, h).

(** crypto_ossl.c 1562-1608 [exatract_cms_certs], the loop over the signers'
    certificates. The encoding OpenSSL makes is a block of its own. *)
Fixpoint h_push_certs (o : ossl) (h : heap) (l : N) (xs : list (X509 o)) : outcome (Z * heap) :=
  match xs with
  | [] => Ok (0%Z, h)
  | x :: r =>
    match i2d_x509 o x with
    | None => do h <- free_array_list h l; Ok ((-1)%Z, h)
    | Some d =>
      let (cert, h) := alloc h (Buf d) in
      if cert =? 0 then do h <- free_array_list h l; Ok ((-1)%Z, h)
      else
        do p <- push_array_list h l cert (blen d) 0;
        do h <- sys_free (snd p) cert;
        if (fst p <? 0)%Z then do h <- free_array_list h l; Ok ((-1)%Z, h)
        else h_push_certs o h l r
    end
  end.
(** The result and [*out_certs]. *)
Definition h_extract_certs (o : ossl) (h : heap) (c : CMS o) (st : option (list (X509 o))) : outcome (Z * N * heap) :=
  match cms_signers o c st with
  | None => Ok (0%Z, 0, h)
  | Some [] => Ok (0%Z, 0, h)
  | Some xs =>
    do r <- init_array_list h;
    let (l, h) := r in
    if l =? 0 then Ok ((-1)%Z, 0, h)
    else
      do r <- h_push_certs o h l xs;
      Ok (fst r, if (fst r <? 0)%Z then 0 else l, snd r)
  end.

(** crypto_ossl.c 1610-1694 [crypto_verify_cms]: the result, [*data],
    [*out_certs] (NULL before). *)
Definition h_crypto_verify_cms (o : ossl) (h : heap) (cms : baptr) (certs store : N) (want : bool) : outcome (Z * N * N * heap) :=
  do b <- h_array h cms;
  do lc <- h_certlist h certs;
  do ls <- h_certlist h store;
  match b with
  | None => Ok ((-1)%Z, 0, 0, h)
  | Some b =>
    do d <- ba_read b;
    match d2i_cms o d with
    | None => Ok ((-1)%Z, 0, 0, h)
    | Some c =>
      match opt_stack o lc with
      | None => Ok ((-1)%Z, 0, 0, h)
      | Some stack =>
        match opt_store o ls with
        | None => Ok ((-1)%Z, 0, 0, h)
        | Some st =>
          match cms_verify o c stack st (match st with None => true | Some _ => false end) with
          | None => Ok ((-1)%Z, 0, 0, h)
          | Some content =>
            let '(n, data, h) := h_bio_to_ptr h content in
            if (n <? 0)%Z then Ok ((-1)%Z, data, 0, h)
            else if want then
              do r <- h_extract_certs o h c stack;
              let '(rc, l, h) := r in
              if (rc <? 0)%Z then Ok ((-1)%Z, data, l, h) else Ok (n, data, l, h)
            else Ok (n, data, 0, h)
          end
        end
      end
    end
  end.

(** voucher.c 798-873 [deserialize_voucher] of the block [data]: the voucher
    and its plain fields, which do not depend on the memory. *)
Definition h_deserialize (h : heap) (data : N) : outcome (N * voucher * heap) :=
  do js <- load_buf h data;
  match js with
  | None => Ok (0, init_voucher, h)
  | Some js =>
    do r <- h_deserialize_voucher h js;
    Ok (fst r, match deserialize_voucher true (Some js) with Ok (Some w) => w | _ => init_voucher end, snd r)
  end.

(** voucher.c 1017-1044 [verify_cms_voucher]: the voucher, its plain fields and
    [*out_certs]. *)
Definition h_verify_cms_voucher (o : ossl) (h : heap) (cms : baptr) (certs store : N) (want : bool) : outcome (N * voucher * N * heap) :=
  if fst cms =? 0 then Ok (0, init_voucher, 0, h)
  else
    do r <- h_crypto_verify_cms o h cms certs store want;
    let '(n, data, l, h) := r in
    if (n <? 0)%Z then Ok (0, init_voucher, l, h)
    else
      do r <- h_deserialize h data;
      let '(v, pl, h) := r in
      do h <- sys_free h data;
      Ok (v, pl, l, h).

(** request.c 20-98 [sign_pledge_voucher_request]. *)
Definition h_sign_pledge_voucher_request (o : ossl) (h : heap) (created_on : option tm) (serial_number : N)
           (nonce registrar_tls_cert pledge_sign_cert pledge_sign_key additional_pledge_certs : N) : outcome (N * heap) :=
  let (v, h) := h_init_voucher h in
  if v =? 0 then Ok (0, h)
  else
    let fail h := do h <- h_free_voucher h v; Ok (0, h) in
    h_set_or h v init_voucher ACreatedOn (HTime created_on) fail (fun pl h =>
    let rest pl h :=
      h_set_or h v pl AAssertion (HInt 3) fail (fun pl h =>
      h_set_or h v pl AProximity (HArr (registrar_tls_cert, 0%nat)) fail (fun pl h =>
      h_set_or h v pl ASerial (HStr serial_number) fail (fun pl h =>
      do r <- h_sign_cms_voucher o h v pl pledge_sign_cert pledge_sign_key additional_pledge_certs;
      do h <- h_free_voucher (snd r) v;
      Ok (fst r, h)))) in
    if nonce =? 0 then rest pl h
    else h_set_or h v pl ANonce (HArr (nonce, 0%nat)) fail rest).

(** strcmp(a, b) == 0. *)
Definition h_strcmp_eq (h : heap) (a b : N) : outcome bool :=
  do x <- heap_string h a;
  do y <- heap_string h b;
  Ok (beqb x y).
(** array.c 121-142 [compare_binary_array]. *)
Definition h_compare (h : heap) (a b : baptr) : outcome Z :=
  do x <- h_array h a;
  do y <- h_array h b;
  compare_binary_array x y.

(** request.c 100-245 [sign_voucher_request]. *)
Definition h_sign_voucher_request (o : ossl) (h : heap) (pledge_voucher_request_cms : baptr) (created_on : option tm) (serial_number : N)
           (idevid_issuer registrar_tls_cert registrar_sign_cert registrar_sign_key : N)
           (pledge_verify_certs pledge_verify_store additional_registrar_certs : N) : outcome (N * heap) :=
  if serial_number =? 0 then Ok (0, h)
  else if idevid_issuer =? 0 then Ok (0, h)
  else
    do r <- h_verify_cms_voucher o h pledge_voucher_request_cms pledge_verify_certs pledge_verify_store false;
    let '(pvr, ppl, _, h) := r in
    if pvr =? 0 then Ok (0, h)
    else
      let fail1 h := do h <- h_free_voucher h pvr; Ok (0, h) in
      do ps <- get_ptr h pvr 0;
      do same <- h_strcmp_eq h ps serial_number;
      if negb same then fail1 h
      else
      do c <- h_compare h (pvr, 9%nat) (registrar_tls_cert, 0%nat);
      if (c <? 1)%Z then fail1 h
      else if negb (v_assertion ppl =? 3)%Z then fail1 h
      else
      let (v, h) := h_init_voucher h in
      let fail h := do h <- h_free_voucher h pvr; do h <- h_free_voucher h v; Ok (0, h) in
      if v =? 0 then fail h
      else
      h_set_or h v init_voucher ACreatedOn (HTime created_on) fail (fun pl h =>
      let rest pl h :=
        h_set_or h v pl ASerial (HStr serial_number) fail (fun pl h =>
        h_set_or h v pl AIssuer (HArr (idevid_issuer, 0%nat)) fail (fun pl h =>
        h_set_or h v pl APrior (HArr pledge_voucher_request_cms) fail (fun pl h =>
        do r <- h_sign_cms_voucher o h v pl registrar_sign_cert registrar_sign_key additional_registrar_certs;
        let (cms, h) := r in
        if cms =? 0 then fail h
        else
        do h <- h_free_voucher h pvr;
        do h <- h_free_voucher h v;
        Ok (cms, h)))) in
      do e <- h_is_attr_array_nonempty h (pvr, 5%nat);
      if e then h_set_or h v pl ANonce (HArr (pvr, 5%nat)) fail rest
      else rest pl h).

(** voucher.h 599-601 [voucher_req_fn]: result and content as in MRequest; the
    content is a new block, the callback fails when there is no memory for
    it and leaves nothing behind when it fails. *)
Definition h_call_back (cb : voucher_req_fn) (h : heap) (serial : bytes) (certs : option certlist) (pin : N) : outcome (Z * heap) :=
  let (rc, b) := cb serial certs in
  if (rc <? 0)%Z then Ok (rc, h)
  else
    match ba_data b with
    | None => do h <- set_field h pin 1 (I (Z.of_N (ba_len b))); Ok (rc, h)
    | Some d =>
      let (c, h) := alloc h (Buf d) in
      if c =? 0 then Ok ((-1)%Z, h)
      else
        do h <- set_field h pin 0 (P c);
        do h <- set_field h pin 1 (I (Z.of_N (ba_len b)));
        Ok (rc, h)
    end.

(** request.c 247-446 [sign_masa_pledge_voucher]; [cb] is not NULL. The address
    of [pinned_domain_cert] (370) is taken: it is a block while in scope. *)
Definition h_sign_masa_pledge_voucher (o : ossl) (h : heap) (voucher_request_cms : baptr) (expires_on : option tm) (cb : option voucher_req_fn)
           (masa_sign_cert masa_sign_key registrar_verify_certs registrar_verify_store pledge_verify_certs pledge_verify_store additional_masa_certs : N)
  : outcome (N * heap) :=
  match expires_on, cb with
  | None, _ => Ok (0, h)
  | _, None => Ok (0, h)
  | Some _, Some cb =>
    do r <- h_verify_cms_voucher o h voucher_request_cms registrar_verify_certs registrar_verify_store true;
    let '(vr, vpl, l, h) := r in
    if vr =? 0 then Ok (0, h)
    else
      let fail pvr v h :=
        do h <- free_array_list h l;
        do h <- h_free_voucher h vr;
        do h <- h_free_voucher h pvr;
        do h <- h_free_voucher h v;
        Ok (0, h) in
      do vs <- get_ptr h vr 0;
      if vs =? 0 then fail 0 0 h
      else
      do n <- h_is_attr_array_nonempty h (vr, 5%nat);
      do e <- h_is_attr_array_nonempty h (vr, 7%nat);
      if negb e then fail 0 0 h
      else
      do r <- h_verify_cms_voucher o h (vr, 7%nat) pledge_verify_certs pledge_verify_store false;
      let '(pvr, ppl, _, h) := r in
      if pvr =? 0 then fail 0 0 h
      else
      do ps <- get_ptr h pvr 0;
      if ps =? 0 then fail pvr 0 h
      else
      do same <- h_strcmp_eq h vs ps;
      if negb same then fail pvr 0 h
      else
      let (v, h) := h_init_voucher h in
      if v =? 0 then fail pvr 0 h
      else
      let rest pl h :=
        h_set_or h v pl AAssertion (HInt 3) (fail pvr v) (fun pl h =>
        let (pin, h) := local h (Struct [P 0; I 0]) in
        do text <- heap_string h ps;
        do lc <- h_certlist h l;
        do r <- h_call_back cb h text lc pin;
        let (rc, h) := r in
        if (rc <? 0)%Z then do h <- sys_free h pin; fail pvr v h
        else
        do r <- h_set_attr h v pl APinned (HArr (pin, 0%nat));
        let '(rc, pl, h) := r in
        do h <- h_free_binary_array_content h (pin, 0%nat);
        do h <- sys_free h pin;
        if (rc <? 0)%Z then fail pvr v h
        else
        h_set_or h v pl ASerial (HStr ps) (fail pvr v) (fun pl h =>
        h_set_or h v pl ARevocation (HInt 0) (fail pvr v) (fun pl h =>
        h_set_or h v pl AExpiresOn (HTime expires_on) (fail pvr v) (fun pl h =>
        do r <- h_sign_cms_voucher o h v pl masa_sign_cert masa_sign_key additional_masa_certs;
        let (cms, h) := r in
        if cms =? 0 then fail pvr v h
        else
        do h <- free_array_list h l;
        do h <- h_free_voucher h vr;
        do h <- h_free_voucher h pvr;
        do h <- h_free_voucher h v;
        Ok (cms, h))))) in
      if n then h_set_or h v init_voucher ANonce (HArr (vr, 5%nat)) (fail pvr v) rest
      else rest init_voucher h
  end.

(** request.c 448-581 [verify_masa_pledge_voucher]: the result, and
    [*pledge_out_certs] (NULL before) when wanted. [pinned_domain_cert] is a
    struct of the caller or NULL. *)
Definition h_verify_masa_pledge_voucher (o : ossl) (h : heap) (masa_pledge_voucher_cms : baptr) (serial_number : N)
           (nonce registrar_tls_cert : N) (domain_store pledge_verify_certs pledge_verify_store : N) (want : bool)
           (pinned_domain_cert : N) : outcome (Z * N * heap) :=
  if serial_number =? 0 then Ok ((-1)%Z, 0, h)
  else
    do r <- h_verify_cms_voucher o h masa_pledge_voucher_cms pledge_verify_certs pledge_verify_store want;
    let '(mv, mpl, l, h) := r in
    if mv =? 0 then Ok ((-1)%Z, l, h)
    else
      let fin rc h := do h <- h_free_voucher h mv; Ok (rc, l, h) in
      do vs <- get_ptr h mv 0;
      if vs =? 0 then fin (-1)%Z h
      else
      do same <- h_strcmp_eq h serial_number vs;
      if negb same then fin (-1)%Z h
      else
      do nonce_ok <-
        (if nonce =? 0 then Ok true
         else
           do e <- h_is_attr_array_nonempty h (mv, 5%nat);
           if e then do c <- h_compare h (nonce, 0%nat) (mv, 5%nat); Ok (negb (c <? 1)%Z)
           else Ok false);
      if negb nonce_ok then fin (-1)%Z h
      else
      do e <- h_is_attr_array_nonempty h (mv, 3%nat);
      if negb e then fin (-1)%Z h
      else
      let (copy, h) := local h (Struct [P 0; I 0]) in
      do r <- h_copy_binary_array h (copy, 0%nat) (mv, 3%nat);
      let (rc, h) := r in
      if (rc <? 0)%Z then do h <- sys_free h copy; fin (-1)%Z h
      else
      do r <- init_array_list h;
      let (certs, h) := r in
      do p <- get_ptr h copy 0;
      do n <- get_int h copy 1;
      do r <- push_array_list h certs p (Z.to_N n) 0;
      let (rc, h) := r in
      if (rc <? 0)%Z then
        do h <- free_array_list h certs;
        do h <- sys_free h copy;
        fin (-1)%Z h
      else
      do h <- h_free_binary_array_content h (copy, 0%nat);
      do h <- sys_free h copy;
      do tls <- h_barray h registrar_tls_cert;
      do lc <- h_certlist h certs;
      do ls <- h_certlist h domain_store;
      do e <- match tls with None => UB NullDeref | Some tls => crypto_verify_cert o tls lc ls end;
      do h <- free_array_list h certs;
      if (e <? 0)%Z then fin (-1)%Z h
      else if pinned_domain_cert =? 0 then fin (-1)%Z h
      else
      do r <- h_copy_binary_array h (pinned_domain_cert, 0%nat) (mv, 3%nat);
      let (rc, h) := r in
      fin (if (rc <? 0)%Z then (-1)%Z else 0%Z) h.
