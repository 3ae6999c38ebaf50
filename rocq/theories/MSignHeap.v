(** Model of the command sign-cert with every allocation of the brski library:
    src/brski/pledge/pledge_request.cpp 223-374 over the block heap, with the
    key/value lists of src/voucher/keyvalue.c and the memory of request.c. *)
From Verif Require Import Base MOs MBase64 MSerialize MVoucher MCrypto MLog MHeap MArray MVoucherHeap MConfig MHandlers MEnrolLogHeap MHandlerHeap MSignCert.
Open Scope N_scope.
Open Scope ub_scope.

(** pledge_request.cpp 255-272: the subject's three entries. [nn] says where the
    constant texts are, [rands] where the array [rands] is. *)
Fixpoint push_all (h : heap) (lst : N) (l : list (N * N)) : outcome (Z * heap) :=
  match l with
  | [] => Ok (0%Z, h)
  | (key, value) :: r =>
    do x <- push_keyvalue_list h lst key value;
    let (z, h) := x in
    if (z <? 0)%Z then Ok ((-1)%Z, h) else push_all h lst r
  end.
Definition subject_entries (nn : bytes -> N) (rands : N) : list (N * N) :=
  [(nn (s2b "C"), nn (s2b "IE")); (nn (s2b "CN"), nn (s2b "ldevid-cert")); (nn (s2b "serialNumber"), rands)].

(** pledge_request.cpp 223-297 [generate_sign_cert]. The array [rands] is a local
    block that ends with the function; crypto_generate_eccert reads both lists
    (crypto_ossl.c 822-852). The tests at 274 and 280 compare a [size_t] with 0 and
    never hold. *)
Definition full_generate_sign_cert (nn : bytes -> N) (dv : device) (h : heap) (scert_cert scert_key : N) : outcome (Z * heap) :=
  match dv_random dv with
  | None => Ok ((-1)%Z, h)
  | Some r =>
    do x <- printf_hex (Some (dv_stack dv)) 16 (Some r) 8 true;
    match fst x with
    | None => UB NullDeref
    | Some m =>
      let (rands, h) := local h (Buf m) in
      let ret z h := do h <- sys_free h rands; Ok (z, h) in
      do x <- init_keyvalue_list h;
      let (issuer, h) := x in
      if issuer =? 0 then ret (-1)%Z h
      else
      do x <- init_keyvalue_list h;
      let (subject, h) := x in
      if subject =? 0 then do h <- free_keyvalue_list h issuer; ret (-1)%Z h
      else
      do x <- push_all h subject (subject_entries nn rands);
      let (z, h) := x in
      if (z <? 0)%Z then do h <- free_lists h [issuer; subject]; ret (-1)%Z h
      else
      let '(z, b, h) := der_out h (dv_key dv) in
      do h <- set_field h scert_key 0 (P b);
      do h <- set_field h scert_key 1 (I (to_size z));
      do key <- load_buf h b;
      do is <- keyvalue_items h issuer;
      do subj <- keyvalue_items h subject;
      let meta := mk_meta (gen_rand64 (dv_rand dv) (dv_now dv)) 0 (s2b "99991231235959Z") is subj (s2b "CA:false") in
      let '(z, b, h) := der_out h (match key with None => None | Some k => dv_cert dv meta k end) in
      do h <- set_field h scert_cert 0 (P b);
      do h <- set_field h scert_cert 1 (I (to_size z));
      do h <- free_lists h [issuer; subject];
      ret 0%Z h
    end
  end.

(** pledge_request.cpp 299-374 [post_sign_cert], as in MSignCert.v. *)
Definition full_post_sign_cert (o : ossl) (w : world) (c : pledge_conf) (nn : bytes -> N) (dv : device) (post1 post2 : post_cert_fn) (post3 : post_ca_fn)
           (h : heap) (out_cert out_key : N) : outcome (Z * heap) :=
  let (pinned, h) := local h (Struct [P 0; I 0]) in
  do x <- full_generate_sign_cert nn dv h out_cert out_key;
  let (z, h) := x in
  if (z <? 0)%Z then do h <- sys_free h pinned; Ok ((-1)%Z, h)
  else
  let err h :=
    do h <- h_free_binary_array_content h (out_cert, 0%nat);
    do h <- h_free_binary_array_content h (out_key, 0%nat);
    do h <- h_free_binary_array_content h (pinned, 0%nat);
    do h <- sys_free h pinned;
    Ok ((-1)%Z, h) in
  do x <- full_post_voucher_pledge_request o w c post1 post2 h pinned;
  let (z, h) := x in
  if (z <? 0)%Z then err h
  else
  do x <- encode_array h pinned;
  match x with
  | (None, h) => err h
  | (Some pki_str, h) =>
    let ca := create_cert_string pki_str in
    do x <- encode_array h out_cert;
    match x with
    | (None, h) => err h
    | (Some body, h) =>
      let (status, response) := post3 ca body in
      if (status <? 0)%Z then err h
      else if (400 <=? status)%Z then err h
      else
      do h <- h_free_binary_array_content h (out_cert, 0%nat);
      do s <- c_str response;
      do r <- h_base64str2array h s;
      let '(length, arr, h) := r in
      do h <- set_field h out_cert 0 (P arr);
      if (length <? 0)%Z then err h
      else
      do h <- set_field h out_cert 1 (I length);
      do h <- h_free_binary_array_content h (pinned, 0%nat);
      do h <- sys_free h pinned;
      Ok (0%Z, h)
    end
  end.

(** brski.cpp 361-369, as in MSignCert.v. *)
Definition full_sign_cert_command (o : ossl) (w : world) (c : pledge_conf) (nn : bytes -> N) (dv : device) (post1 post2 : post_cert_fn) (post3 : post_ca_fn) (h : heap) : outcome (Z * heap) :=
  let (out_cert, h) := local h (Struct [P 0; I 0]) in
  let (out_key, h) := local h (Struct [P 0; I 0]) in
  full_post_sign_cert o w c nn dv post1 post2 post3 h out_cert out_key.
