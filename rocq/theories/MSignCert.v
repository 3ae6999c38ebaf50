(** Model of the command sign-cert: src/brski/pledge/pledge_request.cpp 204-374,
    over the block heap. *)
From Verif Require Import Base MOs MBase64 MSerialize MVoucher MCrypto MLog MHeap MArray MVoucherHeap MConfig MHandlers.
Open Scope N_scope.
Open Scope ub_scope.

(** pledge_request.cpp 204-210 [create_cert_string]. *)
Definition create_cert_string (cert : bytes) : bytes :=
  s2b "-----BEGIN CERTIFICATE-----" ++ [10] ++ cert ++ [10] ++ s2b "-----END CERTIFICATE-----".

(** [RAND_MAX] of glibc. *)
Definition RAND_MAX : N := 2147483647.

(** pledge_request.cpp 212-221 [gen_rand64]: [seq seed i] is what call [i] of
    rand() returns after srand(seed) (the same for equal seeds, C 7.22.2.2),
    [now] is time(0). The loop runs for i = 0, 15, 30, 45, 60. *)
Definition rand_step (value r : N) : N := (value * (RAND_MAX + 1) + r) mod 18446744073709551616.
Definition gen_rand64 (seq : N -> nat -> N) (now : N) : N :=
  fold_left rand_step (map (seq now) [0%nat; 1%nat; 2%nat; 3%nat; 4%nat]) 0.

(** crypto.h 25-52 [crypto_cert_meta]; the key/value lists by their items. *)
Record cert_meta := mk_meta {
  cm_serial : N; cm_not_before : Z; cm_not_after_absolute : bytes;
  cm_issuer : list (bytes * bytes); cm_subject : list (bytes * bytes); cm_constraints : bytes }.

(** What generating a certificate takes from outside: rand() and time(0) as in
    [gen_rand64], the bytes of RAND_bytes, the 17 bytes found in the array [rands]
    on the stack, the new EC key in DER (crypto_ossl.c 479-553) and the
    certificate in DER made for these data and this key (978-1040). *)
Record device := mk_device {
  dv_rand : N -> nat -> N; dv_now : N; dv_random : option bytes; dv_stack : bytes;
  dv_key : option bytes; dv_cert : cert_meta -> bytes -> option bytes }.

(** crypto_ossl.c 479-553, 978-1040: the result and the pointer stored, NULL on
    failure. The OpenSSL objects are not modelled. *)
Definition der_out (h : heap) (d : option bytes) : Z * N * heap :=
  match d with
  | None => ((-1)%Z, 0, h)
  | Some d => let (b, h) := alloc h (Buf d) in ((if b =? 0 then (-1)%Z else Z.of_N (blen d)), b, h)
  end.

(** [(size_t)x] of a [ssize_t]. *)
Definition to_size (z : Z) : Z := if (z <? 0)%Z then (z + 18446744073709551616)%Z else z.

(** pledge_request.cpp 223-297 [generate_sign_cert]. The two lists are made and
    released here on every path; they are given by their items and there is memory
    for them. The tests at 274 and 280 compare a [size_t] with 0 and never hold. *)
Definition sign_meta (dv : device) (rands : bytes) : cert_meta :=
  mk_meta (gen_rand64 (dv_rand dv) (dv_now dv)) 0 (s2b "99991231235959Z") []
    [(s2b "C", s2b "IE"); (s2b "CN", s2b "ldevid-cert"); (s2b "serialNumber", rands)] (s2b "CA:false").
Definition generate_sign_cert (dv : device) (h : heap) (scert_cert scert_key : N) : outcome (Z * heap) :=
  match dv_random dv with
  | None => Ok ((-1)%Z, h)
  | Some r =>
    do x <- printf_hex (Some (dv_stack dv)) 16 (Some r) 8 true;
    do n <- match fst x with Some m => strlen m | None => UB NullDeref end;
    do rands <- match fst x with Some m => take_mem m n | None => UB NullDeref end;
    let '(z, b, h) := der_out h (dv_key dv) in
    do h <- set_field h scert_key 0 (P b);
    do h <- set_field h scert_key 1 (I (to_size z));
    do key <- load_buf h b;
    let '(z, b, h) := der_out h (match key with None => None | Some k => dv_cert dv (sign_meta dv rands) k end) in
    do h <- set_field h scert_cert 0 (P b);
    do h <- set_field h scert_cert 1 (I (to_size z));
    Ok (0%Z, h)
  end.

(** serialize.c 112-131 called on the contents of a BinaryArray: lengths from
    SIZE_MAX / 4 on are refused before anything is read. *)
Definition encode_array (h : heap) (p : N) : outcome (option bytes * heap) :=
  do n <- get_int h p 1;
  if SIZE_MAX / 4 <=? Z.to_N n then Ok (None, h) else h_array2base64 h p.

(** pledge_request.cpp 299-374 [post_sign_cert]. [post3 ca body] is the answer to
    the POST to /.well-known/est/simpleenroll that accepts servers certified by
    [ca]. The variable [pinned_domain_cert] ends with the function. *)
Definition post_ca_fn := bytes -> bytes -> Z * bytes.
Definition post_sign_cert (o : ossl) (w : world) (c : pledge_conf) (dv : device) (post1 post2 : post_cert_fn) (post3 : post_ca_fn)
           (h : heap) (out_cert out_key : N) : outcome (Z * heap) :=
  let (pinned, h) := local h (Struct [P 0; I 0]) in
  do x <- generate_sign_cert dv h out_cert out_key;
  let (z, h) := x in
  if (z <? 0)%Z then do h <- sys_free h pinned; Ok ((-1)%Z, h)
  else
  let err h :=
    do h <- h_free_binary_array_content h (out_cert, 0%nat);
    do h <- h_free_binary_array_content h (out_key, 0%nat);
    do h <- h_free_binary_array_content h (pinned, 0%nat);
    do h <- sys_free h pinned;
    Ok ((-1)%Z, h) in
  do x <- post_voucher_pledge_request o w c post1 post2 h pinned;
  let (z, h) := x in
  if (z <? 0)%Z then err h
  else
  do x <- encode_array h pinned;
  match x with
  | (None, h) => err h
  | (Some pki_str, h) =>
    let ca := create_cert_string pki_str in
    do x <- encode_array h out_cert;
    match x with
    | (None, h) => err h
    | (Some body, h) =>
      let (status, response) := post3 ca body in
      if (status <? 0)%Z then err h
      else if (400 <=? status)%Z then err h
      else
      do h <- h_free_binary_array_content h (out_cert, 0%nat);
      do s <- c_str response;
      do r <- h_base64str2array h s;
      let '(length, arr, h) := r in
      do h <- set_field h out_cert 0 (P arr);
      if (length <? 0)%Z then err h
      else
      do h <- set_field h out_cert 1 (I length);
      do h <- h_free_binary_array_content h (pinned, 0%nat);
      do h <- sys_free h pinned;
      Ok (0%Z, h)
    end
  end.

(** brski.cpp 361-369: the two empty arrays of main and the call; the arrays
    afterwards are at [hp_next h] and [hp_next h + 1]. *)
Definition sign_cert_command (o : ossl) (w : world) (c : pledge_conf) (dv : device) (post1 post2 : post_cert_fn) (post3 : post_ca_fn) (h : heap) : outcome (Z * heap) :=
  let (out_cert, h) := local h (Struct [P 0; I 0]) in
  let (out_key, h) := local h (Struct [P 0; I 0]) in
  post_sign_cert o w c dv post1 post2 post3 h out_cert out_key.
