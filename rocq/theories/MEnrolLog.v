(** Model of the registrar's enrolment log: src/brski/registrar/registrar_api.cpp
    [save_to_log] and its call in [registrar_est_simpleenroll]. *)
From Verif Require Import Base MBase64 MSerialize MOs MVoucher MCrypto MRequest MHeap MArray MVoucherHeap MConfig MLog MHandlers.
Open Scope N_scope.
Open Scope ub_scope.

(** A certificate with the number in it, which may be negative or long. *)
Record cert_seen := mk_seen { cs_view : cert_view; cs_serial : Z }.

(** crypto_ossl.c 707-719, ASN1_INTEGER_get_uint64: a number that is negative or does
    not fit fails, which is logged and leaves 0. *)
Definition get_uint64 (z : Z) : N := if ((0 <=? z) && (z <? 18446744073709551616))%Z then Z.to_N z else 0.

(** "%" PRIx64. *)
Fixpoint hex_digits_aux (fuel : nat) (n : N) (acc : bytes) : bytes :=
  match fuel with
  | O => acc
  | S f => if n <? 16 then hex_digit false n :: acc else hex_digits_aux f (n / 16) (hex_digit false (n mod 16) :: acc)
  end.
Definition hex_digits (n : N) : bytes := hex_digits_aux (S (N.to_nat (N.log2 n))) n [].

(** registrar_api.cpp 76-78; [now] is time(NULL), printed as unsigned long. *)
Definition log_line (now : Z) (iserial : N) (itext : option bytes) (lserial : N) (ltext : option bytes) : bytes :=
  let str t := match t with Some s => s | None => s2b "NULL" end in
  dec_digits (Z.to_N (now mod 18446744073709551616)) ++ s2b " 0x" ++ hex_digits iserial ++ [32; 34] ++ str itext ++ [34]
    ++ s2b " 0x" ++ hex_digits lserial ++ [32; 34] ++ str ltext ++ [34; 10].

(** registrar_api.cpp 31-88 [save_to_log]: the file afterwards. [opens] says that the
    file can be opened for appending. The lists' memory is the subject of
    MEnrolLogHeap.v; here their allocations succeed. *)
Definition save_to_log (now : Z) (opens : bool) (log : bytes) (icert : option cert_seen) (lcert : cert_seen) : outcome bytes :=
  do im <- crypto_getcert_meta (option_map cs_view icert);
  match im, icert with
  | Some (_, isub), Some icert =>
    let iserial := crypto_getcert_serial isub in
    do lm <- crypto_getcert_meta (Some (cs_view lcert));
    match lm with
    | None => Ok log
    | Some (_, lsub) =>
      let lserial := crypto_getcert_serial lsub in
      if opens then Ok (log ++ log_line now (get_uint64 (cs_serial icert)) iserial (get_uint64 (cs_serial lcert)) lserial) else Ok log
    end
  | _, _ => Ok log
  end.

(** registrar_api.cpp 354-432 [registrar_est_simpleenroll] with the log (414-419), which
    MHandlers.v leaves out. [seen] is crypto_cert2context. *)
Definition enroll_logged (sign_cert : sign_cert_fn) (w : world) (c : registrar_conf) (h : heap) (seen : bytes -> option cert_seen) (now : Z) (opens : bool) (log : bytes)
           (peer : option cert_seen) (body : bytes) : outcome (Z * bytes * heap * bytes) :=
  do cert_str <- c_str body;
  let fail h ca_cert ca_key cert :=
    do h <- cleanup h [OBuf cert; OArr ca_cert; OArr ca_key]; Ok (400%Z, [], h, log) in
  do r <- h_base64str2array h cert_str;
  let '(rc, cert, h) := r in
  if (rc <? 0)%Z then fail h 0 0 cert
  else
  do x <- h_file_to_cert w h (rc_ca_cert c);
  let (ca_cert, h) := x in
  if ca_cert =? 0 then fail h 0 0 cert
  else
  do x <- h_file_to_keybuf w h (rc_ca_key c);
  let (ca_key, h) := x in
  if ca_key =? 0 then fail h ca_cert 0 cert
  else
  do bkey <- h_barray h ca_key;
  do bcert <- h_barray h ca_cert;
  do d <- load_buf h cert;
  match bkey, bcert, d with
  | Some bkey, Some bcert, Some d =>
    do kb <- ba_read bkey;
    do cb <- ba_read bcert;
    do tb <- take_mem d (Z.to_N rc);
    match sign_cert kb cb tb with
    | None => fail h ca_cert ca_key cert
    | Some out =>
      let (n, h) := alloc h (Buf out) in
      if n =? 0 then fail h ca_cert ca_key cert
      else
      do h <- sys_free h cert;
      do r <- serialize_array2base64str (negb (hp_oom h (hp_next h))) out;
      let (z, p) := r in
      match p with
      | PBuf _ text =>
        let (a, h) := alloc h (Buf text) in
        if (z <? 0)%Z then fail h ca_cert ca_key n
        else
        do s <- heap_string h a;
        do log <- match seen out with None => Ok log | Some scert => save_to_log now opens log peer scert end;
        do h <- cleanup h [OBuf a; OBuf n; OArr ca_cert; OArr ca_key];
        Ok (200%Z, s, h, log)
      | _ => fail (if hp_oom h (hp_next h) then snd (alloc h (Buf [])) else h) ca_cert ca_key n
      end
    end
  | _, _, None => fail h ca_cert ca_key cert
  | _, _, _ => fail h ca_cert ca_key cert
  end.
