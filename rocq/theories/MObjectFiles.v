(** Model of the ownership of files and OpenSSL objects in the functions of
    src/voucher/crypto_ossl.c that read and write files and certificates' names.
    FILE and BIO are objects as in MObjects.v: fopen and BIO_new_file may fail, and
    fclose and BIO_free release. *)
From Verif Require Import Base MBase64 MSerialize MOs MVoucher MCrypto MObjects.
Open Scope ub_scope.

(** crypto_ossl.c 286-322 [file_to_x509buf] ([k] is KCert), 324-360 [file_to_keybuf]
    ([k] is KKey): the array holds its buffer. [pem] says that the file holds one. *)
Definition file_to_buf (k : kind) (pem : bool) (s : objs) : outcome (option nat * objs) :=
  let (fp, s) := ob_new s KFile in
  match fp with
  | None => Ok (None, s)
  | Some fp =>
    let (p, s) := parse k (if pem then Some tt else None) s in
    match p with
    | None => do s <- free KFile s (Some fp); Ok (None, s)
    | Some (_, x) =>
      do s <- free KFile s (Some fp);
      let (arr, s) := ob_new s KList in
      match arr with
      | None => do s <- free k s (Some x); Ok (None, s)
      | Some arr =>
        let (b, s) := ob_new s KBuf in
        match b with
        | None => do s <- free k s (Some x); do s <- free KList s (Some arr); Ok (None, s)
        | Some b => do s <- hold s arr b; do s <- free k s (Some x); Ok (Some arr, s)
        end
      end
    end
  end.

(** crypto_ossl.c 174-201 [certbuf_to_file] ([k] is KCert), 203-230 [keybuf_to_file]
    ([k] is KKey): the file is opened first. [der] says that the array holds one. *)
Definition buf_to_file (k : kind) (der : bool) (s : objs) : outcome (Z * objs) :=
  let (fp, s) := ob_new s KFile in
  match fp with
  | None => Ok ((-1)%Z, s)
  | Some fp =>
    let (p, s) := parse k (if der then Some tt else None) s in
    match p with
    | None => do s <- free KFile s (Some fp); Ok ((-1)%Z, s)
    | Some (_, x) =>
      let (z, s) := ob_call s in
      do s <- free KFile s (Some fp);
      do s <- free k s (Some x);
      Ok (if (z <=? 0)%Z then (-1)%Z else 0%Z, s)
    end
  end.

(** crypto_ossl.c 140-172 [cmsbuf_to_file]: the message is parsed first. *)
Definition cmsbuf_to_file {o : ossl} (inn : inner o) (v : option (CMS o)) (s : objs) : outcome (Z * objs) :=
  do (p, s) <- parse_cms inn v s;
  match p with
  | None => Ok ((-1)%Z, s)
  | Some (_, c) =>
    let (out, s) := ob_new s KBio in
    match out with
    | None => do s <- free KCms s (Some c); Ok ((-1)%Z, s)
    | Some out =>
      let (z, s) := ob_call s in
      do s <- free KBio s (Some out);
      do s <- free KCms s (Some c);
      Ok (if (z <=? 0)%Z then (-1)%Z else 0%Z, s)
    end
  end.

(** crypto_ossl.c 263-284 [crypto_cert2buf]: i2d_X509 reads the certificate. *)
Definition cert2buf (cert : nat) (s : objs) : outcome (option nat * objs) :=
  let (arr, s) := ob_new s KList in
  match arr with
  | None => Ok (None, s)
  | Some arr =>
    match ob_at s cert with
    | Gone => UB UseAfterFree
    | Alive _ _ _ =>
      let (b, s) := ob_new s KBuf in
      match b with
      | None => do s <- free KList s (Some arr); Ok (None, s)
      | Some b => do s <- hold s arr b; Ok (Some arr, s)
      end
    end
  end.

(** crypto_ossl.c 747-795 [crypto_getcert_issuer]: [text] is the issuer as printed; the
    array of an empty one has no buffer. *)
Definition getcert_issuer (cert : nat) (text : bytes) (s : objs) : outcome (option nat * objs) :=
  match ob_at s cert with
  | Gone => UB UseAfterFree
  | Alive _ _ _ =>
    let (mem, s) := ob_new s KBio in
    match mem with
    | None => Ok (None, s)
    | Some mem =>
      let (z, s) := ob_call s in
      if (z <? 0)%Z then do s <- free KBio s (Some mem); Ok (None, s) else
      let (arr, s) := ob_new s KList in
      match arr with
      | None => do s <- free KBio s (Some mem); Ok (None, s)
      | Some arr =>
        let (b, s) := bio_to_ptr s text in
        do s <- free KBio s (Some mem);
        match b with
        | None => do s <- free KList s (Some arr); Ok (None, s)
        | Some None => Ok (Some arr, s)
        | Some (Some b) => do s <- hold s arr b; Ok (Some arr, s)
        end
      end
    end
  end.
