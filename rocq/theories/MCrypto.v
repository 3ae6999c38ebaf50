(** Model of the certificate and CMS functions of src/voucher/crypto_ossl.c and
    of the signing and verification functions of src/voucher/voucher.c.
    OpenSSL itself is represented by the record [ossl]. Allocations succeed. *)
From Verif Require Import Base MBase64 MSerialize MOs MVoucher.
Open Scope N_scope.
Open Scope ub_scope.

(** The OpenSSL calls the code makes. Each field is the result of that call in
    the run at hand; signing may be randomised, so a field is one outcome, not
    an algorithm. [None] is the library's failure result. *)
Record ossl := mk_ossl {
  X509 : Type; CRL : Type; CMS : Type; PKEY : Type;
  (* d2i_X509, i2d_X509, d2i_X509_CRL, d2i_CMS_ContentInfo, i2d_CMS_bio *)
  d2i_x509 : bytes -> option X509;
  i2d_x509 : X509 -> option bytes;
  d2i_crl : bytes -> option CRL;
  d2i_cms : bytes -> option CMS;
  i2d_cms : CMS -> option bytes;
  (* d2i_AutoPrivateKey, and d2i_PrivateKey for EC and RSA *)
  d2i_key : bytes -> option PKEY;
  d2i_eckey : bytes -> option PKEY;
  d2i_rsakey : bytes -> option PKEY;
  (* X509_STORE_add_cert / X509_STORE_add_crl on a store with these entries *)
  store_add : list (X509 + CRL) -> X509 + CRL -> bool;
  (* CMS_sign(signcert, pkey, certs, data, CMS_BINARY) *)
  cms_sign : X509 -> PKEY -> option (list X509) -> bytes -> option CMS;
  (* CMS_verify(cms, certs, store, NULL, out, flags); the Boolean says that
     flags = CMS_NO_SIGNER_CERT_VERIFY; the result is the content written *)
  cms_verify : CMS -> option (list X509) -> option (list (X509 + CRL)) -> bool -> option bytes;
  (* CMS_get0_signers after CMS_verify with these certificates *)
  cms_signers : CMS -> option (list X509) -> option (list X509);
  (* X509_build_chain(target, certs, store, 0, NULL, NULL) *)
  build_chain : X509 -> list X509 -> option (list (X509 + CRL)) -> option (list X509) }.

(** A BinaryArrayList by its elements' contents and flags (see MHeap for the
    pointers). *)
Definition certlist := list (bytes * Z).

(** crypto.h 77-82. *)
Definition CERTIFICATE_VALID : Z := 0%Z.
Definition CERTIFICATE_CRL : Z := 1%Z.

(** The [length] bytes at [array], as the d2i functions read them. *)
Definition ba_read (b : barray) : outcome bytes :=
  match ba_data b with
  | None => if ba_len b =? 0 then Ok [] else UB NullDeref
  | Some d => take_mem d (ba_len b)
  end.

(** crypto_ossl.c 1188-1210 [get_certificate_stack]. *)
Fixpoint get_certificate_stack (o : ossl) (certs : certlist) : option (list (X509 o)) :=
  match certs with
  | [] => Some []
  | (arr, _) :: rest =>
    match d2i_x509 o arr with
    | None => None
    | Some x =>
      match get_certificate_stack o rest with
      | None => None
      | Some xs => Some (x :: xs)
      end
    end
  end.

(** crypto_ossl.c 1230-1297 [get_certificate_store]; [acc] are the entries
    added so far. For other flags push_ptr_list fails (107-110). *)
Fixpoint get_certificate_store (o : ossl) (acc : list (X509 o + CRL o)) (store : certlist)
  : option (list (X509 o + CRL o)) :=
  match store with
  | [] => Some acc
  | (arr, flags) :: rest =>
    if (flags =? CERTIFICATE_VALID)%Z then
      match d2i_x509 o arr with
      | None => None
      | Some x =>
        if store_add o acc (inl x) then get_certificate_store o (acc ++ [inl x]) rest else None
      end
    else if (flags =? CERTIFICATE_CRL)%Z then
      match d2i_crl o arr with
      | None => None
      | Some x =>
        if store_add o acc (inr x) then get_certificate_store o (acc ++ [inr x]) rest else None
      end
    else None
  end.

(** The optional stack and store arguments: outer [None] is failure. *)
Definition opt_stack (o : ossl) (certs : option certlist) : option (option (list (X509 o))) :=
  match certs with
  | None => Some None
  | Some l => match get_certificate_stack o l with None => None | Some s => Some (Some s) end
  end.
Definition opt_store (o : ossl) (store : option certlist) : option (option (list (X509 o + CRL o))) :=
  match store with
  | None => Some None
  | Some l => match get_certificate_store o [] l with None => None | Some s => Some (Some s) end
  end.

(** crypto_ossl.c 1299-1356 [crypto_verify_cert]. *)
Definition crypto_verify_cert (o : ossl) (cert : barray) (certs : option certlist)
           (store : option certlist) : outcome Z :=
  match ba_data cert with
  | None => Ok (-1)%Z
  | Some _ =>
    match certs with
    | None => Ok (-1)%Z
    | Some cl =>
      do d <- ba_read cert;
      match d2i_x509 o d with
      | None => Ok (-1)%Z
      | Some x =>
        match get_certificate_stack o cl with
        | None => Ok (-1)%Z
        | Some stack =>
          match opt_store o store with
          | None => Ok (-1)%Z
          | Some st =>
            match build_chain o x stack st with
            | None => Ok (-1)%Z
            | Some [] => Ok (-1)%Z
            | Some (_ :: _) => Ok 0%Z
            end
          end
        end
      end
    end
  end.

(** crypto_ossl.c 1358-1425 [sign_withkey_cms] with cms_to_derbuf (382-410):
    the DER bytes or failure. *)
Definition sign_withkey_cms (o : ossl) (data : bytes) (cert : bytes) (pkey : PKEY o)
           (certs : option certlist) : option bytes :=
  match d2i_x509 o cert with
  | None => None
  | Some x =>
    match opt_stack o certs with
    | None => None
    | Some st =>
      match cms_sign o x pkey st data with
      | None => None
      | Some c => i2d_cms o c
      end
    end
  end.

(** Which private key parser is used: crypto_ossl.c 1427-1470
    [crypto_sign_eccms], 1472-1515 [crypto_sign_rsacms], 1517-1560
    [crypto_sign_cms]. *)
Inductive keykind := KEc | KRsa | KAuto.
Definition d2i_by (o : ossl) (k : keykind) : bytes -> option (PKEY o) :=
  match k with KEc => d2i_eckey o | KRsa => d2i_rsakey o | KAuto => d2i_key o end.

(** crypto_ossl.c 1427-1560: the three signing functions. [data] is not NULL. *)
Definition crypto_sign (o : ossl) (k : keykind) (data : bytes) (cert key : barray)
           (certs : option certlist) : outcome (option bytes) :=
  match ba_data cert, ba_data key with
  | Some _, Some _ =>
    do kb <- ba_read key;
    match d2i_by o k kb with
    | None => Ok None
    | Some pk =>
      do cb <- ba_read cert;
      Ok (sign_withkey_cms o data cb pk certs)
    end
  | _, _ => Ok None
  end.

(** voucher.c 875-921, 923-968, 970-1015 [sign_eccms_voucher],
    [sign_rsacms_voucher], [sign_cms_voucher]. *)
Definition sign_voucher (o : ossl) (k : keykind) (v : option voucher) (cert key : option barray)
           (certs : option certlist) : outcome (option bytes) :=
  match v, cert, key with
  | Some v, Some cert, Some key =>
    do text <- serialize_voucher (Some v);
    match text with
    | None => Ok None
    | Some text => crypto_sign o k text cert key certs
    end
  | _, _, _ => Ok None
  end.
Definition sign_cms_voucher (o : ossl) := sign_voucher o KAuto.

(** crypto_ossl.c 1562-1608 [exatract_cms_certs]: outer [None] is failure, the
    inner option is the list pointer left in [*out_certs]. *)
Fixpoint der_list (o : ossl) (xs : list (X509 o)) : option certlist :=
  match xs with
  | [] => Some []
  | x :: r =>
    match i2d_x509 o x with
    | None => None
    | Some d => match der_list o r with None => None | Some l => Some ((d, 0%Z) :: l) end
    end
  end.
Definition exatract_cms_certs (o : ossl) (c : CMS o) (st : option (list (X509 o)))
  : option (option certlist) :=
  match cms_signers o c st with
  | None => Some None
  | Some [] => Some None
  | Some xs => match der_list o xs with None => None | Some l => Some (Some l) end
  end.

(** crypto_ossl.c 1610-1694 [crypto_verify_cms]: [None] is the result -1. The
    content pointer is NULL when the content is empty (362-380). [want] says
    that [out_certs] is not NULL. *)
Definition crypto_verify_cms (o : ossl) (cms : barray) (certs store : option certlist)
           (want : bool) : outcome (option (option bytes * option certlist)) :=
  do d <- ba_read cms;
  match d2i_cms o d with
  | None => Ok None
  | Some c =>
    match opt_stack o certs with
    | None => Ok None
    | Some stack =>
      match opt_store o store with
      | None => Ok None
      | Some st =>
        match cms_verify o c stack st (match st with None => true | Some _ => false end) with
        | None => Ok None
        | Some content =>
          let data := match content with [] => None | _ => Some content end in
          if want then
            match exatract_cms_certs o c stack with
            | None => Ok None
            | Some l => Ok (Some (data, l))
            end
          else Ok (Some (data, None))
        end
      end
    end
  end.

(** voucher.c 1017-1044 [verify_cms_voucher]: the voucher and what [*out_certs]
    holds. *)
Definition verify_cms_voucher (o : ossl) (cms : option barray) (certs store : option certlist)
           (want : bool) : outcome (option (voucher * option certlist)) :=
  match cms with
  | None => Ok None
  | Some cms =>
    do r <- crypto_verify_cms o cms certs store want;
    match r with
    | None => Ok None
    | Some (data, l) =>
      do v <- deserialize_voucher true data;
      match v with
      | None => Ok None
      | Some v => Ok (Some (v, l))
      end
    end
  end.
