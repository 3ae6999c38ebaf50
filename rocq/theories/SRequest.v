(** Specification vocabulary for signed voucher messages. *)
From Verif Require Import Base SBase64 MSerialize MVoucher SVoucher SJson MCrypto.
Open Scope N_scope.

(** The array argument is present and its first [length] bytes are [d]. *)
Definition ba_has (b : option barray) (d : bytes) : Prop :=
  exists b' rest, b = Some b' /\ ba_data b' = Some (d ++ rest) /\ ba_len b' = blen d.

(** The bytes given to a DER parser; NULL with length 0 is the empty string. *)
Definition holds_bytes (b : barray) (d : bytes) : Prop :=
  (ba_data b = None /\ ba_len b = 0 /\ d = []) \/ ba_has (Some b) d.

(** The certificates of a list are parsed. *)
Definition loads_certs (o : ossl) (certs : option certlist) (st : option (list (X509 o))) : Prop :=
  match certs, st with
  | None, None => True
  | Some l, Some xs => Forall2 (fun e x => d2i_x509 o (fst e) = Some x) l xs
  | _, _ => False
  end.

(** The entries of a trust store are parsed by their kind and all added. *)
Fixpoint added (o : ossl) (acc l : list (X509 o + CRL o)) : Prop :=
  match l with
  | [] => True
  | e :: r => store_add o acc e = true /\ added o (acc ++ [e]) r
  end.
Definition loads_store (o : ossl) (store : option certlist) (st : option (list (X509 o + CRL o))) : Prop :=
  match store, st with
  | None, None => True
  | Some l, Some ys =>
    Forall2 (fun e y => match y with
                        | inl x => snd e = 0%Z /\ d2i_x509 o (fst e) = Some x
                        | inr r => snd e = 1%Z /\ d2i_crl o (fst e) = Some r
                        end) l ys /\ added o [] ys
  | _, _ => False
  end.

(** The list of signers handed to the caller. *)
Definition signer_certs (o : ossl) (c : CMS o) (st : option (list (X509 o))) (want : bool)
           (l : option certlist) : Prop :=
  if want then
    match cms_signers o c st with
    | None => l = None
    | Some [] => l = None
    | Some xs => exists ders, Forall2 (fun x e => i2d_x509 o x = Some (fst e) /\ snd e = 0%Z) xs ders /\ l = Some ders
    end
  else l = None.

(** The signature on [cms] verifies and the signed content is [json]. Without
    a store the signer's certificate is not checked. *)
Definition verified (o : ossl) (cms : barray) (certs store : option certlist) (c : CMS o)
           (st : option (list (X509 o))) (json : bytes) : Prop :=
  exists d s, holds_bytes cms d /\ d2i_cms o d = Some c /\ loads_certs o certs st /\ loads_store o store s /\
    cms_verify o c st s (match store with None => true | Some _ => false end) = Some json.

(** [cms] verifies and says [v]; [l] are the signers. *)
Definition says (o : ossl) (cms : barray) (certs store : option certlist) (want : bool)
           (v : voucher) (l : option certlist) : Prop :=
  exists c st json, verified o cms certs store c st json /\
    deserialize_voucher true (Some json) = Ok (Some v) /\ signer_certs o c st want l.

(** [cms] is the signature of [text] with the given certificate and key. *)
Definition signed (o : ossl) (k : keykind) (cert key : option barray) (certs : option certlist)
           (text cms : bytes) : Prop :=
  exists cb kb x pk st c, ba_has cert cb /\ ba_has key kb /\ d2i_x509 o cb = Some x /\
    d2i_by o k kb = Some pk /\ loads_certs o certs st /\ cms_sign o x pk st text = Some c /\ i2d_cms o c = Some cms.

(** [cms] is a signed message whose content is exactly these attributes. *)
Definition signed_voucher (o : ossl) (cert key : option barray) (certs : option certlist)
           (kvs : list (attr * pval)) (cms : bytes) : Prop :=
  exists v text, holds_exactly v kvs /\ serialize_voucher (Some v) = Ok (Some text) /\
    signed o KAuto cert key certs text cms.

Definition opt_entry (a : attr) (n : option bytes) : list (attr * pval) :=
  match n with None => [] | Some d => [(a, PArr d)] end.

(** The attributes of the three messages. *)
Definition pledge_content (t : tm) (serial : bytes) (n : option bytes) (cert : bytes) : list (attr * pval) :=
  [(ACreatedOn, PTime t); (AAssertion, PEnum 3); (ASerial, PStr serial); (AProximity, PArr cert)] ++ opt_entry ANonce n.
Definition registrar_content (t : tm) (serial : bytes) (n : option bytes) (issuer prior : bytes) : list (attr * pval) :=
  [(ACreatedOn, PTime t); (ASerial, PStr serial); (AIssuer, PArr issuer); (APrior, PArr prior)] ++ opt_entry ANonce n.
Definition masa_content (t : tm) (serial : bytes) (n : option bytes) (pinned : bytes) : list (attr * pval) :=
  [(AExpiresOn, PTime t); (AAssertion, PEnum 3); (ASerial, PStr serial); (APinned, PArr pinned);
   (ARevocation, PBool false)] ++ opt_entry ANonce n.

(** The optional nonce argument. *)
Definition opt_has (b : option barray) (n : option bytes) : Prop :=
  match b, n with
  | None, None => True
  | Some _, Some d => ba_has b d
  | _, _ => False
  end.

(** The nonce of a voucher, if it has one. *)
Definition nonce_is (v : voucher) (n : option bytes) : Prop :=
  get_attr_array (Some v) ANonce = Some (match n with None => ba_null | Some d => ba_of d end).

(** A certificate chains to a trust anchor [anchor] or into the domain store. *)
Definition chains (o : ossl) (cert : option barray) (anchor : bytes) (store : option certlist) : Prop :=
  exists cb x y st ch, ba_has cert cb /\ d2i_x509 o cb = Some x /\ d2i_x509 o anchor = Some y /\
    loads_store o store st /\ build_chain o x [y] st = Some ch /\ ch <> [].

(** What is assumed of OpenSSL where memory safety matters: the content it
    returns is a byte string that fits an [int] length, and DER output
    consists of bytes. *)
Definition ossl_sane (o : ossl) : Prop :=
  (forall c st s f json, cms_verify o c st s f = Some json -> bytes_ok json /\ blen json < 2147483648) /\
  (forall x d, i2d_x509 o x = Some d -> bytes_ok d) /\
  (forall c d, i2d_cms o c = Some d -> bytes_ok d).

(** Two arrays describe the same bytes. *)
Definition same_bytes (a b : barray) : Prop := exists d, holds_bytes a d /\ holds_bytes b d.

(** The bytes behind an array are bytes. *)
Definition ba_bytes (b : option barray) : Prop :=
  match b with None => True | Some b => match ba_data b with None => ba_len b = 0 | Some d => bytes_ok d /\ ba_len b <= blen d end end.

(** Signatures made with this certificate and key are accepted under this
    verification configuration, whatever is signed; [k] bounds the overhead of
    the signature. *)
Definition trusts (o : ossl) (cert key : option barray) (extra certs store : option certlist)
           (want : bool) (k : N) : Prop :=
  forall text, bytes_ok text -> blen text < 2147483648 -> exists cms c st l,
    signed o KAuto cert key extra text cms /\ bytes_ok cms /\ cms <> [] /\ blen cms <= blen text + k /\
    verified o (ba_of cms) certs store c st text /\ signer_certs o c st want l.
