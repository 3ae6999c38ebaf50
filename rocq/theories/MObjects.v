(** Model of the ownership of OpenSSL objects in src/voucher/crypto_ossl.c: which
    objects a function creates, shares and releases. The results of the calls are
    those of the record [ossl] (MCrypto.v); here every object also has a reference
    count, and every call that can fail for lack of memory may fail. *)
From Verif Require Import Base MBase64 MSerialize MOs MVoucher MCrypto.
Open Scope ub_scope.

(** ** Objects *)

(** Buffers, EVP_PKEY, X509_CRL, BIO, FILE and the ASN.1 values have no parts that
    are shared; X509 may share its public key, EVP_PKEY_CTX its key; a STACK_OF(X509),
    X509_STORE, CMS_ContentInfo, struct ptr_list and struct BinaryArrayList release
    what they hold. *)
Inductive kind := KBuf | KKey | KCrl | KBio | KFile | KAsn | KCert | KCtx | KStack | KStore | KCms | KPtrs | KList.
Definition kind_eqb (a b : kind) : bool :=
  match a, b with
  | KBuf, KBuf | KKey, KKey | KCrl, KCrl | KBio, KBio | KFile, KFile | KAsn, KAsn | KCert, KCert | KCtx, KCtx
  | KStack, KStack | KStore, KStore | KCms, KCms | KPtrs, KPtrs | KList, KList => true
  | _, _ => false
  end.

(** An object in use has a number of references and holds references itself. *)
Inductive obj := Alive (k : kind) (refs : nat) (kids : list nat) | Gone.
(** The objects by their numbers, which are not used again. [ob_ret n] is what the
    call returns that would create object [n] or takes its number: 1 or more for
    success, 0 or less for failure. *)
Record objs := mk_objs { ob_list : list obj; ob_ret : nat -> Z }.
Definition ob_at (s : objs) (x : nat) : obj := nth x (ob_list s) Gone.
Fixpoint upd (l : list obj) (x : nat) (v : obj) : list obj :=
  match l, x with
  | [], _ => []
  | _ :: r, O => v :: r
  | y :: r, S n => y :: upd r n v
  end.
Definition ob_put (s : objs) (x : nat) (v : obj) : objs := mk_objs (upd (ob_list s) x v) (ob_ret s).
Definition ob_next (s : objs) : nat := List.length (ob_list s).
Definition ob_add (s : objs) (v : obj) : objs := mk_objs (ob_list s ++ [v]) (ob_ret s).

(** A call that creates no object. *)
Definition ob_call (s : objs) : Z * objs := (ob_ret s (ob_next s), ob_add s Gone).
(** A call that creates an object with one reference, or returns NULL. *)
Definition ob_new (s : objs) (k : kind) : option nat * objs :=
  if (ob_ret s (ob_next s) <=? 0)%Z then (None, ob_add s Gone)
  else (Some (ob_next s), ob_add s (Alive k 1 [])).

(** One more reference: X509_up_ref, EVP_PKEY_up_ref. *)
Definition up_ref (s : objs) (x : nat) : outcome objs :=
  match ob_at s x with
  | Alive k r kids => Ok (ob_put s x (Alive k (S r) kids))
  | Gone => UB UseAfterFree
  end.
(** [c] holds [x] from now on; no reference is added. *)
Definition hold (s : objs) (c x : nat) : outcome objs :=
  match ob_at s c with
  | Alive k r kids => Ok (ob_put s c (Alive k r (kids ++ [x])))
  | Gone => UB UseAfterFree
  end.
(** [c] holds each object of [xs], with a reference of its own. *)
Fixpoint share (s : objs) (c : nat) (xs : list nat) : outcome objs :=
  match xs with
  | [] => Ok s
  | x :: xs => do s <- up_ref s x; do s <- hold s c x; share s c xs
  end.

(** Release one reference; the last one releases what the object holds. *)
Fixpoint release (d : nat) (s : objs) (x : nat) : outcome objs :=
  match ob_at s x with
  | Gone => UB UseAfterFree
  | Alive k (S (S r)) kids => Ok (ob_put s x (Alive k (S r) kids))
  | Alive k _ kids =>
    let s := ob_put s x Gone in
    match d with
    | O => match kids with [] => Ok s | _ => UB BadFree end
    | S d => (fix each (l : list nat) (s : objs) : outcome objs := match l with [] => Ok s | y :: l => do s <- release d s y; each l s end) kids s
    end
  end.
(** X509_free, EVP_PKEY_free, sk_X509_pop_free, ...: nothing for NULL, undefined for
    an object of another kind. *)
Definition free (k : kind) (s : objs) (x : option nat) : outcome objs :=
  match x with
  | None => Ok s
  | Some x =>
    match ob_at s x with
    | Alive k' _ _ => if kind_eqb k k' then release 2 s x else UB BadFree
    | Gone => UB UseAfterFree
    end
  end.

(** ** What OpenSSL shares *)

(** Where a certificate comes from: the certificate looked at, the given stack, the
    given store or the message. *)
Inductive pick := FromTarget | FromStack (i : nat) | FromStore (i : nat) | FromMessage (i : nat).
Record inner (o : ossl) := mk_inner {
  (* the number of certificates in a parsed message *)
  in_certs : CMS o -> nat;
  (* the signer certificates CMS_verify finds for the message: each gets a reference
     from the message (CMS_SignerInfo_set1_signer_cert) and keeps it until the
     message is released *)
  in_signers : CMS o -> option (list (X509 o)) -> list pick;
  (* X509_STORE_add_cert, X509_STORE_add_crl for an entry that is there already *)
  in_there : list (X509 o + CRL o) -> X509 o + CRL o -> bool;
  (* the chain of X509_build_chain *)
  in_chain : X509 o -> list (X509 o) -> option (list (X509 o + CRL o)) -> list pick }.
Arguments in_certs {o} i. Arguments in_signers {o} i. Arguments in_there {o} i. Arguments in_chain {o} i.

(** The objects picked. *)
Definition held_by (s : objs) (c : option nat) : list nat :=
  match c with
  | None => []
  | Some c => match ob_at s c with Alive _ _ kids => kids | Gone => [] end
  end.
Definition picked (target : list nat) (stack store message : list nat) (p : pick) : list nat :=
  match p with
  | FromTarget => firstn 1 target
  | FromStack i => firstn 1 (skipn i stack)
  | FromStore i => firstn 1 (skipn i store)
  | FromMessage i => firstn 1 (skipn i message)
  end.

(** ** Parsing *)

(** crypto_ossl.c 590-601 [crypto_cert2context], 410-420 [derbuf_to_crl], 555-588
    [crypto_eckey2context], [crypto_rsakey2context], [crypto_key2context]: [v] is the
    value the parser finds. *)
Definition parse {A} (k : kind) (v : option A) (s : objs) : option (A * nat) * objs :=
  match v with
  | None => (None, s)
  | Some a => let (x, s) := ob_new s k in match x with None => (None, s) | Some x => (Some (a, x), s) end
  end.
(** crypto_ossl.c 127-138 [derbuf_to_cms]; the certificates in the message are part
    of the one allocation. *)
Fixpoint add_certs (n : nat) (s : objs) (c : nat) : outcome objs :=
  match n with
  | O => Ok s
  | S n => let x := ob_next s in do s <- hold (ob_add s (Alive KCert 1 [])) c x; add_certs n s c
  end.
Definition parse_cms {o : ossl} (inn : inner o) (v : option (CMS o)) (s : objs) : outcome (option (CMS o * nat) * objs) :=
  let (p, s) := parse KCms v s in
  match p with
  | None => Ok (None, s)
  | Some (c, x) => do s <- add_certs (in_certs inn c) s x; Ok (Some (c, x), s)
  end.

(** ** Stack and store *)

(** crypto_ossl.c 1188-1210 [get_certificate_stack]; the result of sk_X509_push is
    ignored. *)
Fixpoint stack_loop (o : ossl) (certs : certlist) (s : objs) (st : nat) (acc : list (X509 o)) : outcome (option (list (X509 o)) * objs) :=
  match certs with
  | [] => Ok (Some acc, s)
  | (arr, _) :: rest =>
    let (p, s) := parse KCert (d2i_x509 o arr) s in
    match p with
    | None => do s <- free KStack s (Some st); Ok (None, s)
    | Some (v, x) =>
      let (r, s) := ob_call s in
      if (0 <? r)%Z then do s <- hold s st x; stack_loop o rest s st (acc ++ [v])
      else stack_loop o rest s st acc
    end
  end.
Definition get_stack (o : ossl) (certs : certlist) (s : objs) : outcome (option (list (X509 o) * nat) * objs) :=
  let (st, s) := ob_new s KStack in
  match st with
  | None => Ok (None, s)
  | Some st => do (r, s) <- stack_loop o certs s st []; match r with None => Ok (None, s) | Some l => Ok (Some (l, st), s) end
  end.

(** crypto_ossl.c 1222-1228 [free_x509_store]. *)
Definition free_x509_store (s : objs) (store ptrs : option nat) : outcome objs :=
  do s <- free KStore s store; free KPtrs s ptrs.
(** X509_STORE_add_cert, X509_STORE_add_crl: the store takes a reference of its own,
    unless the entry is there already. *)
Definition store_adds (o : ossl) (inn : inner o) (s : objs) (store x : nat) (acc : list (X509 o + CRL o)) (v : X509 o + CRL o) : outcome (bool * objs) :=
  let (r, s) := ob_call s in
  if store_add o acc v && (0 <? r)%Z then
    if in_there inn acc v then Ok (true, s) else do s <- share s store [x]; Ok (true, s)
  else Ok (false, s).
(** crypto_ossl.c 100-125 [push_ptr_list]: the list takes over the reference. *)
Definition push_ptr_list (s : objs) (ptrs : nat) (x : nat) : outcome (Z * objs) :=
  let (r, s) := ob_call s in
  if (0 <? r)%Z then do s <- hold s ptrs x; Ok (0%Z, s) else Ok ((-1)%Z, s).
(** crypto_ossl.c 1230-1297 [get_certificate_store]. *)
Fixpoint store_loop (o : ossl) (inn : inner o) (entries : certlist) (s : objs) (store ptrs : nat) (acc : list (X509 o + CRL o)) : outcome (option (list (X509 o + CRL o)) * objs) :=
  let fail s := do s <- free_x509_store s (Some store) (Some ptrs); Ok (None, s) in
  match entries with
  | [] => Ok (Some acc, s)
  | (arr, flags) :: rest =>
    if (flags =? CERTIFICATE_VALID)%Z then
      let (p, s) := parse KCert (d2i_x509 o arr) s in
      match p with
      | None => fail s
      | Some (v, x) =>
        do (added, s) <- store_adds o inn s store x acc (inl v);
        if negb added then fail s
        else
          do (z, s) <- push_ptr_list s ptrs x;
          if (z <? 0)%Z then fail s else store_loop o inn rest s store ptrs (acc ++ [inl v])
      end
    else if (flags =? CERTIFICATE_CRL)%Z then
      let (p, s) := parse KCrl (d2i_crl o arr) s in
      match p with
      | None => fail s
      | Some (v, x) =>
        do (added, s) <- store_adds o inn s store x acc (inr v);
        if negb added then fail s
        else
          do (z, s) <- push_ptr_list s ptrs x;
          if (z <? 0)%Z then fail s else store_loop o inn rest s store ptrs (acc ++ [inr v])
      end
    else fail s
  end.
Definition get_store (o : ossl) (inn : inner o) (entries : certlist) (s : objs) : outcome (option (list (X509 o + CRL o) * nat * nat) * objs) :=
  let (ptrs, s) := ob_new s KPtrs in
  match ptrs with
  | None => Ok (None, s)
  | Some ptrs =>
    let (store, s) := ob_new s KStore in
    match store with
    | None => do s <- free_x509_store s None (Some ptrs); Ok (None, s)
    | Some store =>
      do (r, s) <- store_loop o inn entries s store ptrs [];
      match r with None => Ok (None, s) | Some l => Ok (Some (l, store, ptrs), s) end
    end
  end.

(** The optional stack and store: values with objects. *)
Definition opt_get_stack (o : ossl) (certs : option certlist) (s : objs) : outcome (option (option (list (X509 o)) * option nat) * objs) :=
  match certs with
  | None => Ok (Some (None, None), s)
  | Some l => do (r, s) <- get_stack o l s; match r with None => Ok (None, s) | Some (v, x) => Ok (Some (Some v, Some x), s) end
  end.
Definition opt_get_store (o : ossl) (inn : inner o) (store : option certlist) (s : objs) : outcome (option (option (list (X509 o + CRL o)) * option nat * option nat) * objs) :=
  match store with
  | None => Ok (Some (None, None, None), s)
  | Some l => do (r, s) <- get_store o inn l s; match r with None => Ok (None, s) | Some (v, x, y) => Ok (Some (Some v, Some x, Some y), s) end
  end.

(** ** Verifying a chain *)

(** X509_build_chain: a new stack with references of its own. *)
Definition built_chain (o : ossl) (inn : inner o) (s : objs) (x : nat) (v : X509 o) (stack : nat) (sv : list (X509 o)) (store : option nat) (tv : option (list (X509 o + CRL o)))
  : outcome (option (list (X509 o) * nat) * objs) :=
  match build_chain o v sv tv with
  | None => Ok (None, s)
  | Some chain =>
    let xs := flat_map (picked [x] (held_by s (Some stack)) (held_by s store) []) (in_chain inn v sv tv) in
    let (c, s) := ob_new s KStack in
    match c with
    | None => Ok (None, s)
    | Some c => do s <- share s c xs; Ok (Some (chain, c), s)
    end
  end.
(** crypto_ossl.c 1299-1356 [crypto_verify_cert]. *)
Definition verify_cert (o : ossl) (inn : inner o) (cert : barray) (certs store : option certlist) (s : objs) : outcome (Z * objs) :=
  match ba_data cert with
  | None => Ok ((-1)%Z, s)
  | Some _ =>
    match certs with
    | None => Ok ((-1)%Z, s)
    | Some cl =>
      do d <- ba_read cert;
      let (p, s) := parse KCert (d2i_x509 o d) s in
      match p with
      | None => Ok ((-1)%Z, s)
      | Some (v, x) =>
        do (st, s) <- get_stack o cl s;
        match st with
        | None => do s <- free KCert s (Some x); Ok ((-1)%Z, s)
        | Some (sv, stack) =>
          do (sr, s) <- opt_get_store o inn store s;
          match sr with
          | None => do s <- free KStack s (Some stack); do s <- free KCert s (Some x); Ok ((-1)%Z, s)
          | Some (tv, cert_store, ptrs) =>
            do (out, s) <- built_chain o inn s x v stack sv cert_store tv;
            let ret := match out with Some (_ :: _, _) => 0%Z | _ => (-1)%Z end in
            do s <- free_x509_store s cert_store ptrs;
            do s <- free KStack s (Some stack);
            do s <- free KStack s (match out with Some (_, c) => Some c | None => None end);
            do s <- free KCert s (Some x);
            Ok (ret, s)
          end
        end
      end
    end
  end.

(** ** Signing *)

(** crypto_ossl.c 362-379 [bio_to_ptr]: a buffer, unless there is no data; [None] is
    failure. *)
Definition bio_to_ptr (s : objs) (d : bytes) : option (option nat) * objs :=
  match d with
  | [] => (Some None, s)
  | _ => let (b, s) := ob_new s KBuf in match b with None => (None, s) | Some b => (Some (Some b), s) end
  end.
(** crypto_ossl.c 381-408 [cms_to_derbuf]. *)
Definition cms_to_derbuf (o : ossl) (c : CMS o) (s : objs) : outcome (option (bytes * option nat) * objs) :=
  let (mem, s) := ob_new s KBio in
  match mem with
  | None => Ok (None, s)
  | Some mem =>
    match i2d_cms o c with
    | None => do s <- free KBio s (Some mem); Ok (None, s)
    | Some d =>
      let (b, s) := bio_to_ptr s d in
      match b with
      | None => do s <- free KBio s (Some mem); Ok (None, s)
      | Some b => do s <- free KBio s (Some mem); Ok (Some (d, b), s)
      end
    end
  end.
(** CMS_sign: the message has references to the key, to the signer certificate (as
    signer and among its certificates) and to the additional certificates. *)
Definition cms_signed (o : ossl) (s : objs) (cert : nat) (cv : X509 o) (key : nat) (kv : PKEY o) (stack : option nat) (sv : option (list (X509 o))) (data : bytes)
  : outcome (option (CMS o * nat) * objs) :=
  let xs := held_by s stack in
  let (p, s) := parse KCms (cms_sign o cv kv sv data) s in
  match p with
  | None => Ok (None, s)
  | Some (c, x) => do s <- share s x (key :: cert :: cert :: xs); Ok (Some (c, x), s)
  end.
(** crypto_ossl.c 1358-1425 [sign_withkey_cms]. *)
Definition sign_withkey (o : ossl) (data cert : bytes) (kv : PKEY o) (key : nat) (certs : option certlist) (s : objs) : outcome (option (bytes * option nat) * objs) :=
  let (mem, s) := ob_new s KBio in
  match mem with
  | None => Ok (None, s)
  | Some mem =>
    let (w, s) := ob_call s in
    if (w <? 0)%Z then do s <- free KBio s (Some mem); Ok (None, s)
    else
    let (p, s) := parse KCert (d2i_x509 o cert) s in
    match p with
    | None => do s <- free KBio s (Some mem); Ok (None, s)
    | Some (cv, x) =>
      do (sr, s) <- opt_get_stack o certs s;
      match sr with
      | None => do s <- free KCert s (Some x); do s <- free KBio s (Some mem); Ok (None, s)
      | Some (sv, stack) =>
        do (cr, s) <- cms_signed o s x cv key kv stack sv data;
        do (out, s) <- match cr with None => Ok (None, s) | Some (c, _) => cms_to_derbuf o c s end;
        do s <- free KCert s (Some x);
        do s <- free KStack s stack;
        do s <- free KBio s (Some mem);
        do s <- free KCms s (match cr with Some (_, c) => Some c | None => None end);
        Ok (out, s)
      end
    end
  end.
(** crypto_ossl.c 1427-1560: the three signing functions. *)
Definition sign_cms (o : ossl) (k : keykind) (data : bytes) (cert key : barray) (certs : option certlist) (s : objs) : outcome (option (bytes * option nat) * objs) :=
  match ba_data cert, ba_data key with
  | Some _, Some _ =>
    do kb <- ba_read key;
    let (p, s) := parse KKey (d2i_by o k kb) s in
    match p with
    | None => Ok (None, s)
    | Some (kv, x) =>
      do cb <- ba_read cert;
      do (out, s) <- sign_withkey o data cb kv x certs s;
      do s <- free KKey s (Some x);
      Ok (out, s)
    end
  | _, _ => Ok (None, s)
  end.

(** ** Verifying a message *)

(** crypto_ossl.c 232-248 [cert_to_derbuf]. *)
Definition cert_to_derbuf (o : ossl) (v : X509 o) (s : objs) : option (bytes * nat) * objs := parse KBuf (i2d_x509 o v) s.
(** array.c 57-88 [push_array_list]: the list holds a copy. One number stands for node
    and copy; MArray.v has them apart. *)
Definition push_copy (s : objs) (l : nat) : outcome (Z * objs) :=
  let (b, s) := ob_new s KBuf in
  match b with None => Ok ((-1)%Z, s) | Some b => do s <- hold s l b; Ok (0%Z, s) end.
Fixpoint signer_loop (o : ossl) (xs : list (X509 o)) (s : objs) (l : nat) (acc : certlist) : outcome (option certlist * objs) :=
  match xs with
  | [] => Ok (Some acc, s)
  | v :: xs =>
    let (b, s) := cert_to_derbuf o v s in
    match b with
    | None => Ok (None, s)
    | Some (d, b) =>
      do (z, s) <- push_copy s l;
      if (z <? 0)%Z then do s <- free KBuf s (Some b); Ok (None, s)
      else do s <- free KBuf s (Some b); signer_loop o xs s l (acc ++ [(d, 0%Z)])
    end
  end.
(** crypto_ossl.c 1562-1608 [exatract_cms_certs]. CMS_get0_signers returns a new
    stack whose certificates remain the message's; [None] inside is a list that
    stays NULL. *)
Definition exatract (o : ossl) (sv : option (list (X509 o))) (signers : list nat) (s : objs) : outcome (option (option (certlist * nat)) * objs) :=
  match sv with
  | None => Ok (Some None, s)
  | Some xs =>
    let (st, s) := ob_new s KStack in
    match st with
    | None => Ok (Some None, s)
    | Some st =>
      do s <- (fix each (l : list nat) (s : objs) : outcome objs := match l with [] => Ok s | y :: l => do s <- hold s st y; each l s end) signers s;
      match xs with
      | [] => do s <- free KStack s (Some st); Ok (Some None, s)
      | _ =>
        let (l, s) := ob_new s KList in
        match l with
        | None => do s <- free KStack s (Some st); Ok (None, s)
        | Some l =>
          do (r, s) <- signer_loop o xs s l [];
          match r with
          | None => do s <- free KList s (Some l); do s <- free KStack s (Some st); Ok (None, s)
          | Some ds => do s <- free KStack s (Some st); Ok (Some (Some (ds, l)), s)
          end
        end
      end
    end
  end.
(** crypto_ossl.c 1610-1694 [crypto_verify_cms]. The result names the buffer with the
    content and the list of certificates. *)
Definition verify_cms (o : ossl) (inn : inner o) (cms : barray) (certs store : option certlist) (want : bool) (s : objs)
  : outcome (option (option (bytes * nat) * option (certlist * nat)) * objs) :=
  do d <- ba_read cms;
  do (p, s) <- parse_cms inn (d2i_cms o d) s;
  match p with
  | None => Ok (None, s)
  | Some (c, content) =>
    do (sr, s) <- opt_get_stack o certs s;
    match sr with
    | None => do s <- free KCms s (Some content); Ok (None, s)
    | Some (sv, stack) =>
      do (tr, s) <- opt_get_store o inn store s;
      match tr with
      | None => do s <- free KStack s stack; do s <- free KCms s (Some content); Ok (None, s)
      | Some (tv, cert_store, ptrs) =>
        let (mem, s) := ob_new s KBio in
        let leave {A} (a : A) s := do s <- free KBio s mem; do s <- free KStack s stack; do s <- free KCms s (Some content); do s <- free_x509_store s cert_store ptrs; Ok (a, s) in
        match mem with
        | None => leave None s
        | Some _ =>
          let signers := flat_map (picked [] (held_by s stack) [] (held_by s (Some content))) (in_signers inn c sv) in
          do s <- share s content signers;
          match cms_verify o c sv tv (match tv with None => true | Some _ => false end) with
          | None => leave None s
          | Some text =>
            let (b, s) := bio_to_ptr s text in
            match b with
            | None => leave None s
            | Some b =>
              let data := match b with None => None | Some b => Some (text, b) end in
              if want then
                do (r, s) <- exatract o (cms_signers o c sv) signers s;
                match r with
                | None => leave None s
                | Some l => leave (Some (data, l)) s
                end
              else leave (Some (data, None)) s
            end
          end
        end
      end
    end
  end.

(** ** Generating keys *)

(** A call that returns its status and creates an object exactly when it succeeds. *)
Definition ob_make (s : objs) (k : kind) : Z * option nat * objs :=
  let z := ob_ret s (ob_next s) in let (x, s) := ob_new s k in (z, x, s).
(** crypto_ossl.c 250-261 [evpkey_to_derbuf]; i2d_PrivateKey reads the key. *)
Definition evpkey_to_derbuf (pkey : option nat) (s : objs) : outcome (option nat * objs) :=
  match pkey with
  | None => UB NullDeref
  | Some x => match ob_at s x with Gone => UB UseAfterFree | Alive _ _ _ => Ok (ob_new s KBuf) end
  end.
(** EVP_PKEY_CTX_new: the context has a reference to the key; there is none for NULL. *)
Definition ctx_for (pkey : option nat) (s : objs) : outcome (option nat * objs) :=
  match pkey with
  | None => Ok (None, s)
  | Some x => let (c, s) := ob_new s KCtx in match c with None => Ok (None, s) | Some c => do s <- share s c [x]; Ok (Some c, s) end
  end.
(** crypto_ossl.c 422-477 [crypto_generate_rsakey]: the array with the key's bytes;
    the array holds its buffer. The EVP calls return 0 or a negative number for
    failure, and only 0 is checked. *)
Definition generate_rsakey (s : objs) : outcome (option nat * objs) :=
  let (key, s) := ob_new s KList in
  match key with
  | None => Ok (None, s)
  | Some key =>
    let (ctx, s) := ob_new s KCtx in
    match ctx with
    | None => do s <- free KList s (Some key); Ok (None, s)
    | Some ctx =>
      let fail s := do s <- free KCtx s (Some ctx); do s <- free KList s (Some key); Ok (None, s) in
      let (z, s) := ob_call s in
      if (z =? 0)%Z then fail s else
      let (z, s) := ob_call s in
      if (z =? 0)%Z then fail s else
      let '(z, pkey, s) := ob_make s KKey in
      if (z =? 0)%Z then fail s else
      do s <- free KCtx s (Some ctx);
      do (b, s) <- evpkey_to_derbuf pkey s;
      match b with
      | None => do s <- free KKey s pkey; do s <- free KList s (Some key); Ok (None, s)
      | Some b => do s <- hold s key b; do s <- free KKey s pkey; Ok (Some key, s)
      end
    end
  end.
(** crypto_ossl.c 479-551 [crypto_generate_eckey]: the buffer with the key's bytes. *)
Definition generate_eckey (s : objs) : outcome (option nat * objs) :=
  let (ctx, s) := ob_new s KCtx in
  match ctx with
  | None => Ok (None, s)
  | Some ctx =>
    let fail s := do s <- free KCtx s (Some ctx); Ok (None, s) in
    let (z, s) := ob_call s in
    if (z =? 0)%Z then fail s else
    let (z, s) := ob_call s in
    if (z =? 0)%Z then fail s else
    let '(z, params, s) := ob_make s KKey in
    if (z =? 0)%Z then fail s else
    do s <- free KCtx s (Some ctx);
    do (ctx, s) <- ctx_for params s;
    match ctx with
    | None => do s <- free KKey s params; Ok (None, s)
    | Some ctx =>
      let fail s := do s <- free KCtx s (Some ctx); Ok (None, s) in
      do s <- free KKey s params;
      let (z, s) := ob_call s in
      if (z =? 0)%Z then fail s else
      let '(z, pkey, s) := ob_make s KKey in
      if (z =? 0)%Z then fail s else
      do (b, s) <- evpkey_to_derbuf pkey s;
      do s <- free KKey s pkey;
      do s <- free KCtx s (Some ctx);
      Ok (b, s)
    end
  end.

(** ** Generating certificates *)

(** What is set in struct crypto_cert_meta (crypto.h): the absolute end date, the
    relative one, the numbers of pairs of issuer and subject, the constraints. *)
Record shape := mk_shape { sh_absolute : bool; sh_after : bool; sh_issuer : option nat; sh_subject : option nat; sh_basic : bool }.
(** A value that is made, given to a call that copies it, and released: the serial
    number (797-820), the extension (938-953). *)
Fixpoint calls (n : nat) (s : objs) : bool * objs :=
  match n with
  | O => (true, s)
  | S n => let (z, s) := ob_call s in if (z <=? 0)%Z then (false, s) else calls n s
  end.
Definition lend (s : objs) (n : nat) : outcome (bool * objs) :=
  let (x, s) := ob_new s KAsn in
  match x with
  | None => Ok (false, s)
  | Some x => let (ok, s) := calls n s in do s <- free KAsn s (Some x); Ok (ok, s)
  end.
(** The absolute end date (876-900): the result of ASN1_TIME_set is not checked; a
    NULL time is rejected by ASN1_TIME_normalize. *)
Definition lend_time (s : objs) : outcome (bool * objs) :=
  let (x, s) := ob_new s KAsn in
  let (ok, s) := calls (match x with None => 1 | Some _ => 3 end) s in
  do s <- free KAsn s x;
  Ok (match x with None => false | Some _ => ok end, s).
(** crypto_ossl.c 856-960 [set_certificate_meta] with 822-854
    [add_x509name_keyvalues]: a name is made, gets an entry for each pair, is
    copied by one more call and released. *)
Definition opt_lend (s : objs) (n : option nat) : outcome (bool * objs) :=
  match n with None => Ok (true, s) | Some n => lend s (S n) end.
Definition set_meta (m : shape) (s : objs) : outcome (bool * objs) :=
  let (ok, s) := calls 1 s in
  if negb ok then Ok (false, s) else
  do (ok, s) <- lend s 2;
  if negb ok then Ok (false, s) else
  let (ok, s) := calls 1 s in
  if negb ok then Ok (false, s) else
  do (ok, s) <- (if sh_absolute m then if sh_after m then Ok (false, s) else lend_time s else Ok (calls 1 s));
  if negb ok then Ok (false, s) else
  do (ok, s) <- opt_lend s (sh_issuer m);
  if negb ok then Ok (false, s) else
  do (ok, s) <- opt_lend s (sh_subject m);
  if negb ok then Ok (false, s) else
  if sh_basic m then lend s 1 else Ok (true, s).
(** crypto_ossl.c 978-1040 [crypto_generate_eccert], 1042-1104
    [crypto_generate_rsacert]: [key] says that the key can be parsed. *)
Definition generate_cert (m : shape) (key : bool) (s : objs) : outcome (option nat * objs) :=
  let (x, s) := ob_new s KCert in
  match x with
  | None => Ok (None, s)
  | Some x =>
    do (ok, s) <- set_meta m s;
    if negb ok then do s <- free KCert s (Some x); Ok (None, s) else
    let (p, s) := parse KKey (if key then Some tt else None) s in
    match p with
    | None => do s <- free KCert s (Some x); Ok (None, s)
    | Some (_, pkey) =>
      let (ok, s) := calls 1 s in
      if negb ok then Ok (None, s) else
      do s <- share s x [pkey];
      let (ok, s) := calls 2 s in
      if negb ok then do s <- free KKey s (Some pkey); do s <- free KCert s (Some x); Ok (None, s) else
      let (b, s) := ob_new s KBuf in
      do s <- free KKey s (Some pkey);
      do s <- free KCert s (Some x);
      Ok (b, s)
    end
  end.
(** crypto_ossl.c 1106-1186 [crypto_sign_cert]: [key], [ca] and [cert] say what can be
    parsed; [old] is the buffer with the certificate, replaced by the result. *)
Definition sign_cert (key ca cert : bool) (old : nat) (s : objs) : outcome (option nat * objs) :=
  let (p, s) := parse KKey (if key then Some tt else None) s in
  match p with
  | None => Ok (None, s)
  | Some (_, pkey) =>
    let (p, s) := parse KCert (if ca then Some tt else None) s in
    match p with
    | None => do s <- free KKey s (Some pkey); Ok (None, s)
    | Some (_, x509_ca) =>
      let (p, s) := parse KCert (if cert then Some tt else None) s in
      match p with
      | None => do s <- free KCert s (Some x509_ca); do s <- free KKey s (Some pkey); Ok (None, s)
      | Some (_, x509) =>
        let (ok, s) := calls 4 s in
        let (b, s) := if ok then ob_new s KBuf else (None, s) in
        do s <- free KBuf s (match b with None => None | Some _ => Some old end);
        do s <- free KCert s (Some x509_ca);
        do s <- free KCert s (Some x509);
        do s <- free KKey s (Some pkey);
        Ok (b, s)
      end
    end
  end.
