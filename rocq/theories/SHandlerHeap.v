(** Specification vocabulary for the memory of the HTTP handlers. *)
From Verif Require Import Base MBase64 MSerialize MVoucher MCrypto MRequest MHeap MArray MVoucherHeap MConfig MHandlers MHandlerHeap SBase64 SHeap SArray SConfig SVoucher SRequest SRequestHeap SHandlers SPledge SEnrolLogHeap.
Open Scope N_scope.

(** Requests served one after another by one MASA. *)
Fixpoint full_masa_serves (o : ossl) (w : world) (c : masa_conf) (ld : N) (h : heap) (bodies : list bytes) : outcome (list (Z * bytes) * heap) :=
  match bodies with
  | [] => Ok ([], h)
  | b :: r =>
    obind (full_masa_requestvoucher o w c ld h b) (fun x =>
      let '(status, response, ld, h) := x in
      obind (full_masa_serves o w c ld h r) (fun y => Ok ((status, response) :: fst y, snd y)))
  end.

(** The voucher for a request in this body can be written as text. *)
Definition masa_fits (o : ossl) (w : world) (f : masa_files) (body : bytes) : Prop :=
  forall m t ldc rv rs vr regs s n, rfc_decode (c_string body) = Some m -> serialize_str2time (mf_expires f) = Some t -> w_cert w (mf_ldevid f) = Some ldc ->
    cert_list (w_cert w) (mf_verify f) rv -> cert_list (w_cert w) (mf_store f) rs ->
    says o (ba_of m) rv rs true vr regs -> get_attr_str (Some vr) ASerial = Some (Some s) -> nonce_is vr n -> text_fits (masa_content t s n ldc).

(** What a body that is signed by a trusted registrar carries is a voucher, and
    neither it nor the pledge's request in it repeats a member. *)
Definition masa_clean (o : ossl) (w : world) (f : masa_files) (body : bytes) : Prop :=
  forall m rv rs pv ps, rfc_decode (c_string body) = Some m ->
    cert_list (w_cert w) (mf_verify f) rv -> cert_list (w_cert w) (mf_store f) rs -> cert_list (w_cert w) (mf_pverify f) pv -> cert_list (w_cert w) (mf_pstore f) ps ->
    clean_request o (Some (ba_of m)) rv rs pv ps /\ voucher_or_nothing o (Some (ba_of m)) rv rs true.

(** The request can be decoded and the MASA's own material is there. *)
Definition masa_ready (w : world) (f : masa_files) (body : bytes) : Prop :=
  serialize_str2time (mf_expires f) <> None /\ rfc_decode (c_string body) <> None /\ w_cert w (mf_ldevid f) <> None /\ w_cert w (mf_cert f) <> None /\ w_key w (mf_key f) <> None /\
  Forall (fun ts => ~ missing (w_cert w) ts) (masa_lists f).

(** The body is signed by a trusted registrar, but what it carries is no
    voucher. *)
Definition masa_wastes (o : ossl) (w : world) (f : masa_files) (body : bytes) : Prop :=
  masa_ready w f body /\ exists m rv rs c st json regs, rfc_decode (c_string body) = Some m /\ cert_list (w_cert w) (mf_verify f) rv /\ cert_list (w_cert w) (mf_store f) rs /\
    verified o (ba_of m) rv rs c st json /\ signer_certs o c st true (Some regs) /\ ~ exists v l, says o (ba_of m) rv rs true v l.

(** At least [n] blocks more are in use than before. *)
Definition lost (h h' : heap) (n : nat) : Prop :=
  exists l, NoDup l /\ List.length l = n /\ Forall (fun a => hp_next h <= a /\ is_live h' a) l.

(** ** The registrar *)

(** The registrar's request for the pledge's request in this body can be written
    as text. *)
Definition registrar_fits (o : ossl) (w : world) (f : registrar_files) (peer : option cert_view) (body : bytes) : Prop :=
  forall v t s n i m vcerts vstore pvr, peer = Some v -> w_now w = Some t -> client_serial v s -> cv_issuer_text v = Some i -> rfc_decode (c_string body) = Some m ->
    cert_list (w_cert w) (rf_verify f) vcerts -> cert_list (w_cert w) (rf_store f) vstore -> says o (ba_of m) vcerts vstore false pvr None -> nonce_is pvr n ->
    text_fits (registrar_content t s n i m).

(** What the pledge signed repeats no member. *)
Definition registrar_clean (o : ossl) (w : world) (f : registrar_files) (body : bytes) : Prop :=
  forall m vcerts vstore, rfc_decode (c_string body) = Some m -> cert_list (w_cert w) (rf_verify f) vcerts -> cert_list (w_cert w) (rf_store f) vstore -> clean_content o (Some (ba_of m)) vcerts vstore.

(** Requests served one after another by one registrar: the client's certificate
    and the body. *)
Fixpoint full_registrar_serves (o : ossl) (w : world) (c : registrar_conf) (nn : bytes -> N) (post : post_fn) (h : heap) (reqs : list (option cert_view * bytes)) : outcome (list (Z * bytes) * heap) :=
  match reqs with
  | [] => Ok ([], h)
  | b :: r =>
    obind (full_registrar_requestvoucher o w c nn post h (fst b) (snd b)) (fun x =>
      let '(status, response, h) := x in
      obind (full_registrar_serves o w c nn post h r) (fun y => Ok ((status, response) :: fst y, snd y)))
  end.

(** A body of bytes, a readable certificate with texts shorter than the address
    space, and a request that can be written. *)
Definition request_ok (o : ossl) (w : world) (f : registrar_files) (r : option cert_view * bytes) : Prop :=
  bytes_ok (snd r) /\ (forall v, fst r = Some v -> view_ok v /\ short_view v) /\ registrar_fits o w f (fst r) (snd r).

(** ** The pledge *)

(** The pledge's request to whoever answers the first connection can be written as
    text. *)
Definition pledge_fits (w : world) (f : pledge_files) (post1 : post_cert_fn) : Prop :=
  forall tls t s n, first_contact post1 tls -> pledge_time w f = Some t -> pf_serial f = Some s -> nonce_given f n -> text_fits (pledge_content t s n tls).

(** What is signed in the answer to the pledge's request repeats no member. *)
Definition pledge_clean (o : ossl) (w : world) (f : pledge_files) (post1 post2 : post_cert_fn) : Prop :=
  forall tls1 cms tls response m vc vs, first_contact post1 tls1 -> pledge_asks o w f tls1 cms -> blen cms < SIZE_MAX / 4 -> second_contact post2 (rfc_encode cms) tls response -> rfc_decode (c_string response) = Some m ->
    cert_list (w_cert w) (pf_verify f) vc -> cert_list (w_cert w) (pf_store f) vs -> clean_content o (Some (ba_of m)) vc vs.

(** The caller's array received the bytes [d] in a new block and nothing else that
    was there changed. *)
Definition pinned_at (h h' : heap) (pinned : N) (d : bytes) : Prop :=
  exists b, hp_next h <= b /\ hp_cell h' pinned = Live (Struct [P b; I (Z.of_N (blen d))]) /\ hp_cell h' b = Live (Buf d) /\
    (forall a, a < hp_next h -> a <> pinned -> hp_cell h' a = hp_cell h a).
