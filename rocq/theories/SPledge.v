(** Specification vocabulary for the pledge client. *)
From Verif Require Import Base MOs MHeap MArray MVoucher MCrypto MSerialize MConfig MHandlers SHeap SArray SBase64 SVoucher SRequest SHandlers.
Open Scope N_scope.

(** What the pledge's configuration says. *)
Record pledge_files := mk_pfiles {
  pf_created : option bytes; pf_serial : option bytes; pf_nonce : option bytes;
  pf_cert : bytes; pf_key : bytes; pf_add : list bytes; pf_verify : list bytes; pf_store : list bytes }.
Definition pledge_config (h : heap) (c : pledge_conf) (f : pledge_files) : Prop :=
  opt_string h (pl_created c) = Ok (pf_created f) /\ opt_string h (pl_serial c) = Ok (pf_serial f) /\ opt_string h (pl_nonce c) = Ok (pf_nonce f) /\
  heap_string h (pl_cert c) = Ok (pf_cert f) /\ heap_string h (pl_key c) = Ok (pf_key f) /\
  path_list h (pl_add c) (pf_add f) /\ path_list h (pl_verify c) (pf_verify f) /\ path_list h (pl_store c) (pf_store f).
Definition pledge_text_ok (f : pledge_files) : Prop :=
  (forall s, pf_serial f = Some s -> cstr_ok s) /\ (forall s, pf_nonce f = Some s -> bytes_ok s).

(** The creation time: the configured one or the clock. *)
Definition pledge_time (w : world) (f : pledge_files) : option tm :=
  match pf_created f with None => w_now w | Some _ => serialize_str2time (pf_created f) end.

(** The configured nonce. *)
Definition nonce_given (f : pledge_files) (n : option bytes) : Prop :=
  match pf_nonce f with None => n = None | Some x => exists d, rfc_decode x = Some d /\ n = Some d end.

(** [cms] is the pledge's request with the registrar certificate [tls]. *)
Definition pledge_asks (o : ossl) (w : world) (f : pledge_files) (tls cms : bytes) : Prop :=
  exists t s n cert key add, pledge_time w f = Some t /\ pf_serial f = Some s /\ blen s < 128 /\ nonce_given f n /\
    w_cert w (pf_cert f) = Some cert /\ w_key w (pf_key f) = Some key /\ cert_list (w_cert w) (pf_add f) add /\
    signed_voucher o (Some (ba_of cert)) (Some (ba_of key)) add (pledge_content t s n tls) cms.

(** The voucher [m] verifies for the registrar certificate [tls]: MASA signature,
    own serial number, own nonce (when there is one), and the pinned certificate
    [d] authenticates [tls]. *)
Definition pledge_takes (o : ossl) (w : world) (f : pledge_files) (tls m d : bytes) : Prop :=
  exists s n vc vs mv, pf_serial f = Some s /\ nonce_given f n /\
    cert_list (w_cert w) (pf_verify f) vc /\ cert_list (w_cert w) (pf_store f) vs /\
    says o (ba_of m) vc vs false mv None /\ get_attr_str (Some mv) ASerial = Some (Some s) /\
    (n <> None -> nonce_is mv n) /\
    get_attr_array (Some mv) APinned = Some (ba_of d) /\ chains o (Some (ba_of tls)) d None.

(** The two connections: [post1] and [post2] give the answer and the certificate
    the server shows; [tls1] goes into the request. *)
Definition first_contact (post1 : post_cert_fn) (tls1 : bytes) : Prop :=
  exists s r v, post1 [] = (s, r, Some v) /\ (0 <= s)%Z /\ cv_der v = Some tls1.
Definition second_contact (post2 : post_cert_fn) (body : bytes) (tls2 response : bytes) : Prop :=
  exists s v, post2 body = (s, response, Some v) /\ (0 <= s < 400)%Z /\ cv_der v = Some tls2.

(** The pledge obtains the pinned certificate [d]. *)
Definition pledge_obtains (o : ossl) (w : world) (f : pledge_files) (post1 post2 : post_cert_fn) (tls1 tls2 d : bytes) : Prop :=
  exists cms response m, first_contact post1 tls1 /\ pledge_asks o w f tls1 cms /\ blen cms < SIZE_MAX / 4 /\
    second_contact post2 (rfc_encode cms) tls2 response /\ rfc_decode (c_string response) = Some m /\ pledge_takes o w f tls2 m d.

(** Creating the request does not survive: a nonce with bad padding, or a
    certificate of the additional list that cannot be read. *)
Definition asks_crash (w : world) (f : pledge_files) : Prop :=
  pledge_time w f <> None /\
  ((exists x, pf_nonce f = Some x /\ bad_padding x) \/
   (exists n, nonce_given f n) /\ w_cert w (pf_cert f) <> None /\ w_key w (pf_key f) <> None /\ missing (w_cert w) (pf_add f)).

(** The whole run does not survive. *)
Definition pledge_unsafe (o : ossl) (w : world) (f : pledge_files) (post1 post2 : post_cert_fn) : Prop :=
  exists tls1, first_contact post1 tls1 /\
    (asks_crash w f \/
     exists cms tls2 response, pledge_asks o w f tls1 cms /\ blen cms < SIZE_MAX / 4 /\ second_contact post2 (rfc_encode cms) tls2 response /\
       (bad_padding (c_string response) \/ missing (w_cert w) (pf_verify f) \/ missing (w_cert w) (pf_store f))).

(** The caller's array received the bytes [d] in a new block; that block is all
    that was added, and nothing else changed. *)
Definition pinned_result (h h' : heap) (pinned : N) (d : bytes) : Prop :=
  exists b, hp_next h <= b /\ hp_cell h' pinned = Live (Struct [P b; I (Z.of_N (blen d))]) /\ hp_cell h' b = Live (Buf d) /\
    (forall a, a < hp_next h -> a <> pinned -> hp_cell h' a = hp_cell h a) /\ (forall a, hp_next h <= a -> is_live h' a -> a = b).

(** A response (to a body of bytes) and a certificate consist of bytes. *)
Definition post_ok (post : post_cert_fn) : Prop :=
  forall body s r v, bytes_ok body -> post body = (s, r, v) -> bytes_ok r /\ (forall v', v = Some v' -> view_ok v').
