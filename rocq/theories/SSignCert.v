(** Specification vocabulary for the command sign-cert. *)
From Verif Require Import Base MHeap MVoucher MCrypto MHandlers MLog MSignCert SHeap SArray SBase64 SRequest SHandlers SPledge SLog.
Open Scope N_scope.

(** The outside behaves: the random bytes, the stack and the DER data are bytes of
    the right number; rand() keeps to its range. *)
Definition device_ok (dv : device) : Prop :=
  blen (dv_stack dv) = 17 /\ (forall r, dv_random dv = Some r -> bytes_ok r /\ blen r = 8) /\
  (forall k, dv_key dv = Some k -> bytes_ok k) /\ (forall m k d, dv_cert dv m k = Some d -> bytes_ok d) /\
  (forall s i, dv_rand dv s i <= 2147483647).

(** The serial number: the two low bits of the third draw, then the fourth and the
    fifth draw with 31 bits each. *)
Definition serial_of (dv : device) : N :=
  (dv_rand dv (dv_now dv) 2 mod 4) * 4611686018427387904 + dv_rand dv (dv_now dv) 3 * 2147483648 + dv_rand dv (dv_now dv) 4.

(** What the certificate says for the random bytes [r]. *)
Definition meta_of (dv : device) (r : bytes) : cert_meta :=
  mk_meta (serial_of dv) 0 (s2b "99991231235959Z") []
    [(s2b "C", s2b "IE"); (s2b "CN", s2b "ldevid-cert"); (s2b "serialNumber", firstn 15 (hex_text true r))] (s2b "CA:false").
Definition subject_serial (m : cert_meta) : bytes := snd (nth 2 (cm_subject m) ([], [])).

(** The device made this key and this certificate for it. *)
Definition generated (dv : device) (key cert : bytes) : Prop :=
  exists r, dv_random dv = Some r /\ dv_key dv = Some key /\ dv_cert dv (meta_of dv r) key = Some cert.

(** PEM. *)
Definition pem (d : bytes) : bytes := s2b "-----BEGIN CERTIFICATE-----" ++ [10] ++ rfc_encode d ++ [10] ++ s2b "-----END CERTIFICATE-----".

(** The registrar authenticated by the pinned certificate answered [response] to
    the certificate made for [key]. *)
Definition enrolled (o : ossl) (w : world) (f : pledge_files) (dv : device) (post1 post2 : post_cert_fn) (post3 : post_ca_fn) (key response : bytes) : Prop :=
  exists tls1 tls2 d cert s, pledge_obtains o w f post1 post2 tls1 tls2 d /\ blen d < SIZE_MAX / 4 /\ generated dv key cert /\ blen cert < SIZE_MAX / 4 /\
    post3 (pem d) (rfc_encode cert) = (s, response) /\ (0 <= s < 400)%Z.
Definition sign_obtains (o : ossl) (w : world) (f : pledge_files) (dv : device) (post1 post2 : post_cert_fn) (post3 : post_ca_fn) (key cert : bytes) : Prop :=
  exists response, enrolled o w f dv post1 post2 post3 key response /\ rfc_decode (c_string response) = Some cert.
Definition sign_unsafe (o : ossl) (w : world) (f : pledge_files) (dv : device) (post1 post2 : post_cert_fn) (post3 : post_ca_fn) : Prop :=
  dv_random dv <> None /\ pledge_unsafe o w f post1 post2 \/
  exists key response, enrolled o w f dv post1 post2 post3 key response /\ bad_padding (c_string response).

(** The array at [a] holds the bytes [d] in the block [b]. *)
Definition array_at (h : heap) (a b : N) (d : bytes) : Prop :=
  hp_cell h a = Live (Struct [P b; I (Z.of_N (blen d))]) /\ hp_cell h b = Live (Buf d).

(** The two arrays of the caller, at [n] and [n + 1], hold the certificate and the
    key; they and their contents are all that was added to memory. *)
Definition both_arrays (h h' : heap) (cert key : bytes) : Prop :=
  exists bc bk, array_at h' (hp_next h) bc cert /\ array_at h' (hp_next h + 1) bk key /\ bc <> bk /\
    kept (hp_next h) h h' /\ (forall a, hp_next h <= a -> is_live h' a -> a = hp_next h \/ a = hp_next h + 1 \/ a = bc \/ a = bk).
(** The two arrays are empty and all that was added. *)
Definition no_arrays (h h' : heap) : Prop :=
  hp_cell h' (hp_next h) = Live (Struct [P 0; I 0]) /\ hp_cell h' (hp_next h + 1) = Live (Struct [P 0; I 0]) /\
  kept (hp_next h) h h' /\ (forall a, hp_next h <= a -> is_live h' a -> a = hp_next h \/ a = hp_next h + 1).

Definition post_ca_ok (post : post_ca_fn) : Prop := forall ca body s r, bytes_ok body -> post ca body = (s, r) -> bytes_ok r.
