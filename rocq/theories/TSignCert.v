(** Theorems about the command sign-cert: C80, C81. *)
From Verif Require Import Base MBase64 MSerialize MVoucher MCrypto MRequest MHeap MArray MVoucherHeap MConfig MHandlers MLog MSignCert SBase64 SHeap SArray SConfig SVoucher SRequest SHandlers SPledge SLog SSignCert
  PRequest6 PMasa PPledge3 PPledge4 PSignCert3.
Open Scope N_scope.

(** C80 is false: two runs that generated different keys succeed with the same
    certificate, so at least one of them holds a certificate that is not for its key. *)
Theorem C80_refuted : exists o w c f post1 post2 post3 h dv dv' key key' cert h1 h2, ossl_sane o /\ world_ok w /\ heap_wf h /\ plenty h /\ pledge_config h c f /\ pledge_text_ok f /\ post_ok post1 /\ post_ok post2 /\ post_ca_ok post3 /\ device_ok dv /\ device_ok dv' /\
  key <> key' /\ sign_cert_command o w c dv post1 post2 post3 h = Ok (0%Z, h1) /\ both_arrays h h1 cert key /\ sign_cert_command o w c dv' post1 post2 post3 h = Ok (0%Z, h2) /\ both_arrays h h2 cert key'.
Proof. exact unrelated_refuted. Qed.
Print Assumptions C80_refuted.

(** C80 is false: an answer with bad base64 padding. *)
Theorem C80_crash_refuted : exists o w c f post1 post2 post3 h dv k, ossl_sane o /\ world_ok w /\ heap_wf h /\ plenty h /\ pledge_config h c f /\ pledge_text_ok f /\ post_ok post1 /\ post_ok post2 /\ post_ca_ok post3 /\ device_ok dv /\
  ~ pledge_unsafe o w f post1 post2 /\ sign_cert_command o w c dv post1 post2 post3 h = UB k.
Proof. exact answer_refuted. Qed.
Print Assumptions C80_crash_refuted.

(** C80 is false for generate_sign_cert: no key could be generated, and it returns 0
    with the length SIZE_MAX beside a NULL pointer in both arrays. *)
Theorem C80_generated_refuted : exists dv h oc ok h', device_ok dv /\ heap_wf h /\ plenty h /\ oc <> 0 /\ ok <> 0 /\ oc <> ok /\ hp_cell h oc = Live (Struct [P 0; I 0]) /\ hp_cell h ok = Live (Struct [P 0; I 0]) /\
  dv_key dv = None /\ generate_sign_cert dv h oc ok = Ok (0%Z, h') /\ hp_cell h' oc = Live (Struct [P 0; I 18446744073709551615]) /\ hp_cell h' ok = Live (Struct [P 0; I 18446744073709551615]).
Proof. exact generate_refuted. Qed.
Print Assumptions C80_generated_refuted.

(** C80, the outcome for every registrar, MASA, device and memory: 0 exactly with
    the generated key and the bytes answered for it over the connection
    authenticated by the pinned certificate, -1 otherwise with both arrays empty;
    nothing else remains and nothing that was there before changes. *)
Theorem C80_exact_partial : forall o w c f dv post1 post2 post3 h z h', ossl_sane o -> world_ok w -> heap_wf h -> plenty h -> pledge_config h c f -> pledge_text_ok f -> post_ok post1 -> post_ok post2 -> post_ca_ok post3 -> device_ok dv ->
  sign_cert_command o w c dv post1 post2 post3 h = Ok (z, h') ->
  (z = 0%Z /\ exists key cert, sign_obtains o w f dv post1 post2 post3 key cert /\ both_arrays h h' cert key) \/
  (z = (-1)%Z /\ (forall key cert, ~ sign_obtains o w f dv post1 post2 post3 key cert) /\ no_arrays h h').
Proof. exact command_outcome. Qed.
Print Assumptions C80_exact_partial.

Example C80_case : exists h' bc bk, sign_cert_command toy pledge_world pledge_case_conf (sign_device (Some rnd1) (Some [1; 2])) sign_contact1 sign_contact2 (fun ca body => (200%Z, if beqb ca (pem [7; 7]) then body else [])) sign_heap = Ok (0%Z, h') /\
  array_at h' 12 bc ([1; 2] ++ s2b "0123456789ABCDE" ++ [160]) /\ array_at h' 13 bk [1; 2].
Proof. eexists. exists 41, 15. split; [vm_compute; reflexivity|]. split; split; vm_compute; reflexivity. Qed.

Example C80_case_refused : exists h1 h2 h3,
  sign_cert_command toy pledge_world pledge_case_conf (sign_device (Some rnd1) (Some [1; 2])) sign_contact1 sign_contact2 (sign_reply 404 (s2b "AA==")) sign_heap = Ok ((-1)%Z, h1) /\
  sign_cert_command toy pledge_world pledge_case_conf (sign_device (Some rnd1) (Some [1; 2])) sign_contact1 sign_contact2 (sign_reply 200 []) sign_heap = Ok ((-1)%Z, h2) /\
  sign_cert_command toy pledge_world pledge_case_conf (sign_device None (Some [1; 2])) sign_contact1 sign_contact2 (sign_reply 200 (s2b "AA==")) sign_heap = Ok ((-1)%Z, h3).
Proof. eexists. eexists. eexists. split; [vm_compute; reflexivity|]. split; vm_compute; reflexivity. Qed.

(** C80, the command succeeds whenever there is something to obtain. *)
Theorem C80_complete_partial : forall o w c f dv post1 post2 post3 h key cert, ossl_sane o -> world_ok w -> heap_wf h -> plenty h -> pledge_config h c f -> pledge_text_ok f -> post_ok post1 -> post_ok post2 -> post_ca_ok post3 -> device_ok dv ->
  sign_obtains o w f dv post1 post2 post3 key cert -> exists h', sign_cert_command o w c dv post1 post2 post3 h = Ok (0%Z, h') /\ both_arrays h h' cert key.
Proof. exact command_succeeds. Qed.
Print Assumptions C80_complete_partial.

Example C80_complete_case : post_ca_ok (sign_reply 200 (s2b "AQIDBA==")) /\ device_ok (sign_device (Some rnd1) (Some [1; 2])) /\
  exists cert, sign_obtains toy pledge_world (pledge_case_files (s2b "CQ==")) (sign_device (Some rnd1) (Some [1; 2])) sign_contact1 sign_contact2 (sign_reply 200 (s2b "AQIDBA==")) [1; 2] cert.
Proof. exact obtains_case. Qed.

(** C80, exactly when the command does not survive. *)
Theorem C80_survives_partial : forall o w c f dv post1 post2 post3 h, ossl_sane o -> world_ok w -> heap_wf h -> plenty h -> pledge_config h c f -> pledge_text_ok f -> post_ok post1 -> post_ok post2 -> post_ca_ok post3 -> device_ok dv ->
  ((exists k, sign_cert_command o w c dv post1 post2 post3 h = UB k) <-> sign_unsafe o w f dv post1 post2 post3).
Proof. exact command_survives. Qed.
Print Assumptions C80_survives_partial.

Example C80_survives_case : ossl_sane toy /\ world_ok pledge_world /\ heap_wf sign_heap /\ plenty sign_heap /\ pledge_config sign_heap pledge_case_conf (pledge_case_files (s2b "CQ==")) /\ pledge_text_ok (pledge_case_files (s2b "CQ==")) /\ post_ok sign_contact1 /\ post_ok sign_contact2 /\
  exists k, sign_cert_command toy pledge_world pledge_case_conf (sign_device (Some rnd1) (Some [1; 2])) sign_contact1 sign_contact2 (sign_reply 200 (s2b "====")) sign_heap = UB k.
Proof. destruct sign_case_setting as (S1 & S2 & S3 & S4 & S5 & S6 & S7 & S8). do 8 (split; [assumption|]). eexists. vm_compute. reflexivity. Qed.

(** C81 is false: different random values, the same certificate, from an issuer
    whose certificates differ when the subjects' serial numbers do. *)
Theorem C81_refuted : exists dv dv' h oc ok h' h'' bc cert, device_ok dv /\ device_ok dv' /\ heap_wf h /\ plenty h /\ dv_random dv <> None /\ dv_random dv' <> None /\ dv_random dv <> dv_random dv' /\
  generate_sign_cert dv h oc ok = Ok (0%Z, h') /\ generate_sign_cert dv' h oc ok = Ok (0%Z, h'') /\ array_at h' oc bc cert /\ array_at h'' oc bc cert /\
  (forall m m' key, blen (subject_serial m) = blen (subject_serial m') -> bytes_ok (subject_serial m) -> bytes_ok (subject_serial m') -> dv_cert dv m key = dv_cert dv' m' key -> subject_serial m = subject_serial m').
Proof. exact subject_refuted. Qed.
Print Assumptions C81_refuted.

(** C81 is false: devices started in the same second, different random values and
    keys, the same serial number (the last byte of these certificates). *)
Theorem C81_serial_refuted : exists dv dv', device_ok dv /\ device_ok dv' /\ dv_random dv <> dv_random dv' /\ dv_key dv <> dv_key dv' /\
  exists h oc ok h' h'', heap_wf h /\ plenty h /\ generate_sign_cert dv h oc ok = Ok (0%Z, h') /\ generate_sign_cert dv' h oc ok = Ok (0%Z, h'') /\
    (exists bc bc' cert cert' s, array_at h' oc bc (cert ++ [s]) /\ array_at h'' oc bc' (cert' ++ [s]) /\ cert <> cert') /\ serial_of dv = serial_of dv'.
Proof. exact serial_refuted. Qed.
Print Assumptions C81_serial_refuted.

(** C81: what the generated certificate is made from. *)
Theorem C81_generated_partial : forall dv h oc ok r key cert, device_ok dv -> heap_wf h -> plenty h -> oc <> 0 -> ok <> 0 -> oc <> ok ->
  hp_cell h oc = Live (Struct [P 0; I 0]) -> hp_cell h ok = Live (Struct [P 0; I 0]) -> dv_random dv = Some r -> dv_key dv = Some key -> dv_cert dv (meta_of dv r) key = Some cert ->
  exists h' bc bk, generate_sign_cert dv h oc ok = Ok (0%Z, h') /\ array_at h' oc bc cert /\ array_at h' ok bk key.
Proof. exact generate_exact. Qed.
Print Assumptions C81_generated_partial.

Example C81_generated_case : exists h', generate_sign_cert (sign_device (Some rnd1) (Some [1; 2])) two_arrays 1 2 = Ok (0%Z, h') /\ array_at h' 1 4 ([1; 2] ++ s2b "0123456789ABCDE" ++ [160]) /\ array_at h' 2 3 [1; 2].
Proof. eexists. split; [vm_compute; reflexivity|]. split; split; vm_compute; reflexivity. Qed.

(** C81: the subjects agree exactly when the first 60 of the 64 random bits do. *)
Theorem C81_subject_partial : forall dv dv' r r', bytes_ok r -> bytes_ok r' -> blen r = 8 -> blen r' = 8 ->
  (subject_serial (meta_of dv r) = subject_serial (meta_of dv' r') <-> firstn 7 r = firstn 7 r' /\ nth 7 r 0 / 16 = nth 7 r' 0 / 16).
Proof. exact subject_same. Qed.
Print Assumptions C81_subject_partial.

Example C81_subject_case : subject_serial (meta_of (sign_device None None) rnd1) = s2b "0123456789ABCDE" /\ rnd1 <> rnd2 /\ firstn 7 rnd1 = firstn 7 rnd2 /\ nth 7 rnd1 0 / 16 = nth 7 rnd2 0 / 16.
Proof. split; [reflexivity|]. split; [discriminate|]. split; reflexivity. Qed.

(** C81: the serial number fits 64 bits and is decided by two bits of the third
    and all of the fourth and fifth draw of a generator seeded with the time in
    seconds. *)
Theorem C81_serial_partial : forall dv dv', device_ok dv -> device_ok dv' ->
  serial_of dv < 18446744073709551616 /\
  (serial_of dv = serial_of dv' <-> dv_rand dv (dv_now dv) 2 mod 4 = dv_rand dv' (dv_now dv') 2 mod 4 /\ dv_rand dv (dv_now dv) 3 = dv_rand dv' (dv_now dv') 3 /\ dv_rand dv (dv_now dv) 4 = dv_rand dv' (dv_now dv') 4).
Proof. exact serial_same. Qed.
Print Assumptions C81_serial_partial.

Example C81_serial_case : serial_of (sign_device None None) = 3650728645750948000 /\ gen_rand64 (dv_rand (sign_device None None)) 1700000000 = 3650728645750948000.
Proof. split; vm_compute; reflexivity. Qed.
