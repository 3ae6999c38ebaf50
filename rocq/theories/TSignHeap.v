(** C128: the memory of the command sign-cert, every allocation included. *)
From Verif Require Import Base MOs MBase64 MSerialize MVoucher MCrypto MRequest MHeap MArray MVoucherHeap MConfig MHandlers MLog MEnrolLogHeap MHandlerHeap MSignCert MSignHeap
  SBase64 SHeap SArray SConfig SVoucher SRequest SHandlers SPledge SLog SHandlerHeap SSignCert SSignHeap
  PRequest6 PPledge4 PRequestHeap12 PHandlerHeap10 PSignCert3 PSignHeap4.
Open Scope N_scope.

(** C128, what holds: success means that the generated key and the answered
    certificate are in the caller's arrays, an error that both are empty and
    there was nothing to obtain; nothing the caller had is changed, and nothing
    else is left unless the voucher repeats a member. The full statement has no
    such exception. *)
Theorem C128_outcome_partial : forall o w c f nn dv post1 post2 post3 h z h', ossl_sane o -> world_ok w -> heap_wf h -> plenty h -> pledge_config h c f -> pledge_text_ok f -> post_ok post1 -> post_ok post2 -> post_ca_ok post3 -> device_ok dv ->
  texts_at nn h -> pledge_fits w f post1 -> full_sign_cert_command o w c nn dv post1 post2 post3 h = Ok (z, h') ->
  (z = 0%Z /\ exists key cert, sign_obtains o w f dv post1 post2 post3 key cert /\ arrays_hold h h' cert key /\ (pledge_clean o w f post1 post2 -> both_arrays h h' cert key)) \/
  (z = (-1)%Z /\ (forall key cert, ~ sign_obtains o w f dv post1 post2 post3 key cert) /\ arrays_empty h h' /\ (pledge_clean o w f post1 post2 -> no_arrays h h')).
Proof. exact full_command_outcome. Qed.
Print Assumptions C128_outcome_partial.

(** A device enrols, and the two arrays with the certificate and the key are all
    that is left. *)
Example C128_case : exists h' cert, full_sign_cert_command toy pledge_world pledge_case_conf case_text case_device ask_first (reply issued) case_enrol case_heap = Ok (0%Z, h') /\
  both_arrays case_heap h' cert [1; 2] /\ cert = [1; 2] ++ s2b "0123456789ABCDE" ++ [160].
Proof. exact full_command_case. Qed.
Example C128_setting : forall m, m = issued \/ m = issued_twice ->
  ossl_sane toy /\ world_ok pledge_world /\ heap_wf case_heap /\ plenty case_heap /\ pledge_config case_heap pledge_case_conf (pledge_case_files (s2b "CQ==")) /\ pledge_text_ok (pledge_case_files (s2b "CQ==")) /\ post_ok ask_first /\ post_ok (reply m) /\
  post_ca_ok case_enrol /\ device_ok case_device /\ texts_at case_text case_heap /\ pledge_fits pledge_world (pledge_case_files (s2b "CQ==")) ask_first.
Proof. exact case_setting. Qed.

(** C128, the command succeeds whenever there is something to obtain. *)
Theorem C128_complete : forall o w c f nn dv post1 post2 post3 h key cert, ossl_sane o -> world_ok w -> heap_wf h -> plenty h -> pledge_config h c f -> pledge_text_ok f -> post_ok post1 -> post_ok post2 -> post_ca_ok post3 -> device_ok dv ->
  texts_at nn h -> pledge_fits w f post1 -> sign_obtains o w f dv post1 post2 post3 key cert -> exists h', full_sign_cert_command o w c nn dv post1 post2 post3 h = Ok (0%Z, h') /\ arrays_hold h h' cert key.
Proof. exact full_command_succeeds. Qed.
Print Assumptions C128_complete.

(** C128, exactly when the command does not survive: on a nonce, a voucher or an
    answer with bad base64 padding, or a listed certificate that cannot be read. *)
Theorem C128_exact : forall o w c f nn dv post1 post2 post3 h, ossl_sane o -> world_ok w -> heap_wf h -> plenty h -> pledge_config h c f -> pledge_text_ok f -> post_ok post1 -> post_ok post2 -> post_ca_ok post3 -> device_ok dv ->
  texts_at nn h -> pledge_fits w f post1 -> ((exists k, full_sign_cert_command o w c nn dv post1 post2 post3 h = UB k) <-> sign_unsafe o w f dv post1 post2 post3).
Proof. exact full_command_survives. Qed.
Print Assumptions C128_exact.

Example C128_exact_case : exists k, full_sign_cert_command toy pledge_world pledge_case_conf case_text case_device ask_first (reply issued) (sign_reply 200 (s2b "A===")) case_heap = UB k.
Proof. eexists. vm_compute. reflexivity. Qed.

(** C128 is false: with a voucher that repeats a member the command succeeds and
    leaves a block besides the two arrays, the certificate and the key. *)
Theorem C128_refuted : exists o w c f nn dv post1 post2 post3 h h', ossl_sane o /\ world_ok w /\ heap_wf h /\ plenty h /\ pledge_config h c f /\ pledge_text_ok f /\ post_ok post1 /\ post_ok post2 /\ post_ca_ok post3 /\ device_ok dv /\
  texts_at nn h /\ pledge_fits w f post1 /\ full_sign_cert_command o w c nn dv post1 post2 post3 h = Ok (0%Z, h') /\ lost h h' 5.
Proof. exact full_command_refuted. Qed.
Print Assumptions C128_refuted.
