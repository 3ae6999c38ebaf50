(** Property theorems C41-C47: the HTTP handlers and the pledge client. *)
From Verif Require Import Base PBase MOs MBase64 MSerialize MVoucher MCrypto MRequest MHeap MArray MVoucherHeap MConfig MHandlers SBase64 SHeap SArray SConfig SVoucher SRequest SHandlers
  PRequest6 PMasa PMasa2 PRegistrar2.
Open Scope N_scope.

(** C41, for requests served one after another. *)
Theorem C41_masa_answers : forall o w c f bodies h answers h', ossl_sane o -> world_ok w -> heap_wf h -> plenty h -> masa_config h c f -> Forall bytes_ok bodies ->
  masa_serves o w c 0 h bodies = Ok (answers, h') -> Forall2 (masa_answer o w f) bodies answers.
Proof. exact masa_answers. Qed.
Print Assumptions C41_masa_answers.

Example C41_case : exists h', masa_serves toy masa_world masa_case_conf 0 masa_case [rfc_encode outer_cms; s2b "AAAA"; s2b "!"; rfc_encode outer_cms] =
  Ok ([(200%Z, rfc_encode (3 :: s2b "{""ietf-voucher:voucher"":{""expires-on"":""1973-11-29T21:33:09Z"",""assertion"":""proximity"",""serial-number"":""A"",""pinned-domain-cert"":""Bwc="",""domain-cert-revocation-checks"":false,""nonce"":""CQ==""}}"));
       (400%Z, []); (400%Z, []);
       (200%Z, rfc_encode (3 :: s2b "{""ietf-voucher:voucher"":{""expires-on"":""1973-11-29T21:33:09Z"",""assertion"":""proximity"",""serial-number"":""A"",""pinned-domain-cert"":""Bwc="",""domain-cert-revocation-checks"":false,""nonce"":""CQ==""}}"))], h') /\
  masa_config masa_case masa_case_conf masa_case_files.
Proof. eexists. split; [vm_compute; reflexivity|exact masa_case_config]. Qed.

(** C42 is false: a body with bad base64 padding makes the endpoint release a
    block twice. *)
Theorem C42_refuted : exists o w c f h body k, ossl_sane o /\ world_ok w /\ heap_wf h /\ plenty h /\ masa_config h c f /\ bytes_ok body /\
  masa_requestvoucher o w c 0 h body = UB k.
Proof. exact masa_survives_refuted. Qed.
Print Assumptions C42_refuted.

(** C42, exactly when it fails. *)
Theorem C42_exact_partial : forall o w c f bodies h, ossl_sane o -> world_ok w -> heap_wf h -> plenty h -> masa_config h c f -> Forall bytes_ok bodies ->
  ((exists k, masa_serves o w c 0 h bodies = UB k) <-> Exists (masa_crash w f) bodies).
Proof. exact masa_survives_iff. Qed.
Print Assumptions C42_exact_partial.

(** C42 for bodies without bad padding and lists that load. *)
Theorem C42_partial : forall o w c f bodies h, ossl_sane o -> world_ok w -> heap_wf h -> plenty h -> masa_config h c f -> Forall bytes_ok bodies ->
  Forall (fun ts => ~ missing (w_cert w) ts) (masa_lists f) -> Forall (fun b => ~ bad_padding (c_string b)) bodies ->
  exists answers h', masa_serves o w c 0 h bodies = Ok (answers, h') /\ kept (hp_next h) h h' /\ no_leak (hp_next h) h'.
Proof. exact masa_survives. Qed.
Print Assumptions C42_partial.

(** C42, the release: every history that is survived leaves nothing behind. *)
Theorem C42_released : forall o w c f bodies h answers h', ossl_sane o -> world_ok w -> heap_wf h -> plenty h -> masa_config h c f -> Forall bytes_ok bodies ->
  masa_serves o w c 0 h bodies = Ok (answers, h') -> kept (hp_next h) h h' /\ no_leak (hp_next h) h'.
Proof. exact masa_released. Qed.
Print Assumptions C42_released.

Example C42_case : exists answers h', masa_serves toy masa_world masa_case_conf 0 masa_case [rfc_encode outer_cms; s2b "AA=="; s2b "AA=A"; s2b ""] = Ok (answers, h') /\ no_leak 11 h'.
Proof.
  destruct (masa_serves toy masa_world masa_case_conf 0 masa_case [rfc_encode outer_cms; s2b "AA=="; s2b "AA=A"; s2b ""]) as [[a h']|k] eqn:E; [|exfalso; vm_compute in E; discriminate E].
  exists a, h'. split; [reflexivity|]. refine (proj2 (C42_released _ _ _ masa_case_files _ _ _ _ toy_sane masa_world_ok masa_case_wf (fun a => eq_refl) masa_case_config _ E)).
  repeat (apply Forall_cons; [apply bytes_okb_ok; vm_compute; reflexivity|]). apply Forall_nil.
Qed.

(** C43 is false: the MASA refuses with 403 and the pledge gets 200 with an
    empty body. *)
Theorem C43_refuted : exists o w c f post h v body m cms h', ossl_sane o /\ world_ok w /\ heap_wf h /\ plenty h /\ registrar_config h c f /\ bytes_ok body /\ view_ok v /\
  rfc_decode (c_string body) = Some m /\ registrar_posts o w f v m cms /\ fst (post (rfc_encode cms)) = 403%Z /\
  registrar_requestvoucher o w c post h (Some v) body = Ok (200%Z, [], h').
Proof. exact refusal_refuted. Qed.
Print Assumptions C43_refuted.

(** C43 and C44, exactly what the pledge gets for a request that is passed on:
    502 when the MASA cannot be reached, the MASA's body when it answered below
    400, and 200 with nothing when it refused. The full C43 asks for an error
    status in the last case. *)
Theorem C43_exact_partial : forall o w c f post h v body m cms, ossl_sane o -> world_ok w -> heap_wf h -> plenty h -> registrar_config h c f -> bytes_ok body -> view_ok v ->
  rfc_decode (c_string body) = Some m -> registrar_posts o w f v m cms -> blen cms < SIZE_MAX / 4 ->
  exists h', registrar_requestvoucher o w c post h (Some v) body =
    Ok (let (status, response) := post (rfc_encode cms) in
        if (status <? 0)%Z then (502%Z, masa_unreachable) else if (status <? 400)%Z then (200%Z, response) else (200%Z, []), h').
Proof. exact registrar_forwards. Qed.
Print Assumptions C43_exact_partial.

Example C43_case : exists h1 h2 h3,
  registrar_requestvoucher toy registrar_world registrar_case_conf (fun b => (201%Z, 7 :: b)) registrar_case (Some pledge_view) pledge_body =
    Ok (200%Z, 7 :: rfc_encode (2 :: s2b "{""ietf-voucher:voucher"":{""created-on"":""1973-11-29T21:33:09Z"",""serial-number"":""A"",""idevid-issuer"":""bWFrZXIgQ0E="",""domain-cert-revocation-checks"":false,""nonce"":""AQID"",""prior-signed-voucher-request"":""" ++ pledge_body ++ s2b """}}"), h1) /\
  registrar_requestvoucher toy registrar_world registrar_case_conf (fun b => ((-1)%Z, b)) registrar_case (Some pledge_view) pledge_body = Ok (502%Z, masa_unreachable, h2) /\
  registrar_requestvoucher toy registrar_world registrar_case_conf (fun b => (500%Z, b)) registrar_case (Some pledge_view) pledge_body = Ok (200%Z, [], h3).
Proof. do 3 eexists. split; [vm_compute; reflexivity|split; vm_compute; reflexivity]. Qed.

(** C44. *)
Theorem C44_registrar_answers : forall o w c f post h peer body status response h', ossl_sane o -> world_ok w -> heap_wf h -> plenty h -> registrar_config h c f -> bytes_ok body -> (forall v, peer = Some v -> view_ok v) ->
  registrar_requestvoucher o w c post h peer body = Ok (status, response, h') -> registrar_answer o w f post peer body (status, response).
Proof. exact registrar_answers. Qed.
Print Assumptions C44_registrar_answers.

(** C44, a client without a certificate. *)
Theorem C44_no_client : forall o w c post h body, registrar_requestvoucher o w c post h None body = Ok (400%Z, [], h).
Proof. exact registrar_no_client. Qed.
Print Assumptions C44_no_client.

(** A pledge whose serial number is not that of its certificate; a registrar
    without its TLS certificate. *)
Example C44_case : exists h1 h2,
  registrar_requestvoucher toy registrar_world registrar_case_conf (fun b => (200%Z, b)) registrar_case
    (Some (mk_view (cv_issuer_entry pledge_view) (fun n => if beqb n (s2b "serialNumber") then Some (Some (s2b "B")) else Some None) (cv_issuer_text pledge_view) (cv_der pledge_view))) pledge_body = Ok (400%Z, [], h1) /\
  registrar_requestvoucher toy (mk_world (files_case [(s2b "reg", [2; 0])]) (w_key registrar_world) (w_now registrar_world)) registrar_case_conf (fun b => (200%Z, b)) registrar_case (Some pledge_view) pledge_body = Ok (500%Z, [], h2) /\
  registrar_config registrar_case registrar_case_conf registrar_case_files /\ view_ok pledge_view.
Proof. do 2 eexists. split; [vm_compute; reflexivity|]. split; [vm_compute; reflexivity|]. split; [exact registrar_case_config|exact (pledge_view_ok _ eq_refl)]. Qed.

(** C69 is false: a body with bad padding makes the registrar release a block twice. *)
Theorem C69_refuted : exists o w c f post h v body k, ossl_sane o /\ world_ok w /\ heap_wf h /\ plenty h /\ registrar_config h c f /\ bytes_ok body /\ view_ok v /\
  registrar_requestvoucher o w c post h (Some v) body = UB k.
Proof. exact registrar_survives_refuted. Qed.
Print Assumptions C69_refuted.

(** C69, exactly when it fails. *)
Theorem C69_exact_partial : forall o w c f post h peer body, ossl_sane o -> world_ok w -> heap_wf h -> plenty h -> registrar_config h c f -> bytes_ok body -> (forall v, peer = Some v -> view_ok v) ->
  ((exists k, registrar_requestvoucher o w c post h peer body = UB k) <-> registrar_unsafe o w f peer body).
Proof. exact registrar_survives_iff. Qed.
Print Assumptions C69_exact_partial.

(** C69, the release. *)
Theorem C69_released : forall o w c f post h peer body status response h', ossl_sane o -> world_ok w -> heap_wf h -> plenty h -> registrar_config h c f -> bytes_ok body -> (forall v, peer = Some v -> view_ok v) ->
  registrar_requestvoucher o w c post h peer body = Ok (status, response, h') -> kept (hp_next h) h h' /\ no_leak (hp_next h) h'.
Proof. exact registrar_released. Qed.
Print Assumptions C69_released.

Example C69_case :
  registrar_requestvoucher toy registrar_world registrar_case_conf (fun b => (200%Z, b)) registrar_case (Some pledge_view) (rfc_encode (1 :: s2b "{""ietf-voucher:voucher"":{""assertion"":""proximity""}}")) = UB NullDeref /\
  registrar_requestvoucher toy registrar_world registrar_case_conf (fun b => (200%Z, b)) registrar_case (Some pledge_view) (s2b "====") = UB DoubleFree /\
  exists h', registrar_requestvoucher toy registrar_world registrar_case_conf (fun b => (200%Z, b)) registrar_case (Some pledge_view) (s2b "AA==") = Ok (400%Z, [], h').
Proof. split; [vm_compute; reflexivity|]. split; [vm_compute; reflexivity|]. eexists. vm_compute. reflexivity. Qed.

(** C70. *)
Theorem C70_enroll_answers : forall sc w c cert key h peer body status response h', (forall k ct tbs out, sc k ct tbs = Some out -> bytes_ok out) ->
  heap_wf h -> plenty h -> heap_string h (rc_ca_cert c) = Ok cert -> heap_string h (rc_ca_key c) = Ok key -> bytes_ok body ->
  registrar_est_simpleenroll sc w c h peer body = Ok (status, response, h') -> enroll_answer sc w cert key body (status, response) /\ kept (hp_next h) h h' /\ no_leak (hp_next h) h'.
Proof. exact enroll_answers. Qed.
Print Assumptions C70_enroll_answers.

Example C70_case : exists h1 h2,
  registrar_est_simpleenroll toy_sign registrar_world registrar_case_conf registrar_case (Some pledge_view) (rfc_encode [9; 8; 7]) = Ok (200%Z, rfc_encode [9; 5; 8; 7], h1) /\
  registrar_est_simpleenroll toy_sign registrar_world registrar_case_conf registrar_case (Some pledge_view) (s2b "!") = Ok (400%Z, [], h2).
Proof. do 2 eexists. split; vm_compute; reflexivity. Qed.

(** C71 is false. *)
Theorem C71_refuted : exists sc w c h peer body k, (forall k ct tbs out, sc k ct tbs = Some out -> bytes_ok out) /\ world_ok w /\ heap_wf h /\ plenty h /\
  heap_string h (rc_ca_cert c) = Ok (s2b "ca") /\ heap_string h (rc_ca_key c) = Ok (s2b "cakey") /\ bytes_ok body /\ registrar_est_simpleenroll sc w c h peer body = UB k.
Proof. exact enroll_survives_refuted. Qed.
Print Assumptions C71_refuted.

(** C71, exactly when it fails. *)
Theorem C71_exact_partial : forall sc w c cert key h peer body, (forall k ct tbs out, sc k ct tbs = Some out -> bytes_ok out) ->
  heap_wf h -> plenty h -> heap_string h (rc_ca_cert c) = Ok cert -> heap_string h (rc_ca_key c) = Ok key -> bytes_ok body ->
  ((exists k, registrar_est_simpleenroll sc w c h peer body = UB k) <-> bad_padding (c_string body)).
Proof. exact enroll_survives_iff. Qed.
Print Assumptions C71_exact_partial.

Example C71_case : ~ bad_padding (c_string (s2b "AA==")) /\ bad_padding (c_string (s2b "A===")).
Proof. split; [intros (g & H & L); vm_compute in H; injection H as <-; vm_compute in L; lia|]. eexists. split; [vm_compute; reflexivity|vm_compute; lia]. Qed.

(** C72 is false: a client without a certificate gets its certificate signed. *)
Theorem C72_refuted : exists sc w c h body tbs out h', (forall k ct tbs out, sc k ct tbs = Some out -> bytes_ok out) /\ world_ok w /\ heap_wf h /\ plenty h /\
  heap_string h (rc_ca_cert c) = Ok (s2b "ca") /\ heap_string h (rc_ca_key c) = Ok (s2b "cakey") /\ bytes_ok body /\
  rfc_decode (c_string body) = Some tbs /\ enrolls sc w (s2b "ca") (s2b "cakey") tbs out /\ registrar_est_simpleenroll sc w c h None body = Ok (200%Z, rfc_encode out, h').
Proof. exact enroll_stranger_refuted. Qed.
Print Assumptions C72_refuted.

(** C72, how far it is from the claim: every client without a certificate gets
    every certificate signed that the CA can sign. *)
Theorem C72_anyone : forall sc w c cert key h body tbs out, (forall k ct tbs out, sc k ct tbs = Some out -> bytes_ok out) ->
  heap_wf h -> plenty h -> heap_string h (rc_ca_cert c) = Ok cert -> heap_string h (rc_ca_key c) = Ok key -> bytes_ok body ->
  rfc_decode (c_string body) = Some tbs -> enrolls sc w cert key tbs out -> blen out < SIZE_MAX / 4 ->
  exists h', registrar_est_simpleenroll sc w c h None body = Ok (200%Z, rfc_encode out, h').
Proof. exact enroll_stranger. Qed.
Print Assumptions C72_anyone.
