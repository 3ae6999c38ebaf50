(** Theorems about TLS: whom the programs talk to, C93 to C99. *)
From Verif Require Import Base MSerialize MVoucher MCrypto MRequest MHeap MHandlers MHttp MSignCert MTls SBase64 SHeap SArray SConfig SVoucher SRequest SHandlers SPledge SSignCert STls
  PRequest6 PMasa PPledge3 PPledge4 PSignCert3 PTls2 PTls3.
Open Scope N_scope.

(** C93 is false: a server certified by a CA of the system, not by the pinned certificate,
    gets the enrolment request and its answer is taken. *)
Theorem C93_refuted : exists w net key cert host pinned pin body chain b t,
  tw_pem w (create_cert_string pinned) = Some [pin] /\ ~ trusted_by w [pin] chain /\
  enrol_post w net key cert host pinned body = ((200%Z, b), t) /\ written_to chain body t.
Proof. exact enrol_system_refuted. Qed.
Print Assumptions C93_refuted.

(** C93 is false: the pinned certificate cannot be read, and the request is sent all the same. *)
Theorem C93_unread_refuted : exists w net key cert host pinned body chain b t,
  tw_pem w (create_cert_string pinned) = None /\ enrol_post w net key cert host pinned body = ((200%Z, b), t) /\ written_to chain body t.
Proof. exact enrol_unread_refuted. Qed.
Print Assumptions C93_unread_refuted.

(** C93 is false: a server whose certificate is for another name. *)
Theorem C93_host_refuted : exists w net key cert host pinned body chain leaf b t,
  hd_error chain = Some leaf /\ tw_names w leaf host = false /\
  enrol_post w net key cert host pinned body = ((200%Z, b), t) /\ written_to chain body t.
Proof. exact enrol_host_refuted. Qed.
Print Assumptions C93_host_refuted.

(** C93, what holds: only servers certified by the pinned certificate or by a CA of the system. *)
Theorem C93_trusted_partial : forall w net key cert host pinned body res t, enrol_post w net key cert host pinned body = (res, t) ->
  written_only (trusted_by w ((match tw_pem w (create_cert_string pinned) with Some l => l | None => [] end) ++ tw_system w)) t.
Proof. exact enrol_only_trusted. Qed.
Print Assumptions C93_trusted_partial.

(** C93 holds where the system has no CAs. *)
Theorem C93_partial : forall w net key cert host pinned pin body res t, tw_pem w (create_cert_string pinned) = Some pin -> tw_system w = [] ->
  enrol_post w net key cert host pinned body = (res, t) -> written_only (trusted_by w pin) t.
Proof. exact enrol_only_pinned. Qed.
Print Assumptions C93_partial.

(** C93, exactly: the server reached first gets the request and is believed, or gets
    nothing and the function fails. *)
Theorem C93_exact_partial : forall w net key cert host pinned body res t chain a id, enrol_post w net key cert host pinned body = (res, t) -> net 0%nat = Reached chain a -> shows w cert key id ->
  (trusted_by w ((match tw_pem w (create_cert_string pinned) with Some l => l | None => [] end) ++ tw_system w) chain ->
     (exists l, tr_sent t = mk_sent chain id body :: l) /\ (forall z b, a id body = Replied z b -> res = (z, b))) /\
  (~ trusted_by w ((match tw_pem w (create_cert_string pinned) with Some l => l | None => [] end) ++ tw_system w) chain -> tr_sent t = [] /\ fst res = (-1)%Z).
Proof. exact enrol_first. Qed.
Print Assumptions C93_exact_partial.

(** C93 for the command sign-cert: the connections behind a success. *)
Theorem C93_sign_partial : forall o w tw c f dv net1 net2 net3 key cert host h h', ossl_sane o -> world_ok w -> heap_wf h -> plenty h -> pledge_config h c f -> pledge_text_ok f -> device_ok dv ->
  network_ok net1 -> network_ok net2 -> network_ok net3 ->
  sign_cert_command o w c dv (fun b => fst (pledge_post tw net1 key cert host b)) (fun b => fst (pledge_post tw net2 key cert host b))
    (fun ca b => fst (httplib_post_request_ca tw net3 key cert ca host b)) h = Ok (0%Z, h') ->
  exists tls1 tls2 cms voucher m d own_key own_cert issued z1 r1 z2 z3 answer n chain a id,
    answered net1 tls1 [] z1 r1 /\ pledge_asks o w f tls1 cms /\
    answered net2 tls2 (rfc_encode cms) z2 voucher /\ rfc_decode (c_string voucher) = Some m /\ pledge_takes o w f tls2 m d /\
    generated dv own_key own_cert /\
    net3 n = Reached chain a /\ trusted_by tw ((match tw_pem tw (pem d) with Some l => l | None => [] end) ++ tw_system tw) chain /\
    shows tw cert key id /\ a id (rfc_encode own_cert) = Replied z3 answer /\ rfc_decode (c_string answer) = Some issued /\ both_arrays h h' issued own_key.
Proof. exact sign_over_tls. Qed.
Print Assumptions C93_sign_partial.

Example C93_case : exists t, enrol_post (toy_tls []) (always leaf_of_pinned (Replied 200 (s2b "cert"))) [1] [2; 1] [5] (s2b "AQE=") (s2b "body") = ((200%Z, s2b "cert"), t) /\ written_to leaf_of_pinned (s2b "body") t /\
  exists t', enrol_post (toy_tls []) (always leaf_of_system (Replied 200 (s2b "cert"))) [1] [2; 1] [5] (s2b "AQE=") (s2b "body") = (((-1)%Z, []), t') /\ nothing_written t'.
Proof. eexists. split; [vm_compute; reflexivity|]. split; [eexists; split; [left; reflexivity | split; reflexivity]|]. eexists. split; [vm_compute; reflexivity | reflexivity]. Qed.
Example C93_sign_case : exists h', sign_cert_command toy pledge_world pledge_case_conf (sign_device (Some rnd1) (Some [1; 2]))
  (fun b => fst (pledge_post (toy_tls [system_ca]) (always [plain [2; 7]] (Replied 404 [])) [1] [2; 1] [5] b))
  (fun b => fst (pledge_post (toy_tls [system_ca]) (always [plain [2; 7]] (Replied 200 (rfc_encode issued))) [1] [2; 1] [5] b))
  (fun ca b => fst (httplib_post_request_ca (toy_tls [system_ca]) (always [plain [2; 7]] (Replied 200 (s2b "AA=="))) [1] [2; 1] ca [5] b)) sign_heap = Ok (0%Z, h').
Proof. eexists. vm_compute. reflexivity. Qed.
(** The same device, enrolled by a stranger with a certificate from a CA of the system. *)
Example C93_sign_stranger : exists h', sign_cert_command toy pledge_world pledge_case_conf (sign_device (Some rnd1) (Some [1; 2]))
  (fun b => fst (pledge_post (toy_tls [system_ca]) (always [plain [2; 7]] (Replied 404 [])) [1] [2; 1] [5] b))
  (fun b => fst (pledge_post (toy_tls [system_ca]) (always [plain [2; 7]] (Replied 200 (rfc_encode issued))) [1] [2; 1] [5] b))
  (fun ca b => fst (httplib_post_request_ca (toy_tls [system_ca]) (always leaf_of_system (Replied 200 (s2b "AA=="))) [1] [2; 1] ca [5] b)) sign_heap = Ok (0%Z, h').
Proof. eexists. vm_compute. reflexivity. Qed.

(** C94 is false: a server certified by nobody. *)
Theorem C94_refuted : exists w net key cert host ca body chain b peer t,
  ~ trusted_by w (tw_ca_file w ca ++ tw_system w) chain /\
  registrar_post w net key cert host body = ((200%Z, b, peer), t) /\ written_to chain body t.
Proof. exact post_anyone_refuted. Qed.
Print Assumptions C94_refuted.

(** C94, exactly: whoever answers at the address gets the request and is believed. *)
Theorem C94_exact_partial : forall w net key cert host body chain a id res t, shows w cert key id -> net 0%nat = Reached chain a ->
  registrar_post w net key cert host body = (res, t) ->
  written_to chain body t /\ (forall z b, a id body = Replied z b -> fst res = (z, b)).
Proof. exact post_anyone. Qed.
Print Assumptions C94_exact_partial.

Example C94_case : exists t, registrar_post (toy_tls []) (always [] (Replied 200 (s2b "voucher"))) [1] [2; 1] [5] (s2b "body") = ((200%Z, s2b "voucher", None), t) /\ written_to [] (s2b "body") t.
Proof. eexists. split; [vm_compute; reflexivity|]. eexists. split; [left; reflexivity | split; reflexivity]. Qed.

(** C95 is false: with an empty path the request goes out without a certificate. *)
Theorem C95_refuted : exists w net key host body b peer t s,
  tw_client_pair w [] key = None /\ pledge_post w net key [] host body = ((200%Z, b, peer), t) /\ In s (tr_sent t) /\ sn_identity s = None.
Proof. exact identity_refuted. Qed.
Print Assumptions C95_refuted.

(** C95 for paths that are not empty. *)
Theorem C95_partial : forall w net key cert host verify pinned body, cert <> [] -> key <> [] ->
  (forall res t s, httplib_post_request w net key cert host verify body = (res, t) -> In s (tr_sent t) -> exists c, tw_client_pair w cert key = Some c /\ sn_identity s = Some c) /\
  (forall res t s, enrol_post w net key cert host pinned body = (res, t) -> In s (tr_sent t) -> exists c, tw_client_pair w cert key = Some c /\ sn_identity s = Some c) /\
  (tw_client_pair w cert key = None ->
     httplib_post_request w net key cert host verify body = (((-1)%Z, [], None), mk_trace [] []) /\
     enrol_post w net key cert host pinned body = (((-1)%Z, []), mk_trace [] [])).
Proof. exact configured_identity. Qed.
Print Assumptions C95_partial.

Example C95_case : exists res t s, httplib_post_request (toy_tls []) (always [] (Replied 200 (s2b "voucher"))) [1] [2; 1] [5] false (s2b "body") = (res, t) /\ In s (tr_sent t) /\ sn_identity s = Some (plain [2; 1]).
Proof. eexists. eexists. eexists. split; [vm_compute; reflexivity|]. split; [left; reflexivity | reflexivity]. Qed.

(** C96 is false of the registrar: a client certified by nobody is served, whatever tlsCACertPath is. *)
Theorem C96_refuted : exists w cp cert key ca rv se listen chain,
  ~ trusted_by w (tw_ca_file w ca ++ tw_system w) chain /\ serves w (registrar_start w cp (Some cert) (Some key) (Some ca) rv se listen) chain.
Proof. exact registrar_serves_refuted. Qed.
Print Assumptions C96_refuted.

(** C96 is false of a MASA for which no tlsCACertPath is set. *)
Theorem C96_open_refuted : exists w cp cert key rv listen chain,
  ~ trusted_by w (tw_system w) chain /\ serves w (masa_start w cp (Some cert) (Some key) None rv listen) chain.
Proof. exact masa_serves_refuted. Qed.
Print Assumptions C96_open_refuted.

(** C96 holds of a MASA with tlsCACertPath, exactly. *)
Theorem C96_masa_partial : forall w cp cert key ca rv listen chain z set ctx, masa_start w cp cert key (Some ca) rv listen = Ok (z, set, Some ctx) -> (ssl_accepts w ctx chain = true <-> trusted_by w (tw_ca_file w ca) chain).
Proof. exact masa_serves_all. Qed.
Print Assumptions C96_masa_partial.

(** What the registrar asks for: a certificate, whatever it is. *)
Theorem C96_registrar_partial : forall w cp cert key ca rv se listen chain z set ctx, registrar_start w cp cert key ca rv se listen = Ok (z, set, Some ctx) -> (ssl_accepts w ctx chain = true <-> chain <> []).
Proof. exact registrar_serves_all. Qed.
Print Assumptions C96_registrar_partial.

Example C96_case : exists z set ctx, masa_start (toy_tls []) any_path (Some [2; 1]) (Some [1]) (Some [3; 3]) idle (fun _ => Some true) = Ok (z, set, Some ctx) /\
  ssl_accepts (toy_tls []) ctx [plain [5; 3]] = true /\ ssl_accepts (toy_tls []) ctx [plain [5; 5]] = false /\ ssl_accepts (toy_tls []) ctx [] = false.
Proof. eexists. eexists. eexists. split; [vm_compute; reflexivity|]. split; [|split]; reflexivity. Qed.

(** C97 is false: a registrar whose certificate or key file cannot be used crashes. *)
Theorem C97_refuted : exists w cp cert key rv se listen, tw_server_pair w cert key = None /\ (forall s, listen s = Some true) /\
  forall ca, registrar_start w cp (Some cert) (Some key) ca rv se listen = UB NullDeref.
Proof. exact start_crash_refuted. Qed.
Print Assumptions C97_refuted.

(** C97 is false: a MASA with such files starts and serves nobody. *)
Theorem C97_silent_refuted : exists w cp cert key ca rv listen, tw_server_pair w cert key = None /\
  masa_start w cp (Some cert) (Some key) (Some ca) rv listen = Ok (0%Z, true, None).
Proof. exact start_silent_refuted. Qed.
Print Assumptions C97_silent_refuted.

(** C97, exactly when the start crashes in the set-up of TLS. *)
Theorem C97_exact_partial : forall w cp cert key ca routes listen, httplib_start_tls w cp cert key ca routes listen = UB NullDeref <->
  exists c k, cert = Some c /\ key = Some k /\ ca = None /\ tw_server_pair w c k = None.
Proof. exact start_crash_exact. Qed.
Print Assumptions C97_exact_partial.

Example C97_case : exists ctx, registrar_start (toy_tls []) any_path (Some [2; 1]) (Some [1]) None idle idle (fun _ => Some true) = Ok (0%Z, true, Some ctx).
Proof. eexists. vm_compute. reflexivity. Qed.

(** C98: the certificate handed back was shown on the connection that gave the answer. *)
Theorem C98_peer : forall w net key cert host body z b peer t, httplib_post_request w net key cert host false body = ((z, b, peer), t) -> z <> (-1)%Z ->
  exists n chain a id before, net n = Reached chain a /\ a id body = Replied z b /\ tr_sent t = before ++ [mk_sent chain id body] /\
    peer = match hd_error chain with Some c => if cv_der c then Some c else None | None => None end.
Proof. exact peer_of_answer. Qed.
Print Assumptions C98_peer.

(** C98 is false of the memory: a certificate is never released. *)
Theorem C98_refuted : exists w net key cert host body b peer t, pledge_post w net key cert host body = ((200%Z, b, peer), t) /\ tr_lost t <> [].
Proof. exact lost_refuted. Qed.
Print Assumptions C98_refuted.

(** C98, exactly when that happens. *)
Theorem C98_lost_partial : forall w net key cert host body res t id, shows w cert key id -> httplib_post_request w net key cert host false body = (res, t) ->
  (tr_lost t <> [] <-> exists chain a chain1 a1, net 0%nat = Reached chain a /\ a id body = Closed /\ net 1%nat = Reached chain1 a1 /\ chain <> []).
Proof. exact lost_exact. Qed.
Print Assumptions C98_lost_partial.

(** It does not happen in the enrolment. *)
Theorem C98_enrol_partial : forall w net key cert host pinned body res t, enrol_post w net key cert host pinned body = (res, t) -> tr_lost t = [].
Proof. exact verified_never_lost. Qed.
Print Assumptions C98_enrol_partial.

Example C98_case : exists t, pledge_post (toy_tls []) (fun n => Reached [plain [N.of_nat n; 5]] (fun _ _ => match n with O => Closed | _ => Replied 200 (s2b "voucher") end)) [1] [2; 1] [5] (s2b "body") = ((200%Z, s2b "voucher", Some (plain [1; 5])), t) /\ tr_lost t = [plain [0; 5]].
Proof. eexists. split; [vm_compute; reflexivity | reflexivity]. Qed.

(** C99 is false: one call, two enrolment requests. *)
Theorem C99_refuted : exists w net key cert host pinned body b t, enrol_post w net key cert host pinned body = ((200%Z, b), t) /\ List.length (tr_sent t) = 2%nat.
Proof. exact twice_refuted. Qed.
Print Assumptions C99_refuted.

(** C99 is false: the call fails although the request was written. *)
Theorem C99_failed_refuted : exists w net key cert host pinned body t, enrol_post w net key cert host pinned body = (((-1)%Z, []), t) /\ tr_sent t <> [].
Proof. exact failed_refuted. Qed.
Print Assumptions C99_failed_refuted.

(** C99, what holds: at most two, and the second only after the server closed without answer. *)
Theorem C99_partial : forall w net key cert host pinned body, (forall res t, httplib_post_request w net key cert host false body = (res, t) -> (List.length (tr_sent t) <= 2)%nat /\
     ((2 <= List.length (tr_sent t))%nat -> exists chain a id, net 0%nat = Reached chain a /\ shows w cert key id /\ a id body = Closed)) /\
  (forall res t, enrol_post w net key cert host pinned body = (res, t) -> (List.length (tr_sent t) <= 2)%nat /\
     ((2 <= List.length (tr_sent t))%nat -> exists chain a id, net 0%nat = Reached chain a /\ shows w cert key id /\ a id body = Closed)).
Proof. exact sent_count. Qed.
Print Assumptions C99_partial.

Example C99_case : exists t, enrol_post (toy_tls []) (fun n => Reached leaf_of_pinned (fun _ _ => match n with O => Failed | _ => Replied 200 [] end)) [1] [2; 1] [5] (s2b "AQE=") (s2b "body") = (((-1)%Z, []), t) /\ List.length (tr_sent t) = 1%nat.
Proof. eexists. split; [vm_compute; reflexivity | reflexivity]. Qed.
