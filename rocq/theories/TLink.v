(** Theorems about the three parties joined by TLS and HTTP, C106 to C111. *)
From Verif Require Import Base MBase64 MSerialize MVoucher MCrypto MRequest MHeap MArray MHandlers MHttp MSignCert SBase64 SHeap SArray SJson SVoucher SRequest SHandlers SPledge SChain SSignCert SHttp
  PRequest6 PMasa PRegistrar2 PPledge4 PChain2 PSignCert3 MTls STls MWire SWire MLink SLink PHttp PHttp2 PTls2 PWire8 PLink3 PLink4.
Open Scope N_scope.

(** C106: over TLS and HTTP the pledge's run ends as with the handlers called directly. *)
Theorem C106_transparent : forall o tw cp R M client server w c f h pinned post1 key cert host port ways,
  ossl_sane o -> sides_ok tw cp R M server -> view_ok client -> line_to tw cp (rs_ctx R) ways host port key cert client -> pledge_fine w c f h pinned -> post_ok post1 ->
  same_end h pinned (post_voucher_pledge_request o w c post1 (wired_registrar o tw cp R M key cert host port ways) h pinned) (post_voucher_pledge_request o w c post1 (direct o R M client server) h pinned).
Proof. exact transparent. Qed.
Print Assumptions C106_transparent.

(** C106: the request without a body shows the pledge exactly the certificate the registrar serves with. *)
Theorem C106_first_contact : forall o tw cp R M client server key cert host port ways tls1, ossl_sane o -> sides_ok tw cp R M server -> view_ok client -> line_to tw cp (rs_ctx R) ways host port key cert client ->
  first_contact (wired_registrar o tw cp R M key cert host port ways) tls1 <-> cv_der server = Some tls1.
Proof. exact first_wired. Qed.
Print Assumptions C106_first_contact.

Example C106_case : sides_ok link_tls dot_compile link_registrar link_masa (PPledge4.server [2; 7]) /\
  line_to link_tls dot_compile (rs_ctx link_registrar) link_ways (s2b "registrar.example") 443 (s2b "pledge.key") (s2b "pledge.crt") pledge_view /\
  pledge_fine pledge_world pledge_case_conf (pledge_case_files (s2b "CQ==")) (pledge_case (s2b "CQ==")) 8 /\
  fst (to_registrar []) = (400%Z, s2b "Router error") /\ fst (to_registrar (s2b "AA")) = (400%Z, s2b "Router error") /\ fst (to_registrar (s2b "====")) = ((-1)%Z, []).
Proof.
  split; [exact sides_case|]. split; [exact pledge_line_case|]. split; [apply pledge_fine_case; apply PBase.cstr_okb_ok; reflexivity|]. repeat split; vm_compute; reflexivity.
Qed.


(** C107: with parties that trust each other's certificates, each listening and let in, the pledge
    ends with the MASA's domain certificate, over the bytes of HTTP, however they are split. *)
Theorem C107_onboarding : forall o tw cp R M client server w c f h pinned key cert host port ways1 ways2 k
    t1 t2 t3 s n i rc d pcert pkey padd pverify pstore rcert rkey radd rverify rstore mcert mkey madd mrverify mrstore mpverify mpstore,
  ossl_sane o -> sides_ok tw cp R M server -> view_ok client -> line_to tw cp (rs_ctx R) ways1 host port key cert client -> line_to tw cp (rs_ctx R) ways2 host port key cert client -> pledge_fine w c f h pinned ->
  pledge_time w f = Some t1 -> w_now (rs_world R) = Some t2 -> serialize_str2time (mf_expires (ms_files M)) = Some t3 -> date_ready t1 -> date_ready t2 -> date_ready t3 ->
  pf_serial f = Some s -> Forall SJson.plain_char s -> blen s < 128 -> client_serial client s ->
  nonce_given f n -> (forall x, n = Some x -> x <> [] /\ bytes_ok x) -> cv_issuer_text client = Some i -> i <> [] ->
  cv_der server = Some rc -> rc <> [] -> d <> [] ->
  pledge_material w f pcert pkey padd pverify pstore -> registrar_material (rs_world R) (rs_files R) rc rcert rkey radd rverify rstore ->
  masa_material (ms_world M) (ms_files M) d mcert mkey madd mrverify mrstore mpverify mpstore ->
  4 * (match n with None => 0 | Some x => blen x end + blen rc + blen i + blen d + k) + 40000 < 2147483648 ->
  trusts o (Some (ba_of pcert)) (Some (ba_of pkey)) padd rverify rstore false k -> trusts o (Some (ba_of pcert)) (Some (ba_of pkey)) padd mpverify mpstore false k ->
  trusts o (Some (ba_of rcert)) (Some (ba_of rkey)) radd mrverify mrstore true k -> trusts o (Some (ba_of mcert)) (Some (ba_of mkey)) madd pverify pstore false k ->
  chains o (Some (ba_of rc)) d None ->
  exists h', post_voucher_pledge_request o w c (wired_registrar o tw cp R M key cert host port ways1) (wired_registrar o tw cp R M key cert host port ways2) h pinned = Ok (0%Z, h') /\ pinned_result h h' pinned d.
Proof. exact honest_wired. Qed.
Print Assumptions C107_onboarding.

Example C107_case : exists h', link_case (s2b "CQ==") = Ok (0%Z, h') /\ hp_cell h' 8 = Live (Struct [P 33; I 2]) /\ hp_cell h' 33 = Live (Buf [7; 7]).
Proof. eexists. split; [vm_compute; reflexivity|]. split; vm_compute; reflexivity. Qed.


(** C108: whoever answered the first connection, success over the wire means that the pledge holds
    the domain certificate of the MASA, that the first connection showed the registrar's own TLS
    certificate, and that the registrar saw the pledge's serial number. *)
Theorem C108_onboarding_sound : forall o tw cp R M client server w c f h pinned key cert host port net1 ways2 h',
  ossl_sane o -> genuine o -> sides_ok tw cp R M server -> view_ok client -> line_to tw cp (rs_ctx R) ways2 host port key cert client -> pledge_fine w c f h pinned -> network_ok net1 ->
  pledge_ready w f -> registrar_values (rs_world R) client -> masa_values (ms_world M) (ms_files M) -> (forall tls1, first_contact (ask_registrar tw net1 key cert host) tls1 -> bytes_ready tls1) ->
  post_voucher_pledge_request o w c (ask_registrar tw net1 key cert host) (wired_registrar o tw cp R M key cert host port ways2) h pinned = Ok (0%Z, h') ->
  exists d tls s, w_cert (ms_world M) (mf_ldevid (ms_files M)) = Some d /\ pinned_result h h' pinned d /\
    first_contact (ask_registrar tw net1 key cert host) tls /\ w_cert (rs_world R) (rf_tls (rs_files R)) = Some tls /\
    (exists tls2, cv_der server = Some tls2 /\ chains o (Some (ba_of tls2)) d None) /\ pf_serial f = Some s /\ client_serial client s.
Proof. exact sound_wired. Qed.
Print Assumptions C108_onboarding_sound.

(** An impostor on the first connection: the run over the wire fails. *)
Example C108_case : genuine toy /\ (exists h', link_case (s2b "CQ==") = Ok (0%Z, h')) /\
  let net1 := fun _ => Reached [plain [9; 9]] (fun _ _ => Replied 200 []) in network_ok net1 /\
  exists h', post_voucher_pledge_request toy pledge_world pledge_case_conf (ask_registrar link_tls net1 (s2b "pledge.key") (s2b "pledge.crt") (s2b "registrar.example")) to_registrar (pledge_case (s2b "CQ==")) 8 = Ok ((-1)%Z, h').
Proof.
  split; [exact toy_genuine|]. split; [eexists; vm_compute; reflexivity|]. cbv zeta. split; [|eexists; vm_compute; reflexivity].
  intros n chain a E. injection E as <- <-. split; [intros c [<-|[]]|intros id body z b E; injection E as _ <-; constructor].
  split; [discriminate|]. split; [discriminate|]. split; [discriminate|]. intros d E. injection E as <-. apply PBase.bytes_okb_ok. reflexivity.
Qed.


(** C109 is false: the MASA does not label its vouchers as vouchers. *)
Theorem C109_refuted : exists o w c f ld h cp s req r, ossl_sane o /\ masa_ok w c f ld h /\ regex_ok cp /\
  register_routes cp no_handlers (setup_masa_routes (masa_handle o w c ld h)) = Some (0%Z, s) /\ rq_method req = s2b "POST" /\ rq_path req = PATH_BRSKI_REQUESTVOUCHER /\
  (exists l h', masa_requestvoucher o w c ld h (rq_body req) = Ok (200%Z, r, l, h')) /\ r <> [] /\
  values_ci CT (rs_headers (process_request s req)) <> [s2b "application/voucher-cms+json"].
Proof. exact label_refuted. Qed.
Print Assumptions C109_refuted.

(** C109, what the MASA does: every voucher goes out as text/plain. *)
Theorem C109_masa_partial : forall o w c ld h cp s req r l h', regex_ok cp -> register_routes cp no_handlers (setup_masa_routes (masa_handle o w c ld h)) = Some (0%Z, s) ->
  rq_method req = s2b "POST" -> rq_path req = PATH_BRSKI_REQUESTVOUCHER -> masa_requestvoucher o w c ld h (rq_body req) = Ok (200%Z, r, l, h') ->
  let res := process_request s req in rs_status res = 200%Z /\ rs_body res = r /\ values_ci CT (rs_headers res) = [s2b "text/plain"].
Proof. exact masa_label. Qed.
Print Assumptions C109_masa_partial.

(** C109, what the registrar does: its answer with status 200 is labelled as a voucher (also when
    it is empty). *)
Theorem C109_registrar_partial : forall o w c post h peer enroll cp s req r h', regex_ok cp -> register_routes cp no_handlers (setup_registrar_routes (registrar_handle o w c post h peer) enroll) = Some (0%Z, s) ->
  rq_method req = s2b "POST" -> rq_path req = PATH_BRSKI_REQUESTVOUCHER -> registrar_requestvoucher o w c post h peer (rq_body req) = Ok (200%Z, r, h') ->
  let res := process_request s req in rs_status res = 200%Z /\ rs_body res = r /\ values_ci CT (rs_headers res) = [s2b "application/voucher-cms+json"].
Proof. exact registrar_label. Qed.
Print Assumptions C109_registrar_partial.

Example C109_case : exists s r l h', register_routes dot_compile no_handlers (setup_masa_routes (masa_handle toy PMasa.masa_world PMasa.masa_case_conf 0 PMasa.masa_case)) = Some (0%Z, s) /\
  masa_requestvoucher toy PMasa.masa_world PMasa.masa_case_conf 0 PMasa.masa_case (rfc_encode outer_cms) = Ok (200%Z, r, l, h').
Proof.
  destruct (registers dot_compile (setup_masa_routes (masa_handle toy PMasa.masa_world PMasa.masa_case_conf 0 PMasa.masa_case)) dot_compile_ok (masa_table _)) as (s & R). exists s. do 3 eexists. split; [exact R|vm_compute; reflexivity].
Qed.


(** C110: with parties as in C107 and a registrar whose certificate the pinned certificate or the
    system vouches for, sign-cert over the wire ends with the generated key and the certificate the
    registrar's authority made from the pledge's own, and nothing else. *)
Theorem C110_enrolment : forall o tw cp R M E client server w c f dv h key cert host port ways1 ways2 ways3 k
    t1 t2 t3 s n i rc d pcert pkey padd pverify pstore rcert rkey radd rverify rstore mcert mkey madd mrverify mrstore mpverify mpstore own_key own_cert out,
  ossl_sane o -> sides_ok tw cp R M server -> enrol_ok R E -> view_ok client -> line_to tw cp (rs_ctx R) ways1 host port key cert client -> line_to tw cp (rs_ctx R) ways2 host port key cert client ->
  line_to tw cp (rs_ctx R) ways3 host port key cert client -> world_ok w -> heap_wf h -> plenty h -> pledge_config h c f -> pledge_text_ok f -> device_ok dv ->
  pledge_time w f = Some t1 -> w_now (rs_world R) = Some t2 -> serialize_str2time (mf_expires (ms_files M)) = Some t3 -> date_ready t1 -> date_ready t2 -> date_ready t3 ->
  pf_serial f = Some s -> Forall SJson.plain_char s -> blen s < 128 -> client_serial client s ->
  nonce_given f n -> (forall x, n = Some x -> x <> [] /\ bytes_ok x) -> cv_issuer_text client = Some i -> i <> [] ->
  cv_der server = Some rc -> rc <> [] -> d <> [] ->
  pledge_material w f pcert pkey padd pverify pstore -> registrar_material (rs_world R) (rs_files R) rc rcert rkey radd rverify rstore ->
  masa_material (ms_world M) (ms_files M) d mcert mkey madd mrverify mrstore mpverify mpstore ->
  4 * (match n with None => 0 | Some x => blen x end + blen rc + blen i + blen d + k) + 40000 < 2147483648 ->
  trusts o (Some (ba_of pcert)) (Some (ba_of pkey)) padd rverify rstore false k -> trusts o (Some (ba_of pcert)) (Some (ba_of pkey)) padd mpverify mpstore false k ->
  trusts o (Some (ba_of rcert)) (Some (ba_of rkey)) radd mrverify mrstore true k -> trusts o (Some (ba_of mcert)) (Some (ba_of mkey)) madd pverify pstore false k ->
  chains o (Some (ba_of rc)) d None ->
  generated dv own_key own_cert -> own_cert <> [] -> blen own_cert < SIZE_MAX / 4 -> enrolls (es_sign E) (rs_world R) (es_cert E) (es_key E) own_cert out -> out <> [] -> blen out < SIZE_MAX / 4 ->
  trusted_by tw (pinned_anchors tw (pem d)) (sx_chain (rs_ctx R)) ->
  exists h', sign_cert_command o w c dv (wired_registrar o tw cp R M key cert host port ways1) (wired_registrar o tw cp R M key cert host port ways2) (wired_enrol tw cp R E key cert host port ways3) h = Ok (0%Z, h') /\ both_arrays h h' out own_key.
Proof. exact enrol_wired. Qed.
Print Assumptions C110_enrolment.

Example C110_case : sides_ok enrol_tls dot_compile link_registrar link_masa (PPledge4.server [2; 7]) /\ enrol_ok link_registrar link_enrol /\
  line_to enrol_tls dot_compile (rs_ctx link_registrar) link_ways (s2b "registrar.example") 443 (s2b "pledge.key") (s2b "pledge.crt") pledge_view /\ device_ok enrol_device /\
  trusted_by enrol_tls (pinned_anchors enrol_tls (pem [7; 7])) (sx_chain (rs_ctx link_registrar)) /\
  exists h', enrol_case enrol_tls enrol_device = Ok (0%Z, h') /\ array_at h' 12 41 ([1; 5; 2] ++ s2b "0123456789ABCDE" ++ [160]) /\ array_at h' 13 15 [1; 2].
Proof.
  split; [exact enrol_sides_case|]. split; [exact enrol_ok_case|]. split; [exact enrol_line_case|]. split; [exact enrol_device_case|]. split; [split; [discriminate|reflexivity]|].
  eexists. split; [vm_compute; reflexivity|]. repeat split; vm_compute; reflexivity.
Qed.


(** C111: whoever answered the first connection, success of sign-cert over the wire means that the
    voucher pinned the MASA's domain certificate, that the registrar's chain was trusted by it or by
    the system, and that the array holds what the registrar's authority made from the certificate
    generated for the key beside it. *)
Theorem C111_enrolment_sound : forall o tw cp R M E client server w c f dv h key cert host port net1 ways2 ways3 h',
  ossl_sane o -> genuine o -> sides_ok tw cp R M server -> enrol_ok R E -> view_ok client -> line_to tw cp (rs_ctx R) ways2 host port key cert client -> line_to tw cp (rs_ctx R) ways3 host port key cert client ->
  world_ok w -> heap_wf h -> plenty h -> pledge_config h c f -> pledge_text_ok f -> device_ok dv -> network_ok net1 ->
  pledge_ready w f -> registrar_values (rs_world R) client -> masa_values (ms_world M) (ms_files M) -> (forall tls1, first_contact (ask_registrar tw net1 key cert host) tls1 -> bytes_ready tls1) ->
  sign_cert_command o w c dv (ask_registrar tw net1 key cert host) (wired_registrar o tw cp R M key cert host port ways2) (wired_enrol tw cp R E key cert host port ways3) h = Ok (0%Z, h') ->
  exists d tls s own_key own_cert out, w_cert (ms_world M) (mf_ldevid (ms_files M)) = Some d /\
    first_contact (ask_registrar tw net1 key cert host) tls /\ w_cert (rs_world R) (rf_tls (rs_files R)) = Some tls /\
    (exists tls2, cv_der server = Some tls2 /\ chains o (Some (ba_of tls2)) d None) /\ pf_serial f = Some s /\ client_serial client s /\
    trusted_by tw (pinned_anchors tw (pem d)) (sx_chain (rs_ctx R)) /\
    generated dv own_key own_cert /\ enrolls (es_sign E) (rs_world R) (es_cert E) (es_key E) own_cert out /\ both_arrays h h' out own_key.
Proof. exact enrol_wired_sound. Qed.
Print Assumptions C111_enrolment_sound.

(** The pledge cannot read the pinned certificate and the system trusts nobody: no enrolment. Nor
    without random bytes. *)
Example C111_case : (exists h', enrol_case enrol_tls enrol_device = Ok (0%Z, h')) /\ (exists h', enrol_case link_tls enrol_device = Ok ((-1)%Z, h')) /\
  exists h', enrol_case enrol_tls (sign_device None (Some [1; 2])) = Ok ((-1)%Z, h').
Proof. repeat split; eexists; vm_compute; reflexivity. Qed.

