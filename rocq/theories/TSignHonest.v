(** C129: the enrolment of a device by honest parties, each with its complete memory. *)
From Verif Require Import Base PBase MOs MBase64 MSerialize MVoucher MCrypto MRequest MHeap MArray MVoucherHeap MConfig MHandlers MLog MSerialHeap MRequestHeap MEnrolLog MEnrolLogHeap MHandlerHeap MEnrolHeap MSignCert MSignHeap
  SBase64 SHeap SArray SConfig SJson SVoucher SRequest SHandlers SPledge SChain SLog SVoucherHeap SSerialHeap SRequestHeap SEnrolLog SEnrolLogHeap SHandlerHeap SHonestHeap SEnrolHeap SSignCert SSignHeap SSignHonest
  PRequest6 PMasa PRegistrar2 PPledge4 PChain2 PHandlerHeap6 PEnrolHeap2 PSignHeap4 PSignHonest PSignHonest2.
Open Scope N_scope.

(** C129: with parties that trust each other the command sign-cert ends with the
    key the device made and the certificate the registrar's authority issued for it,
    and these are all that is added to the device's memory. The registrar answers the
    voucher request and the enrolment, records the enrolment, and ends with the memory
    it had. *)
Theorem C129_enrolment : forall o wp wr wm cp fp cr fr cm fm ca hp hr hr3 hm tt nn sc seen now opens log log3 vouched peer server dv post1 k
    t1 t2 t3 s n i rc d pcert pkey padd pverify pstore rcert rkey radd rverify rstore mcert mkey madd mrverify mrstore mpverify mpstore own_key own_cert out,
  ossl_sane o -> genuine o -> world_ok wp -> world_ok wr -> world_ok wm -> heap_wf hp -> heap_wf hr -> heap_wf hr3 -> heap_wf hm -> plenty hp -> plenty hr -> plenty hr3 -> plenty hm ->
  pledge_config hp cp fp -> registrar_config hr cr fr -> registrar_config hr3 cr fr -> ca_config hr cr ca -> ca_config hr3 cr ca -> masa_config hm cm fm -> pledge_text_ok fp -> names_at (hp_next hr) nn hr -> names_at (hp_next hr3) nn hr3 -> texts_at tt hp ->
  view_ok (cs_view peer) -> short_view (cs_view peer) -> view_ok server -> post_ok post1 -> device_ok dv -> (forall k ct tbs out, sc k ct tbs = Some out -> bytes_ok out) -> (forall d l, seen d = Some l -> short_view (cs_view l)) ->
  pledge_time wp fp = Some t1 -> w_now wr = Some t2 -> serialize_str2time (mf_expires fm) = Some t3 -> date_ready t1 -> date_ready t2 -> date_ready t3 ->
  pf_serial fp = Some s -> Forall plain_char s -> blen s < 128 -> client_serial (cs_view peer) s ->
  nonce_given fp n -> (forall x, n = Some x -> x <> [] /\ bytes_ok x) -> cv_issuer_text (cs_view peer) = Some i -> i <> [] ->
  first_contact post1 rc -> cv_der server = Some rc -> rc <> [] -> d <> [] ->
  pledge_material wp fp pcert pkey padd pverify pstore -> registrar_material wr fr rc rcert rkey radd rverify rstore -> masa_material wm fm d mcert mkey madd mrverify mrstore mpverify mpstore ->
  4 * (match n with None => 0 | Some x => blen x end + blen rc + blen i + blen d + k) + 40000 < 2147483648 ->
  trusts o (Some (ba_of pcert)) (Some (ba_of pkey)) padd rverify rstore false k -> trusts o (Some (ba_of pcert)) (Some (ba_of pkey)) padd mpverify mpstore false k ->
  trusts o (Some (ba_of rcert)) (Some (ba_of rkey)) radd mrverify mrstore true k -> trusts o (Some (ba_of mcert)) (Some (ba_of mkey)) madd pverify pstore false k ->
  chains o (Some (ba_of rc)) d None ->
  generated dv own_key own_cert -> own_cert <> [] -> blen own_cert < SIZE_MAX / 4 -> SHandlers.enrolls sc wr (ca_cert ca) (ca_key ca) own_cert out -> out <> [] -> blen out < SIZE_MAX / 4 -> vouched (pem d) = true ->
  (exists h', full_sign_cert_command o wp cp tt dv post1 (full_registrar_service o wr cr nn (full_masa_service o wm cm hm) hr (cs_view peer) server) (full_enrol_service sc wr cr nn seen now opens log3 hr3 peer vouched) hp = Ok (0%Z, h') /\
     both_arrays hp h' out own_key) /\
  (exists cms1 cms3 h' log', pledge_sends o wp fp post1 cms1 /\
     registrar_works o sc wr cr nn seen (full_masa_service o wm cm hm) hr log [Asks (Some peer) (rfc_encode cms1); Enrols (Some peer) (rfc_encode own_cert) now opens] = Ok ([(200%Z, rfc_encode cms3); (200%Z, rfc_encode out)], h', log') /\
     kept (hp_next hr) hr h' /\ no_leak (hp_next hr) h' /\
     (opens = true -> forall l e, seen out = Some l -> describes now peer l e -> exists line, entry_text e line /\ log' = log ++ line)).
Proof. exact honest_enrolment. Qed.
Print Assumptions C129_enrolment.

(** The parties of C73 and a device that makes its own key meet the conditions. *)
Example C129_case :
  (exists h', full_sign_cert_command toy pledge_world pledge_case_conf case_text case_device (contact 404 [] [2; 7])
     (full_registrar_service toy registrar_world registrar_case_conf nn_full (full_masa_service toy masa_world masa_case_conf PMasa.masa_case) full_case pledge_view (PPledge4.server [2; 7]))
     (full_enrol_service toy_sign registrar_world registrar_case_conf nn_full seen_new 1700000000 true [] full_case PEnrolHeap2.client (beqb (pem [7; 7]))) case_heap = Ok (0%Z, h') /\ both_arrays case_heap h' out_case [1; 2]) /\
  (exists cms1 cms3 h' log', pledge_sends toy pledge_world (pledge_case_files (s2b "CQ==")) (contact 404 [] [2; 7]) cms1 /\
     registrar_works toy toy_sign registrar_world registrar_case_conf nn_full seen_new (full_masa_service toy masa_world masa_case_conf PMasa.masa_case) full_case []
       [Asks (Some PEnrolHeap2.client) (rfc_encode cms1); Enrols (Some PEnrolHeap2.client) (rfc_encode own_case) 1700000000 true] = Ok ([(200%Z, rfc_encode cms3); (200%Z, rfc_encode out_case)], h', log') /\
     kept (hp_next full_case) full_case h' /\ no_leak (hp_next full_case) h' /\
     (true = true -> forall l e, seen_new out_case = Some l -> describes 1700000000 PEnrolHeap2.client l e -> exists line, entry_text e line /\ log' = [] ++ line)).
Proof. exact honest_enrolment_case. Qed.
Example C129_log_case : exists l e, seen_new out_case = Some l /\ describes 1700000000 PEnrolHeap2.client l e.
Proof. exact enrolment_described. Qed.
