(** The command sign-cert over TLS and HTTP. *)
From Coq Require Import ZifyBool ZifyNat ZifyN.
From Verif Require Import Base PBase MBase64 MSerialize MVoucher MCrypto MRequest MHeap MArray MHandlers MHttp MSignCert SBase64 SHeap SArray SJson SVoucher SRequest SHandlers SPledge SChain SSignCert SHttp PHttp PHttp2
  PBase64 PRequest6 PMasa PRegistrar PRegistrar2 PEnroll PPledge3 PPledge4 PChain PChain2 PSignCert3 MTls STls PTls PTls2 PTls3 MWire SWire PWire PWire2 PWire3 PWire4 PWire5 PWire6 MLink SLink PLink PLink2 PLink3.
Open Scope N_scope.

Lemma enroll_path_ok : plain_path PATH_EST_SIMPLEENROLL.
Proof. apply path_good. vm_compute. reflexivity. Qed.

Lemma enroll_exchange cp sc w c h rv peer host port cn sp cpk body st r h' : regex_ok cp -> destination_ok host port -> conn_ok cn -> blen body <= SIZE_MAX ->
  registrar_est_simpleenroll sc w c h peer body = Ok (st, r, h') -> blen r <= SIZE_MAX -> (101 <= st <= 999)%Z -> st <> 204%Z ->
  exists s, enroll_serving cp sc w c h rv peer body = Some s /\
    exchange_over cn s sp cpk (client_request host port PATH_EST_SIMPLEENROLL voucher_cms body) = Replied st (sent_text st r).
Proof.
  intros C D CO B E L S NC. pose proof (registrar_table rv (enroll_handle sc w c h peer)) as T. destruct (registers cp _ C T) as (s & R). exists s.
  split; [unfold enroll_serving, registered; rewrite E, R; replace (SIZE_MAX <? blen r) with false by lia; reflexivity|].
  set (req := arrived host port PATH_EST_SIMPLEENROLL voucher_cms body cn).
  assert (A : asks (mk_route PATH_EST_SIMPLEENROLL POST (enroll_handle sc w c h peer)) req = Answers st plain_text r) by (unfold asks, enroll_handle; cbn [rt_handle]; unfold req; rewrite arrived_body, E; reflexivity).
  assert (U : usual_answer (Answers st plain_text r)) by (apply type_usual; [vm_compute; reflexivity|exact L]).
  eapply exchange_routed; [exact C|exact T|exact R|exact D|exact CO|exact enroll_path_ok|exact B|exact S|exact NC| |exact A|exact U|].
  - apply registrar_own; [unfold setup_registrar_routes; cbn [In]; auto 10|reflexivity|reflexivity].
  - eapply usual_route; [exact C|exact T|exact R|]. intros q I P M. unfold req in M. rewrite arrived_path in M.
    unfold setup_registrar_routes in I. repeat (destruct I as [<-|I]; [first [vm_compute in M; discriminate M|change (usual_answer (asks (mk_route PATH_EST_SIMPLEENROLL POST (enroll_handle sc w c h peer)) req)); rewrite A; exact U]|]). destruct I.
Qed.



(** What the registrar's side answers to an enrolment. *)
Lemma enroll_reply cp sc w c ca cakey f h rv peer host port cn sp cpk tbs : (forall k ct tbs out, sc k ct tbs = Some out -> bytes_ok out) -> registrar_fine w c f h -> heap_string h (rc_ca_cert c) = Ok ca -> heap_string h (rc_ca_key c) = Ok cakey ->
  regex_ok cp -> destination_ok host port -> conn_ok cn -> bytes_ok tbs -> tbs <> [] -> blen tbs < SIZE_MAX / 4 ->
  exists s, enroll_serving cp sc w c h rv peer (rfc_encode tbs) = Some s /\
    ((exists out, enrolls sc w ca cakey tbs out /\ blen out < SIZE_MAX / 4 /\ exchange_over cn s sp cpk (client_request host port PATH_EST_SIMPLEENROLL voucher_cms (rfc_encode tbs)) = Replied 200 (rfc_encode out)) \/
     (~ exists out, enrolls sc w ca cakey tbs out /\ blen out < SIZE_MAX / 4) /\ exchange_over cn s sp cpk (client_request host port PATH_EST_SIMPLEENROLL voucher_cms (rfc_encode tbs)) = Replied 400 (s2b "Router error")).
Proof.
  intros SC [_ W PL _] C1 C2 C D CO B N L. pose proof (cstr_ok_bytes_encode _ B) as BE.
  assert (DE : rfc_decode (c_string (rfc_encode tbs)) = Some tbs) by (rewrite PChain.sent by exact B; apply rfc_roundtrip; assumption).
  destruct (enroll_run sc w c ca cakey h peer (rfc_encode tbs) SC W PL C1 C2 BE) as [[Q _]|[_ (st & r & h' & E & _ & _ & A)]].
  - exfalso. apply PAcquire.decode_bad in Q. destruct Q as [Q _]. congruence.
  - destruct A as [(t' & out & A1 & A2 & A3 & A4)|(A3 & A4)].
    + rewrite DE in A1. injection A1 as <-. injection A4 as -> ->.
      destruct (enroll_exchange cp sc w c h rv peer host port cn sp cpk (rfc_encode tbs) 200 (rfc_encode out) h' C D CO (encode_bound _ L) E (encode_bound _ A3)) as (s & SV & X); [lia|lia|].
      exists s. split; [exact SV|]. left. exists out. split; [exact A2|]. split; [exact A3|]. rewrite X. unfold sent_text. destruct (rfc_encode out); reflexivity.
    + injection A3 as -> ->. destruct (enroll_exchange cp sc w c h rv peer host port cn sp cpk (rfc_encode tbs) 400 [] h' C D CO (encode_bound _ L) E) as (s & SV & X); [vm_compute; discriminate|lia|lia|].
      exists s. split; [exact SV|]. right. split; [intros (out & Q1 & Q2); apply A4; exists tbs, out; auto|exact X].
Qed.

(** The answers to a client over its connections, whichever it is. *)
Section Enrol.
Variables (tw : tls_world) (cp : compile) (R : registrar_side) (E : enrol_side) (client : cert_view) (key cert host : bytes) (port : Z) (ways : nat -> way).
Hypothesis RF : registrar_fine (rs_world R) (rs_conf R) (rs_files R) (rs_heap R).
Hypothesis EO : enrol_ok R E.
Hypothesis LR : line_to tw cp (rs_ctx R) ways host port key cert client.
Local Notation net := (enroll_link tw (rs_ctx R) (enroll_serving cp (es_sign E) (rs_world R) (rs_conf R) (rs_heap R) (es_voucher E)) ways host port).

Lemma enrol_said n body chain a : bytes_ok body -> net n = Reached chain a -> chain = sx_chain (rs_ctx R) /\
  (a (Some client) body = Failed \/
   (exists tbs out, rfc_decode (c_string body) = Some tbs /\ enrolls (es_sign E) (rs_world R) (es_cert E) (es_key E) tbs out /\ blen out < SIZE_MAX / 4 /\ a (Some client) body = Replied 200 (rfc_encode out)) \/
   a (Some client) body = Replied 400 (s2b "Router error")).
Proof.
  intros B N. injection N as <- <-. split; [reflexivity|]. destruct LR as [C D CO S A]. cbn beta. rewrite A. cbn [negb].
  destruct (N.ltb_spec SIZE_MAX (blen body)) as [L|L]; [left; reflexivity|]. destruct RF as [_ W PL _], EO as [E1 E2 E3].
  destruct (enroll_run (es_sign E) (rs_world R) (rs_conf R) (es_cert E) (es_key E) (rs_heap R) (Some client) body E1 W PL E2 E3 B) as [[_ [k Q]]|[_ (st & r & h' & Q & _ & _ & An)]].
  - left. unfold enroll_serving. rewrite Q. reflexivity.
  - right. destruct An as [(tbs & out & A1 & A2 & A3 & A4)|(A3 & A4)].
    + injection A4 as -> ->. destruct (enroll_exchange cp (es_sign E) (rs_world R) (rs_conf R) (rs_heap R) (es_voucher E) (Some client) host port (wy_conn (ways n)) (wy_server_pick (ways n)) (wy_client_pick (ways n)) body 200 (rfc_encode out) h' C D (CO n) L Q (encode_bound _ A3)) as (s & SV & X); [lia|lia|].
      left. exists tbs, out. split; [exact A1|]. split; [exact A2|]. split; [exact A3|]. rewrite SV, X. unfold sent_text. destruct (rfc_encode out); reflexivity.
    + injection A3 as -> ->. destruct (enroll_exchange cp (es_sign E) (rs_world R) (rs_conf R) (rs_heap R) (es_voucher E) (Some client) host port (wy_conn (ways n)) (wy_server_pick (ways n)) (wy_client_pick (ways n)) body 400 [] h' C D (CO n) L Q) as (s & SV & X); [vm_compute; discriminate|lia|lia|].
      right. rewrite SV, X. reflexivity.
Qed.

Lemma wired_enrol_said ca body z r : bytes_ok body -> wired_enrol tw cp R E key cert host port ways ca body = (z, r) ->
  (z < 0)%Z /\ r = [] \/ z = 400%Z /\ r = s2b "Router error" \/
  exists tbs out, z = 200%Z /\ r = rfc_encode out /\ rfc_decode (c_string body) = Some tbs /\ enrolls (es_sign E) (rs_world R) (es_cert E) (es_key E) tbs out /\ blen out < SIZE_MAX / 4.
Proof.
  unfold wired_enrol, ask_enroll. intros B Q. destruct (post_ca_cases tw net key cert ca host body) as [(_ & F)|(id & rr & l & lost & k & S & X & F)]; rewrite F in Q; cbn [fst] in Q.
  - injection Q as <- <-. left. split; [lia|reflexivity].
  - destruct rr as [z' b'| |]; injection Q as <- <-; try (left; split; [lia|reflexivity]).
    destruct (exchange_answer _ _ _ _ _ _ _ _ _ _ _ X) as (n & chain & a & before & N & Rp & _). destruct LR as [_ _ _ S' _]. rewrite (shows_unique _ _ _ _ _ S S') in Rp.
    destruct (enrol_said n body chain a B N) as [_ [Q|[(tbs & out & Q1 & Q2 & Q3 & Q)|Q]]]; rewrite Rp in Q; [discriminate| |].
    + injection Q as -> ->. right. right. exists tbs, out. auto.
    + injection Q as -> ->. right. left. auto.
Qed.
Lemma wired_enrol_ok : post_ca_ok (wired_enrol tw cp R E key cert host port ways).
Proof.
  intros ca body z r B Q. destruct (wired_enrol_said ca body z r B Q) as [[_ ->]|[[_ ->]|(tbs & out & _ & -> & _ & (c & k & _ & _ & S) & _)]]; [constructor|apply bytes_okb_ok; reflexivity|].
  apply cstr_ok_bytes_encode. destruct EO as [E1 _ _]. eapply E1. exact S.
Qed.
Lemma wired_enrol_gives d own out : bytes_ok own -> own <> [] -> blen own < SIZE_MAX / 4 -> enrolls (es_sign E) (rs_world R) (es_cert E) (es_key E) own out -> blen out < SIZE_MAX / 4 ->
  trusted_by tw (pinned_anchors tw (pem d)) (sx_chain (rs_ctx R)) -> wired_enrol tw cp R E key cert host port ways (pem d) (rfc_encode own) = (200%Z, rfc_encode out).
Proof.
  intros B N L En Lo T. unfold wired_enrol, ask_enroll. rewrite <- pem_string.
  change (httplib_post_request_ca tw net key cert (create_cert_string (rfc_encode d)) host (rfc_encode own)) with (enrol_post tw net key cert host (rfc_encode d) (rfc_encode own)).
  destruct (enrol_post tw net key cert host (rfc_encode d) (rfc_encode own)) as [res t] eqn:Q. cbn [fst].
  pose proof LR as [C D CO S A]. destruct (enrol_first _ _ _ _ _ _ _ _ _ (sx_chain (rs_ctx R)) _ (Some client) Q eq_refl S) as [F _].
  destruct F as [_ F]; [unfold anchors_of; rewrite pem_string; exact T|]. apply F.
  destruct (enroll_reply cp (es_sign E) (rs_world R) (rs_conf R) (es_cert E) (es_key E) (rs_files R) (rs_heap R) (es_voucher E) (Some client) host port (wy_conn (ways 0%nat)) (wy_server_pick (ways 0%nat)) (wy_client_pick (ways 0%nat)) own
    (eo_sign _ _ EO) RF (eo_cert _ _ EO) (eo_key _ _ EO) C D (CO 0%nat) B N L) as (s & SV & [(out' & En' & _ & X)|(NE & _)]); [|exfalso; apply NE; exists out; auto].
  rewrite A, SV, X. cbn [negb]. pose proof (encode_bound _ L). replace (SIZE_MAX <? blen (rfc_encode own)) with false by lia.
  destruct En as (c1 & k1 & Q1 & Q2 & Q3), En' as (c2 & k2 & R1 & R2 & R3). do 2 f_equal. congruence.
Qed.
Lemma wired_enrol_trusted d body z r : bytes_ok body -> wired_enrol tw cp R E key cert host port ways (pem d) body = (z, r) -> (0 <= z)%Z -> trusted_by tw (pinned_anchors tw (pem d)) (sx_chain (rs_ctx R)).
Proof.
  intros B Q Z. unfold wired_enrol, ask_enroll in Q. rewrite <- pem_string in Q.
  change (httplib_post_request_ca tw net key cert (create_cert_string (rfc_encode d)) host body) with (enrol_post tw net key cert host (rfc_encode d) body) in Q.
  destruct (enrol_post tw net key cert host (rfc_encode d) body) as [res t] eqn:P. cbn [fst] in Q. subst res.
  destruct (enrol_answer _ _ _ _ _ _ _ _ _ _ P) as (n & chain & a & id & N & T & _ & _); [lia|]. injection N as <- _. unfold anchors_of in T. rewrite pem_string in T. exact T.
Qed.
End Enrol.

(** The honest run. *)
Lemma honest_obtains : forall o tw cp R M client server w f key cert host port ways1 ways2 k
    t1 t2 t3 s n i rc d pcert pkey padd pverify pstore rcert rkey radd rverify rstore mcert mkey madd mrverify mrstore mpverify mpstore,
  ossl_sane o -> sides_ok tw cp R M server -> view_ok client -> line_to tw cp (rs_ctx R) ways1 host port key cert client -> line_to tw cp (rs_ctx R) ways2 host port key cert client ->
  pledge_time w f = Some t1 -> w_now (rs_world R) = Some t2 -> serialize_str2time (mf_expires (ms_files M)) = Some t3 -> date_ready t1 -> date_ready t2 -> date_ready t3 ->
  pf_serial f = Some s -> Forall SJson.plain_char s -> blen s < 128 -> client_serial client s ->
  nonce_given f n -> (forall x, n = Some x -> x <> [] /\ bytes_ok x) -> cv_issuer_text client = Some i -> i <> [] ->
  cv_der server = Some rc -> rc <> [] -> d <> [] ->
  pledge_material w f pcert pkey padd pverify pstore -> registrar_material (rs_world R) (rs_files R) rc rcert rkey radd rverify rstore ->
  masa_material (ms_world M) (ms_files M) d mcert mkey madd mrverify mrstore mpverify mpstore ->
  4 * (match n with None => 0 | Some x => blen x end + blen rc + blen i + blen d + k) + 40000 < 2147483648 ->
  trusts o (Some (ba_of pcert)) (Some (ba_of pkey)) padd rverify rstore false k -> trusts o (Some (ba_of pcert)) (Some (ba_of pkey)) padd mpverify mpstore false k ->
  trusts o (Some (ba_of rcert)) (Some (ba_of rkey)) radd mrverify mrstore true k -> trusts o (Some (ba_of mcert)) (Some (ba_of mkey)) madd pverify pstore false k ->
  chains o (Some (ba_of rc)) d None ->
  pledge_obtains o w f (wired_registrar o tw cp R M key cert host port ways1) (wired_registrar o tw cp R M key cert host port ways2) rc rc d.
Proof.
  intros o tw cp R M client server w f key cert host port ways1 ways2 k
    t1 t2 t3 s n i rc d pcert pkey padd pverify pstore rcert rkey radd rverify rstore mcert mkey madd mrverify mrstore mpverify mpstore
    OS SO VC LR1 LR2 T1 T2 T3 D1 D2 D3 Se Sp Sl CS NG NR IS I0 SV RC0 D0 PM RM MM SZ TR1 TR2 TR3 TR4 CH.
  pose proof (proj2 (first_wired o tw cp R M client server key cert host port ways1 rc OS SO VC LR1) SV) as FC. pose proof SO as [[R1 R2 R3 R4] [M1 M2 M3 M4 M5] _ VS _ _].
  apply (wired_obtains o tw cp R M client server OS SO VC w f _ key cert host port ways2 rc rc d LR2). unfold direct.
  eapply chain_obtains; eassumption.
Qed.

Lemma enrol_wired : forall o tw cp R M E client server w c f dv h key cert host port ways1 ways2 ways3 k
    t1 t2 t3 s n i rc d pcert pkey padd pverify pstore rcert rkey radd rverify rstore mcert mkey madd mrverify mrstore mpverify mpstore own_key own_cert out,
  ossl_sane o -> sides_ok tw cp R M server -> enrol_ok R E -> view_ok client -> line_to tw cp (rs_ctx R) ways1 host port key cert client -> line_to tw cp (rs_ctx R) ways2 host port key cert client ->
  line_to tw cp (rs_ctx R) ways3 host port key cert client -> world_ok w -> heap_wf h -> plenty h -> pledge_config h c f -> pledge_text_ok f -> device_ok dv ->
  pledge_time w f = Some t1 -> w_now (rs_world R) = Some t2 -> serialize_str2time (mf_expires (ms_files M)) = Some t3 -> date_ready t1 -> date_ready t2 -> date_ready t3 ->
  pf_serial f = Some s -> Forall SJson.plain_char s -> blen s < 128 -> client_serial client s ->
  nonce_given f n -> (forall x, n = Some x -> x <> [] /\ bytes_ok x) -> cv_issuer_text client = Some i -> i <> [] ->
  cv_der server = Some rc -> rc <> [] -> d <> [] ->
  pledge_material w f pcert pkey padd pverify pstore -> registrar_material (rs_world R) (rs_files R) rc rcert rkey radd rverify rstore ->
  masa_material (ms_world M) (ms_files M) d mcert mkey madd mrverify mrstore mpverify mpstore ->
  4 * (match n with None => 0 | Some x => blen x end + blen rc + blen i + blen d + k) + 40000 < 2147483648 ->
  trusts o (Some (ba_of pcert)) (Some (ba_of pkey)) padd rverify rstore false k -> trusts o (Some (ba_of pcert)) (Some (ba_of pkey)) padd mpverify mpstore false k ->
  trusts o (Some (ba_of rcert)) (Some (ba_of rkey)) radd mrverify mrstore true k -> trusts o (Some (ba_of mcert)) (Some (ba_of mkey)) madd pverify pstore false k ->
  chains o (Some (ba_of rc)) d None ->
  generated dv own_key own_cert -> own_cert <> [] -> blen own_cert < SIZE_MAX / 4 -> enrolls (es_sign E) (rs_world R) (es_cert E) (es_key E) own_cert out -> out <> [] -> blen out < SIZE_MAX / 4 ->
  trusted_by tw (pinned_anchors tw (pem d)) (sx_chain (rs_ctx R)) ->
  exists h', sign_cert_command o w c dv (wired_registrar o tw cp R M key cert host port ways1) (wired_registrar o tw cp R M key cert host port ways2) (wired_enrol tw cp R E key cert host port ways3) h = Ok (0%Z, h') /\ both_arrays h h' out own_key.
Proof.
  intros o tw cp R M E client server w c f dv h key cert host port ways1 ways2 ways3 k
    t1 t2 t3 s n i rc d pcert pkey padd pverify pstore rcert rkey radd rverify rstore mcert mkey madd mrverify mrstore mpverify mpstore own_key own_cert out
    OS SO EO VC LR1 LR2 LR3 WO W PL CF TX DO T1 T2 T3 D1 D2 D3 Se Sp Sl CS NG NR IS I0 SV RC0 D0 PM RM MM SZ TR1 TR2 TR3 TR4 CH GE GN GL EN ON OL TB.
  assert (OB : pledge_obtains o w f (wired_registrar o tw cp R M key cert host port ways1) (wired_registrar o tw cp R M key cert host port ways2) rc rc d) by (eapply honest_obtains; eassumption).
  pose proof (so_registrar _ _ _ _ _ SO) as RF.
  assert (Bo : bytes_ok own_cert) by (destruct GE as (x & _ & _ & Q), DO as (_ & _ & _ & Q1 & _); eapply Q1; exact Q).
  assert (Bu : bytes_ok out) by (destruct EN as (c0 & k0 & _ & _ & Q), EO as [E1 _ _]; eapply E1; exact Q).
  eapply command_succeeds; try eassumption.
  - exact (wired_ok o tw cp R M client server OS SO VC key cert host port ways1 LR1).
  - exact (wired_ok o tw cp R M client server OS SO VC key cert host port ways2 LR2).
  - eapply wired_enrol_ok; eassumption.
  - exists (rfc_encode out). split; [|rewrite PChain.sent by exact Bu; apply rfc_roundtrip; assumption].
    exists rc, rc, d, own_cert, 200%Z. split; [exact OB|]. split; [pose proof (N.le_0_l k); unfold SIZE_MAX; lia|]. split; [exact GE|]. split; [exact GL|].
    split; [eapply wired_enrol_gives; eassumption|lia].
Qed.

(** Success over the wire. *)
Lemma enrol_wired_sound : forall o tw cp R M E client server w c f dv h key cert host port net1 ways2 ways3 h',
  ossl_sane o -> genuine o -> sides_ok tw cp R M server -> enrol_ok R E -> view_ok client -> line_to tw cp (rs_ctx R) ways2 host port key cert client -> line_to tw cp (rs_ctx R) ways3 host port key cert client ->
  world_ok w -> heap_wf h -> plenty h -> pledge_config h c f -> pledge_text_ok f -> device_ok dv -> network_ok net1 ->
  pledge_ready w f -> registrar_values (rs_world R) client -> masa_values (ms_world M) (ms_files M) -> (forall tls1, first_contact (ask_registrar tw net1 key cert host) tls1 -> bytes_ready tls1) ->
  sign_cert_command o w c dv (ask_registrar tw net1 key cert host) (wired_registrar o tw cp R M key cert host port ways2) (wired_enrol tw cp R E key cert host port ways3) h = Ok (0%Z, h') ->
  exists d tls s own_key own_cert out, w_cert (ms_world M) (mf_ldevid (ms_files M)) = Some d /\
    first_contact (ask_registrar tw net1 key cert host) tls /\ w_cert (rs_world R) (rf_tls (rs_files R)) = Some tls /\
    (exists tls2, cv_der server = Some tls2 /\ chains o (Some (ba_of tls2)) d None) /\ pf_serial f = Some s /\ client_serial client s /\
    trusted_by tw (pinned_anchors tw (pem d)) (sx_chain (rs_ctx R)) /\
    generated dv own_key own_cert /\ enrolls (es_sign E) (rs_world R) (es_cert E) (es_key E) own_cert out /\ both_arrays h h' out own_key.
Proof.
  intros o tw cp R M E client server w c f dv h key cert host port net1 ways2 ways3 h' OS G SO EO VC LR2 LR3 WO W PL CF TX DO NO PR RV MV FR X.
  pose proof (pledge_post_ok tw net1 key cert host NO) as PO. change (post_ok (ask_registrar tw net1 key cert host)) in PO.
  pose proof (so_registrar _ _ _ _ _ SO) as RF. pose proof SO as [[R1 R2 R3 R4] [M1 M2 M3 M4 M5] _ VS _ _].
  assert (PO2 : post_ok (wired_registrar o tw cp R M key cert host port ways2)) by exact (wired_ok o tw cp R M client server OS SO VC key cert host port ways2 LR2).
  assert (PO3 : post_ca_ok (wired_enrol tw cp R E key cert host port ways3)) by (eapply wired_enrol_ok; eassumption).
  destruct (command_outcome _ _ _ _ _ _ _ _ _ _ _ OS WO W PL CF TX PO PO2 PO3 DO X) as [(_ & own & out & (answer & (tls1 & tls2 & d & ocert & z & OB & _ & GE & LO & P3 & Z3) & DR) & BA)|(Q & _)]; [|discriminate].
  assert (Bo : bytes_ok ocert) by (destruct GE as (x & _ & _ & Q), DO as (_ & _ & _ & Q1 & _); eapply Q1; exact Q).
  assert (FC : first_contact (ask_registrar tw net1 key cert host) tls1) by (destruct OB as (? & ? & ? & Q & _); exact Q).
  pose proof (proj1 (wired_obtains o tw cp R M client server OS SO VC w f _ key cert host port ways2 tls1 tls2 d LR2) OB) as OD. unfold direct in OD.
  destruct (obtains_sound o w (rs_world R) (ms_world M) f (rs_conf R) (rs_files R) (ms_conf M) (ms_files M) (rs_heap R) (ms_heap M) (ms_ld M) client server _ tls1 tls2 d OS G WO R1 M1 R2 M2 R3 M3 R4 M4 M5 TX VC VS (FR _ FC) PR RV MV OD) as (S1 & S2 & (s & S3 & S4) & S5 & S6).
  assert (BE : bytes_ok (rfc_encode ocert)) by (apply cstr_ok_bytes_encode; exact Bo).
  assert (T : trusted_by tw (pinned_anchors tw (pem d)) (sx_chain (rs_ctx R))) by (eapply wired_enrol_trusted; try eassumption; lia).
  destruct (wired_enrol_said tw cp R E client key cert host port ways3 RF EO LR3 _ _ _ _ BE P3) as [[Q _]|[[Q _]|(tbs & o' & _ & -> & D1 & En & Lo)]]; [lia|lia|].
  assert (Bu : bytes_ok o') by (destruct En as (c0 & k0 & _ & _ & Q), EO as [E1 _ _]; eapply E1; exact Q).
  rewrite PChain.sent in DR, D1 by assumption.
  assert (tbs = ocert) as -> by (destruct ocert; [discriminate D1|rewrite rfc_roundtrip in D1 by (assumption || discriminate); congruence]).
  assert (out = o') as -> by (destruct o'; [discriminate DR|rewrite rfc_roundtrip in DR by (assumption || discriminate); congruence]).
  exists d, tls1, s, own, ocert, o'. repeat (split; [first [assumption|exists tls2; split; assumption]|]). exact BA.
Qed.

(** *** Concrete parties *)
Definition enrol_tls : tls_world :=
  mk_tls (tw_server_pair link_tls) (tw_client_pair link_tls) (tw_ca_file link_tls) (fun t => if beqb t (pem [7; 7]) then Some [plain [7; 7]] else None) [] (tw_verifies link_tls) (tw_names link_tls).
Definition link_enrol : enrol_side := mk_enrol_side toy_sign (s2b "ca") (s2b "cakey") idle.
Definition enrol_device : device := sign_device (Some rnd1) (Some [1; 2]).
Definition enrol_registrar : post_cert_fn := wired_registrar toy enrol_tls dot_compile link_registrar link_masa (s2b "pledge.key") (s2b "pledge.crt") (s2b "registrar.example") 443 link_ways.
Definition enrol_with (tw : tls_world) : post_ca_fn := wired_enrol tw dot_compile link_registrar link_enrol (s2b "pledge.key") (s2b "pledge.crt") (s2b "registrar.example") 443 link_ways.
Definition enrol_case (tw : tls_world) (dv : device) : outcome (Z * heap) := sign_cert_command toy pledge_world pledge_case_conf dv enrol_registrar enrol_registrar (enrol_with tw) sign_heap.

Lemma enrol_sides_case : sides_ok enrol_tls dot_compile link_registrar link_masa (PPledge4.server [2; 7]).
Proof. destruct sides_case as [A B C D E F]. split; try assumption. apply line_case; [reflexivity|split; reflexivity || discriminate|right; eexists; repeat split; discriminate|reflexivity]. Qed.
Lemma enrol_line_case : line_to enrol_tls dot_compile (rs_ctx link_registrar) link_ways (s2b "registrar.example") 443 (s2b "pledge.key") (s2b "pledge.crt") pledge_view.
Proof. apply line_case; [reflexivity|split; reflexivity || discriminate|right; eexists; repeat split; discriminate|reflexivity]. Qed.
Lemma enrol_ok_case : enrol_ok link_registrar link_enrol.
Proof. split; [exact toy_sign_ok|reflexivity|reflexivity]. Qed.
Lemma enrol_device_case : device_ok enrol_device.
Proof. exact (proj1 (proj2 obtains_case)). Qed.
