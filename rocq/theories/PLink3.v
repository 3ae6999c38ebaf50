(** The whole run over TLS and HTTP. *)
From Verif Require Import Base PBase MBase64 MSerialize MVoucher MCrypto MRequest MHeap MArray MHandlers MHttp SBase64 SHeap SArray SJson SVoucher SRequest SHandlers SPledge SChain SHttp
  PRequest6 PMasa PRegistrar PRegistrar2 PPledge3 PPledge4 PChain PChain2 MTls STls PTls3 MWire SWire MLink SLink PLink PLink2.
Open Scope N_scope.

Lemma direct_ok o tw cp R M client server : ossl_sane o -> sides_ok tw cp R M server -> view_ok client -> post_ok (direct o R M client server).
Proof. intros OS [[R1 R2 R3 R4] [M1 M2 M3 M4 M5] _ VS _ _] VC. unfold direct. eapply service_ok; eassumption. Qed.

Lemma unsafe_wired o tw cp R M client server w f post1 key cert host port ways : ossl_sane o -> sides_ok tw cp R M server -> view_ok client -> line_to tw cp (rs_ctx R) ways host port key cert client ->
  pledge_unsafe o w f post1 (wired_registrar o tw cp R M key cert host port ways) <-> pledge_unsafe o w f post1 (direct o R M client server).
Proof.
  intros OS SO VC LR. split; intros (tls1 & FC & [X|(cms & tls2 & r & PA & L & SC & X)]); exists tls1; (split; [exact FC|]); try (left; exact X); right; exists cms, tls2, r; (split; [exact PA|]); (split; [exact L|]); (split; [|exact X]).
  all: apply (wired_second o tw cp R M client server OS SO VC key cert host port ways cms tls2 r LR (asks_bytes o OS _ _ _ _ PA) L); exact SC.
Qed.

Lemma transparent : forall o tw cp R M client server w c f h pinned post1 key cert host port ways,
  ossl_sane o -> sides_ok tw cp R M server -> view_ok client -> line_to tw cp (rs_ctx R) ways host port key cert client -> pledge_fine w c f h pinned -> post_ok post1 ->
  same_end h pinned (post_voucher_pledge_request o w c post1 (wired_registrar o tw cp R M key cert host port ways) h pinned) (post_voucher_pledge_request o w c post1 (direct o R M client server) h pinned).
Proof.
  intros o tw cp R M client server w c f h pinned post1 key cert host port ways OS SO VC LR [WO W PL CF TX P0 CC] PO.
  pose proof (wired_ok o tw cp R M client server OS SO VC key cert host port ways LR) as POw. pose proof (direct_ok o tw cp R M client server OS SO VC) as POd.
  pose proof (unsafe_wired o tw cp R M client server w f post1 key cert host port ways OS SO VC LR) as UN.
  destruct (pledge_run o w c f post1 _ h pinned OS WO W PL CF TX PO POw P0 CC) as [[U K]|[U (z & h1 & E & D)]], (pledge_run o w c f post1 _ h pinned OS WO W PL CF TX PO POd P0 CC) as [[U' K']|[U' (z' & h2 & E' & D')]].
  - left. split; assumption.
  - exfalso. apply U', UN, U.
  - exfalso. apply U, UN, U'.
  - right. pose proof (fun t1 t2 d => wired_obtains o tw cp R M client server OS SO VC w f post1 key cert host port ways t1 t2 d LR) as WOb.
    destruct D as [(-> & _ & _ & N)|(-> & _ & _ & _ & t1 & t2 & d & OB & PR)], D' as [(-> & _ & _ & N')|(-> & _ & _ & _ & t1' & t2' & d' & OB' & PR')].
    + exists (-1)%Z, h1, h2. split; [exact E|]. split; [exact E'|]. discriminate.
    + exfalso. eapply N. apply WOb. exact OB'.
    + exfalso. eapply N'. apply WOb. exact OB.
    + exists 0%Z, h1, h2. split; [exact E|]. split; [exact E'|]. intros _. apply WOb in OB. destruct (obtains_fun _ _ _ _ _ _ _ _ _ _ _ OB OB') as (_ & _ & <-). exists d. split; assumption.
Qed.

Lemma first_wired : forall o tw cp R M client server key cert host port ways tls1, ossl_sane o -> sides_ok tw cp R M server -> view_ok client -> line_to tw cp (rs_ctx R) ways host port key cert client ->
  first_contact (wired_registrar o tw cp R M key cert host port ways) tls1 <-> cv_der server = Some tls1.
Proof. intros. eapply wired_first; eassumption. Qed.

Lemma pinned_fun h h' pinned d d' : pinned_result h h' pinned d -> pinned_result h h' pinned d' -> d = d'.
Proof. intros (b & _ & A & B & _) (b' & _ & A' & B' & _). rewrite A in A'. injection A' as <- _. rewrite B in B'. injection B' as <-. reflexivity. Qed.

Lemma honest_wired : forall o tw cp R M client server w c f h pinned key cert host port ways1 ways2 k
    t1 t2 t3 s n i rc d pcert pkey padd pverify pstore rcert rkey radd rverify rstore mcert mkey madd mrverify mrstore mpverify mpstore,
  ossl_sane o -> sides_ok tw cp R M server -> view_ok client -> line_to tw cp (rs_ctx R) ways1 host port key cert client -> line_to tw cp (rs_ctx R) ways2 host port key cert client -> pledge_fine w c f h pinned ->
  pledge_time w f = Some t1 -> w_now (rs_world R) = Some t2 -> serialize_str2time (mf_expires (ms_files M)) = Some t3 -> date_ready t1 -> date_ready t2 -> date_ready t3 ->
  pf_serial f = Some s -> Forall SJson.plain_char s -> blen s < 128 -> client_serial client s ->
  nonce_given f n -> (forall x, n = Some x -> x <> [] /\ bytes_ok x) -> cv_issuer_text client = Some i -> i <> [] ->
  cv_der server = Some rc -> rc <> [] -> d <> [] ->
  pledge_material w f pcert pkey padd pverify pstore -> registrar_material (rs_world R) (rs_files R) rc rcert rkey radd rverify rstore ->
  masa_material (ms_world M) (ms_files M) d mcert mkey madd mrverify mrstore mpverify mpstore ->
  4 * (match n with None => 0 | Some x => blen x end + blen rc + blen i + blen d + k) + 40000 < 2147483648 ->
  trusts o (Some (ba_of pcert)) (Some (ba_of pkey)) padd rverify rstore false k -> trusts o (Some (ba_of pcert)) (Some (ba_of pkey)) padd mpverify mpstore false k ->
  trusts o (Some (ba_of rcert)) (Some (ba_of rkey)) radd mrverify mrstore true k -> trusts o (Some (ba_of mcert)) (Some (ba_of mkey)) madd pverify pstore false k ->
  chains o (Some (ba_of rc)) d None ->
  exists h', post_voucher_pledge_request o w c (wired_registrar o tw cp R M key cert host port ways1) (wired_registrar o tw cp R M key cert host port ways2) h pinned = Ok (0%Z, h') /\ pinned_result h h' pinned d.
Proof.
  intros o tw cp R M client server w c f h pinned key cert host port ways1 ways2 k
    t1 t2 t3 s n i rc d pcert pkey padd pverify pstore rcert rkey radd rverify rstore mcert mkey madd mrverify mrstore mpverify mpstore
    OS SO VC LR1 LR2 PF T1 T2 T3 D1 D2 D3 Se Sp Sl CS NG NR IS I0 SV RC0 D0 PM RM MM SZ TR1 TR2 TR3 TR4 CH.
  pose proof (wired_ok o tw cp R M client server OS SO VC key cert host port ways1 LR1) as PO1.
  pose proof (proj2 (first_wired o tw cp R M client server key cert host port ways1 rc OS SO VC LR1) SV) as FC.
  pose proof PF as [WO W PL CF TX P0 CC]. pose proof SO as [[R1 R2 R3 R4] [M1 M2 M3 M4 M5] _ VS _ _].
  destruct (chain_complete o w (rs_world R) (ms_world M) c f (rs_conf R) (rs_files R) (ms_conf M) (ms_files M) h (rs_heap R) (ms_heap M) (ms_ld M) client server (wired_registrar o tw cp R M key cert host port ways1) pinned k
    t1 t2 t3 s n i rc d pcert pkey padd pverify pstore rcert rkey radd rverify rstore mcert mkey madd mrverify mrstore mpverify mpstore OS WO R1 M1 W R2 M2 PL R3 M3 CF R4 M4 TX VC VS PO1 P0 CC
    T1 T2 T3 D1 D2 D3 Se Sp Sl CS NG NR IS I0 FC SV RC0 D0 PM RM MM SZ TR1 TR2 TR3 TR4 CH) as (h' & E & PR).
  destruct (transparent o tw cp R M client server w c f h pinned _ key cert host port ways2 OS SO VC LR2 PF PO1) as [[_ [k' Q]]|(z & h1 & h2 & Q1 & Q2 & Q3)].
  - unfold direct in Q. rewrite E in Q. discriminate.
  - unfold direct in Q2. rewrite E in Q2. injection Q2 as <- <-. destruct (Q3 eq_refl) as (d' & P1 & P2). rewrite <- (pinned_fun _ _ _ _ _ P2 PR). exists h1. split; assumption.
Qed.

Lemma sound_wired : forall o tw cp R M client server w c f h pinned key cert host port net1 ways2 h',
  ossl_sane o -> genuine o -> sides_ok tw cp R M server -> view_ok client -> line_to tw cp (rs_ctx R) ways2 host port key cert client -> pledge_fine w c f h pinned -> network_ok net1 ->
  pledge_ready w f -> registrar_values (rs_world R) client -> masa_values (ms_world M) (ms_files M) -> (forall tls1, first_contact (ask_registrar tw net1 key cert host) tls1 -> bytes_ready tls1) ->
  post_voucher_pledge_request o w c (ask_registrar tw net1 key cert host) (wired_registrar o tw cp R M key cert host port ways2) h pinned = Ok (0%Z, h') ->
  exists d tls s, w_cert (ms_world M) (mf_ldevid (ms_files M)) = Some d /\ pinned_result h h' pinned d /\
    first_contact (ask_registrar tw net1 key cert host) tls /\ w_cert (rs_world R) (rf_tls (rs_files R)) = Some tls /\
    (exists tls2, cv_der server = Some tls2 /\ chains o (Some (ba_of tls2)) d None) /\ pf_serial f = Some s /\ client_serial client s.
Proof.
  intros o tw cp R M client server w c f h pinned key cert host port net1 ways2 h' OS G SO VC LR PF NO PR RV MV FR E.
  pose proof (pledge_post_ok tw net1 key cert host NO) as PO. change (post_ok (ask_registrar tw net1 key cert host)) in PO.
  pose proof PF as [WO W PL CF TX P0 CC]. pose proof SO as [[R1 R2 R3 R4] [M1 M2 M3 M4 M5] _ VS _ _].
  destruct (transparent o tw cp R M client server w c f h pinned _ key cert host port ways2 OS SO VC LR PF PO) as [[[k Q] _]|(z & h1 & h2 & Q1 & Q2 & Q3)]; [congruence|].
  rewrite E in Q1. injection Q1 as <- <-. destruct (Q3 eq_refl) as (d0 & PR1 & PR2).
  destruct (chain_sound o w (rs_world R) (ms_world M) c f (rs_conf R) (rs_files R) (ms_conf M) (ms_files M) h (rs_heap R) (ms_heap M) (ms_ld M) client server _ pinned h2 OS G WO R1 M1 W R2 M2 PL R3 M3 CF R4 M4 M5 TX VC VS PO PR RV MV FR P0 CC Q2)
    as (d & tls1 & tls2 & s & S1 & S2 & S3 & S4 & S5 & S6 & S7 & S8).
  exists d, tls1, s. split; [exact S1|]. split; [rewrite <- (pinned_fun _ _ _ _ _ PR2 S2); exact PR1|]. split; [exact S3|]. split; [exact S4|]. split; [exists tls2; split; assumption|]. split; assumption.
Qed.

(** *** Concrete parties *)
From Verif Require Import PRequest7 PHttp PHttp2 PWire2 PWire2 PWire3 PWire4 PWire5 PWire6 PWire8 PTls2.
Definition link_tls : tls_world :=
  mk_tls (fun c k => Some [plain c]) (fun c k => if beqb c (s2b "pledge.crt") then Some pledge_view else Some (plain [2; 7])) (fun f => [plain f]) (fun _ => None) [] (fun anchors chain => existsb (issued_by chain) anchors) (fun _ _ => false).
Definition link_ways : nat -> way := fun _ => mk_way some_conn (fun n => N.of_nat n mod 7 + 1) (fun n => N.of_nat n mod 5 + 1).
Definition link_registrar : registrar_side :=
  mk_registrar_side registrar_world registrar_case_conf registrar_case_files registrar_case (mk_sctx [server [2; 7]] AnyClient) idle (s2b "registrar.key") (s2b "registrar.crt") (plain [2; 7]).
Definition link_masa : masa_side := mk_masa_side masa_world masa_case_conf masa_case_files 0 masa_case (mk_sctx [plain [3; 3]] (Verified [plain [7; 7]])) link_ways (s2b "masa.example") 8443.
Definition to_registrar : post_cert_fn := wired_registrar toy link_tls dot_compile link_registrar link_masa (s2b "pledge.key") (s2b "pledge.crt") (s2b "registrar.example") 443 link_ways.
Definition link_case (nonce : bytes) : outcome (Z * heap) := post_voucher_pledge_request toy pledge_world pledge_case_conf to_registrar to_registrar (pledge_case nonce) 8.

(** *** The content types of vouchers *)
Lemma plain_lines v : plain_valueb v && (blen v <=? 8000) = true -> Forall line_ok [(s2b "Content-Type", v)].
Proof.
  intro H. apply andb_prop in H as [A B]. apply N.leb_le in B. assert (U : usual_answer (Answers 200 [(s2b "Content-Type", v)] [])).
  { apply type_usual; [|vm_compute; discriminate]. rewrite A. apply N.leb_le. change (blen (s2b "Content-Type")) with 12. lia. }
  destruct U as (U1 & _). eapply Forall_impl; [|exact U1]. intros e Q. exact (proj1 (usual_short e Q)).
Qed.
Lemma masa_label : forall o w c ld h cp s req r l h', regex_ok cp -> register_routes cp no_handlers (setup_masa_routes (masa_handle o w c ld h)) = Some (0%Z, s) ->
  rq_method req = s2b "POST" -> rq_path req = PATH_BRSKI_REQUESTVOUCHER -> masa_requestvoucher o w c ld h (rq_body req) = Ok (200%Z, r, l, h') ->
  let res := process_request s req in rs_status res = 200%Z /\ rs_body res = r /\ values_ci CT (rs_headers res) = [s2b "text/plain"].
Proof.
  intros o w c ld h cp s req r l h' C R Mt Pt E. cbv zeta.
  assert (A : asks (mk_route PATH_BRSKI_REQUESTVOUCHER POST (masa_handle o w c ld h)) req = Answers 200 plain_text r) by (unfold asks, masa_handle; cbn [rt_handle]; rewrite E; reflexivity).
  assert (F : first_route (setup_masa_routes (masa_handle o w c ld h)) req (mk_route PATH_BRSKI_REQUESTVOUCHER POST (masa_handle o w c ld h))) by (apply masa_own; [left; reflexivity|unfold asked_method; rewrite Mt; reflexivity|exact Pt]).
  destruct (answer_sent cp _ s req _ 200 plain_text r C (masa_table _) R F A) as (E1 & E2 & _ & E4); [apply plain_lines; vm_compute; reflexivity|lia|].
  split; [exact E1|]. split; [rewrite E2; unfold sent_body; rewrite Mt; destruct r; reflexivity|]. apply E4; [lia|reflexivity].
Qed.
Lemma registrar_label : forall o w c post h peer enroll cp s req r h', regex_ok cp -> register_routes cp no_handlers (setup_registrar_routes (registrar_handle o w c post h peer) enroll) = Some (0%Z, s) ->
  rq_method req = s2b "POST" -> rq_path req = PATH_BRSKI_REQUESTVOUCHER -> registrar_requestvoucher o w c post h peer (rq_body req) = Ok (200%Z, r, h') ->
  let res := process_request s req in rs_status res = 200%Z /\ rs_body res = r /\ values_ci CT (rs_headers res) = [s2b "application/voucher-cms+json"].
Proof.
  intros o w c post h peer enroll cp s req r h' C R Mt Pt E. cbv zeta.
  assert (A : asks (mk_route PATH_BRSKI_REQUESTVOUCHER POST (registrar_handle o w c post h peer)) req = Answers 200 voucher_type r) by (unfold asks, registrar_handle; cbn [rt_handle]; rewrite E; reflexivity).
  assert (F : first_route (setup_registrar_routes (registrar_handle o w c post h peer) enroll) req (mk_route PATH_BRSKI_REQUESTVOUCHER POST (registrar_handle o w c post h peer))) by (apply registrar_own; [left; reflexivity|unfold asked_method; rewrite Mt; reflexivity|exact Pt]).
  destruct (answer_sent cp _ s req _ 200 voucher_type r C (registrar_table _ _) R F A) as (E1 & E2 & _ & E4); [apply plain_lines; vm_compute; reflexivity|lia|].
  split; [exact E1|]. split; [rewrite E2; unfold sent_body; rewrite Mt; destruct r; reflexivity|]. apply E4; [lia|reflexivity].
Qed.
Lemma label_refuted : exists o w c f ld h cp s req r, ossl_sane o /\ masa_ok w c f ld h /\ regex_ok cp /\
  register_routes cp no_handlers (setup_masa_routes (masa_handle o w c ld h)) = Some (0%Z, s) /\ rq_method req = s2b "POST" /\ rq_path req = PATH_BRSKI_REQUESTVOUCHER /\
  (exists l h', masa_requestvoucher o w c ld h (rq_body req) = Ok (200%Z, r, l, h')) /\ r <> [] /\
  values_ci CT (rs_headers (process_request s req)) <> [s2b "application/voucher-cms+json"].
Proof.
  destruct (registers dot_compile (setup_masa_routes (masa_handle toy masa_world masa_case_conf 0 masa_case)) dot_compile_ok (masa_table _)) as (s & R).
  destruct (masa_requestvoucher toy masa_world masa_case_conf 0 masa_case (rfc_encode outer_cms)) as [[[[st r] l] h']|k] eqn:E; [|vm_compute in E; discriminate].
  assert (st = 200%Z) as -> by (vm_compute in E; congruence). assert (NE : r <> []) by (intros ->; vm_compute in E; discriminate E).
  exists toy, masa_world, masa_case_conf, masa_case_files, 0, masa_case, dot_compile, s, (mk_request (s2b "POST") PATH_BRSKI_REQUESTVOUCHER [] (rfc_encode outer_cms)), r.
  split; [exact toy_sane|]. split; [split; [exact masa_world_ok|exact masa_case_wf|intros a; reflexivity|exact masa_case_config|left; reflexivity]|]. split; [exact dot_compile_ok|]. split; [exact R|].
  split; [reflexivity|]. split; [reflexivity|]. split; [exists l, h'; exact E|]. split; [exact NE|].
  destruct (masa_label toy masa_world masa_case_conf 0 masa_case dot_compile s (mk_request (s2b "POST") PATH_BRSKI_REQUESTVOUCHER [] (rfc_encode outer_cms)) r l h' dot_compile_ok R eq_refl eq_refl E) as (_ & _ & Q). rewrite Q. vm_compute. discriminate.
Qed.

(** *** The concrete parties are in order *)
Lemma line_case tw ctx host port key cert v : plain_valueb host && (blen host <=? 8000) = true -> (0 <= port < 65536)%Z -> shows tw cert key (Some v) -> ssl_accepts tw ctx [v] = true ->
  line_to tw dot_compile ctx link_ways host port key cert v.
Proof.
  intros H P S A. apply andb_prop in H as [H1 H2]. apply N.leb_le in H2. split; [exact dot_compile_ok|split; [apply plain_valueb_ok, H1|split; [exact H2|exact P]]|intro n; split; apply crlf_sendable; reflexivity|exact S|exact A].
Qed.
Lemma sides_case : sides_ok link_tls dot_compile link_registrar link_masa (PPledge4.server [2; 7]).
Proof.
  split.
  - split; [exact registrar_world_ok|exact registrar_case_wf|intros a; reflexivity|exact registrar_case_config].
  - split; [exact masa_world_ok|exact masa_case_wf|intros a; reflexivity|exact masa_case_config|left; reflexivity].
  - reflexivity.
  - apply server_ok. apply bytes_okb_ok. reflexivity.
  - discriminate.
  - apply line_case; [reflexivity|split; reflexivity || discriminate|right; eexists; repeat split; discriminate|reflexivity].
Qed.
Lemma pledge_line_case : line_to link_tls dot_compile (rs_ctx link_registrar) link_ways (s2b "registrar.example") 443 (s2b "pledge.key") (s2b "pledge.crt") pledge_view.
Proof. apply line_case; [reflexivity|split; reflexivity || discriminate|right; eexists; repeat split; discriminate|reflexivity]. Qed.
Lemma pledge_fine_case nonce : cstr_ok nonce -> pledge_fine pledge_world pledge_case_conf (pledge_case_files nonce) (pledge_case nonce) 8.
Proof. intro CN. split; [exact pledge_world_ok|apply pledge_case_wf|intros a; reflexivity|exact (pledge_case_config _ CN)|exact (pledge_case_text _ CN)|discriminate|reflexivity]. Qed.
