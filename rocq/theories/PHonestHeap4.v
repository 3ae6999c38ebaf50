(** The honest run with complete memory. *)
From Coq Require Import Permutation ZifyBool ZifyNat ZifyN.
From Verif Require Import Base PBase MOs MBase64 MSerialize MVoucher MCrypto MRequest MHeap MArray MVoucherHeap MConfig MHandlers MSerialHeap MRequestHeap MHandlerHeap
  SBase64 SHeap SArray SConfig SJson SVoucher SRequest SHandlers SPledge SChain SVoucherHeap SSerialHeap SRequestHeap SEnrolLogHeap SHandlerHeap SHonestHeap
  PBase64 PHeap PArray PBlocks PConfig PConfigMore PCertFiles POwn PAcquire PAcquire2 PVoucherText PVoucherRound PRequest PRequest2 PRequest3 PRequest4 PRequest5 PRequest6 PRequest7 PMasa PMasa2 PRegistrar PRegistrar2 PPledge PPledge2 PPledge3 PPledge4 PChain PChain2 PHandlerHeap7
  PHandlerHeap3 PHandlerHeap6 PHandlerHeap10 PHonestHeap PHonestHeap2.
Open Scope N_scope.

Lemma issues_fun : forall o w f m cms cms', ossl_sane o -> masa_issues o w f m cms -> masa_issues o w f m cms' -> cms = cms'.
Proof.
  intros o w f m cms cms' OS A B. apply (masa_issues_runs _ _ _ _ _ OS) in A. apply (masa_issues_runs _ _ _ _ _ OS) in B.
  destruct A as (t & ldc & ce & ke & rv & rs & pv & ps & ad & M1 & M2 & M3 & M4 & M5 & M6 & M7 & M8 & M9 & M10), B as (t' & ldc' & ce' & ke' & rv' & rs' & pv' & ps' & ad' & N1 & N2 & N3 & N4 & N5 & N6 & N7 & N8 & N9 & N10).
  rewrite M1 in N1. injection N1 as <-. rewrite M2 in N2. injection N2 as <-. rewrite M3 in N3. injection N3 as <-. rewrite M4 in N4. injection N4 as <-.
  rewrite <- (cert_list_fun _ _ _ _ M5 N5), <- (cert_list_fun _ _ _ _ M6 N6), <- (cert_list_fun _ _ _ _ M7 N7), <- (cert_list_fun _ _ _ _ M8 N8), <- (cert_list_fun _ _ _ _ M9 N9), M10 in N10. injection N10 as <-. reflexivity.
Qed.
(** A MASA that can issue a voucher does. *)
Lemma full_masa_replies : forall o w c f h body m cms, ossl_sane o -> world_ok w -> heap_wf h -> plenty h -> masa_config h c f -> bytes_ok body -> masa_fits o w f body ->
  rfc_decode (c_string body) = Some m -> masa_issues o w f m cms -> blen cms < SIZE_MAX / 4 -> full_masa_service o w c h body = (200%Z, rfc_encode cms).
Proof.
  intros o w c f h body m cms OS WO W PL MC B FI ED MI L. pose proof MI as MI'. destruct MI' as (t & ldc & ce & ke & rv & rs & pv & ps & ad & vr & regs & p & pvr & s & n & M1 & M2 & M3 & M4 & M5 & M6 & M7 & M8 & M9 & _).
  assert (BO : Forall bytes_ok [body]) by (apply Forall_cons; [exact B|apply Forall_nil]). assert (MF : Forall (masa_fits o w f) [body]) by (apply Forall_cons; [exact FI|apply Forall_nil]).
  unfold full_masa_service. destruct (full_masa_requestvoucher o w c 0 h body) as [[[[s1 r1] l1] h1]|k] eqn:E.
  - destruct (full_masa_answers _ _ _ _ _ _ _ _ OS WO W PL MC BO MF (masa_single _ _ _ _ _ _ _ _ _ E)) as (F & _). inversion F as [|? ? ? ? MA _]; subst. unfold masa_answer in MA. cbn [fst snd] in MA.
    destruct MA as [(-> & m' & cms' & D2 & MI2 & ->)|(_ & _ & Q)]; [|exfalso; apply Q; exists m, cms; auto]. rewrite ED in D2. injection D2 as <-. rewrite (issues_fun _ _ _ _ _ _ OS MI MI2). reflexivity.
  - exfalso. assert (U : exists k, full_masa_serves o w c 0 h [body] = UB k) by (exists k; cbn [full_masa_serves]; rewrite E; reflexivity). apply (full_masa_exact _ _ _ _ _ _ OS WO W PL MC BO MF) in U.
    inversion U as [? ? C|? ? C]; subst; [|inversion C]. destruct C as (_ & C). destruct C as [BP|(_ & _ & _ & C)]; [apply decode_bad in BP; destruct BP; congruence|]. unfold masa_lists in C.
    repeat match goal with H : Exists _ _ |- _ => inversion H; clear H; subst end; eapply missing_list; eassumption.
Qed.
Lemma full_registrar_forwards : forall o w c f nn post h v server body m cms, ossl_sane o -> world_ok w -> heap_wf h -> plenty h -> registrar_config h c f -> names_at (hp_next h) nn h -> request_ok o w f (Some v, body) ->
  rfc_decode (c_string body) = Some m -> registrar_posts o w f v m cms -> blen cms < SIZE_MAX / 4 -> fst (post (rfc_encode cms)) = 200%Z ->
  full_registrar_service o w c nn post h v server body = (200%Z, snd (post (rfc_encode cms)), Some server).
Proof.
  intros o w c f nn post h v server body m cms OS WO W PL RC NA RO ED RP L P2. assert (RF : Forall (request_ok o w f) [(Some v, body)]) by (apply Forall_cons; [exact RO|apply Forall_nil]).
  unfold full_registrar_service. destruct (full_registrar_requestvoucher o w c nn post h (Some v) body) as [[[s1 r1] h1]|k] eqn:E.
  - destruct (full_registrar_answers _ _ _ _ _ _ _ _ _ _ OS WO W PL RC NA RF (registrar_single _ _ _ _ _ _ _ _ _ _ _ E)) as (F & _). inversion F as [|? ? ? ? RA _]; subst. cbn [fst snd] in RA. destruct (posts_ready _ _ _ _ _ _ RP) as [KN RD].
    destruct RA as [(v' & m' & cms' & Q1 & Q2 & Q3 & A)|[(_ & [A|(_ & A)])|(_ & _ & A)]]; [|contradiction|exfalso; apply A; exists v, m, cms; auto|contradiction].
    injection Q1 as <-. rewrite ED in Q2. injection Q2 as <-. rewrite <- (posts_fun _ _ _ _ _ _ _ OS RP Q3) in A. cbn [fst snd] in A. rewrite P2 in A.
    destruct A as [(A1 & A2 & A3)|[(A1 & A2 & A3)|(A1 & [A2|A2] & A3)]]; subst; try reflexivity; lia.
  - exfalso. assert (U : exists k, full_registrar_serves o w c nn post h [(Some v, body)] = UB k) by (exists k; cbn [full_registrar_serves fst snd]; rewrite E; reflexivity). apply (full_registrar_exact _ _ _ _ _ _ _ _ OS WO W PL RC NA RF) in U.
    inversion U as [? ? C|? ? C]; subst; [|inversion C]. cbn [fst snd] in C. exact (posts_safe _ _ _ _ _ _ _ RP ED C).
Qed.

(** The messages of the honest run. *)
Lemma chain_messages : forall o wp wr wm fp fr fm client server post1 k
    t1 t2 t3 s n i rc d pcert pkey padd pverify pstore rcert rkey radd rverify rstore mcert mkey madd mrverify mrstore mpverify mpstore,
  ossl_sane o -> world_ok wr -> world_ok wm -> view_ok client ->
  pledge_time wp fp = Some t1 -> w_now wr = Some t2 -> serialize_str2time (mf_expires fm) = Some t3 -> date_ready t1 -> date_ready t2 -> date_ready t3 ->
  pf_serial fp = Some s -> Forall plain_char s -> blen s < 128 -> client_serial client s ->
  nonce_given fp n -> (forall x, n = Some x -> x <> [] /\ bytes_ok x) -> cv_issuer_text client = Some i -> i <> [] ->
  first_contact post1 rc -> cv_der server = Some rc -> rc <> [] -> d <> [] ->
  pledge_material wp fp pcert pkey padd pverify pstore -> registrar_material wr fr rc rcert rkey radd rverify rstore -> masa_material wm fm d mcert mkey madd mrverify mrstore mpverify mpstore ->
  4 * (match n with None => 0 | Some x => blen x end + blen rc + blen i + blen d + k) + 40000 < 2147483648 ->
  trusts o (Some (ba_of pcert)) (Some (ba_of pkey)) padd rverify rstore false k -> trusts o (Some (ba_of pcert)) (Some (ba_of pkey)) padd mpverify mpstore false k ->
  trusts o (Some (ba_of rcert)) (Some (ba_of rkey)) radd mrverify mrstore true k -> trusts o (Some (ba_of mcert)) (Some (ba_of mkey)) madd pverify pstore false k ->
  chains o (Some (ba_of rc)) d None ->
  exists cms1 cms2 cms3, pledge_sends o wp fp post1 cms1 /\ registrar_posts o wr fr client cms1 cms2 /\ masa_issues o wm fm cms2 cms3 /\
    bytes_ready cms1 /\ bytes_ready cms2 /\ bytes_ready cms3 /\
    forall post2, post2 (rfc_encode cms1) = (200%Z, rfc_encode cms3, Some server) -> pledge_obtains o wp fp post1 post2 rc rc d.
Proof.
  intros o wp wr wm fp fr fm client server post1 k
    t1 t2 t3 s n i rc d pcert pkey padd pverify pstore rcert rkey radd rverify rstore mcert mkey madd mrverify mrstore mpverify mpstore
    OS WOr WOm VC T1 T2 T3 D1 D2 D3 Se Sp Sl CS NG NR IS I0 FC SV RC0 D0 (PM1 & PM2 & PM3 & PM4 & PM5) (RM1 & RM2 & RM3 & RM4 & RM5 & RM6)
    (MM1 & MM2 & MM3 & MM4 & MM5 & MM6 & MM7 & MM8) SZ TR1 TR2 TR3 TR4 CH.
  assert (Bi : bytes_ok i) by (destruct VC as (_ & _ & Q & _); exact (Q _ IS)). assert (Brc : bytes_ok rc) by (eapply (proj1 WOr); exact RM1). assert (Bd : bytes_ok d) by (eapply (proj1 WOm); exact MM1).
  assert (Cs : cstr_ok s) by (apply plain_cstr; exact Sp).
  destruct (honest_sized o t1 t2 t3 s n rc i d (fun _ _ => (0%Z, ba_of d)) k false _ _ _ _ _ _ _ _ _ _ _ _ _ _ _ _ _ None OS D1 D2 D3 Sp Sl NR RC0 Brc I0 Bi D0 Bd SZ TR1 TR2 TR3 TR4) as (cms1 & cms2 & cms3 & l & E1 & E2 & E3 & E4 & (L1 & L2 & L3) & N1 & N2 & N3);
    [intros regs; exists 0%Z; split; [reflexivity|lia]|exact CH|].
  assert (HC : forall s', Some s = Some s' -> cstr_ok s') by (intros s' Q; injection Q as <-; exact Cs).
  apply (pledge_iff _ _ _ _ _ _ _ _ _ HC) in E1. destruct E1 as (t & s' & n' & c' & Q1 & Q2 & _ & Q3 & Q4 & SV1). injection Q1 as <-. injection Q2 as <-. apply opt_has_nonce in Q3. subst n'. rewrite (ba_has_of _ _ Q4) in SV1.
  apply (registrar_iff _ _ _ _ _ _ _ _ _ _ _ _ OS HC) in E2. destruct E2 as (pc & pvr & t & s' & i' & rc' & p & prox & n2 & Q1 & Q2 & Q5 & Q6 & G1 & G2 & G3 & G4 & G5 & G6 & G7 & G8 & SV2).
  injection Q1 as <-. injection Q2 as <-. injection Q5 as <-. injection Q6 as <-. rewrite (ba_has_of _ _ G7) in SV2. rewrite (ba_has_of _ _ G8) in SV2.
  assert (B1 : bytes_ok cms1) by (eapply signed_bytes; [exact OS|exact SV1]). assert (B2 : bytes_ok cms2) by (eapply signed_bytes; [exact OS|exact SV2]).
  assert (MI : masa_issues o wm fm cms2 cms3).
  { apply masa_runs_issues; [exact OS|]. exists t3, d, mcert, mkey, mrverify, mrstore, mpverify, mpstore, madd. repeat (split; [assumption|]). exact E3. }
  assert (B3 : bytes_ok cms3) by (destruct MI as (? & ? & ? & ? & ? & ? & ? & ? & ? & ? & ? & ? & ? & ? & ? & _ & _ & _ & _ & _ & _ & _ & _ & _ & _ & _ & _ & _ & _ & _ & Q); eapply signed_bytes; [exact OS|exact Q]).
  assert (PA : pledge_asks o wp fp rc cms1) by (exists t1, s, n, pcert, pkey, padd; repeat (split; [assumption|]); exact SV1).
  assert (RP : registrar_posts o wr fr client cms1 cms2).
  { exists t2, s, i, rc, rcert, rkey, rverify, rstore, radd, pvr, prox, n2. repeat (split; [assumption|]). exact SV2. }
  assert (DE : forall m, bytes_ok m -> m <> [] -> rfc_decode (c_string (rfc_encode m)) = Some m) by (intros m Hm Nm; rewrite sent by exact Hm; apply rfc_roundtrip; assumption).
  exists cms1, cms2, cms3. split; [exists rc; auto|]. split; [exact RP|]. split; [exact MI|]. split; [split; auto|]. split; [split; auto|]. split; [split; auto|]. intros post2 P2.
  exists cms1, (rfc_encode cms3), cms3. split; [exact FC|]. split; [exact PA|]. split; [exact L1|]. split.
  { exists 200%Z, server. split; [exact P2|]. split; [lia|exact SV]. }
  split; [exact (DE _ B3 N3)|].
  apply (pledge_accepts _ _ _ _ _ _ _ _ _ _ _ OS) in E4. destruct E4 as (mc & mv & s' & d' & Q1 & Q2 & V1 & V2 & V3 & V4 & V5 & V6). injection Q1 as <-. injection Q2 as <-. apply ba_of_inj in V6. subst d'.
  assert (l = None) as -> by (destruct V1 as (? & ? & ? & _ & _ & Q); exact Q).
  exists s, n, pverify, pstore, mv. repeat (split; [assumption|]). split; [|split; assumption].
  intros NN. destruct n as [x|]; [|contradiction]. destruct (V3 _ eq_refl) as (x' & X1 & X2). destruct X2 as [(Q & _)|X2]; [discriminate|]. rewrite (ba_has_of _ _ X2) in X1. exact X1.
Qed.

Lemma full_onboarding : forall o wp wr wm cp fp cr fr cm fm hp hr hm nn client server post1 pinned k
    t1 t2 t3 s n i rc d pcert pkey padd pverify pstore rcert rkey radd rverify rstore mcert mkey madd mrverify mrstore mpverify mpstore,
  ossl_sane o -> genuine o -> world_ok wp -> world_ok wr -> world_ok wm -> heap_wf hp -> heap_wf hr -> heap_wf hm -> plenty hp -> plenty hr -> plenty hm ->
  pledge_config hp cp fp -> registrar_config hr cr fr -> masa_config hm cm fm -> pledge_text_ok fp -> names_at (hp_next hr) nn hr -> view_ok client -> short_view client -> view_ok server -> post_ok post1 ->
  pinned <> 0 -> hp_cell hp pinned = Live (Struct [P 0; I 0]) ->
  pledge_time wp fp = Some t1 -> w_now wr = Some t2 -> serialize_str2time (mf_expires fm) = Some t3 -> date_ready t1 -> date_ready t2 -> date_ready t3 ->
  pf_serial fp = Some s -> Forall plain_char s -> blen s < 128 -> client_serial client s ->
  nonce_given fp n -> (forall x, n = Some x -> x <> [] /\ bytes_ok x) -> cv_issuer_text client = Some i -> i <> [] ->
  first_contact post1 rc -> cv_der server = Some rc -> rc <> [] -> d <> [] ->
  pledge_material wp fp pcert pkey padd pverify pstore -> registrar_material wr fr rc rcert rkey radd rverify rstore -> masa_material wm fm d mcert mkey madd mrverify mrstore mpverify mpstore ->
  4 * (match n with None => 0 | Some x => blen x end + blen rc + blen i + blen d + k) + 40000 < 2147483648 ->
  trusts o (Some (ba_of pcert)) (Some (ba_of pkey)) padd rverify rstore false k -> trusts o (Some (ba_of pcert)) (Some (ba_of pkey)) padd mpverify mpstore false k ->
  trusts o (Some (ba_of rcert)) (Some (ba_of rkey)) radd mrverify mrstore true k -> trusts o (Some (ba_of mcert)) (Some (ba_of mkey)) madd pverify pstore false k ->
  chains o (Some (ba_of rc)) d None ->
  exists h', full_post_voucher_pledge_request o wp cp post1 (full_registrar_service o wr cr nn (full_masa_service o wm cm hm) hr client server) hp pinned = Ok (0%Z, h') /\ pinned_result hp h' pinned d.
Proof.
  intros o wp wr wm cp fp cr fr cm fm hp hr hm nn client server post1 pinned k
    t1 t2 t3 s n i rc d pcert pkey padd pverify pstore rcert rkey radd rverify rstore mcert mkey madd mrverify mrstore mpverify mpstore
    OS G WOp WOr WOm Wp Wr Wm PLp PLr PLm CP CR CM TX NA VC SC VS PO P0 CC T1 T2 T3 D1 D2 D3 Se Sp Sl CS NG NR IS I0 FC SV RC0 D0 PM RM MM SZ TR1 TR2 TR3 TR4 CH.
  destruct (chain_messages o wp wr wm fp fr fm client server post1 k t1 t2 t3 s n i rc d pcert pkey padd pverify pstore rcert rkey radd rverify rstore mcert mkey madd mrverify mrstore mpverify mpstore
    OS WOr WOm VC T1 T2 T3 D1 D2 D3 Se Sp Sl CS NG NR IS I0 FC SV RC0 D0 PM RM MM SZ TR1 TR2 TR3 TR4 CH) as (cms1 & cms2 & cms3 & PS & RP & MI & (N1 & B1 & L1) & (N2 & B2 & L2) & (N3 & B3 & L3) & OB).
  pose proof (eq_refl : SIZE_MAX / 4 = 4611686018427387903) as S4. pose proof (eq_refl : SIZE_MAX / 8 = 2305843009213693951) as S8.
  assert (Bi : bytes_ok i) by (destruct VC as (_ & _ & Q & _); exact (Q _ IS)). assert (Brc : bytes_ok rc) by (eapply (proj1 WOr); exact (proj1 RM)). assert (Bd : bytes_ok d) by (eapply (proj1 WOm); exact (proj1 MM)).
  assert (NB : forall x, n = Some x -> bytes_ready x) by (intros x ->; destruct (NR x eq_refl) as [X1 X2]; split; [exact X1|]; split; [exact X2|]; lia).
  assert (PR : pledge_ready wp fp).
  { split; [intros t Q; congruence|]. split; [intros s' Q; congruence|]. intros n' x Q ->. apply NB. eapply given_fun; eassumption. }
  assert (RV : registrar_values wr client) by (split; [intros t Q; congruence|]; intros i' Q; assert (i' = i) as -> by congruence; split; [exact I0|]; split; [exact Bi|lia]).
  assert (MV : masa_values wm fm) by (split; [intros t Q; congruence|]; intros d' Q; assert (d' = d) as -> by (destruct MM; congruence); split; [exact D0|]; split; [exact Bd|lia]).
  assert (FR : forall tls1, first_contact post1 tls1 -> bytes_ready tls1) by (intros tls1 Q; rewrite (first_fun _ _ _ Q FC); split; [exact RC0|]; split; [exact Brc|lia]).
  assert (CV : client_values client) by (split; [intros s' Q; rewrite (serial_fun _ _ _ Q CS); auto|]; intros i' Q; assert (i' = i) as -> by congruence; lia).
  assert (SL : forall s', pf_serial fp = Some s' -> blen s' < 128) by (intros s' Q; congruence).
  pose proof (exchange_fitting o wp fp post1 wr fr client wm fm OS G TX PR RV CV MV FR SL) as FITS.
  assert (DE : forall m, bytes_ok m -> m <> [] -> rfc_decode (c_string (rfc_encode m)) = Some m) by (intros m Hm Nm; rewrite sent by exact Hm; apply rfc_roundtrip; assumption).
  pose proof (full_masa_replies o wm cm fm hm (rfc_encode cms2) cms2 cms3 OS WOm Wm PLm CM (cstr_ok_bytes_encode _ B2) (proj2 (proj2 FITS) _ _ PS N1 RP) (DE _ B2 N2) MI L3) as MR.
  assert (RO : request_ok o wr fr (Some client, rfc_encode cms1)).
  { split; [apply cstr_ok_bytes_encode; exact B1|]. split; [|apply (proj1 (proj2 FITS)); exact PS]. cbn [fst]. intros v Q. injection Q as <-. auto. }
  assert (P2 : fst (full_masa_service o wm cm hm (rfc_encode cms2)) = 200%Z) by (rewrite MR; reflexivity).
  pose proof (full_registrar_forwards o wr cr fr nn (full_masa_service o wm cm hm) hr client server (rfc_encode cms1) cms1 cms2 OS WOr Wr PLr CR NA RO (DE _ B1 N1) RP L2 P2) as RF. rewrite MR in RF. cbn [snd] in RF.
  set (post2 := fun _ : bytes => (200%Z, rfc_encode cms3, Some server)).
  assert (EQ : forall cms, pledge_sends o wp fp post1 cms -> full_registrar_service o wr cr nn (full_masa_service o wm cm hm) hr client server (rfc_encode cms) = post2 (rfc_encode cms)).
  { intros cms (tls & F1 & A1 & _). destruct PS as (tls' & F2 & A2 & _). rewrite (first_fun _ _ _ F1 F2) in A1. rewrite (asks_fun _ _ _ _ _ _ A1 A2). exact RF. }
  assert (PO2 : post_ok post2).
  { intros body s' r v _ Q. unfold post2 in Q. injection Q as <- <- <-. split; [apply cstr_ok_bytes_encode; exact B3|]. intros v' Q. injection Q as <-. exact VS. }
  rewrite (full_post_ext _ _ _ _ _ _ post2 _ _ OS WOp Wp PLp CP TX PO (proj1 FITS) EQ). specialize (OB post2 eq_refl).
  destruct (pledge_authors _ _ _ _ _ OS PR FR PS) as (t & s' & n' & tls1 & A & _ & L & NR' & PC & LS). destruct (registrar_authors _ _ _ _ _ _ _ _ _ _ OS G RV A B1 N1 L NR' PC LS RP) as (t2' & i' & A2 & _).
  destruct (masa_authors _ _ _ _ _ _ _ _ _ _ OS G MV A2 NR' PC LS MI) as (v3 & d3 & A3 & _).
  assert (HM : honest_masa o wp fp post1 post2).
  { intros tls1' cms tls r m vc vs _ _ _ (s0 & v0 & Q & _ & _) ED _ _. unfold post2 in Q. injection Q as _ <- _. destruct (arrives _ _ B3 ED) as [-> _]. eapply authored_library; exact A3. }
  pose proof (honest_masa_clean _ _ _ _ _ G HM) as C.
  destruct (full_post_voucher_pledge_request o wp cp post1 post2 hp pinned) as [[z h']|u] eqn:E.
  - destruct (full_pledge_outcome _ _ _ _ _ _ _ _ _ _ OS WOp Wp PLp CP TX PO PO2 (proj1 FITS) P0 CC E) as [(-> & a & b & d' & OB' & _ & R)|(_ & N & _)]; [|exfalso; eapply N; exact OB].
    destruct (obtains_fun _ _ _ _ _ _ _ _ _ _ _ OB OB') as (_ & _ & <-). exists h'. split; [reflexivity|]. exact (R C).
  - exfalso. apply (obtains_safe _ _ _ _ _ _ _ _ OB). apply (full_pledge_exact _ _ _ _ _ _ _ _ OS WOp Wp PLp CP TX PO PO2 (proj1 FITS) P0 CC). exists u. exact E.
Qed.

(** The concrete parties meet the conditions. *)
Lemma full_onboarding_case : exists h', full_post_voucher_pledge_request toy pledge_world pledge_case_conf (contact 404 [] [2; 7])
    (full_registrar_service toy registrar_world registrar_case_conf nn_full (full_masa_service toy masa_world masa_case_conf PMasa.masa_case) full_case pledge_view (server [2; 7])) (PPledge4.pledge_case (s2b "CQ==")) 8 = Ok (0%Z, h') /\ pinned_result (PPledge4.pledge_case (s2b "CQ==")) h' 8 [7; 7].
Proof.
  assert (CN : cstr_ok (s2b "CQ==")) by (apply cstr_okb_ok; reflexivity). assert (DR : date_ready tm_case) by (right; vm_compute; repeat split; discriminate).
  assert (T3 : exists t3, serialize_str2time (mf_expires masa_case_files) = Some t3 /\ date_ready t3).
  { destruct (serialize_str2time (mf_expires masa_case_files)) as [t3|] eqn:E; [|vm_compute in E; discriminate]. exists t3. split; [reflexivity|]. vm_compute in E. injection E as <-. right. vm_compute. repeat split; discriminate. }
  destruct T3 as (t3 & T3 & D3).
  eapply (full_onboarding toy pledge_world registrar_world masa_world pledge_case_conf (pledge_case_files (s2b "CQ==")) registrar_case_conf registrar_case_files masa_case_conf masa_case_files
    (PPledge4.pledge_case (s2b "CQ==")) full_case PMasa.masa_case nn_full pledge_view (server [2; 7]) (contact 404 [] [2; 7]) 8 1 tm_case tm_case t3 (s2b "A") (Some [9]) (s2b "maker CA") [2; 7] [7; 7]
    [1; 0] [1] None None (id_store 3) [2; 0] [2] None None (id_store 1) [3; 0] [3] None None (id_store 2) None (id_store 1)).
  - exact toy_sane.
  - exact toy_genuine.
  - exact pledge_world_ok.
  - exact registrar_world_ok.
  - exact masa_world_ok.
  - apply pledge_case_wf.
  - exact full_case_wf.
  - exact masa_case_wf.
  - intros a. reflexivity.
  - intros a. reflexivity.
  - intros a. reflexivity.
  - exact (pledge_case_config _ CN).
  - exact full_case_config.
  - exact masa_case_config.
  - exact (pledge_case_text _ CN).
  - exact full_case_names.
  - apply pledge_view_ok. reflexivity.
  - exact pledge_view_short.
  - apply server_ok. apply bytes_okb_ok. reflexivity.
  - apply contact_ok; apply bytes_okb_ok; reflexivity.
  - discriminate.
  - reflexivity.
  - reflexivity.
  - reflexivity.
  - exact T3.
  - exact DR.
  - exact DR.
  - exact D3.
  - reflexivity.
  - constructor; [unfold plain_char; vm_compute; repeat split; discriminate|constructor].
  - reflexivity.
  - split; [intros n Hn; cbn [pledge_view cv_issuer_entry cv_subject_entry]; split; [discriminate|destruct (beqb n (s2b "serialNumber")); discriminate]|]. exists (s2b "A"). split; reflexivity.
  - exists [9]. split; [vm_compute; reflexivity|reflexivity].
  - intros x Q. injection Q as <-. split; [discriminate|apply bytes_okb_ok; reflexivity].
  - reflexivity.
  - discriminate.
  - exists 404%Z, [], (server [2; 7]). split; [reflexivity|]. split; [lia|reflexivity].
  - reflexivity.
  - discriminate.
  - discriminate.
  - split; [reflexivity|]. split; [reflexivity|]. split; [reflexivity|]. split; [reflexivity|]. apply id_list. reflexivity.
  - split; [reflexivity|]. split; [reflexivity|]. split; [reflexivity|]. split; [reflexivity|]. split; [reflexivity|]. apply id_list. reflexivity.
  - split; [reflexivity|]. split; [reflexivity|]. split; [reflexivity|]. split; [reflexivity|]. split; [reflexivity|]. split; [apply id_list; reflexivity|]. split; [reflexivity|]. apply id_list. reflexivity.
  - vm_compute. reflexivity.
  - apply toy_trusts. lia.
  - apply toy_trusts. lia.
  - apply toy_trusts. lia.
  - apply toy_trusts. lia.
  - exists [2; 7], [2; 7], [7; 7], None, [[2; 7]]. split; [apply ba_of_has|]. repeat split; discriminate.
Qed.
