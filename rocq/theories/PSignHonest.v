(** Proofs about the enrolment of a device by honest parties. *)
From Coq Require Import Permutation ZifyBool ZifyNat ZifyN.
From Verif Require Import Base PBase MOs MBase64 MSerialize MVoucher MCrypto MRequest MHeap MArray MVoucherHeap MConfig MHandlers MLog MSerialHeap MRequestHeap MEnrolLog MEnrolLogHeap MHandlerHeap MEnrolHeap MSignCert MSignHeap
  SBase64 SHeap SArray SConfig SJson SVoucher SRequest SHandlers SPledge SChain SLog SVoucherHeap SSerialHeap SRequestHeap SEnrolLog SEnrolLogHeap SHandlerHeap SHonestHeap SEnrolHeap SSignCert SSignHeap SSignHonest
  PBase64 PHeap PArray PBlocks PConfig PConfigMore PCertFiles POwn PHold PAcquire PAcquire2 PVoucherText PVoucherRound PRequest PRequest2 PRequest3 PRequest4 PRequest5 PRequest6 PRequest7 PMasa PMasa2 PRegistrar PRegistrar2 PPledge PPledge2 PPledge3 PPledge4 PChain PChain2 PHandlerHeap7
  PHandlerHeap3 PHandlerHeap6 PHandlerHeap8 PHandlerHeap9 PHandlerHeap10 PHonestHeap PHonestHeap2 PHonestHeap4 PEnrolLog2 PEnrolHeap2 PSignCert2 PSignCert3 PSignHeap PSignHeap2 PSignHeap3 PSignHeap4.
Open Scope N_scope.

(** What the registrar answers to requests that are not sent does not matter. *)
Lemma full_sign_ext : forall o w c f nn dv post1 post2 post2' post3 h, ossl_sane o -> world_ok w -> heap_wf h -> plenty h -> pledge_config h c f -> pledge_text_ok f -> post_ok post1 -> device_ok dv -> texts_at nn h -> pledge_fits w f post1 ->
  (forall cms, pledge_sends o w f post1 cms -> post2 (rfc_encode cms) = post2' (rfc_encode cms)) ->
  full_sign_cert_command o w c nn dv post1 post2 post3 h = full_sign_cert_command o w c nn dv post1 post2' post3 h.
Proof.
  intros o w c f nn dv post1 post2 post2' post3 h OS WO W PL CF TX PO1 DO TA FI EQ. unfold full_sign_cert_command.
  assert (A0 : arrs [] h h []) by (split; [apply ext_refl; exact W|]; split; [apply st_init; exact W|constructor]).
  destruct (arrs_local _ _ _ _ A0) as (h1 & E1 & A1 & _ & N1). rewrite E1. destruct (arrs_local _ _ _ _ A1) as (h2 & E2 & A2 & _ & _). rewrite E2.
  unfold full_post_sign_cert. destruct (arrs_local _ _ _ _ A2) as (h3 & E3 & A3 & _). rewrite E3. set (pn := hp_next h2) in *. clearbody pn.
  destruct (dv_random dv) as [r|] eqn:ER; [|unfold full_generate_sign_cert; rewrite ER; reflexivity].
  assert (B3 : arrs [] h h3 [(hp_next h, 0, 0%Z); (hp_next h1, 0, 0%Z); (pn, 0, 0%Z)]).
  { eapply arrs_perm; [|exact A3]. apply (Permutation_rev [(pn, 0, 0%Z); (hp_next h1, 0, 0%Z); (hp_next h, 0, 0%Z)]). }
  destruct (full_gen_run nn dv h h3 _ _ _ r DO PL TA ER B3) as (h4 & bc & zc & bk & zk & E4 & A4 & _). rewrite E4. cbn [obind]. change ((0 <? 0)%Z) with false. cbv iota.
  pose proof A4 as (X4 & _). rewrite (full_post_ext o w c f post1 post2 post2' h4 pn OS WO (arrs_wf _ _ _ _ A4) (arrs_plenty _ _ _ _ A4 PL) (ext_pledge _ _ _ _ W X4 CF) TX PO1 FI EQ). reflexivity.
Qed.

(** The enrolment endpoint answers bytes, and the certificate of the authority where there is one. *)
Lemma enrol_service_ok : forall o sc w c f ca nn seen now opens log h peer vouched, (forall k ct tbs out, sc k ct tbs = Some out -> bytes_ok out) -> (forall d l, seen d = Some l -> short_view (cs_view l)) -> short_view (cs_view peer) ->
  ossl_sane o -> registrar_config h c f -> heap_wf h -> plenty h -> ca_config h c ca -> names_at (hp_next h) nn h -> post_ca_ok (full_enrol_service sc w c nn seen now opens log h peer vouched).
Proof.
  intros o sc w c f ca nn seen now opens log h peer vouched SC SE SP OS RC W PL CC NA a body s r B E. unfold full_enrol_service in E. destruct (vouched a); [|injection E as _ <-; constructor].
  assert (AO : arrival_ok o w f (Enrols (Some peer) body now opens)) by (split; [exact B|intros i Q; injection Q as <-; exact SP]).
  destruct (enrol_step o sc w c f ca nn seen h log (Some peer) body now opens SC SE W PL CC NA AO) as [[_ (k & Q)]|[_ (s' & r' & h' & log' & Q & _ & _ & A & _)]]; rewrite Q in E; injection E as <- <-; [constructor|].
  destruct A as [(tbs & out & _ & (ce & ke & _ & _ & SG) & _ & A)|(A & _)]; injection A as -> ->; [|constructor]. apply cstr_ok_bytes_encode. eapply SC. exact SG.
Qed.
Lemma enrol_service_signs : forall o sc w c f ca nn seen now opens log h peer vouched a tbs out, (forall k ct tbs out, sc k ct tbs = Some out -> bytes_ok out) -> (forall d l, seen d = Some l -> short_view (cs_view l)) -> short_view (cs_view peer) ->
  ossl_sane o -> registrar_config h c f -> heap_wf h -> plenty h -> ca_config h c ca -> names_at (hp_next h) nn h -> vouched a = true -> bytes_ok tbs -> tbs <> [] ->
  SHandlers.enrolls sc w (ca_cert ca) (ca_key ca) tbs out -> blen out < SIZE_MAX / 4 ->
  full_enrol_service sc w c nn seen now opens log h peer vouched a (rfc_encode tbs) = (200%Z, rfc_encode out).
Proof.
  intros o sc w c f ca nn seen now opens log h peer vouched a tbs out SC SE SP OS RC W PL CC NA V B NE EN L. unfold full_enrol_service. rewrite V.
  assert (ED : rfc_decode (c_string (rfc_encode tbs)) = Some tbs) by (rewrite sent by exact B; apply rfc_roundtrip; assumption).
  assert (AO : arrival_ok o w f (Enrols (Some peer) (rfc_encode tbs) now opens)) by (split; [apply cstr_ok_bytes_encode; exact B|intros i Q; injection Q as <-; exact SP]).
  destruct (enrol_step o sc w c f ca nn seen h log (Some peer) (rfc_encode tbs) now opens SC SE W PL CC NA AO) as [[Bd _]|[_ (s' & r' & h' & log' & Q & _ & _ & A & _)]].
  - apply decode_bad in Bd. destruct Bd as [Bd _]. congruence.
  - rewrite Q. destruct A as [(tbs' & out' & D & EN' & _ & A)|(_ & A)]; [|exfalso; apply A; exists tbs, out; auto]. rewrite ED in D. injection D as <-. rewrite (enrolls_fun _ _ _ _ _ _ _ EN EN'). exact A.
Qed.

(** The whole enrolment: what the device ends with, and what the registrar does. *)
Lemma honest_enrolment : forall o wp wr wm cp fp cr fr cm fm ca hp hr hr3 hm tt nn sc seen now opens log log3 vouched peer server dv post1 k
    t1 t2 t3 s n i rc d pcert pkey padd pverify pstore rcert rkey radd rverify rstore mcert mkey madd mrverify mrstore mpverify mpstore own_key own_cert out,
  ossl_sane o -> genuine o -> world_ok wp -> world_ok wr -> world_ok wm -> heap_wf hp -> heap_wf hr -> heap_wf hr3 -> heap_wf hm -> plenty hp -> plenty hr -> plenty hr3 -> plenty hm ->
  pledge_config hp cp fp -> registrar_config hr cr fr -> registrar_config hr3 cr fr -> ca_config hr cr ca -> ca_config hr3 cr ca -> masa_config hm cm fm -> pledge_text_ok fp -> names_at (hp_next hr) nn hr -> names_at (hp_next hr3) nn hr3 -> texts_at tt hp ->
  view_ok (cs_view peer) -> short_view (cs_view peer) -> view_ok server -> post_ok post1 -> device_ok dv -> (forall k ct tbs out, sc k ct tbs = Some out -> bytes_ok out) -> (forall d l, seen d = Some l -> short_view (cs_view l)) ->
  pledge_time wp fp = Some t1 -> w_now wr = Some t2 -> serialize_str2time (mf_expires fm) = Some t3 -> date_ready t1 -> date_ready t2 -> date_ready t3 ->
  pf_serial fp = Some s -> Forall plain_char s -> blen s < 128 -> client_serial (cs_view peer) s ->
  nonce_given fp n -> (forall x, n = Some x -> x <> [] /\ bytes_ok x) -> cv_issuer_text (cs_view peer) = Some i -> i <> [] ->
  first_contact post1 rc -> cv_der server = Some rc -> rc <> [] -> d <> [] ->
  pledge_material wp fp pcert pkey padd pverify pstore -> registrar_material wr fr rc rcert rkey radd rverify rstore -> masa_material wm fm d mcert mkey madd mrverify mrstore mpverify mpstore ->
  4 * (match n with None => 0 | Some x => blen x end + blen rc + blen i + blen d + k) + 40000 < 2147483648 ->
  trusts o (Some (ba_of pcert)) (Some (ba_of pkey)) padd rverify rstore false k -> trusts o (Some (ba_of pcert)) (Some (ba_of pkey)) padd mpverify mpstore false k ->
  trusts o (Some (ba_of rcert)) (Some (ba_of rkey)) radd mrverify mrstore true k -> trusts o (Some (ba_of mcert)) (Some (ba_of mkey)) madd pverify pstore false k ->
  chains o (Some (ba_of rc)) d None ->
  generated dv own_key own_cert -> own_cert <> [] -> blen own_cert < SIZE_MAX / 4 -> SHandlers.enrolls sc wr (ca_cert ca) (ca_key ca) own_cert out -> out <> [] -> blen out < SIZE_MAX / 4 -> vouched (pem d) = true ->
  (exists h', full_sign_cert_command o wp cp tt dv post1 (full_registrar_service o wr cr nn (full_masa_service o wm cm hm) hr (cs_view peer) server) (full_enrol_service sc wr cr nn seen now opens log3 hr3 peer vouched) hp = Ok (0%Z, h') /\
     both_arrays hp h' out own_key) /\
  (exists cms1 cms3 h' log', pledge_sends o wp fp post1 cms1 /\
     registrar_works o sc wr cr nn seen (full_masa_service o wm cm hm) hr log [Asks (Some peer) (rfc_encode cms1); Enrols (Some peer) (rfc_encode own_cert) now opens] = Ok ([(200%Z, rfc_encode cms3); (200%Z, rfc_encode out)], h', log') /\
     kept (hp_next hr) hr h' /\ no_leak (hp_next hr) h' /\
     (opens = true -> forall l e, seen out = Some l -> describes now peer l e -> exists line, entry_text e line /\ log' = log ++ line)).
Proof.
  intros o wp wr wm cp fp cr fr cm fm ca hp hr hr3 hm tt nn sc seen now opens log log3 vouched peer server dv post1 k
    t1 t2 t3 s n i rc d pcert pkey padd pverify pstore rcert rkey radd rverify rstore mcert mkey madd mrverify mrstore mpverify mpstore own_key own_cert out
    OS G WOp WOr WOm Wp Wr Wr3 Wm PLp PLr PLr3 PLm CP CR CR3 CA CA3 CM TX NA NA3 TA VC SC VS PO DO SCB SEEN T1 T2 T3 D1 D2 D3 Se Sp Sl CS NG NR IS I0 FC SV RC0 D0 PM RM MM SZ TR1 TR2 TR3 TR4 CH GEN OC0 OCL ENR OUT0 OUTL VOU.
  set (client := cs_view peer) in *.
  destruct (chain_messages o wp wr wm fp fr fm client server post1 k t1 t2 t3 s n i rc d pcert pkey padd pverify pstore rcert rkey radd rverify rstore mcert mkey madd mrverify mrstore mpverify mpstore
    OS WOr WOm VC T1 T2 T3 D1 D2 D3 Se Sp Sl CS NG NR IS I0 FC SV RC0 D0 PM RM MM SZ TR1 TR2 TR3 TR4 CH) as (cms1 & cms2 & cms3 & PS & RP & MI & (N1 & B1 & L1) & (N2 & B2 & L2) & (N3 & B3 & L3) & OB).
  pose proof (eq_refl : SIZE_MAX / 4 = 4611686018427387903) as S4. pose proof (eq_refl : SIZE_MAX / 8 = 2305843009213693951) as S8.
  assert (Bi : bytes_ok i) by (destruct VC as (_ & _ & Q & _); exact (Q _ IS)). assert (Brc : bytes_ok rc) by (eapply (proj1 WOr); exact (proj1 RM)). assert (Bd : bytes_ok d) by (eapply (proj1 WOm); exact (proj1 MM)).
  assert (NB : forall x, n = Some x -> bytes_ready x) by (intros x ->; destruct (NR x eq_refl) as [X1 X2]; split; [exact X1|]; split; [exact X2|]; lia).
  assert (PR : pledge_ready wp fp).
  { split; [intros t Q; congruence|]. split; [intros s' Q; congruence|]. intros n' x Q ->. apply NB. eapply given_fun; eassumption. }
  assert (RV : registrar_values wr client) by (split; [intros t Q; congruence|]; intros i' Q; assert (i' = i) as -> by congruence; split; [exact I0|]; split; [exact Bi|lia]).
  assert (MV : masa_values wm fm) by (split; [intros t Q; congruence|]; intros d' Q; assert (d' = d) as -> by (destruct MM; congruence); split; [exact D0|]; split; [exact Bd|lia]).
  assert (FR : forall tls1, first_contact post1 tls1 -> bytes_ready tls1) by (intros tls1 Q; rewrite (first_fun _ _ _ Q FC); split; [exact RC0|]; split; [exact Brc|lia]).
  assert (CV : client_values client) by (split; [intros s' Q; rewrite (serial_fun _ _ _ Q CS); auto|]; intros i' Q; assert (i' = i) as -> by congruence; lia).
  assert (SL : forall s', pf_serial fp = Some s' -> blen s' < 128) by (intros s' Q; congruence).
  pose proof (exchange_fitting o wp fp post1 wr fr client wm fm OS G TX PR RV CV MV FR SL) as FITS.
  assert (DE : forall m, bytes_ok m -> m <> [] -> rfc_decode (c_string (rfc_encode m)) = Some m) by (intros m Hm Nm; rewrite sent by exact Hm; apply rfc_roundtrip; assumption).
  pose proof (full_masa_replies o wm cm fm hm (rfc_encode cms2) cms2 cms3 OS WOm Wm PLm CM (cstr_ok_bytes_encode _ B2) (proj2 (proj2 FITS) _ _ PS N1 RP) (DE _ B2 N2) MI L3) as MR.
  assert (RO : request_ok o wr fr (Some client, rfc_encode cms1)).
  { split; [apply cstr_ok_bytes_encode; exact B1|]. split; [|apply (proj1 (proj2 FITS)); exact PS]. cbn [fst]. intros v Q. injection Q as <-. auto. }
  assert (P2 : fst (full_masa_service o wm cm hm (rfc_encode cms2)) = 200%Z) by (rewrite MR; reflexivity).
  pose proof (full_registrar_forwards o wr cr fr nn (full_masa_service o wm cm hm) hr client server (rfc_encode cms1) cms1 cms2 OS WOr Wr PLr CR NA RO (DE _ B1 N1) RP L2 P2) as RF. rewrite MR in RF. cbn [snd] in RF.
  destruct (pledge_authors _ _ _ _ _ OS PR FR PS) as (t & s' & n' & tls1 & A & _ & L & NR' & PC & LS). destruct (registrar_authors _ _ _ _ _ _ _ _ _ _ OS G RV A B1 N1 L NR' PC LS RP) as (t2' & i' & A2 & _).
  destruct (masa_authors _ _ _ _ _ _ _ _ _ _ OS G MV A2 NR' PC LS MI) as (v3 & d3 & A3 & _).
  assert (BOC : bytes_ok own_cert) by (destruct GEN as (r & _ & _ & Q); destruct DO as (_ & _ & _ & Q1 & _); eapply Q1; exact Q).
  assert (BOU : bytes_ok out) by (destruct ENR as (? & ? & _ & _ & Q); eapply SCB; exact Q).
  split.
  - set (post2 := fun _ : bytes => (200%Z, rfc_encode cms3, Some server)).
    assert (EQ : forall cms, pledge_sends o wp fp post1 cms -> full_registrar_service o wr cr nn (full_masa_service o wm cm hm) hr client server (rfc_encode cms) = post2 (rfc_encode cms)).
    { intros cms (tls & F1 & A1 & _). destruct PS as (tls' & F2 & A2' & _). rewrite (first_fun _ _ _ F1 F2) in A1. rewrite (asks_fun _ _ _ _ _ _ A1 A2'). exact RF. }
    assert (PO2 : post_ok post2).
    { intros body s'' r v _ Q. unfold post2 in Q. injection Q as <- <- <-. split; [apply cstr_ok_bytes_encode; exact B3|]. intros v' Q. injection Q as <-. exact VS. }
    rewrite (full_sign_ext _ _ _ _ _ _ _ _ post2 _ _ OS WOp Wp PLp CP TX PO DO TA (proj1 FITS) EQ). specialize (OB post2 eq_refl).
    set (post3 := full_enrol_service sc wr cr nn seen now opens log3 hr3 peer vouched).
    assert (PO3 : post_ca_ok post3) by (eapply enrol_service_ok; eassumption).
    assert (HM : honest_masa o wp fp post1 post2).
    { intros tls1' cms tls r m vc vs _ _ _ (s0 & v0 & Q & _ & _) ED _ _. unfold post2 in Q. injection Q as _ <- _. destruct (arrives _ _ B3 ED) as [-> _]. eapply authored_library; exact A3. }
    pose proof (honest_masa_clean _ _ _ _ _ G HM) as C.
    assert (E3 : post3 (pem d) (rfc_encode own_cert) = (200%Z, rfc_encode out)) by (eapply enrol_service_signs; eassumption).
    assert (SO : sign_obtains o wp fp dv post1 post2 post3 own_key out).
    { exists (rfc_encode out). split; [|exact (DE _ BOU OUT0)]. exists rc, rc, d, own_cert, 200%Z. split; [exact OB|]. split; [lia|]. split; [exact GEN|]. split; [exact OCL|]. split; [exact E3|lia]. }
    destruct (full_command_succeeds o wp cp fp tt dv post1 post2 post3 hp own_key out OS WOp Wp PLp CP TX PO PO2 PO3 DO TA (proj1 FITS) SO) as (h' & E & _).
    exists h'. split; [exact E|]. destruct (full_command_outcome o wp cp fp tt dv post1 post2 post3 hp _ h' OS WOp Wp PLp CP TX PO PO2 PO3 DO TA (proj1 FITS) E) as [(_ & ky & ct & (r' & EN' & D') & _ & B)|(Q & _)]; [|discriminate Q].
    destruct SO as (r & EN & D). destruct (enrolled_fun _ _ _ _ _ _ _ _ _ _ _ EN EN') as [<- <-]. rewrite D in D'. injection D' as <-. exact (B C).
  - set (l := [Asks (Some peer) (rfc_encode cms1); Enrols (Some peer) (rfc_encode own_cert) now opens]).
    assert (AO : Forall (arrival_ok o wr fr) l).
    { apply Forall_cons; [exact RO|]. apply Forall_cons; [|apply Forall_nil]. split; [apply cstr_ok_bytes_encode; exact BOC|intros j Q; injection Q as <-; exact SC]. }
    assert (AC : Forall (arrival_clean o wr fr) l).
    { apply Forall_cons; [|apply Forall_cons; [exact Logic.I|apply Forall_nil]]. apply honest_pledge_clean; [exact G|]. eapply request_honest; [exact B1|exact A]. }
    destruct (works_run o sc wr cr fr ca nn seen (full_masa_service o wm cm hm) l hr log OS WOr SCB SEEN Wr PLr CR CA NA AO) as [[X _]|[_ (answers & h' & log' & lk & E & Ex & HK & Cl & F & R)]].
    { exfalso. unfold l in X. inversion X as [? ? Q|? ? Q]; subst; [exact (posts_safe _ _ _ _ _ _ _ RP (DE _ B1 N1) Q)|]. inversion Q as [? ? Q1|? ? Q1]; subst; [|inversion Q1]. cbn [fatal] in Q1. apply decode_bad in Q1. rewrite (DE _ BOC OC0) in Q1. destruct Q1; discriminate. }
    exists cms1, cms3, h', log'. split; [exact PS|]. rewrite (Cl AC) in HK.
    unfold l in F, R. inversion F as [|? a1 ? l1 R1 F1]; subst. inversion F1 as [|? a2 ? l2 R2 F2]; subst. inversion F2; subst. cbn [right_answer option_map] in R1, R2.
    assert (Q1 : a1 = (200%Z, rfc_encode cms3)).
    { unfold full_registrar_service in RF. cbn [registrar_works l option_map] in E. fold client in E. destruct (full_registrar_requestvoucher o wr cr nn (full_masa_service o wm cm hm) hr (Some client) (rfc_encode cms1)) as [[[s0 r0] h0]|u]; [|discriminate E].
      cbn [obind] in E. injection RF as -> ->. match type of E with obind ?x _ = _ => destruct x as [[[a9 h9] l9]|u9]; [|discriminate E] end. cbn [obind] in E. injection E as <- _ _ _. reflexivity. }
    assert (Q2 : a2 = (200%Z, rfc_encode out)).
    { destruct R2 as [(tbs & out' & D & EN' & _ & Q)|(_ & Q)]; [|exfalso; apply Q; exists own_cert, out; split; [exact (DE _ BOC OC0)|auto]]. rewrite (DE _ BOC OC0) in D. injection D as <-. rewrite (enrolls_fun _ _ _ _ _ _ _ ENR EN'). exact Q. }
    subst a1 a2. split; [exact E|]. split; [apply Ex|]. split; [apply hold_none; exact HK|].
    intros -> lv e SO DS. inversion R as [|? ? e1 ? ? ? (? & ? & ? & ? & ? & ? & Q & _) _ _|? ? ? ? _ R']; subst; [discriminate Q|].
    inversion R' as [|? ? e1 line ? ? ES ET R2'|? ? ? ? NE _]; subst.
    + inversion R2'; subst. destruct ES as (j & bd & nw & tb & ot & lv' & Q & D & EN' & _ & SO' & DS'). injection Q as <- <- <-. rewrite (DE _ BOC OC0) in D. injection D as <-. rewrite <- (enrolls_fun _ _ _ _ _ _ _ ENR EN') in SO'. rewrite SO in SO'. injection SO' as <-. rewrite (describes_fun _ _ _ _ _ DS DS'). eauto.
    + exfalso. apply (NE e). exists peer, (rfc_encode own_cert), now, own_cert, out, lv. split; [reflexivity|]. split; [exact (DE _ BOC OC0)|]. auto.
Qed.
