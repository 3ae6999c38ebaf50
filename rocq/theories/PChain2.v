(** The honest run through the handlers. *)
From Coq Require Import Permutation.
From Verif Require Import Base PBase MOs MBase64 MSerialize MVoucher MCrypto MRequest MHeap MArray MVoucherHeap MConfig MHandlers SBase64 SHeap SArray SConfig SJson SVoucher SRequest SHandlers SPledge SChain
  PBase64 PHeap PArray PBlocks PConfig PConfigMore PCertFiles POwn PAcquire PAcquire2 PVoucherText PVoucherRound PRequest PRequest2 PRequest3 PRequest4 PRequest5 PRequest6 PRequest7 PMasa PMasa2 PRegistrar PRegistrar2 PPledge PPledge2 PPledge3 PPledge4 PChain.
Open Scope N_scope.

(** A pledge that can obtain a certificate does. *)
Lemma obtains_safe : forall o w f post1 post2 tls1 tls2 d, pledge_obtains o w f post1 post2 tls1 tls2 d -> ~ pledge_unsafe o w f post1 post2.
Proof.
  intros o w f post1 post2 tls1 tls2 d (cms & r & m & FC & AS & L & SC & ED & PT) (t1 & FC' & U). rewrite <- (first_fun _ _ _ FC FC') in U. pose proof AS as (t & s & n & ce & ke & ad & A1 & A2 & A3 & A4 & A5 & A6 & A7 & A8).
  destruct U as [(_ & [(x & X & BP)|(_ & _ & _ & M)])|(cms' & t2 & r' & AS' & _ & SC' & U)].
  - unfold nonce_given in A4. rewrite X in A4. destruct A4 as (d' & Q & _). apply decode_bad in BP. destruct BP. congruence.
  - eapply missing_list; eassumption.
  - rewrite <- (asks_fun _ _ _ _ _ _ AS AS') in SC'. destruct (second_fun _ _ _ _ _ _ SC SC') as [<- <-]. destruct PT as (s' & n' & vc & vs & mv & P1 & P2 & P3 & P4 & _).
    destruct U as [BP|[M|M]]; [apply decode_bad in BP; destruct BP; congruence|eapply missing_list; eassumption|eapply missing_list; eassumption].
Qed.
Lemma obtains_fun : forall o w f post1 post2 t1 t2 d t1' t2' d', pledge_obtains o w f post1 post2 t1 t2 d -> pledge_obtains o w f post1 post2 t1' t2' d' -> t1 = t1' /\ t2 = t2' /\ d = d'.
Proof.
  intros o w f post1 post2 t1 t2 d t1' t2' d' (cms & r & m & FC & AS & L & SC & ED & PT) (cms' & r' & m' & FC' & AS' & L' & SC' & ED' & PT').
  rewrite <- (first_fun _ _ _ FC FC') in *. rewrite <- (asks_fun _ _ _ _ _ _ AS AS') in *. destruct (second_fun _ _ _ _ _ _ SC SC') as [<- <-]. rewrite ED in ED'. injection ED' as <-. split; [reflexivity|]. split; [reflexivity|].
  destruct PT as (s & n & vc & vs & mv & P1 & P2 & P3 & P4 & P5 & P6 & P7 & P8 & _), PT' as (s' & n' & vc' & vs' & mv' & Q1 & Q2 & Q3 & Q4 & Q5 & Q6 & Q7 & Q8 & _).
  rewrite <- (cert_list_fun _ _ _ _ P3 Q3), <- (cert_list_fun _ _ _ _ P4 Q4) in Q5. rewrite <- (says_fun _ _ _ _ _ _ _ _ _ _ P5 Q5) in Q8. rewrite P8 in Q8. injection Q8 as Q8. exact Q8.
Qed.
Lemma pledge_succeeds : forall o w c f post1 post2 h pinned tls1 tls2 d, ossl_sane o -> world_ok w -> heap_wf h -> plenty h -> pledge_config h c f -> pledge_text_ok f -> post_ok post1 -> post_ok post2 ->
  pinned <> 0 -> hp_cell h pinned = Live (Struct [P 0; I 0]) -> pledge_obtains o w f post1 post2 tls1 tls2 d ->
  exists h', post_voucher_pledge_request o w c post1 post2 h pinned = Ok (0%Z, h') /\ pinned_result h h' pinned d.
Proof.
  intros o w c f post1 post2 h pinned tls1 tls2 d OS WO W PL CF TX PO1 PO2 P0 CP OB. destruct (pledge_run o w c f post1 post2 h pinned OS WO W PL CF TX PO1 PO2 P0 CP) as [[U _]|[_ (z & h' & E & D)]]; [exfalso; exact (obtains_safe _ _ _ _ _ _ _ _ OB U)|].
  destruct D as [(_ & _ & _ & N)|(-> & _ & _ & _ & t1 & t2 & d' & OB' & PR)]; [exfalso; exact (N _ _ _ OB)|]. destruct (obtains_fun _ _ _ _ _ _ _ _ _ _ _ OB OB') as (_ & _ & <-). exists h'. auto.
Qed.

(** A MASA that can issue a voucher does. *)
Lemma masa_replies : forall o w c f ld h body m cms, ossl_sane o -> world_ok w -> heap_wf h -> plenty h -> masa_config h c f -> bytes_ok body ->
  rfc_decode (c_string body) = Some m -> masa_issues o w f m cms -> blen cms < SIZE_MAX / 4 -> masa_service o w c ld h body = (200%Z, rfc_encode cms).
Proof.
  intros o w c f ld h body m cms OS WO W PL MC B ED MI L. apply (masa_issues_runs _ _ _ _ _ OS) in MI. pose proof MI as (t & ldc & ce & ke & rv & rs & pv & ps & ad & M1 & M2 & M3 & M4 & M5 & M6 & M7 & M8 & M9 & M10).
  assert (EX : ld = 0 \/ serialize_str2time (mf_expires f) <> None) by (right; congruence). unfold masa_service.
  destruct (masa_run o w c f ld h body OS WO W PL MC B EX) as [[(_ & C) _]|[_ (s1 & r1 & l1 & h1 & E & _ & _ & _ & D)]].
  { exfalso. destruct C as [BP|(_ & _ & _ & C)]; [apply decode_bad in BP; destruct BP; congruence|]. unfold masa_lists in C.
    repeat match goal with H : Exists _ _ |- _ => inversion H; clear H; subst end; eapply missing_list; eassumption. }
  rewrite E. destruct D as [(-> & m' & cms' & Q1 & Q2 & _ & ->)|(_ & _ & Q)].
  - rewrite ED in Q1. injection Q1 as <-. destruct Q2 as (t' & ldc' & ce' & ke' & rv' & rs' & pv' & ps' & ad' & N1 & N2 & N3 & N4 & N5 & N6 & N7 & N8 & N9 & N10).
    rewrite M1 in N1. injection N1 as <-. rewrite M2 in N2. injection N2 as <-. rewrite M3 in N3. injection N3 as <-. rewrite M4 in N4. injection N4 as <-.
    rewrite <- (cert_list_fun _ _ _ _ M5 N5), <- (cert_list_fun _ _ _ _ M6 N6), <- (cert_list_fun _ _ _ _ M7 N7), <- (cert_list_fun _ _ _ _ M8 N8), <- (cert_list_fun _ _ _ _ M9 N9), M10 in N10. injection N10 as <-. reflexivity.
  - exfalso. apply Q. exists m, cms. auto.
Qed.

Lemma opt_has_nonce : forall n n', opt_has (match n with None => None | Some d => Some (ba_of d) end) n' -> n' = n.
Proof. intros [d|] [d'|] H; cbn [opt_has] in H; try contradiction; [|reflexivity]. rewrite (ba_has_of _ _ H). reflexivity. Qed.
Lemma masa_service_bytes : forall o w c f ld h body, ossl_sane o -> world_ok w -> heap_wf h -> plenty h -> masa_config h c f -> (ld = 0 \/ serialize_str2time (mf_expires f) <> None) -> bytes_ok body ->
  bytes_ok (snd (masa_service o w c ld h body)).
Proof.
  intros o w c f ld h body OS WO W PL MC Hld B. unfold masa_service. destruct (masa_requestvoucher o w c ld h body) as [[[[s r] l] h']|k] eqn:E; [|constructor]. cbn [snd].
  destruct (masa_one _ _ _ _ _ _ _ _ _ _ _ OS WO W PL MC B Hld E) as ([(_ & m & cms & _ & MI & Q)|(_ & Q & _)] & _); cbn [snd] in Q; rewrite Q; [|constructor].
  destruct MI as (? & ? & ? & ? & ? & ? & ? & ? & ? & ? & ? & ? & ? & ? & ? & _ & _ & _ & _ & _ & _ & _ & _ & _ & _ & _ & _ & _ & _ & _ & SV). apply cstr_ok_bytes_encode. eapply signed_bytes; [exact OS|exact SV].
Qed.
Lemma service_ok : forall o wr wm cr fr cm fm hr hm ld client server, ossl_sane o -> world_ok wr -> world_ok wm -> heap_wf hr -> heap_wf hm -> plenty hr -> plenty hm -> registrar_config hr cr fr -> masa_config hm cm fm ->
  (ld = 0 \/ serialize_str2time (mf_expires fm) <> None) -> view_ok client -> view_ok server ->
  post_ok (registrar_service o wr cr (masa_service o wm cm ld hm) hr client server).
Proof.
  intros o wr wm cr fr cm fm hr hm ld client server OS WOr WOm Wr Wm PLr PLm CR CM Hld VC VS body s r v B E. unfold registrar_service in E.
  destruct (registrar_requestvoucher o wr cr (masa_service o wm cm ld hm) hr (Some client) body) as [[[s0 r0] h0]|k] eqn:Q; injection E as <- <- <-; [|split; [constructor|discriminate]].
  split; [|intros v' Q'; injection Q' as <-; exact VS].
  assert (VV : forall v', Some client = Some v' -> view_ok v') by (intros v' Q'; injection Q' as <-; exact VC).
  destruct (registrar_answers _ _ _ _ _ _ _ _ _ _ _ OS WOr Wr PLr CR B VV Q) as [(v' & m & cms & _ & _ & RP & [(_ & _ & X)|[(_ & _ & X)|(_ & _ & X)]])|[(X & _)|(X & _)]]; cbn [snd] in X; try (injection X as _ X); try rewrite X; try apply Forall_nil.
  - eapply masa_service_bytes; try eassumption. apply cstr_ok_bytes_encode. destruct RP as (? & ? & ? & ? & ? & ? & ? & ? & ? & ? & ? & ? & _ & _ & _ & _ & _ & _ & _ & _ & _ & _ & _ & _ & _ & _ & _ & _ & SV). eapply signed_bytes; [exact OS|exact SV].
  - apply bytes_okb_ok. reflexivity.
Qed.

(** Success through the registrar: the pledge holds what the MASA is configured with. *)
Lemma chain_sound : forall o wp wr wm cp fp cr fr cm fm hp hr hm ld client server post1 pinned h',
  ossl_sane o -> genuine o -> world_ok wp -> world_ok wr -> world_ok wm -> heap_wf hp -> heap_wf hr -> heap_wf hm -> plenty hp -> plenty hr -> plenty hm ->
  pledge_config hp cp fp -> registrar_config hr cr fr -> masa_config hm cm fm ->
  (ld = 0 \/ serialize_str2time (mf_expires fm) <> None) -> pledge_text_ok fp -> view_ok client -> view_ok server -> post_ok post1 ->
  pledge_ready wp fp -> registrar_values wr client -> masa_values wm fm -> (forall tls1, first_contact post1 tls1 -> bytes_ready tls1) ->
  pinned <> 0 -> hp_cell hp pinned = Live (Struct [P 0; I 0]) ->
  post_voucher_pledge_request o wp cp post1 (registrar_service o wr cr (masa_service o wm cm ld hm) hr client server) hp pinned = Ok (0%Z, h') ->
  exists d tls1 tls2 s, w_cert wm (mf_ldevid fm) = Some d /\ pinned_result hp h' pinned d /\
    first_contact post1 tls1 /\ w_cert wr (rf_tls fr) = Some tls1 /\ cv_der server = Some tls2 /\ chains o (Some (ba_of tls2)) d None /\
    pf_serial fp = Some s /\ client_serial client s.
Proof.
  intros o wp wr wm cp fp cr fr cm fm hp hr hm ld client server post1 pinned h' OS G WOp WOr WOm Wp Wr Wm PLp PLr PLm CP CR CM Hld TX VC VS PO PR RV MV FR P0 CC E.
  pose proof (service_ok _ _ _ _ _ _ _ _ _ _ _ _ OS WOr WOm Wr Wm PLr PLm CR CM Hld VC VS) as PO2.
  destruct (pledge_outcome _ _ _ _ _ _ _ _ _ _ OS WOp Wp PLp CP TX PO PO2 P0 CC E) as [(_ & t1 & t2 & d & OB & PRes)|[Q _]]; [|discriminate].
  assert (FC : first_contact post1 t1) by (destruct OB as (? & ? & ? & FC & _); exact FC).
  destruct (obtains_sound o wp wr wm fp cr fr cm fm hr hm ld client server post1 t1 t2 d OS G WOp WOr WOm Wr Wm PLr PLm CR CM Hld TX VC VS (FR _ FC) PR RV MV OB) as (R1 & R2 & (s & R3 & R4) & R5 & R6).
  exists d, t1, t2, s. repeat (split; [assumption|]). assumption.
Qed.

(** The honest run succeeds. *)
Lemma chain_obtains : forall o wp wr wm fp cr fr cm fm hr hm ld client server post1 k
    t1 t2 t3 s n i rc d pcert pkey padd pverify pstore rcert rkey radd rverify rstore mcert mkey madd mrverify mrstore mpverify mpstore,
  ossl_sane o -> world_ok wr -> world_ok wm -> heap_wf hr -> heap_wf hm -> plenty hr -> plenty hm -> registrar_config hr cr fr -> masa_config hm cm fm -> view_ok client ->
  pledge_time wp fp = Some t1 -> w_now wr = Some t2 -> serialize_str2time (mf_expires fm) = Some t3 -> date_ready t1 -> date_ready t2 -> date_ready t3 ->
  pf_serial fp = Some s -> Forall plain_char s -> blen s < 128 -> client_serial client s ->
  nonce_given fp n -> (forall x, n = Some x -> x <> [] /\ bytes_ok x) -> cv_issuer_text client = Some i -> i <> [] ->
  first_contact post1 rc -> cv_der server = Some rc -> rc <> [] -> d <> [] ->
  pledge_material wp fp pcert pkey padd pverify pstore -> registrar_material wr fr rc rcert rkey radd rverify rstore -> masa_material wm fm d mcert mkey madd mrverify mrstore mpverify mpstore ->
  4 * (match n with None => 0 | Some x => blen x end + blen rc + blen i + blen d + k) + 40000 < 2147483648 ->
  trusts o (Some (ba_of pcert)) (Some (ba_of pkey)) padd rverify rstore false k -> trusts o (Some (ba_of pcert)) (Some (ba_of pkey)) padd mpverify mpstore false k ->
  trusts o (Some (ba_of rcert)) (Some (ba_of rkey)) radd mrverify mrstore true k -> trusts o (Some (ba_of mcert)) (Some (ba_of mkey)) madd pverify pstore false k ->
  chains o (Some (ba_of rc)) d None ->
  pledge_obtains o wp fp post1 (registrar_service o wr cr (masa_service o wm cm ld hm) hr client server) rc rc d.
Proof.
  intros o wp wr wm fp cr fr cm fm hr hm ld client server post1 k
    t1 t2 t3 s n i rc d pcert pkey padd pverify pstore rcert rkey radd rverify rstore mcert mkey madd mrverify mrstore mpverify mpstore
    OS WOr WOm Wr Wm PLr PLm CR CM VC T1 T2 T3 D1 D2 D3 Se Sp Sl CS NG NR IS I0 FC SV RC0 D0 (PM1 & PM2 & PM3 & PM4 & PM5) (RM1 & RM2 & RM3 & RM4 & RM5 & RM6)
    (MM1 & MM2 & MM3 & MM4 & MM5 & MM6 & MM7 & MM8) SZ TR1 TR2 TR3 TR4 CH.
  assert (Bi : bytes_ok i) by (destruct VC as (_ & _ & Q & _); exact (Q _ IS)). assert (Brc : bytes_ok rc) by (eapply (proj1 WOr); exact RM1). assert (Bd : bytes_ok d) by (eapply (proj1 WOm); exact MM1).
  assert (Cs : cstr_ok s) by (apply plain_cstr; exact Sp).
  destruct (honest_sized o t1 t2 t3 s n rc i d (fun _ _ => (0%Z, ba_of d)) k false _ _ _ _ _ _ _ _ _ _ _ _ _ _ _ _ _ None OS D1 D2 D3 Sp Sl NR RC0 Brc I0 Bi D0 Bd SZ TR1 TR2 TR3 TR4) as (cms1 & cms2 & cms3 & l & E1 & E2 & E3 & E4 & (L1 & L2 & L3) & N1 & N2 & N3);
    [intros regs; exists 0%Z; split; [reflexivity|lia]|exact CH|].
  assert (HC : forall s', Some s = Some s' -> cstr_ok s') by (intros s' Q; injection Q as <-; exact Cs).
  apply (pledge_iff _ _ _ _ _ _ _ _ _ HC) in E1. destruct E1 as (t & s' & n' & c' & Q1 & Q2 & _ & Q3 & Q4 & SV1). injection Q1 as <-. injection Q2 as <-. apply opt_has_nonce in Q3. subst n'. rewrite (ba_has_of _ _ Q4) in SV1.
  apply (registrar_iff _ _ _ _ _ _ _ _ _ _ _ _ OS HC) in E2. destruct E2 as (pc & pvr & t & s' & i' & rc' & p & prox & n2 & Q1 & Q2 & Q5 & Q6 & G1 & G2 & G3 & G4 & G5 & G6 & G7 & G8 & SV2).
  injection Q1 as <-. injection Q2 as <-. injection Q5 as <-. injection Q6 as <-. rewrite (ba_has_of _ _ G7) in SV2. rewrite (ba_has_of _ _ G8) in SV2.
  assert (B1 : bytes_ok cms1) by (eapply signed_bytes; [exact OS|exact SV1]). assert (B2 : bytes_ok cms2) by (eapply signed_bytes; [exact OS|exact SV2]).
  assert (MI : masa_issues o wm fm cms2 cms3).
  { apply masa_runs_issues; [exact OS|]. exists t3, d, mcert, mkey, mrverify, mrstore, mpverify, mpstore, madd. repeat (split; [assumption|]). exact E3. }
  assert (B3 : bytes_ok cms3) by (destruct MI as (? & ? & ? & ? & ? & ? & ? & ? & ? & ? & ? & ? & ? & ? & ? & _ & _ & _ & _ & _ & _ & _ & _ & _ & _ & _ & _ & _ & _ & _ & Q); eapply signed_bytes; [exact OS|exact Q]).
  assert (PA : pledge_asks o wp fp rc cms1) by (exists t1, s, n, pcert, pkey, padd; repeat (split; [assumption|]); exact SV1).
  assert (RP : registrar_posts o wr fr client cms1 cms2).
  { exists t2, s, i, rc, rcert, rkey, rverify, rstore, radd, pvr, prox, n2. repeat (split; [assumption|]). exact SV2. }
  assert (DE : forall m, bytes_ok m -> m <> [] -> rfc_decode (c_string (rfc_encode m)) = Some m) by (intros m Hm Nm; rewrite sent by exact Hm; apply rfc_roundtrip; assumption).
  pose proof (masa_replies _ _ _ _ ld _ _ _ _ OS WOm Wm PLm CM (cstr_ok_bytes_encode _ B2) (DE _ B2 N2) MI L3) as MR.
  destruct (registrar_forwards _ _ _ _ (masa_service o wm cm ld hm) _ _ _ _ _ OS WOr Wr PLr CR (cstr_ok_bytes_encode _ B1) VC (DE _ B1 N1) RP L2) as (h1 & RF). rewrite MR in RF. cbn [Z.ltb Z.compare Pos.compare Pos.compare_cont] in RF.
  exists cms1, (rfc_encode cms3), cms3. split; [exact FC|]. split; [exact PA|]. split; [exact L1|]. split.
  { exists 200%Z, server. unfold registrar_service. rewrite RF. split; [reflexivity|]. split; [lia|exact SV]. }
  split; [exact (DE _ B3 N3)|].
  apply (pledge_accepts _ _ _ _ _ _ _ _ _ _ _ OS) in E4. destruct E4 as (mc & mv & s' & d' & Q1 & Q2 & V1 & V2 & V3 & V4 & V5 & V6). injection Q1 as <-. injection Q2 as <-. apply ba_of_inj in V6. subst d'.
  assert (l = None) as -> by (destruct V1 as (? & ? & ? & _ & _ & Q); exact Q).
  exists s, n, pverify, pstore, mv. repeat (split; [assumption|]). split; [|split; assumption].
  intros NN. destruct n as [x|]; [|contradiction]. destruct (V3 _ eq_refl) as (x' & X1 & X2). destruct X2 as [(Q & _)|X2]; [discriminate|]. rewrite (ba_has_of _ _ X2) in X1. exact X1.
Qed.
Lemma chain_complete : forall o wp wr wm cp fp cr fr cm fm hp hr hm ld client server post1 pinned k
    t1 t2 t3 s n i rc d pcert pkey padd pverify pstore rcert rkey radd rverify rstore mcert mkey madd mrverify mrstore mpverify mpstore,
  ossl_sane o -> world_ok wp -> world_ok wr -> world_ok wm -> heap_wf hp -> heap_wf hr -> heap_wf hm -> plenty hp -> plenty hr -> plenty hm ->
  pledge_config hp cp fp -> registrar_config hr cr fr -> masa_config hm cm fm -> pledge_text_ok fp -> view_ok client -> view_ok server -> post_ok post1 ->
  pinned <> 0 -> hp_cell hp pinned = Live (Struct [P 0; I 0]) ->
  pledge_time wp fp = Some t1 -> w_now wr = Some t2 -> serialize_str2time (mf_expires fm) = Some t3 -> date_ready t1 -> date_ready t2 -> date_ready t3 ->
  pf_serial fp = Some s -> Forall plain_char s -> blen s < 128 -> client_serial client s ->
  nonce_given fp n -> (forall x, n = Some x -> x <> [] /\ bytes_ok x) -> cv_issuer_text client = Some i -> i <> [] ->
  first_contact post1 rc -> cv_der server = Some rc -> rc <> [] -> d <> [] ->
  pledge_material wp fp pcert pkey padd pverify pstore -> registrar_material wr fr rc rcert rkey radd rverify rstore -> masa_material wm fm d mcert mkey madd mrverify mrstore mpverify mpstore ->
  4 * (match n with None => 0 | Some x => blen x end + blen rc + blen i + blen d + k) + 40000 < 2147483648 ->
  trusts o (Some (ba_of pcert)) (Some (ba_of pkey)) padd rverify rstore false k -> trusts o (Some (ba_of pcert)) (Some (ba_of pkey)) padd mpverify mpstore false k ->
  trusts o (Some (ba_of rcert)) (Some (ba_of rkey)) radd mrverify mrstore true k -> trusts o (Some (ba_of mcert)) (Some (ba_of mkey)) madd pverify pstore false k ->
  chains o (Some (ba_of rc)) d None ->
  exists h', post_voucher_pledge_request o wp cp post1 (registrar_service o wr cr (masa_service o wm cm ld hm) hr client server) hp pinned = Ok (0%Z, h') /\ pinned_result hp h' pinned d.
Proof.
  intros o wp wr wm cp fp cr fr cm fm hp hr hm ld client server post1 pinned k
    t1 t2 t3 s n i rc d pcert pkey padd pverify pstore rcert rkey radd rverify rstore mcert mkey madd mrverify mrstore mpverify mpstore
    OS WOp WOr WOm Wp Wr Wm PLp PLr PLm CP CR CM TX VC VS PO P0 CC T1 T2 T3 D1 D2 D3 Se Sp Sl CS NG NR IS I0 FC SV RC0 D0 PM RM MM SZ TR1 TR2 TR3 TR4 CH.
  assert (Hld : ld = 0 \/ serialize_str2time (mf_expires fm) <> None) by (right; congruence).
  pose proof (service_ok _ _ _ _ _ _ _ _ _ _ _ _ OS WOr WOm Wr Wm PLr PLm CR CM Hld VC VS) as PO2.
  apply (pledge_succeeds o wp cp fp post1 _ hp pinned rc rc d OS WOp Wp PLp CP TX PO PO2 P0 CC).
  exact (chain_obtains o wp wr wm fp cr fr cm fm hr hm ld client server post1 k t1 t2 t3 s n i rc d pcert pkey padd pverify pstore rcert rkey radd rverify rstore mcert mkey madd mrverify mrstore mpverify mpstore
    OS WOr WOm Wr Wm PLr PLm CR CM VC T1 T2 T3 D1 D2 D3 Se Sp Sl CS NG NR IS I0 FC SV RC0 D0 PM RM MM SZ TR1 TR2 TR3 TR4 CH).
Qed.

(** *** The concrete parties connected *)
Lemma toy_genuine : genuine toy.
Proof.
  intros cert key extra text cms certs store c st json (cb & kb & x & pk & s0 & c0 & _ & _ & _ & _ & _ & S & I) (d & s & H & D & _ & _ & V).
  destruct H as [(Q & _)|H]; [discriminate|]. rewrite (ba_has_of _ _ H) in D. cbn [toy cms_sign] in S. destruct (hd 0 x =? hd 0 pk); [|discriminate]. injection S as <-.
  cbn [toy i2d_cms fst snd] in I. destruct (bytes_okb _) in I; [|discriminate]. injection I as <-. cbn [toy d2i_cms] in D. injection D as <-. cbn [toy cms_verify fst snd] in V. destruct (_ && _ && _) in V; [|discriminate]. injection V as <-. reflexivity.
Qed.
Lemma server_ok : forall d, bytes_ok d -> view_ok (server d).
Proof. intros d H. split; [|split; [|split]]; cbn [server cv_issuer_entry cv_subject_entry cv_issuer_text cv_der]; try discriminate. intros d' Q. injection Q as <-. exact H. Qed.
Definition chain_case (nonce : bytes) : outcome (Z * heap) :=
  post_voucher_pledge_request toy pledge_world pledge_case_conf (contact 404 [] [2; 7]) (registrar_service toy registrar_world registrar_case_conf (masa_service toy masa_world masa_case_conf 0 masa_case) registrar_case pledge_view (server [2; 7])) (pledge_case nonce) 8.
Lemma id_list : forall w t id, w_cert w t = Some [id; 0] -> cert_list (w_cert w) [t] (id_store id).
Proof. intros w t id H. split; [discriminate|]. constructor; [|constructor]. split; [exact H|reflexivity]. Qed.
Lemma chain_case_runs : exists h', chain_case (s2b "CQ==") = Ok (0%Z, h') /\ pinned_result (pledge_case (s2b "CQ==")) h' 8 [7; 7].
Proof.
  assert (CN : cstr_ok (s2b "CQ==")) by (apply cstr_okb_ok; reflexivity). assert (DR : date_ready tm_case) by (right; vm_compute; repeat split; discriminate).
  assert (T3 : exists t3, serialize_str2time (mf_expires masa_case_files) = Some t3 /\ date_ready t3).
  { destruct (serialize_str2time (mf_expires masa_case_files)) as [t3|] eqn:E; [|vm_compute in E; discriminate]. exists t3. split; [reflexivity|]. vm_compute in E. injection E as <-. right. vm_compute. repeat split; discriminate. }
  destruct T3 as (t3 & T3 & D3).
  eapply (chain_complete toy pledge_world registrar_world masa_world pledge_case_conf (pledge_case_files (s2b "CQ==")) registrar_case_conf registrar_case_files masa_case_conf masa_case_files
    (pledge_case (s2b "CQ==")) registrar_case masa_case 0 pledge_view (server [2; 7]) (contact 404 [] [2; 7]) 8 1 tm_case tm_case t3 (s2b "A") (Some [9]) (s2b "maker CA") [2; 7] [7; 7]
    [1; 0] [1] None None (id_store 3) [2; 0] [2] None None (id_store 1) [3; 0] [3] None None (id_store 2) None (id_store 1)).
  - exact toy_sane.
  - exact pledge_world_ok.
  - exact registrar_world_ok.
  - exact masa_world_ok.
  - apply pledge_case_wf.
  - exact registrar_case_wf.
  - exact masa_case_wf.
  - intros a. reflexivity.
  - intros a. reflexivity.
  - intros a. reflexivity.
  - exact (pledge_case_config _ CN).
  - exact registrar_case_config.
  - exact masa_case_config.
  - exact (pledge_case_text _ CN).
  - apply pledge_view_ok. reflexivity.
  - apply server_ok. apply bytes_okb_ok. reflexivity.
  - apply contact_ok; apply bytes_okb_ok; reflexivity.
  - discriminate.
  - reflexivity.
  - reflexivity.
  - reflexivity.
  - exact T3.
  - exact DR.
  - exact DR.
  - exact D3.
  - reflexivity.
  - constructor; [unfold plain_char; vm_compute; repeat split; discriminate|constructor].
  - reflexivity.
  - split; [intros n Hn; cbn [pledge_view cv_issuer_entry cv_subject_entry]; split; [discriminate|destruct (beqb n (s2b "serialNumber")); discriminate]|]. exists (s2b "A"). split; reflexivity.
  - exists [9]. split; [vm_compute; reflexivity|reflexivity].
  - intros x Q. injection Q as <-. split; [discriminate|apply bytes_okb_ok; reflexivity].
  - reflexivity.
  - discriminate.
  - exists 404%Z, [], (server [2; 7]). split; [reflexivity|]. split; [lia|reflexivity].
  - reflexivity.
  - discriminate.
  - discriminate.
  - split; [reflexivity|]. split; [reflexivity|]. split; [reflexivity|]. split; [reflexivity|]. apply id_list. reflexivity.
  - split; [reflexivity|]. split; [reflexivity|]. split; [reflexivity|]. split; [reflexivity|]. split; [reflexivity|]. apply id_list. reflexivity.
  - split; [reflexivity|]. split; [reflexivity|]. split; [reflexivity|]. split; [reflexivity|]. split; [reflexivity|]. split; [apply id_list; reflexivity|]. split; [reflexivity|]. apply id_list. reflexivity.
  - vm_compute. reflexivity.
  - apply toy_trusts. lia.
  - apply toy_trusts. lia.
  - apply toy_trusts. lia.
  - apply toy_trusts. lia.
  - exists [2; 7], [2; 7], [7; 7], None, [[2; 7]]. split; [apply ba_of_has|]. repeat split; discriminate.
Qed.
