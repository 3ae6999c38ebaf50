(** The registrar's handlers, interleaved in any way. *)
From Coq Require Import Permutation.
From Verif Require Import Base PBase MOs MBase64 MSerialize MVoucher MCrypto MRequest MHeap MArray MVoucherHeap MConfig MHandlers MConcurrent MConcurrentReg SBase64 SHeap SArray SConfig SVoucher SRequest SHandlers
  PBase64 PHeap PArray PBlocks PConfig PConfigMore PCertFiles POwn PAcquire PAcquire2 PRequest PRequest2 PRequest3 PRequest4 PRequest5 PRequest6 PRequest7 PMasa PRegistrar PConcurrent PConcurrentReg PConcurrentReg2 PConcurrentReg3.
Open Scope N_scope.

Lemma own_get h l x F base : own base h l -> In (x, F) l -> holds h x F.
Proof. intros (O & _) Hi. rewrite Forall_forall in O. exact (O _ Hi). Qed.

Section Voucher.
Variables (o : ossl) (w : world) (c : registrar_conf) (f : registrar_files) (post : post_fn) (h0 : heap) (peer : option cert_view) (body : bytes).
Hypotheses (OS : ossl_sane o) (WO : world_ok w) (W0 : heap_wf h0) (PL0 : plenty h0) (RC : registrar_config h0 c f) (Bb : bytes_ok body) (VV : forall v, peer = Some v -> view_ok v).
Notation good := (fun s r => registrar_answer o w f post peer body (s, r)).
Notation bad := (registrar_unsafe o w f peer body).
Notation fine := (fine h0 good bad).

Lemma known_fine v s iss sub n : peer = Some v -> client_serial v s -> crypto_getcert_meta (Some v) = Ok (Some (iss, sub)) -> crypto_getcert_serial sub = Some s -> (26 <= n)%nat -> fine n (registrar_steps o w c post peer body) [].
Proof.
  intros Ep CS Em Es Ln. do 26 (destruct n as [|n]; [lia|]). clear Ln. destruct WO as [WC WK], RC as (Ctl & Cce & Cke & Cve & Cst & Cad).
  destruct (VV v Ep) as (V1 & V2 & V3 & V4). replace (registrar_steps o w c post peer body) with (registrar_steps o w c post (Some v) body) by (rewrite Ep; reflexivity). unfold registrar_steps. cbv zeta. rewrite Em, c_str_ok. cbn [obind]. rewrite Es.
  apply fine_still; [exact PL0|]. apply fine_issuer; [exact PL0| |].
  { intros Ei. split; [reflexivity|]. split; [intros (v' & s' & Q & _ & Q2 & _); rewrite Ep in Q; injection Q as <-; congruence|]. apply refuse400. intros (v' & s' & Q & _ & Q2). rewrite Ep in Q. injection Q as <-. congruence. }
  intros it issuer Fi Ei I0.
  assert (KN : client_known peer) by (exists v, s; split; [exact Ep|]; split; [exact CS|congruence]).
  apply fine_raw; [exact PL0|]. intros pcms P0. apply fine_decode; [exact PL0|apply c_string_bytes; exact Bb|]. intros rc arr x F D Ox.
  assert (UNS : bad_padding (c_string body) -> bad) by (intros Q; exists v, s; split; [exact Ep|]; split; [exact CS|]; split; [congruence|left; exact Q]).
  assert (CASES : (~ bad_padding (c_string body) /\ solid x) \/ (bad_padding (c_string body) /\ ~ solid x /\ rfc_decode (c_string body) = None)).
  { unfold decoded in D. rewrite PAcquire.decode_bad. destruct (rfc_decode (c_string body)) as [d|]; [left; destruct D as [_ ->]; split; [intros [Q _]; discriminate|exact Logic.I]|].
    destruct (filter b64_relevant (c_string body)); destruct D as [_ ->]; [left; split; [intros [_ Q]; congruence|exact Logic.I]|]. right. split; [split; [reflexivity|discriminate]|]. split; [intros Q; exact Q|reflexivity]. }
  (* the clean-up, whatever else is held *)
  assert (BYE : forall k la lb status response, (12 <= k)%nat -> (List.length la <= 8)%nat -> (List.length lb <= 3)%nat -> Forall (fun e => solid (fst e)) (la ++ lb) ->
    (~ bad_padding (c_string body) -> ~ bad /\ good status response) ->
    fine k (clean_steps (map (fun e => ow (fst e)) (la ++ (x, F) :: lb)) (Ret status response)) (la ++ (x, F) :: lb)).
  { intros k la lb status response Lk L1 L2 Sl H. apply fine_clean; [rewrite app_length; cbn [List.length]; lia|]. apply Forall_app in Sl. destruct Sl as [S1 S2]. destruct CASES as [[NB Sx]|(B & Sx & _)].
    - right. split; [apply Forall_app; split; [exact S1|constructor; [exact Sx|exact S2]]|]. apply H. exact NB.
    - left. split; [exact (UNS B)|]. apply Exists_exists. exists (x, F). split; [apply in_or_app; right; left; reflexivity|exact Sx]. }
  destruct (w_now w) as [now|] eqn:Enow.
  2:{ apply fine_still; [exact PL0|]. rewrite <- Ox. apply (BYE _ [] [(IArr issuer _, Fi)]); [lia|cbn [List.length]; lia|cbn [List.length]; lia|repeat constructor|]. intros NB.
      split; [intros (v' & s' & _ & _ & _ & [Q|(m & ? & ? & ? & ? & ? & ? & pvr & Q & _)]); [contradiction|congruence]|]. apply refuse500; [exact KN|intros (? & ? & ? & ? & _); congruence]. }
  apply fine_still; [exact PL0|].
  eapply fine_cert; [exact W0|exact PL0|exact Ctl| |].
  { intros El. rewrite <- Ox. apply (BYE _ [] [(IArr issuer _, Fi)]); [lia|cbn [List.length]; lia|cbn [List.length]; lia|repeat constructor|]. intros NB.
    split; [intros (v' & s' & _ & _ & _ & [Q|(m & ? & ? & ? & ? & ? & ? & pvr & _ & _ & Q & _)]); [contradiction|congruence]|]. apply refuse500; [exact KN|intros (? & ? & ? & ? & _); congruence]. }
  intros dtls tls Ftls Eltls tls0. eapply fine_cert; [exact W0|exact PL0|exact Cce| |].
  { intros El. rewrite <- Ox. apply (BYE _ [(IArr tls _, Ftls)] [(IArr issuer _, Fi)]); [lia|cbn [List.length]; lia|cbn [List.length]; lia|repeat constructor|]. intros NB.
    split; [intros (v' & s' & _ & _ & _ & [Q|(m & ? & ? & ? & ? & ? & ? & pvr & _ & _ & _ & Q & _)]); [contradiction|congruence]|]. apply refuse500; [exact KN|intros (? & ? & ? & ? & _); congruence]. }
  intros dcert cert Fcert Elcert cert0. eapply fine_cert; [exact W0|exact PL0|exact Cke| |].
  { intros El. rewrite <- Ox. apply (BYE _ [(IArr cert _, Fcert); (IArr tls _, Ftls)] [(IArr issuer _, Fi)]); [lia|cbn [List.length]; lia|cbn [List.length]; lia|repeat constructor|]. intros NB.
    split; [intros (v' & s' & _ & _ & _ & [Q|(m & ? & ? & ? & ? & ? & ? & pvr & _ & _ & _ & _ & Q & _)]); [contradiction|congruence]|]. apply refuse500; [exact KN|intros (? & ? & ? & ? & _); congruence]. }
  intros dkey key Fkey Elkey key0.
  assert (UNREADY : forall ts, In ts [rf_verify f; rf_store f; rf_add f] -> missing (w_cert w) ts -> ~ registrar_ready w f) by (intros ts Hi Mi (_ & _ & _ & _ & RL); rewrite Forall_forall in RL; exact (RL ts Hi Mi)).
  eapply fine_list; [exact W0|exact PL0|exact Cve| |].
  { intros Mi. rewrite <- Ox. apply (BYE _ [(IArr key _, Fkey); (IArr cert _, Fcert); (IArr tls _, Ftls)] [(IArr issuer _, Fi)]); [lia|cbn [List.length]; lia|cbn [List.length]; lia|repeat constructor|]. intros NB.
    split; [intros (v' & s' & _ & _ & _ & [Q|(m & ? & ? & ? & ? & ? & ? & pvr & _ & _ & _ & _ & _ & Q & _)]); [contradiction|exact (missing_list _ _ _ Mi Q)]|]. apply refuse500; [exact KN|eapply UNREADY; [|exact Mi]; cbn [In]; auto]. }
  intros lpv pv Fpv CLpv NMpv. eapply fine_list; [exact W0|exact PL0|exact Cst| |].
  { intros Mi. rewrite <- Ox. apply (BYE _ [(IList pv _, Fpv); (IArr key _, Fkey); (IArr cert _, Fcert); (IArr tls _, Ftls)] [(IArr issuer _, Fi)]); [lia|cbn [List.length]; lia|cbn [List.length]; lia|repeat constructor|]. intros NB.
    split; [intros (v' & s' & _ & _ & _ & [Q|(m & ? & ? & ? & ? & ? & ? & pvr & _ & _ & _ & _ & _ & _ & Q & _)]); [contradiction|exact (missing_list _ _ _ Mi Q)]|]. apply refuse500; [exact KN|eapply UNREADY; [|exact Mi]; cbn [In]; auto]. }
  intros lps ps Fps CLps NMps. eapply fine_list; [exact W0|exact PL0|exact Cad| |].
  { intros Mi. rewrite <- Ox. apply (BYE _ [(IList ps _, Fps); (IList pv _, Fpv); (IArr key _, Fkey); (IArr cert _, Fcert); (IArr tls _, Ftls)] [(IArr issuer _, Fi)]); [lia|cbn [List.length]; lia|cbn [List.length]; lia|repeat constructor|]. intros NB.
    split; [intros (v' & s' & _ & _ & _ & [Q|(m & ? & ? & ? & ? & ? & ? & pvr & _ & _ & _ & _ & _ & _ & _ & Q & _)]); [contradiction|exact (missing_list _ _ _ Mi Q)]|]. apply refuse500; [exact KN|eapply UNREADY; [|exact Mi]; cbn [In]; auto]. }
  intros lad ad Fad CLad NMad. apply fine_act; [exact PL0|]. intros h E W PL Bn Ow.
  pose proof (own_get _ _ _ _ _ Ow (or_introl eq_refl)) as [_ B7]. pose proof (own_get _ _ _ _ _ Ow (or_intror (or_introl eq_refl))) as [_ B6]. pose proof (own_get _ _ _ _ _ Ow (or_intror (or_intror (or_introl eq_refl)))) as [_ B5].
  pose proof (own_get _ _ _ _ _ Ow (or_intror (or_intror (or_intror (or_introl eq_refl))))) as [_ B4]. pose proof (own_get _ _ _ _ _ Ow (or_intror (or_intror (or_intror (or_intror (or_introl eq_refl)))))) as [_ B3].
  pose proof (own_get _ _ _ _ _ Ow (or_intror (or_intror (or_intror (or_intror (or_intror (or_introl eq_refl))))))) as [_ B2]. pose proof (own_get _ _ _ _ _ Ow (or_intror (or_intror (or_intror (or_intror (or_intror (or_intror (or_introl eq_refl)))))))) as Hx.
  pose proof (own_get _ _ _ _ _ Ow (or_intror (or_intror (or_intror (or_intror (or_intror (or_intror (or_intror (or_introl eq_refl))))))))) as [_ B1].
  rewrite B1. cbn [obind]. rewrite B2. cbn [obind]. rewrite B3. cbn [obind]. rewrite B4. cbn [obind]. rewrite B5. cbn [obind]. rewrite B6. cbn [obind]. rewrite B7. cbn [obind].
  assert (CMS : forall A (g : option barray -> outcome (option A)), with_cms h rc arr g = match rfc_decode (c_string body) with Some d => g (Some (ba_of d)) | None => Ok None end).
  { intros A g. unfold decoded in D. destruct (rfc_decode (c_string body)) as [d|]; [|destruct D as [-> _]; reflexivity]. destruct D as [-> ->]. apply with_cms_ok. destruct Hx as (_ & A0 & _ & _ & _ & Ca). unfold load_buf. rewrite (proj2 (N.eqb_neq _ _) A0), Ca. reflexivity. }
  rewrite CMS. clear CMS Hx B1 B2 B3 B4 B5 B6 B7.
  set (l0 := [(IList ad lad, Fad); (IList ps lps, Fps); (IList pv lpv, Fpv); (IArr key (Some (ba_of dkey)), Fkey); (IArr cert (Some (ba_of dcert)), Fcert); (IArr tls (Some (ba_of dtls)), Ftls)]) in *.
  assert (NOPOST : (forall m cms, rfc_decode (c_string body) = Some m -> registrar_posts o w f v m cms -> False) -> good 400%Z []).
  { intros NP. right. left. split; [reflexivity|]. right. split.
    - split; [congruence|]. split; [congruence|]. split; [congruence|]. split; [congruence|]. apply Forall_cons; [assumption|]. apply Forall_cons; [assumption|]. apply Forall_cons; [assumption|apply Forall_nil].
    - intros (v' & m & cms & Q & Q1 & Q2). rewrite Ep in Q. injection Q as <-. exact (NP _ _ Q1 Q2). }
  assert (SL : Forall (fun e => solid (fst e)) (l0 ++ [(IArr issuer (Some (issuer_ba it)), Fi)])) by repeat constructor.
  assert (LEAVE : forall k status response, (12 <= k)%nat -> (~ bad_padding (c_string body) -> ~ bad /\ good status response) ->
    fine k (clean_steps [OList ad; OList ps; OList pv; OArr key; OArr cert; OArr tls; OArr pcms; OArr issuer] (Ret status response)) (l0 ++ (x, F) :: [(IArr issuer (Some (issuer_ba it)), Fi)])).
  { intros k status response Lk H. rewrite <- Ox. apply (BYE k l0 [(IArr issuer _, Fi)]); [exact Lk|cbn [l0 List.length]; lia|cbn [List.length]; lia|exact SL|exact H]. }
  destruct (rfc_decode (c_string body)) as [m|] eqn:Ed.
  2:{ cbn [obind]. right. exists h. eexists. exists (l0 ++ (x, F) :: [(IArr issuer (Some (issuer_ba it)), Fi)]). split; [reflexivity|]. split; [apply moved_still; assumption|]. apply LEAVE; [lia|]. intros NB.
      split; [intros (v' & s' & _ & _ & _ & [Q|(m & ? & ? & ? & ? & ? & ? & pvr & _ & Q & _)]); [contradiction|congruence]|]. apply NOPOST. intros m cms Q. discriminate. }
  destruct CASES as [[NB Sx]|(_ & _ & Q)]; [|discriminate].
  pose proof (rfc_decode_bytes _ _ Ed) as Bm.
  assert (BI : ba_bytes (Some (issuer_ba it))) by (destruct it as [|y it]; [reflexivity|apply ba_bytes_of; apply V3; exact Ei]).
  assert (SOK : forall s0, Some s = Some s0 -> cstr_ok s0) by (intros s0 Q; injection Q as <-; destruct CS as [_ (t & Q & ->)]; apply c_string_cstr; eapply V2; exact Q).
  assert (SNZ : forall s0, Some s = Some s0 -> ~ In 0 s0) by (intros s0 Q; injection Q as <-; destruct CS as [_ (t & Q & ->)]; apply c_string_no_nul).
  pose proof (fun k => registrar_crash o (Some (ba_of m)) now (Some s) (Some (issuer_ba it)) (Some (ba_of dtls)) (Some (ba_of dcert)) (Some (ba_of dkey)) lpv lps lad k OS SOK (ba_bytes_of _ Bm) BI (ba_bytes_of _ (WC _ _ Eltls)) (ba_bytes_of _ (WC _ _ Elcert)) (ba_bytes_of _ (WK _ _ Elkey))) as CRASH.
  destruct (sign_voucher_request o (Some (ba_of m)) (Some now) (Some s) (Some (issuer_ba it)) (Some (ba_of dtls)) (Some (ba_of dcert)) (Some (ba_of dkey)) lpv lps lad) as [v1|k1] eqn:Ev.
  2:{ left. destruct (proj1 (CRASH k1) eq_refl) as (_ & _ & _ & pc & pvr & Q & Q1 & Q2). injection Q as <-. split; [|exists k1; reflexivity].
      exists v, s. split; [exact Ep|]. split; [exact CS|]. split; [congruence|]. right. exists m, dtls, dcert, dkey, lpv, lps, lad, pvr. split; [congruence|]. repeat (split; [assumption || reflexivity|]). exact Q2. }
  cbn [obind]. right.
  assert (NU : ~ bad).
  { intros (v' & s' & _ & _ & _ & [Q|(m' & ? & ? & ? & vc' & vs' & ad' & pvr & _ & Q & _ & _ & _ & L1 & L2 & L3 & Q1 & Q2)]); [contradiction|]. rewrite Ed in Q. injection Q as <-.
    rewrite <- (cert_list_fun _ _ _ _ CLpv L1), <- (cert_list_fun _ _ _ _ CLps L2) in Q1.
    assert (QQ : Ok v1 = UB NullDeref) by (apply (proj2 (CRASH NullDeref)); split; [reflexivity|]; split; [discriminate|]; split; [discriminate|]; exists (ba_of m), pvr; auto). discriminate QQ. }
  clear CRASH. destruct v1 as [cms|].
  2:{ exists h. eexists. exists (l0 ++ (x, F) :: [(IArr issuer (Some (issuer_ba it)), Fi)]). split; [reflexivity|]. split; [apply moved_still; assumption|]. apply LEAVE; [lia|]. intros _. split; [exact NU|]. apply NOPOST. intros m' cms' Q RP.
      injection Q as <-. destruct RP as (t & s0 & i & tl & ce & ke & vc & vs & ad' & pvr & prox & nn & R1 & R2 & R3 & R0 & R4 & R5 & R6 & R7 & R8 & R9 & R10 & R11 & R12 & R13 & R14 & R15 & R16).
      rewrite (serial_fun _ _ _ R2 CS) in *. rewrite Enow in R1. injection R1 as <-. rewrite Ei in R3. injection R3 as <-. rewrite Eltls in R4. injection R4 as <-. rewrite Elcert in R5. injection R5 as <-. rewrite Elkey in R6. injection R6 as <-.
      rewrite <- (cert_list_fun _ _ _ _ CLpv R7), <- (cert_list_fun _ _ _ _ CLps R8) in R10. rewrite <- (cert_list_fun _ _ _ _ CLad R9) in R16.
      assert (QQ : Ok (@None bytes) = Ok (Some cms')); [|discriminate QQ]. rewrite <- Ev. apply registrar_iff; [exact OS|exact SOK|].
      exists (ba_of m), pvr, now, s, it, (ba_of dtls), m, prox, nn. repeat (split; [reflexivity || assumption|]). split; [destruct it; [congruence|apply ba_of_has]|]. split; [apply ba_of_has|exact R16]. }
  assert (RP : registrar_posts o w f v m cms).
  { destruct (registrar_request_says _ _ _ _ _ _ _ _ _ _ _ _ OS SNZ Ev) as (pc & pvr & t & s0 & i & rc0 & p & prox & nn & R1 & R2 & R3 & R4 & R5 & R6 & R7 & R8 & R9 & R10 & R11 & R12 & R13).
    injection R1 as <-. injection R2 as <-. injection R3 as <-. injection R4 as <-.
    assert (p = m) as -> by (eapply ba_has_of; exact R12).
    assert (i = it) as -> by (destruct it as [|y it]; [destruct R11 as (b' & rest & Q1 & Q2 & _); injection Q1 as <-; discriminate Q2|eapply ba_has_of; exact R11]).
    exists now, s, it, dtls, dcert, dkey, lpv, lps, lad, pvr, prox, nn. split; [exact Enow|]. split; [exact CS|]. split; [exact Ei|]. split; [intros ->; destruct R11 as (b' & rest & Q1 & Q2 & _); injection Q1 as <-; discriminate Q2|]. repeat (split; [assumption|]). assumption. }
  assert (BV : bytes_ok cms). { destruct RP as (? & ? & ? & ? & ? & ? & ? & ? & ? & ? & ? & ? & _ & _ & _ & _ & _ & _ & _ & _ & _ & _ & _ & _ & _ & _ & _ & _ & Q). eapply signed_bytes; eassumption. }
  destruct (new_array_arrives h cms W PL) as (vo & h8 & E8 & V0 & A8 & B8). rewrite E8. cbn [obind]. rewrite (proj2 (N.eqb_neq _ _) V0).
  destruct (moved_arrived _ h _ h8 (IArr vo (Some (ba_of cms))) W Bn Ow A8) as [Fvo M8]; [intros G Og; split; assumption|].
  do 3 eexists. split; [reflexivity|]. split; [exact M8|]. clear - OS WO W0 PL0 Ep CS Ed RP BV NU Sx Ox BYE SL.
  apply fine_act; [exact PL0|]. intros h E W PL Bn Ow. right. pose proof (own_get _ _ _ _ _ Ow (or_introl eq_refl)) as [_ B8].
  unfold post_voucher_request. destruct (encode_step h vo cms W PL BV B8) as (h9 & E9 & Xf & Sf). rewrite E9. cbn [obind].
  assert (LEAVE : forall k status response, (12 <= k)%nat -> good status response ->
    fine k (clean_steps [OArr vo; OList ad; OList ps; OList pv; OArr key; OArr cert; OArr tls; OArr pcms; OArr issuer] (Ret status response)) ((IArr vo (Some (ba_of cms)), Fvo) :: l0 ++ (x, F) :: [(IArr issuer (Some (issuer_ba it)), Fi)])).
  { intros k status response Lk H. rewrite <- Ox. apply (BYE k ((IArr vo _, Fvo) :: l0) [(IArr issuer _, Fi)]); [exact Lk|cbn [l0 List.length]; lia|cbn [List.length]; lia|constructor; [exact Logic.I|exact SL]|]. intros _. split; [exact NU|exact H]. }
  pose proof (moved_ext _ _ _ _ W Ow Xf Sf) as M9. clear BYE SL Ow B8 E9 Sf.
  destruct (blen cms <? SIZE_MAX / 4) eqn:Lv.
  2:{ cbn [obind]. change ((-1 <? 0)%Z) with true. cbv iota. do 3 eexists. split; [reflexivity|]. split; [exact M9|]. apply LEAVE; [lia|]. left. exists v, m, cms. repeat (split; [assumption || reflexivity|]). right. right. split; [reflexivity|]. split; [right; lia|reflexivity]. }
  destruct (post (rfc_encode cms)) as [status response] eqn:Ept. destruct (Z.ltb_spec status 0) as [Ls|Ls]; cbn [obind].
  { change ((-1 <? 0)%Z) with true. cbv iota. do 3 eexists. split; [reflexivity|]. split; [exact M9|]. apply LEAVE; [lia|]. left. exists v, m, cms. repeat (split; [assumption || reflexivity|]). rewrite Ept. right. right. split; [reflexivity|]. split; [left; exact Ls|reflexivity]. }
  destruct (Z.leb_spec 400 status) as [Lt|Lt]; cbn [obind].
  { change ((400 <? 0)%Z) with false. cbv iota. do 3 eexists. split; [reflexivity|]. split; [exact M9|]. apply LEAVE; [lia|]. left. exists v, m, cms. repeat (split; [assumption || reflexivity|]). rewrite Ept. right. left. split; [reflexivity|]. split; [split; [lia|exact Lt]|reflexivity]. }
  change ((0 <? 0)%Z) with false. cbv iota. do 3 eexists. split; [reflexivity|]. split; [exact M9|]. apply LEAVE; [lia|]. left. exists v, m, cms. repeat (split; [assumption || reflexivity|]). rewrite Ept. left. split; [reflexivity|]. split; [split; [lia|cbn [fst]; lia]|reflexivity].
Qed.

Lemma voucher_fine n : (26 <= n)%nat -> fine n (registrar_steps o w c post peer body) [].
Proof.
  intros Ln. assert (D : (exists v, peer = Some v) \/ peer = None) by (destruct peer as [v|]; [left; exists v|right]; reflexivity).
  assert (LEAVE : ~ client_known peer -> (forall v s, peer = Some v -> ~ client_serial v s) -> forall k, fine k (Ret 400%Z []) []).
  { intros NK NS k. assert (G : iprint [] = [] /\ ~ bad /\ good 400%Z []); [|destruct k; exact G]. split; [reflexivity|]. split; [intros (v & s & Q & CS & _); exact (NS _ _ Q CS)|]. apply refuse400. exact NK. }
  destruct D as [[v Ep]|Ep].
  - destruct (meta_cases v) as [(s & iss & sub & CS & Em & Es)|[NS Em]]; [eapply known_fine; eassumption|].
    replace (registrar_steps o w c post peer body) with (registrar_steps o w c post (Some v) body) by (rewrite Ep; reflexivity).
    destruct n as [|n]; [lia|]. unfold registrar_steps. cbv zeta. apply fine_act; [exact PL0|]. intros h E W PL Bn Ow. right. rewrite c_str_ok. cbn [obind].
    exists h, (Ret 400%Z []), []. split; [destruct Em as [Em|(iss & sub & Em & Es)]; rewrite Em; cbn [obind]; [|rewrite Es]; reflexivity|]. split; [apply moved_still; assumption|].
    apply LEAVE; [intros (v' & s & Q & CS & _)|intros v' s Q CS]; rewrite Ep in Q; injection Q as <-; exact (NS _ CS).
  - replace (registrar_steps o w c post peer body) with (registrar_steps o w c post None body) by (rewrite Ep; reflexivity).
    destruct n as [|n]; [lia|]. unfold registrar_steps. cbv zeta. apply fine_act; [exact PL0|]. intros h E W PL Bn Ow. right. rewrite c_str_ok. cbn [obind crypto_getcert_meta].
    exists h, (Ret 400%Z []), []. split; [reflexivity|]. split; [apply moved_still; assumption|].
    apply LEAVE; [intros (v' & s & Q & CS & _)|intros v' s Q CS]; rewrite Ep in Q; discriminate Q.
Qed.
End Voucher.

Section Enroll.
Variables (sc : sign_cert_fn) (w : world) (c : registrar_conf) (cert key : bytes) (h0 : heap) (body : bytes).
Hypotheses (SC : forall k ct tbs out, sc k ct tbs = Some out -> bytes_ok out) (W0 : heap_wf h0) (PL0 : plenty h0)
  (Cc : heap_string h0 (rc_ca_cert c) = Ok cert) (Ck : heap_string h0 (rc_ca_key c) = Ok key) (Bb : bytes_ok body).
Notation good := (fun s r => enroll_answer sc w cert key body (s, r)).
Notation bad := (bad_padding (c_string body)).
Notation fine := (fine h0 good bad).

Lemma enroll_fine n : (12 <= n)%nat -> fine n (enroll_steps sc w c body) [].
Proof.
  intros Ln. do 12 (destruct n as [|n]; [lia|]). clear Ln. unfold enroll_steps. cbv zeta. rewrite c_str_ok. cbn [obind].
  assert (NULL : forall h, holds h (IArr 0 None) []) by (intros hh; split; [left; auto|reflexivity]).
  assert (NULLB : forall h, holds h (IBuf 0 None) []) by (intros hh; split; [left; auto|reflexivity]).
  assert (FAIL : forall k l ct ky cr, (List.length l <= k)%nat -> ~ bad -> good 400%Z [] -> Forall (fun e => solid (fst e)) l -> map (fun e => ow (fst e)) l = [OBuf cr; OArr ct; OArr ky] -> fine k (clean_steps [OBuf cr; OArr ct; OArr ky] (Ret 400%Z [])) l).
  { intros k l ct ky cr Lk NB G Sl <-. apply fine_clean; [exact Lk|]. right. auto. }
  apply fine_act; [exact PL0|]. intros h E W PL Bn Ow. right.
  pose proof (decode_arrives h (c_string body) W PL (c_string_bytes _ Bb)) as D. destruct (rfc_decode (c_string body)) as [m|] eqn:Ed.
  2:{ assert (NOT : good 400%Z []) by (right; split; [reflexivity|]; intros (tbs & out & Q1 & _); congruence).
      destruct (filter b64_relevant (c_string body)) as [|y r] eqn:Ef.
      - rewrite D. cbn [obind]. change ((-1 <? 0)%Z) with true. cbv iota. do 3 eexists. split; [reflexivity|]. split; [apply moved_still; eassumption|].
        apply (fine_null _ _ _ _ _ _ _ NULL), (fine_null _ _ _ _ _ _ _ NULL), (fine_null _ _ _ _ _ _ _ NULLB). apply FAIL; [cbn [List.length]; lia|rewrite PAcquire.decode_bad; intros [_ Q]; congruence|exact NOT|repeat constructor|reflexivity].
      - pose proof (decode_cells h (c_string body) W PL (c_string_bytes _ Bb)) as D2. rewrite Ed, Ef in D2. clear D. destruct D2 as (p & h1 & E1 & Pn & P0 & N1 & O1 & W1 & C1 & X1). rewrite E1. cbn [obind]. change ((-1 <? 0)%Z) with true. cbv iota.
        do 2 eexists. exists [(IGone p, [p])]. split; [reflexivity|]. split.
        + apply moved_new; try assumption.
          * split; [exact W1|]. split; [lia|]. split; [|exact O1]. intros a Ha. apply X1. lia.
          * intros a Ha [b Hb]. destruct (N.eq_dec a p) as [->|Ne]; [congruence|]. rewrite X1 in Hb by exact Ne. destruct W as (_ & _ & W). rewrite W in Hb by exact Ha. discriminate.
          * constructor; [intros []|constructor].
          * intros a [<-|[]]. lia.
          * split; [exact P0|]. split; [reflexivity|exact C1].
        + apply (fine_null _ _ _ _ _ _ _ NULL), (fine_null _ _ _ _ _ _ _ NULL). eapply fine_perm; [|apply (fine_clean _ _ _ [(IGone p, [p]); (IArr 0 None, []); (IArr 0 None, [])])].
          * apply (Permutation_cons_app [_; _] []). apply Permutation_refl.
          * cbn [List.length]. lia.
          * left. split; [apply PAcquire.decode_bad; split; [exact Ed|rewrite Ef; discriminate]|]. apply Exists_exists. eexists. split; [left; reflexivity|]. intros Q. exact Q. }
  assert (NB : ~ bad) by (rewrite PAcquire.decode_bad; intros [Q _]; congruence).
  destruct D as (p & h1 & E1 & P0 & A1 & LB). rewrite E1. cbn [obind]. destruct (Z.ltb_spec (Z.of_N (blen m)) 0) as [Q|_]; [lia|].
  destruct (moved_arrived _ h _ h1 (IBuf p (Some m)) W Bn Ow A1) as [Fp M1]; [intros G Og; split; assumption|].
  do 3 eexists. split; [reflexivity|]. split; [exact M1|]. clear h E W PL Bn Ow h1 E1 A1 LB M1.
  unfold h_file_to_cert, h_file_to_keybuf. eapply fine_cert; [exact W0|exact PL0|exact Cc| |].
  { intros El. apply (fine_null _ _ _ _ _ _ _ NULL), (fine_null _ _ _ _ _ _ _ NULL). eapply fine_perm; [|apply (FAIL _ [(IBuf p (Some m), Fp); (IArr 0 None, []); (IArr 0 None, [])])];
      [apply (Permutation_cons_app [_; _] []), Permutation_refl|cbn [List.length]; lia|exact NB| |repeat constructor|reflexivity].
    right. split; [reflexivity|]. intros (? & ? & _ & (? & ? & Q & _) & _). congruence. }
  intros cd ct Fc El C0. eapply fine_cert; [exact W0|exact PL0|exact Ck| |].
  { intros Ek. apply (fine_null _ _ _ _ _ _ _ NULL). eapply fine_perm; [|apply (FAIL _ [(IBuf p (Some m), Fp); (IArr ct (Some (ba_of cd)), Fc); (IArr 0 None, [])])]; [|cbn [List.length]; lia|exact NB| |repeat constructor|reflexivity].
    - apply Permutation_sym. apply (Permutation_cons_app [_; _] []). cbn [app]. apply perm_swap.
    - right. split; [reflexivity|]. intros (? & ? & _ & (? & ? & _ & Q & _) & _). congruence. }
  intros kd ky Fk Ek K0. apply fine_act; [exact PL0|]. intros h E W PL Bn Ow. right.
  pose proof (own_get _ _ _ _ _ Ow (or_introl eq_refl)) as [_ B3]. pose proof (own_get _ _ _ _ _ Ow (or_intror (or_introl eq_refl))) as [_ B2]. pose proof (own_get _ _ _ _ _ Ow (or_intror (or_intror (or_introl eq_refl)))) as [_ B1].
  rewrite B3. cbn [obind]. rewrite B2. cbn [obind]. rewrite B1. cbn [obind].
  assert (R : forall d, ba_read (ba_of d) = Ok d). { intros d. unfold ba_read. cbn [ba_of ba_data ba_len]. unfold take_mem. rewrite N.leb_refl. unfold blen. rewrite Nat2N.id, firstn_all. reflexivity. }
  rewrite !R. cbn [obind]. rewrite N2Z.id. unfold take_mem. rewrite N.leb_refl. cbn [obind]. replace (firstn (N.to_nat (blen m)) m) with m by (unfold blen; rewrite Nat2N.id, firstn_all; reflexivity).
  assert (NOT : (forall out, sc kd cd m = Some out -> blen out < SIZE_MAX / 4 -> False) -> good 400%Z []).
  { intros Q. right. split; [reflexivity|]. intros (tbs & out & Q1 & (c' & k' & Q2 & Q3 & Q4) & Q5). rewrite Ed in Q1. injection Q1 as <-. assert (c' = cd) as -> by congruence. assert (k' = kd) as -> by congruence. exact (Q _ Q4 Q5). }
  destruct (sc kd cd m) as [out|] eqn:Es.
  2:{ do 3 eexists. split; [reflexivity|]. split; [apply moved_still; eassumption|]. eapply fine_perm; [|apply (FAIL _ [(IBuf p (Some m), Fp); (IArr ct (Some (ba_of cd)), Fc); (IArr ky (Some (ba_of kd)), Fk)])]; [|cbn [List.length]; lia|exact NB| |repeat constructor|reflexivity].
      - apply (Permutation_cons_app [_; _] []). cbn [app]. apply perm_swap.
      - apply NOT. intros out Q. discriminate. }
  pose proof (SC _ _ _ _ Es) as Bo. destruct (buf_arrives h out W PL) as (q & h4 & E4 & N0 & A4 & B4). rewrite E4, (proj2 (N.eqb_neq _ _) N0).
  destruct (moved_arrived _ h _ h4 (IBuf q (Some out)) W Bn Ow A4) as [Fn M4]; [intros G Og; split; assumption|].
  assert (P4 : Permutation [(IBuf q (Some out), Fn); (IArr ky (Some (ba_of kd)), Fk); (IArr ct (Some (ba_of cd)), Fc); (IBuf p (Some m), Fp)] [(IBuf p (Some m), Fp); (IBuf q (Some out), Fn); (IArr ky (Some (ba_of kd)), Fk); (IArr ct (Some (ba_of cd)), Fc)]).
  { apply Permutation_sym. apply (Permutation_cons_app [_; _; _] []). apply Permutation_refl. }
  pose proof (moved_perm _ _ _ _ _ _ _ (Permutation_refl _) P4 M4) as M4'. destruct (moved_free _ h4 _ _ _ (proj1 M4') (proj1 (proj2 (proj2 (proj2 (proj2 M4'))))) Logic.I) as (h5 & E5 & M5). cbn [ow free_owned] in E5. rewrite E5. cbn [obind].
  do 3 eexists. split; [reflexivity|]. split; [exact (moved_trans _ _ _ _ _ _ _ M4' M5)|]. clear - PL0 W0 Bo FAIL NB NOT Es Ed El Ek.
  apply fine_act; [exact PL0|]. intros h E W PL Bn Ow. right. rewrite (PL (hp_next h)). cbn [negb]. rewrite (encode_spec out Bo).
  destruct (blen out <? SIZE_MAX / 4) eqn:Lo; cbn [obind].
  2:{ do 3 eexists. split; [reflexivity|]. split; [apply moved_still; eassumption|]. eapply fine_perm; [|apply (FAIL _ [(IBuf q (Some out), Fn); (IArr ct (Some (ba_of cd)), Fc); (IArr ky (Some (ba_of kd)), Fk)])]; [|cbn [List.length]; lia|exact NB| |repeat constructor|reflexivity].
      - apply perm_skip. apply perm_swap.
      - apply NOT. intros out' Q. injection Q as <-. lia. }
  destruct (buf_arrives h (rfc_encode out ++ [0]) W PL) as (a & h6 & E6 & Aa0 & A6 & B6). rewrite E6.
  destruct (Z.ltb_spec (Z.of_N (rfc_len (blen out))) 0) as [Q|_]; [lia|].
  destruct (moved_arrived _ h _ h6 (IBuf a (Some (rfc_encode out ++ [0]))) W Bn Ow A6) as [Fa M6]; [intros G Og; split; assumption|].
  do 3 eexists. split; [reflexivity|]. split; [exact M6|]. clear h E W PL Bn Ow h6 E6 A6 B6 M6.
  apply fine_act; [exact PL0|]. intros h E W PL Bn Ow. right. pose proof (own_get _ _ _ _ _ Ow (or_introl eq_refl)) as [_ B6]. destruct (ok_live_buf _ _ _ B6) as [_ Ca].
  rewrite (heap_string_exact h a _ Aa0 Ca) by (apply in_or_app; right; left; reflexivity). cbn [obind]. rewrite PAcquire.c_string_app by (apply no_nul, rfc_encode_cstr; exact Bo).
  do 3 eexists. split; [reflexivity|]. split; [apply moved_still; eassumption|].
  eapply fine_perm; [|apply (fine_clean _ _ _ [(IBuf a (Some (rfc_encode out ++ [0])), Fa); (IBuf q (Some out), Fn); (IArr ct (Some (ba_of cd)), Fc); (IArr ky (Some (ba_of kd)), Fk)])].
  - apply perm_skip, perm_skip, perm_swap.
  - cbn [List.length]. lia.
  - right. split; [repeat constructor|]. split; [exact NB|]. left. exists m, out. split; [exact Ed|]. split; [exists cd, kd; auto|]. split; [lia|reflexivity].
Qed.
End Enroll.
