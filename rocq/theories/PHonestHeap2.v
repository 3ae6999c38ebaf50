(** The three parties connected, with complete memory. *)
From Coq Require Import Permutation ZifyBool ZifyNat ZifyN.
From Verif Require Import Base PBase MOs MBase64 MSerialize MVoucher MCrypto MRequest MHeap MArray MVoucherHeap MConfig MHandlers MSerialHeap MRequestHeap MHandlerHeap
  SBase64 SHeap SArray SConfig SJson SVoucher SRequest SHandlers SPledge SChain SVoucherHeap SSerialHeap SRequestHeap SEnrolLogHeap SHandlerHeap SHonestHeap
  PBase64 PHeap PArray PBlocks PConfig PConfigMore PCertFiles POwn PAcquire PAcquire2 PVoucherText PVoucherRound PRequest PRequest2 PRequest3 PRequest4 PRequest5 PRequest6 PRequest7 PMasa PRegistrar PPledge PPledge2 PPledge3 PPledge4 PChain PChain2 PHandlerHeap7
  PHandlerHeap3 PHandlerHeap6 PHandlerHeap10 PHonestHeap.
Open Scope N_scope.

(** What each party writes is authored. *)
Lemma unique_authored : forall o cert key extra kvs cms v, signed_voucher o cert key extra kvs cms -> (forall v', holds_exactly v' kvs -> v' = v) -> json_ready v -> authored o v cms.
Proof. intros o cert key extra kvs cms v (v' & text & H1 & H2 & H3) U R. rewrite (U _ H1) in H2. exists cert, key, extra, text. auto. Qed.
Lemma authored_library : forall o v cms certs store, authored o v cms -> from_library o (ba_of cms) certs store.
Proof. intros o v cms certs store A c st json V. exists v, cms. split; [right; apply ba_of_has|exact A]. Qed.

Lemma pledge_authors : forall o w f post1 cms, ossl_sane o -> pledge_ready w f -> (forall tls1, first_contact post1 tls1 -> bytes_ready tls1) -> pledge_sends o w f post1 cms ->
  exists t s n tls1, authored o (pv1 t n tls1 s) cms /\ bytes_ok cms /\ blen cms < SIZE_MAX / 4 /\ (forall d, n = Some d -> bytes_ready d) /\ Forall plain_char s /\ blen s < 128.
Proof.
  intros o w f post1 cms OS (PR1 & PR2 & PR3) FR (tls1 & FC & (t & s & n & ce & ke & ad & A1 & A2 & A3 & A4 & A5 & A6 & A7 & A8) & L). exists t, s, n, tls1.
  assert (NR : forall d, n = Some d -> bytes_ready d) by (intros d Q; eapply PR3; [exact A4|exact Q]).
  split; [eapply unique_authored; [exact A8|intros v H; exact (pv1_unique v _ _ _ _ H)|exact (ready1 _ _ _ _ (PR1 _ A1) NR (FR _ FC) (PR2 _ A2) A3)]|].
  split; [eapply signed_bytes; [exact OS|exact A8]|]. split; [exact L|]. split; [exact NR|]. split; [exact (PR2 _ A2)|exact A3].
Qed.
Lemma authored_says : forall o v cms certs store want w l, ossl_sane o -> genuine o -> authored o v cms -> says o (ba_of cms) certs store want w l -> same_voucher v w.
Proof. intros o v cms certs store want w l OS G A (c & st & json & V & D & _). destruct (authored_read _ _ _ _ _ _ _ _ OS G A V) as (u & Du & Su). rewrite D in Du. assert (u = w) as -> by (clear -Du; injection Du; auto). exact Su. Qed.
Lemma registrar_authors : forall o w f client cms1 cms2 t s n tls1, ossl_sane o -> genuine o -> registrar_values w client ->
  authored o (pv1 t n tls1 s) cms1 -> bytes_ok cms1 -> cms1 <> [] -> blen cms1 < SIZE_MAX / 4 -> (forall d, n = Some d -> bytes_ready d) -> Forall plain_char s -> blen s < 128 ->
  registrar_posts o w f client cms1 cms2 -> exists t2 i, authored o (pv2 t2 n s i cms1) cms2 /\ bytes_ok cms2.
Proof.
  intros o w f client cms1 cms2 t s n tls1 OS G (RV1 & RV2) A B N1 L NR PS LS (t2 & s2 & i & tls & ce & ke & vc & vs & ad & pvr & prox & n2 & R1 & R2 & R3 & R4 & R5 & R6 & R7 & R8 & R9 & R10 & R11 & R12 & R13 & R14 & R15 & R16 & R17).
  pose proof (authored_says _ _ _ _ _ _ _ _ OS G A R11) as SV. destruct (same_get _ _ SV) as (Ga & Gs & _ & _). rewrite Gs in R12. cbn in R12. assert (s2 = s) as -> by congruence.
  assert (n2 = n) as -> by (eapply nonce_of; [rewrite Ga; apply nonce1|exact R16]). exists t2, i.
  split; [eapply unique_authored; [exact R17|intros v H; exact (pv2_unique v _ _ _ _ _ H)|exact (ready2 _ _ _ _ _ (RV1 _ R1) NR (RV2 _ R3) (conj N1 (conj B L)) PS LS)]|eapply signed_bytes; [exact OS|exact R17]].
Qed.
Lemma masa_authors : forall o w f cms1 cms2 cms3 t s n i, ossl_sane o -> genuine o -> masa_values w f -> authored o (pv2 t n s i cms1) cms2 -> (forall d, n = Some d -> bytes_ready d) -> Forall plain_char s -> blen s < 128 ->
  masa_issues o w f cms2 cms3 -> exists v d, authored o v cms3 /\ bytes_ok cms3 /\ get_attr_array (Some v) APinned = Some (ba_of d) /\ w_cert w (mf_ldevid f) = Some d.
Proof.
  intros o w f cms1 cms2 cms3 t s n i OS G (MV1 & MV2) A NR PS LS (t3 & ldc & ce3 & ke3 & rv & rs & pv & ps & ad3 & vr & regs & p & pvr3 & s3 & n3 & M1 & M2 & M3 & M4 & M5 & M6 & M7 & M8 & M9 & M10 & M11 & M12 & M13 & M14 & M15 & M16).
  pose proof (authored_says _ _ _ _ _ _ _ _ OS G A M10) as SV. destruct (same_get _ _ SV) as (Ha & Hs & _ & _). rewrite Hs in M13. cbn in M13. assert (s3 = s) as -> by congruence.
  assert (n3 = n) as -> by (eapply nonce_of; [rewrite Ha; apply nonce2|exact M15]). exists (pv3 t3 n s ldc), ldc.
  split; [eapply unique_authored; [exact M16|intros v H; exact (pv3_unique v _ _ _ _ H)|exact (ready3 _ _ _ _ (MV1 _ M1) NR (MV2 _ M2) PS LS)]|]. split; [eapply signed_bytes; [exact OS|exact M16]|]. split; [destruct n; reflexivity|exact M2].
Qed.

(** *** Requests on the wire *)
Lemma request_honest : forall o v cms w f, bytes_ok cms -> authored o v cms -> honest_pledge o w f (rfc_encode cms).
Proof. intros o v cms w f B A m vc vs D _ _. destruct (arrives _ _ B D) as [-> _]. eapply authored_library; exact A. Qed.
Lemma relayed_honest : forall o v t n s i cms1 cms2 w f, bytes_ok cms2 -> authored o v cms1 -> authored o (pv2 t n s i cms1) cms2 -> honest_registrar o w f (rfc_encode cms2).
Proof.
  intros o v t n s i cms1 cms2 w f B A1 A2 m rv rs pv ps c st json D _ _ _ _ _. destruct (arrives _ _ B D) as [-> _]. exists (pv2 t n s i cms1). split; [exact A2|].
  intros p Q. assert (p = ba_of cms1) as -> by (destruct n; cbn in Q; congruence). eapply authored_library; exact A1.
Qed.

(** One request is a sequence of requests. *)
Lemma masa_single : forall o w c h body s r l h', full_masa_requestvoucher o w c 0 h body = Ok (s, r, l, h') -> full_masa_serves o w c 0 h [body] = Ok ([(s, r)], h').
Proof. intros o w c h body s r l h' E. cbn [full_masa_serves]. rewrite E. reflexivity. Qed.
Lemma registrar_single : forall o w c nn post h v body s r h', full_registrar_requestvoucher o w c nn post h v body = Ok (s, r, h') -> full_registrar_serves o w c nn post h [(v, body)] = Ok ([(s, r)], h').
Proof. intros o w c nn post h v body s r h' E. cbn [full_registrar_serves fst snd]. rewrite E. reflexivity. Qed.

(** The pledge sends nothing but its own request. *)
Lemma full_post_ext : forall o w c f post1 post2 post2' h pinned, ossl_sane o -> world_ok w -> heap_wf h -> plenty h -> pledge_config h c f -> pledge_text_ok f -> post_ok post1 -> pledge_fits w f post1 ->
  (forall cms, pledge_sends o w f post1 cms -> post2 (rfc_encode cms) = post2' (rfc_encode cms)) ->
  full_post_voucher_pledge_request o w c post1 post2 h pinned = full_post_voucher_pledge_request o w c post1 post2' h pinned.
Proof.
  intros o w c f post1 post2 post2' h pinned OS WO W PL CF TX PO1 FITS EQ. unfold full_post_voucher_pledge_request. destruct (post1 []) as [[s1 r1] v1] eqn:E1. destruct (PO1 _ _ _ _ (Forall_nil _) E1) as [_ V1].
  destruct (Z.ltb_spec s1 0) as [L1|L1]; [reflexivity|]. pose proof (cert2buf_arrives h v1 W PL) as D1. destruct v1 as [v1|]; [destruct (cv_der v1) as [tb1|] eqn:Ed1|]; [|rewrite D1; reflexivity|rewrite D1; reflexivity].
  assert (FC : first_contact post1 tb1) by (exists s1, r1, v1; auto). clear D1. destruct (cert2buf_comes h v1 tb1 W PL Ed1) as (tls & h1 & E2 & T0 & A1 & _ & B1). rewrite E2. cbn [obind]. rewrite (proj2 (N.eqb_neq _ _) T0).
  pose proof (proj1 A1) as Ex1. assert (BT1 : bytes_ok tb1) by (destruct (V1 _ eq_refl) as (_ & _ & _ & Q); apply Q; exact Ed1).
  destruct (full_ask64_run o w c f h1 tls tb1 OS WO (proj1 Ex1) (ext_plenty _ _ Ex1 PL) (ext_pledge _ _ _ _ W Ex1 CF) TX T0 B1 BT1 (fun t s n => FITS tb1 t s n FC)) as [[C [k E]]|[NC (text & h2 & E & Ex12 & S12 & D)]]; rewrite E; cbn [obind]; [reflexivity|].
  destruct (h_free_binary_array h2 tls) as [h3|k]; cbn [obind]; [|reflexivity]. destruct text as [text|]; [|reflexivity]. destruct D as (cms & PA & PS & ->). rewrite EQ; [reflexivity|]. exists tb1. auto.
Qed.

(** The texts of the exchange are shorter than the address space. *)
Definition exchange_fits (o : ossl) (wp : world) (fp : pledge_files) (post1 : post_cert_fn) (wr : world) (fr : registrar_files) (client : cert_view) (wm : world) (fm : masa_files) : Prop :=
  pledge_fits wp fp post1 /\
  (forall cms1, pledge_sends o wp fp post1 cms1 -> registrar_fits o wr fr (Some client) (rfc_encode cms1)) /\
  (forall cms1 cms2, pledge_sends o wp fp post1 cms1 -> cms1 <> [] -> registrar_posts o wr fr client cms1 cms2 -> masa_fits o wm fm (rfc_encode cms2)).

Lemma rfc_bound : forall d, blen d < SIZE_MAX / 4 -> rfc_len (blen d) <= SIZE_MAX / 3 + 4.
Proof. intros d H. unfold rfc_len. change (SIZE_MAX / 4) with 4611686018427387903 in H. change (SIZE_MAX / 3) with 6148914691236517205. lia. Qed.
Lemma rfc_bound8 : forall d, blen d < SIZE_MAX / 8 -> rfc_len (blen d) <= SIZE_MAX / 6 + 4.
Proof. intros d H. unfold rfc_len. change (SIZE_MAX / 8) with 2305843009213693951 in H. change (SIZE_MAX / 6) with 3074457345618258602. lia. Qed.
Lemma nonce_bound : forall n, (forall d, n = Some d -> bytes_ready d) -> rfc_len (nlen n) <= SIZE_MAX / 3 + 4.
Proof. intros [d|] H; [apply rfc_bound; apply (H d eq_refl)|vm_compute; discriminate]. Qed.
Lemma exchange_fitting : forall o wp fp post1 wr fr client wm fm, ossl_sane o -> genuine o -> pledge_text_ok fp -> pledge_ready wp fp -> registrar_values wr client -> client_values client -> masa_values wm fm ->
  (forall tls1, first_contact post1 tls1 -> bytes_ready tls1) -> (forall s, pf_serial fp = Some s -> blen s < 128) -> exchange_fits o wp fp post1 wr fr client wm fm.
Proof.
  intros o wp fp post1 wr fr client wm fm OS G TX PR RV (CV1 & CV2) MV FR SL. pose proof (eq_refl : SIZE_MAX / 3 = 6148914691236517205) as S3. pose proof (eq_refl : SIZE_MAX / 6 = 3074457345618258602) as S6. pose proof (eq_refl : SIZE_MAX = 18446744073709551615) as S1. split; [|split].
  - intros tls1 t s n FC Et Es Hn v text Hv Ht. apply pv1_unique in Hv. subst v. destruct PR as (PR1 & PR2 & PR3). assert (NR : forall d, n = Some d -> bytes_ready d) by (intros d Q; eapply PR3; [exact Hn|exact Q]).
    pose proof (text_len _ _ (ready1 _ _ _ _ (PR1 _ Et) NR (FR _ FC) (PR2 _ Es) (SL _ Es)) Ht) as L. pose proof (asize_arrays (pv1 t n tls1 s)) as A.
    assert (F : ba_len (v_issuer (pv1 t n tls1 s)) = 0 /\ ba_len (v_pinned (pv1 t n tls1 s)) = 0 /\ ba_len (v_nonce (pv1 t n tls1 s)) = nlen n /\ ba_len (v_prior (pv1 t n tls1 s)) = 0 /\ ba_len (v_proximity (pv1 t n tls1 s)) = blen tls1) by (clear; destruct n; repeat split).
    destruct F as [F1 [F2 [F3 [F4 F5]]]]. rewrite F1, F2, F3, F4, F5 in A. change (rfc_len 0) with 0 in A. pose proof (nonce_bound n NR). pose proof (rfc_bound tls1 (proj2 (proj2 (FR _ FC)))). lia.
  - intros cms1 S v t s n i m vc vs pvr Ev Et CS Ei Ed L1 L2 Sy Hn v0 text Hv Ht. injection Ev as <-. destruct (pledge_authors _ _ _ _ _ OS PR FR S) as (t1 & s1 & n1 & tls1 & A & B & L & NR & PC & LS).
    destruct (arrives _ _ B Ed) as [-> N1]. pose proof (authored_says _ _ _ _ _ _ _ _ OS G A Sy) as SV. destruct (same_get _ _ SV) as (Ga & Gs & _ & _). assert (n = n1) as -> by (eapply nonce_of; [rewrite Ga; apply nonce1|exact Hn]).
    apply pv2_unique in Hv. subst v0. destruct RV as (RV1 & RV2). destruct (CV1 _ CS) as [CS1 CS2].
    pose proof (text_len _ _ (ready2 _ _ _ _ _ (RV1 _ Et) NR (RV2 _ Ei) (conj N1 (conj B L)) CS1 CS2) Ht) as TL. pose proof (asize_arrays (pv2 t n1 s i cms1)) as AA.
    assert (F : ba_len (v_issuer (pv2 t n1 s i cms1)) = blen i /\ ba_len (v_pinned (pv2 t n1 s i cms1)) = 0 /\ ba_len (v_nonce (pv2 t n1 s i cms1)) = nlen n1 /\ ba_len (v_prior (pv2 t n1 s i cms1)) = blen cms1 /\ ba_len (v_proximity (pv2 t n1 s i cms1)) = 0) by (clear; destruct n1; repeat split).
    destruct F as [F1 [F2 [F3 [F4 F5]]]]. rewrite F1, F2, F3, F4, F5 in AA. change (rfc_len 0) with 0 in AA. pose proof (nonce_bound n1 NR). pose proof (rfc_bound8 i (CV2 _ Ei)). pose proof (rfc_bound cms1 L). lia.
  - intros cms1 cms2 S N1 RP m t ldc rv rs vr regs s n Ed Et El L1 L2 Sy Es Hn v0 text Hv Ht. destruct (pledge_authors _ _ _ _ _ OS PR FR S) as (t1 & s1 & n1 & tls1 & A & B & L & NR & PC & LS).
    destruct (registrar_authors _ _ _ _ _ _ _ _ _ _ OS G RV A B N1 L NR PC LS RP) as (t2 & i & A2 & B2). destruct (arrives _ _ B2 Ed) as [-> N2].
    pose proof (authored_says _ _ _ _ _ _ _ _ OS G A2 Sy) as SV. destruct (same_get _ _ SV) as (Ga & Gs & _ & _). assert (n = n1) as -> by (eapply nonce_of; [rewrite Ga; apply nonce2|exact Hn]). rewrite Gs in Es. cbn in Es. assert (s = s1) as -> by congruence.
    apply pv3_unique in Hv. subst v0. destruct MV as (MV1 & MV2).
    pose proof (text_len _ _ (ready3 _ _ _ _ (MV1 _ Et) NR (MV2 _ El) PC LS) Ht) as TL. pose proof (asize_arrays (pv3 t n1 s1 ldc)) as AA.
    assert (F : ba_len (v_issuer (pv3 t n1 s1 ldc)) = 0 /\ ba_len (v_pinned (pv3 t n1 s1 ldc)) = blen ldc /\ ba_len (v_nonce (pv3 t n1 s1 ldc)) = nlen n1 /\ ba_len (v_prior (pv3 t n1 s1 ldc)) = 0 /\ ba_len (v_proximity (pv3 t n1 s1 ldc)) = 0) by (clear; destruct n1; repeat split).
    destruct F as [F1 [F2 [F3 [F4 F5]]]]. rewrite F1, F2, F3, F4, F5 in AA. change (rfc_len 0) with 0 in AA. pose proof (nonce_bound n1 NR). pose proof (rfc_bound ldc (proj2 (proj2 (MV2 _ El)))). lia.
Qed.

(** *** The exchange *)
Section Exchange.
Variables (o : ossl) (wp wr wm : world) (fp : pledge_files) (cr : registrar_conf) (fr : registrar_files) (cm : masa_conf) (fm : masa_files) (hr hm : heap) (nn : bytes -> N) (client server : cert_view) (post1 : post_cert_fn).
Hypotheses (OS : ossl_sane o) (G : genuine o) (SW : signers_written o) (WOr : world_ok wr) (WOm : world_ok wm) (Wr : heap_wf hr) (Wm : heap_wf hm) (PLr : plenty hr) (PLm : plenty hm)
  (CR : registrar_config hr cr fr) (CM : masa_config hm cm fm) (NA : names_at (hp_next hr) nn hr) (VC : view_ok client) (SC : short_view client) (VS : view_ok server)
  (PR : pledge_ready wp fp) (RV : registrar_values wr client) (MV : masa_values wm fm) (FR : forall tls1, first_contact post1 tls1 -> bytes_ready tls1)
  (FITS : exchange_fits o wp fp post1 wr fr client wm fm).
Let post2 : post_cert_fn := full_registrar_service o wr cr nn (full_masa_service o wm cm hm) hr client server.

Lemma exchange_request : forall cms1, pledge_sends o wp fp post1 cms1 -> Forall (request_ok o wr fr) [(Some client, rfc_encode cms1)].
Proof.
  intros cms1 S1. destruct (pledge_authors _ _ _ _ _ OS PR FR S1) as (t & s & n & tls1 & A & B & _). apply Forall_cons; [|apply Forall_nil]. split; [apply cstr_ok_bytes_encode; exact B|]. split; [|apply FITS; exact S1].
  cbn [fst]. intros v Q. injection Q as <-. auto.
Qed.
Lemma exchange_registrar : forall cms1 s r h', pledge_sends o wp fp post1 cms1 -> full_registrar_requestvoucher o wr cr nn (full_masa_service o wm cm hm) hr (Some client) (rfc_encode cms1) = Ok (s, r, h') ->
  kept (hp_next hr) hr h' /\ no_leak (hp_next hr) h'.
Proof.
  intros cms1 s r h' S1 E. destruct (pledge_authors _ _ _ _ _ OS PR FR S1) as (t & s' & n & tls1 & A & B & _).
  eapply (honest_registrar_keeps o wr cr fr nn (full_masa_service o wm cm hm) hr [(Some client, rfc_encode cms1)]); try eassumption; [apply exchange_request; exact S1| |apply registrar_single; exact E].
  apply Forall_cons; [|apply Forall_nil]. eapply request_honest; [exact B|exact A].
Qed.
Lemma exchange_masa : forall cms1 cms2 s r l h', pledge_sends o wp fp post1 cms1 -> cms1 <> [] -> registrar_posts o wr fr client cms1 cms2 -> full_masa_requestvoucher o wm cm 0 hm (rfc_encode cms2) = Ok (s, r, l, h') ->
  (kept (hp_next hm) hm h' /\ no_leak (hp_next hm) h') /\ bytes_ok r /\ forall m, (s < 400)%Z -> rfc_decode (c_string r) = Some m -> exists v d, authored o v m /\ get_attr_array (Some v) APinned = Some (ba_of d) /\ w_cert wm (mf_ldevid fm) = Some d.
Proof.
  intros cms1 cms2 s r l h' S1 N1 RP E. destruct (pledge_authors _ _ _ _ _ OS PR FR S1) as (t & s' & n & tls1 & A & B & L & NR & PC & LS).
  destruct (registrar_authors _ _ _ _ _ _ _ _ _ _ OS G RV A B N1 L NR PC LS RP) as (t2 & i & A2 & B2).
  assert (BO : Forall bytes_ok [rfc_encode cms2]) by (apply Forall_cons; [apply cstr_ok_bytes_encode; exact B2|apply Forall_nil]).
  assert (MF : Forall (masa_fits o wm fm) [rfc_encode cms2]) by (apply Forall_cons; [eapply FITS; [exact S1|exact N1|exact RP]|apply Forall_nil]).
  split; [|].
  - eapply (honest_masa_keeps o wm cm fm [rfc_encode cms2]); try eassumption; [|eapply masa_single; exact E]. apply Forall_cons; [|apply Forall_nil]. eapply relayed_honest; [exact B2|exact A|exact A2].
  - destruct (full_masa_answers _ _ _ _ _ _ _ _ OS WOm Wm PLm CM BO MF (masa_single _ _ _ _ _ _ _ _ _ E)) as (F & _). inversion F as [|? ? ? ? MA _]; subst. unfold masa_answer in MA. cbn [fst snd] in MA.
    destruct MA as [(_ & m2 & cms3 & D2 & MI & ->)|(-> & -> & _)]; [|split; [apply Forall_nil|intros; lia]]. destruct (arrives _ _ B2 D2) as [-> N2].
    destruct (masa_authors _ _ _ _ _ _ _ _ _ _ OS G MV A2 NR PC LS MI) as (v3 & d3 & A3 & B3 & P3 & C3). split; [apply cstr_ok_bytes_encode; exact B3|]. intros m _ ED. destruct (arrives _ _ B3 ED) as [-> _]. exists v3, d3. auto.
Qed.
Lemma exchange_answer : forall cms1 s r v, pledge_sends o wp fp post1 cms1 -> post2 (rfc_encode cms1) = (s, r, v) ->
  bytes_ok r /\ (forall v', v = Some v' -> view_ok v') /\ ((0 <= s < 400)%Z -> forall m, rfc_decode (c_string r) = Some m -> exists v d, authored o v m /\ get_attr_array (Some v) APinned = Some (ba_of d) /\ w_cert wm (mf_ldevid fm) = Some d).
Proof.
  intros cms1 s r v S1 E. destruct (pledge_authors _ _ _ _ _ OS PR FR S1) as (t & s' & n & tls1 & A & B & L & NR & PC & LS). unfold post2, full_registrar_service in E.
  destruct (full_registrar_requestvoucher o wr cr nn (full_masa_service o wm cm hm) hr (Some client) (rfc_encode cms1)) as [[[s0 r0] h0]|k] eqn:Q; injection E as <- <- <-; [|split; [apply Forall_nil|split; [discriminate|lia]]].
  destruct (full_registrar_answers _ _ _ _ _ _ _ _ _ _ OS WOr Wr PLr CR NA (exchange_request _ S1) (registrar_single _ _ _ _ _ _ _ _ _ _ _ Q)) as (F & _). inversion F as [|? ? ? ? RA _]; subst. cbn [fst snd] in RA.
  assert (EM : forall m, rfc_decode (c_string []) = Some m -> exists v d, authored o v m /\ get_attr_array (Some v) APinned = Some (ba_of d) /\ w_cert wm (mf_ldevid fm) = Some d) by (intros m X; vm_compute in X; discriminate).
  cut (bytes_ok r0 /\ ((0 <= s0 < 400)%Z -> forall m, rfc_decode (c_string r0) = Some m -> exists v d, authored o v m /\ get_attr_array (Some v) APinned = Some (ba_of d) /\ w_cert wm (mf_ldevid fm) = Some d)).
  { intros [X Y]. split; [exact X|]. split; [intros v' Z; injection Z as <-; exact VS|exact Y]. }
  destruct RA as [(v' & m1 & cms2 & Q1 & Q2 & RP & RA)|[(X & _)|(X & _)]]; [|injection X as -> ->; split; [apply Forall_nil|lia]|injection X as -> ->; split; [apply Forall_nil|lia]].
  injection Q1 as <-. destruct (arrives _ _ B Q2) as [-> N1]. cbn [fst snd] in RA.
  destruct RA as [(-> & [_ PS] & ->)|[(_ & _ & ->)|(-> & _ & ->)]]; [|split; [apply Forall_nil|intros _; exact EM]|split; [apply bytes_okb_ok; reflexivity|lia]].
  unfold full_masa_service in *. destruct (full_masa_requestvoucher o wm cm 0 hm (rfc_encode cms2)) as [[[[s3 r3] ld3] h3]|k] eqn:E3; [|cbn [fst] in PS; lia]. cbn [fst snd] in *.
  destruct (exchange_masa _ _ _ _ _ _ S1 N1 RP E3) as (_ & X & Y). split; [exact X|]. intros _ m. apply Y. lia.
Qed.
End Exchange.

Lemma full_exchange : forall o wp wr wm cp fp cr fr cm fm hp hr hm nn client server post1 pinned,
  ossl_sane o -> genuine o -> signers_written o -> world_ok wp -> world_ok wr -> world_ok wm -> heap_wf hp -> heap_wf hr -> heap_wf hm -> plenty hp -> plenty hr -> plenty hm ->
  pledge_config hp cp fp -> registrar_config hr cr fr -> masa_config hm cm fm -> names_at (hp_next hr) nn hr ->
  pledge_text_ok fp -> view_ok client -> short_view client -> view_ok server -> post_ok post1 ->
  pledge_ready wp fp -> registrar_values wr client -> masa_values wm fm -> (forall tls1, first_contact post1 tls1 -> bytes_ready tls1) ->
  client_values client -> (forall s, pf_serial fp = Some s -> blen s < 128) -> pinned <> 0 -> hp_cell hp pinned = Live (Struct [P 0; I 0]) ->
  (forall z h', full_post_voucher_pledge_request o wp cp post1 (full_registrar_service o wr cr nn (full_masa_service o wm cm hm) hr client server) hp pinned = Ok (z, h') ->
     (z = 0%Z /\ exists d, w_cert wm (mf_ldevid fm) = Some d /\ pinned_result hp h' pinned d) \/ (z = (-1)%Z /\ kept (hp_next hp) hp h' /\ no_leak (hp_next hp) h')) /\
  (forall cms1 s r h', pledge_sends o wp fp post1 cms1 -> full_registrar_requestvoucher o wr cr nn (full_masa_service o wm cm hm) hr (Some client) (rfc_encode cms1) = Ok (s, r, h') ->
     kept (hp_next hr) hr h' /\ no_leak (hp_next hr) h') /\
  (forall cms1 cms2 s r l h', pledge_sends o wp fp post1 cms1 -> cms1 <> [] -> registrar_posts o wr fr client cms1 cms2 -> full_masa_requestvoucher o wm cm 0 hm (rfc_encode cms2) = Ok (s, r, l, h') ->
     kept (hp_next hm) hm h' /\ no_leak (hp_next hm) h').
Proof.
  intros o wp wr wm cp fp cr fr cm fm hp hr hm nn client server post1 pinned OS G SW WOp WOr WOm Wp Wr Wm PLp PLr PLm CP CR CM NA TX VC SC VS PO PR RV MV FR CV SL P0 CC. pose proof (exchange_fitting o wp fp post1 wr fr client wm fm OS G TX PR RV CV MV FR SL) as FITS.
  set (post2 := full_registrar_service o wr cr nn (full_masa_service o wm cm hm) hr client server).
  assert (ANS : forall cms1 s r v, pledge_sends o wp fp post1 cms1 -> post2 (rfc_encode cms1) = (s, r, v) ->
    bytes_ok r /\ (forall v', v = Some v' -> view_ok v') /\ ((0 <= s < 400)%Z -> forall m, rfc_decode (c_string r) = Some m -> exists v d, authored o v m /\ get_attr_array (Some v) APinned = Some (ba_of d) /\ w_cert wm (mf_ldevid fm) = Some d)).
  { intros cms1 s r v S1 E. eapply (exchange_answer o wp wr wm fp cr fr cm fm hr hm nn client server post1); eassumption. }
  split; [|split].
  - intros z h' E.
    (* answer only the pledge's own request *)
    assert (DEC : exists post2', post_ok post2' /\ (forall cms, pledge_sends o wp fp post1 cms -> post2 (rfc_encode cms) = post2' (rfc_encode cms))).
    { exists (fun body => let '(s, r, v) := post2 body in (s, if bytes_okb r then r else [], v)). split.
      - intros body s r v B Q. assert (V : forall v', snd (post2 body) = Some v' -> view_ok v').
        { intros v' X. unfold post2, full_registrar_service in X. destruct (full_registrar_requestvoucher o wr cr nn (full_masa_service o wm cm hm) hr (Some client) body) as [[[s0 r0] h0]|k]; cbn [snd] in X; [injection X as <-; exact VS|discriminate]. }
        destruct (post2 body) as [[s0 r0] v0]. cbn [snd] in V. injection Q as <- <- <-. split; [|exact V]. destruct (bytes_okb r0) eqn:Eb; [apply bytes_okb_ok; exact Eb|apply Forall_nil].
      - intros cms S1. destruct (post2 (rfc_encode cms)) as [[s0 r0] v0] eqn:Q. destruct (ANS _ _ _ _ S1 Q) as (Br & _). rewrite (okb_of _ Br). reflexivity. }
    destruct DEC as (post2' & PO2 & EQ). rewrite (full_post_ext _ _ _ _ _ _ _ _ _ OS WOp Wp PLp CP TX PO (proj1 FITS) EQ) in E.
    assert (HM : honest_masa o wp fp post1 post2').
    { intros tls1 cms tls r m vc vs FC PA L (s & v & Q & ST & DV) ED _ _. assert (S1 : pledge_sends o wp fp post1 cms) by (exists tls1; auto). rewrite <- (EQ _ S1) in Q. destruct (ANS cms s r (Some v) S1 Q) as (_ & _ & X). destruct (X ST m ED) as (u & d & A & _). eapply authored_library; exact A. }
    pose proof (honest_masa_clean _ _ _ _ _ G HM) as C.
    destruct (full_pledge_outcome _ _ _ _ _ _ _ _ _ _ OS WOp Wp PLp CP TX PO PO2 (proj1 FITS) P0 CC E) as [(-> & t1 & t2 & d & OB & _ & R)|(-> & _ & K & N)]; [left|right]; (split; [reflexivity|]).
    + exists d. split; [|exact (R C)]. destruct OB as (cms & r & m & FC & PA & L & (s & v & Q & ST & DV) & ED & (s4 & n4 & vc4 & vs4 & mv & P1 & P2 & P3 & P4 & P5 & P6 & P7 & P8 & P9)).
      assert (S1 : pledge_sends o wp fp post1 cms) by (exists t1; auto). rewrite <- (EQ _ S1) in Q. destruct (ANS cms s r (Some v) S1 Q) as (_ & _ & X). destruct (X ST m ED) as (u & d' & A & GP & WC).
      pose proof (authored_says _ _ _ _ _ _ _ _ OS G A P5) as SV. destruct (same_get _ _ SV) as (Ia & _ & _ & _). rewrite Ia in P8. assert (d' = d) as <- by (apply ba_of_inj; congruence). exact WC.
    + split; [exact K|exact (N C)].
  - intros cms1 s r h' S1 E. eapply (exchange_registrar o wp wr wm fp cr fr cm fm hr hm nn client post1); eassumption.
  - intros cms1 cms2 s r l h' S1 N1 RP E. refine (proj1 (exchange_masa o wp wr wm fp fr cm fm hm client post1 _ _ _ _ _ _ _ _ _ _ _ _ cms1 cms2 s r l h' S1 N1 RP E)); assumption.
Qed.
