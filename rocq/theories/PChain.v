(** The three parties connected. *)
From Coq Require Import Permutation.
From Verif Require Import Base PBase MOs MBase64 MSerialize MVoucher MCrypto MRequest MHeap MArray MVoucherHeap MConfig MHandlers SBase64 SHeap SArray SConfig SJson SVoucher SRequest SHandlers SPledge SChain
  PBase64 PHeap PArray PBlocks PConfig PConfigMore PCertFiles POwn PAcquire PAcquire2 PVoucherText PVoucherRound PRequest PRequest2 PRequest3 PRequest4 PRequest5 PRequest6 PRequest7 PMasa PMasa2 PRegistrar PRegistrar2 PPledge PPledge2 PPledge3 PPledge4.
Open Scope N_scope.

Lemma c_string_id : forall d, ~ In 0 d -> c_string d = d.
Proof. induction d as [|c d IH]; intros H; [reflexivity|]. cbn [c_string]. destruct (N.eqb_spec c 0) as [E|E]; [exfalso; apply H; left; exact E|]. f_equal. apply IH. intros Q. apply H. right. exact Q. Qed.
Lemma sent : forall d, bytes_ok d -> c_string (rfc_encode d) = rfc_encode d.
Proof. intros d H. apply c_string_id, no_nul, rfc_encode_cstr, H. Qed.
Lemma arrives : forall d m, bytes_ok d -> rfc_decode (c_string (rfc_encode d)) = Some m -> m = d /\ d <> [].
Proof. intros d m H E. rewrite sent in E by exact H. destruct d as [|b d]; [vm_compute in E; discriminate|]. rewrite rfc_roundtrip in E by (try exact H; discriminate). injection E as <-. split; [reflexivity|discriminate]. Qed.

(** What was signed is what is read. *)
Lemma signed_read : forall o cert key extra kvs cms v certs store want w l, ossl_sane o -> genuine o -> signed_voucher o cert key extra kvs cms ->
  (forall v', holds_exactly v' kvs -> v' = v) -> json_ready v -> says o (ba_of cms) certs store want w l -> same_voucher v w.
Proof.
  intros o cert key extra kvs cms v certs store want w l [OS _] G (v' & text & H1 & H2 & H3) U R (c & st & json & V & D & _).
  rewrite (U _ H1) in H2. pose proof (G _ _ _ _ _ _ _ _ _ _ H3 V) as ->. destruct V as (d & s & _ & _ & _ & _ & CV). destruct (OS _ _ _ _ _ CV) as [_ L].
  destruct (json_roundtrip v R) as (text' & E & F). rewrite H2 in E. injection E as <-. destruct (F L) as (w' & Dw & S). rewrite D in Dw. injection Dw as ->. exact S.
Qed.

Lemma nonce_put_ready : forall v n, json_ready v -> (forall d, n = Some d -> bytes_ready d) -> json_ready (nonce_put v n).
Proof. intros v [d|] H N; [|exact H]. apply put_ready; [exact H|]. apply N. reflexivity. Qed.
Lemma ready1 : forall t n rc s, date_ready t -> (forall d, n = Some d -> bytes_ready d) -> bytes_ready rc -> Forall plain_char s -> blen s < 128 -> json_ready (pv1 t n rc s).
Proof. intros t n rc s D N R S L. unfold pv1. apply put_ready; [|cbn; auto]. apply put_ready; [|exact R]. apply put_ready; [|cbn; lia]. apply nonce_put_ready; [|exact N]. apply put_ready; [exact init_ready|exact D]. Qed.
Lemma ready2 : forall t n s i p, date_ready t -> (forall d, n = Some d -> bytes_ready d) -> bytes_ready i -> bytes_ready p -> Forall plain_char s -> blen s < 128 -> json_ready (pv2 t n s i p).
Proof. intros t n s i p D N I2 P2 S L. unfold pv2. apply put_ready; [|exact P2]. apply put_ready; [|exact I2]. apply put_ready; [|cbn; auto]. apply nonce_put_ready; [|exact N]. apply put_ready; [exact init_ready|exact D]. Qed.
Lemma ready3 : forall t n s p, date_ready t -> (forall d, n = Some d -> bytes_ready d) -> bytes_ready p -> Forall plain_char s -> blen s < 128 -> json_ready (pv3 t n s p).
Proof. intros t n s p D N P3 S L. unfold pv3. apply put_ready; [|exact D]. apply put_ready; [|exact Logic.I]. apply put_ready; [|cbn; auto]. apply put_ready; [|exact P3]. apply put_ready; [|cbn; lia]. apply nonce_put_ready; [exact init_ready|exact N]. Qed.

Lemma nonce_of : forall v n n', get_attr_array (Some v) ANonce = Some (match n with None => ba_null | Some d => ba_of d end) -> nonce_is v n' -> n' = n.
Proof. intros v n n' H H'. exact (nonce_fun v n' n H' H). Qed.
Lemma nonce1 : forall t n rc s, get_attr_array (Some (pv1 t n rc s)) ANonce = Some (match n with None => ba_null | Some d => ba_of d end).
Proof. intros t [d|] rc s; reflexivity. Qed.
Lemma nonce2 : forall t n s i p, get_attr_array (Some (pv2 t n s i p)) ANonce = Some (match n with None => ba_null | Some d => ba_of d end).
Proof. intros t [d|] s i p; reflexivity. Qed.

Lemma same_ba : forall a b, same_bytes (ba_of a) (ba_of b) -> a = b.
Proof.
  intros a b (d & [(Q & _)|H1] & [(Q' & _)|H2]); try discriminate. rewrite <- (ba_has_of _ _ H1), <- (ba_has_of _ _ H2). reflexivity.
Qed.
Lemma ba_of_inj : forall a b, ba_of a = ba_of b -> a = b.
Proof. intros a b H. injection H as H _. exact H. Qed.

(** The pledge obtains, through the registrar, what the MASA is configured with. *)
Lemma obtains_sound : forall o wp wr wm fp cr fr cm fm hr hm ld client server post1 tls1 tls2 d,
  ossl_sane o -> genuine o -> world_ok wp -> world_ok wr -> world_ok wm -> heap_wf hr -> heap_wf hm -> plenty hr -> plenty hm -> registrar_config hr cr fr -> masa_config hm cm fm ->
  (ld = 0 \/ serialize_str2time (mf_expires fm) <> None) -> pledge_text_ok fp -> view_ok client -> view_ok server -> bytes_ready tls1 ->
  pledge_ready wp fp -> registrar_values wr client -> masa_values wm fm ->
  pledge_obtains o wp fp post1 (registrar_service o wr cr (masa_service o wm cm ld hm) hr client server) tls1 tls2 d ->
  w_cert wm (mf_ldevid fm) = Some d /\ w_cert wr (rf_tls fr) = Some tls1 /\ (exists s, pf_serial fp = Some s /\ client_serial client s) /\
  cv_der server = Some tls2 /\ chains o (Some (ba_of tls2)) d None.
Proof.
  intros o wp wr wm fp cr fr cm fm hr hm ld client server post1 tls1 tls2 d OS G WOp WOr WOm Wr Wm PLr PLm CR CM Hld TX VC VS RT (PR1 & PR2 & PR3) (RV1 & RV2) (MV1 & MV2)
    (cms1 & response & m & FC & (t1 & s & n & ce1 & ke1 & ad1 & A1 & A2 & A3 & A4 & A5 & A6 & A7 & A8) & L1 & (status & v & SC & ST & DV) & ED & PT).
  assert (B1 : bytes_ok cms1) by (eapply signed_bytes; [exact OS|exact A8]).
  unfold registrar_service in SC. destruct (registrar_requestvoucher o wr cr (masa_service o wm cm ld hm) hr (Some client) (rfc_encode cms1)) as [[[st0 rs0] h0]|k] eqn:E; [|injection SC as <- _; lia].
  injection SC as <- <- <-.
  assert (VV : forall v', Some client = Some v' -> view_ok v') by (intros v' Q; injection Q as <-; exact VC).
  pose proof (registrar_answers o wr cr fr _ hr (Some client) (rfc_encode cms1) _ _ _ OS WOr Wr PLr CR (cstr_ok_bytes_encode _ B1) VV E) as RA.
  destruct RA as [(v' & m1 & cms2 & Q1 & Q2 & RP & RA)|[(Q & _)|(Q & _)]]; [|injection Q as -> ->; lia|injection Q as -> ->; lia].
  injection Q1 as <-. destruct (arrives _ _ B1 Q2) as [-> N1]. cbn [fst snd] in RA.
  destruct RA as [(-> & [_ PS] & ->)|[(_ & _ & ->)|(-> & _)]]; [|vm_compute in ED; discriminate|lia].
  destruct RP as (t2 & s2 & i & tls & ce2 & ke2 & vc2 & vs2 & ad2 & pvr & prox & n2 & R1 & R2 & R3 & R4 & R5 & R6 & R7 & R8 & R9 & R10 & R11 & R12 & R13 & R14 & R15 & R16 & R17).
  assert (B2 : bytes_ok cms2) by (eapply signed_bytes; [exact OS|exact R17]).
  (* the registrar reads the pledge's request *)
  assert (NR : forall d', n = Some d' -> bytes_ready d') by (intros d' Q; eapply PR3; [exact A4|exact Q]).
  pose proof (signed_read _ _ _ _ _ _ _ _ _ _ _ _ OS G A8 (fun v H => pv1_unique v _ _ _ _ H) (ready1 _ _ _ _ (PR1 _ A1) NR RT (PR2 _ A2) A3) R11) as SV1.
  destruct (same_get _ _ SV1) as (Ga & Gs & _ & _). rewrite Gs in R12. cbn in R12. assert (s2 = s) as -> by congruence.
  rewrite Ga in R13. change (Some (ba_of tls1) = Some prox) in R13. injection R13 as <-. apply same_ba in R14. subst tls.
  assert (n2 = n) as -> by (eapply nonce_of; [rewrite Ga; apply nonce1|exact R16]).
  (* the MASA reads the registrar's *)
  unfold masa_service in PS, ED. destruct (masa_requestvoucher o wm cm ld hm (rfc_encode cms2)) as [[[[s3 r3] ld3] h3]|k] eqn:EM; [|cbn [fst] in PS; lia]. cbn [fst snd] in PS, ED.
  destruct (masa_one _ _ _ _ _ _ _ _ _ _ _ OS WOm Wm PLm CM (cstr_ok_bytes_encode _ B2) Hld EM) as (MA & _).
  unfold masa_answer in MA. cbn [fst snd] in MA. destruct MA as [(_ & m2 & cms3 & D2 & MI & ->)|(-> & _)]; [|lia]. destruct (arrives _ _ B2 D2) as [-> N2].
  destruct MI as (t3 & ldc & ce3 & ke3 & rv & rs & pv & ps & ad3 & vr & regs & p & pvr3 & s3' & n3 & M1 & M2 & M3 & M4 & M5 & M6 & M7 & M8 & M9 & M10 & M11 & M12 & M13 & M14 & M15 & M16).
  assert (B3 : bytes_ok cms3) by (eapply signed_bytes; [exact OS|exact M16]). destruct (arrives _ _ B3 ED) as [-> N3].
  pose proof (signed_read _ _ _ _ _ _ _ _ _ _ _ _ OS G R17 (fun v H => pv2_unique v _ _ _ _ _ H) (ready2 _ _ _ _ _ (RV1 _ R1) NR (RV2 _ R3) (conj N1 (conj B1 L1)) (PR2 _ A2) A3) M10) as SV2.
  destruct (same_get _ _ SV2) as (Ha & Hs & _ & _). rewrite Hs in M13. cbn in M13. assert (s3' = s) as -> by congruence.
  assert (n3 = n) as -> by (eapply nonce_of; [rewrite Ha; apply nonce2|exact M15]).
  (* the pledge reads the voucher *)
  destruct PT as (s4 & n4 & vc4 & vs4 & mv & P1 & P2 & P3 & P4 & P5 & P6 & P7 & P8 & P9).
  pose proof (signed_read _ _ _ _ _ _ _ _ _ _ _ _ OS G M16 (fun v H => pv3_unique v _ _ _ _ H) (ready3 _ _ _ _ (MV1 _ M1) NR (MV2 _ M2) (PR2 _ A2) A3) P5) as SV3.
  destruct (same_get _ _ SV3) as (Ia & _ & _ & _). rewrite Ia in P8. change (Some (ba_of ldc) = Some (ba_of d)) in P8. injection P8 as ->.
  split; [exact M2|]. split; [exact R5|]. split; [exists s; auto|]. split; [exact DV|exact P9].
Qed.
