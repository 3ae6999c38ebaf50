(** Proofs about the memory of the command sign-cert: the whole command. *)
From Coq Require Import Permutation.
From Verif Require Import Base PBase MOs MBase64 MSerialize MVoucher MCrypto MRequest MHeap MArray MVoucherHeap MConfig MHandlers MLog MEnrolLogHeap MHandlerHeap MSignCert MSignHeap SBase64 SHeap SArray SConfig SVoucher SRequest SHandlers SPledge SLog SHandlerHeap SSignCert SSignHeap
  PBase64 PHeap PArray PBlocks PKlist PConfig PConfigMore PCertFiles POwn PHold PAcquire PAcquire2 PRequest PRequest2 PRequest3 PRequest4 PRequest5 PRequest6 PRequest7 PMasa PRegistrar PPledge PPledge2 PPledge3 PLog PEnrolLogHeap PHandlerHeap PHandlerHeap5 PHandlerHeap8 PHandlerHeap9 PSignCert2 PSignHeap PSignHeap2.
Open Scope N_scope.

Lemma full_pinned : forall h0 h h' p l d b lk, arrs [] h0 h ((p, 0, 0%Z) :: l) -> beside h h' p -> hp_cell h' p = Live (Struct [P b; I (Z.of_N (blen d))]) -> hp_cell h' b = Live (Buf d) -> st (hp_next h) h' (bufs (b :: lk)) ->
  arrs (bufs lk) h0 h' ((p, b, Z.of_N (blen d)) :: l) /\ b <> 0 /\ (forall a, In a (places [] l) -> hp_cell h' a = hp_cell h a).
Proof.
  intros h0 h h' p l d b lk A (W' & Hn & Ho & K) Cp Cb S1. pose proof A as ((W & _ & _ & _) & S & F). destruct (cells_inv _ _ _ _ _ F) as (P0 & C & _).
  assert (Lp : p < hp_next h) by (eapply (arrs_places _ _ _ _ p A), places_p; left; reflexivity). assert (Lb : hp_next h <= b) by (apply S1; left; reflexivity). assert (BP : b <> p) by lia. assert (B0 : b <> 0) by (destruct W as (Q & _); lia).
  set (hx := MHeap.put h' p (Live (Struct [P 0; I 0]))). assert (X : forall a, a <> p -> hp_cell hx a = hp_cell h' a) by (intros a Ha; apply put_other; exact Ha).
  assert (Wx : heap_wf hx) by (eapply wf_write; [exact W'|exact P0|exact Cp|auto]).
  assert (Ex : ext h hx). { split; [exact Wx|]. split; [exact Hn|]. split; [|exact Ho]. intros a Ha. destruct (N.eq_dec a p) as [->|D]; [unfold hx; rewrite put_same; symmetry; exact C|]. rewrite X by exact D. apply K; assumption. }
  assert (SX : st (hp_next h) hx (bufs (b :: lk))) by (apply hold_st, hold_write; [rewrite <- (oprint_bufs (b :: lk)); apply st_hold; exact S1|exact Lp|exact P0|eexists; exact Cp]).
  pose proof (arrs_more _ _ _ _ _ _ A Ex SX) as A1. rewrite app_nil_r in A1. cbn [bufs map] in A1.
  assert (Cbx : hp_cell hx b = Live (Buf d)) by (rewrite X by exact BP; exact Cb).
  destruct (arrs_take _ _ _ _ _ _ _ _ (Z.of_N (blen d)) A1 Cbx) as [A2 X2]. fold (bufs lk) in A2. split.
  - eapply arrs_ext; [exact A2| |change (hp_next (MHeap.put hx p (Live (Struct [P b; I (Z.of_N (blen d))])))) with (hp_next h'); apply st_init; exact W'].
    split; [exact W'|]. split; [cbn; apply N.le_refl|]. split; [|reflexivity]. intros a Ha. destruct (N.eq_dec a p) as [->|D]; [rewrite put_same; exact Cp|rewrite X2, X by exact D; reflexivity].
  - split; [exact B0|]. intros a Ha. apply K.
    + assert (Q : In a (places [] ((p, 0, 0%Z) :: l))) by (rewrite places_cons; apply in_or_app; right; exact Ha). eapply arrs_places; eassumption.
    + intros ->. destruct S as (_ & _ & ND & _). eapply (disjoint_of_NoDup [p] (places [] l)); [exact ND|left; reflexivity|exact Ha].
Qed.

Definition full_sign_ends (o : ossl) (w : world) (f : pledge_files) (dv : device) (post1 post2 : post_cert_fn) (post3 : post_ca_fn) (h0 : heap) (oc ok : N) (r : outcome (Z * heap)) : Prop :=
  (sign_unsafe o w f dv post1 post2 post3 /\ exists k, r = UB k) \/
  (~ sign_unsafe o w f dv post1 post2 post3 /\ exists z h' lk, r = Ok (z, h') /\ (pledge_clean o w f post1 post2 -> lk = []) /\
    (z = (-1)%Z /\ arrs (bufs lk) h0 h' [(oc, 0, 0%Z); (ok, 0, 0%Z)] /\ (forall key cert, ~ sign_obtains o w f dv post1 post2 post3 key cert) \/
     z = 0%Z /\ exists key cert bc bk, sign_obtains o w f dv post1 post2 post3 key cert /\ arrs (bufs lk) h0 h' [(oc, bc, Z.of_N (blen cert)); (ok, bk, Z.of_N (blen key))] /\
       bc <> 0 /\ bk <> 0 /\ hp_cell h' bc = Live (Buf cert) /\ hp_cell h' bk = Live (Buf key))).

Ltac to_err pn h := match goal with |- full_sign_ends ?o ?w ?f ?dv ?a ?b ?c ?h0 ?oc ?ok _ => change (full_sign_ends o w f dv a b c h0 oc ok (sign_err oc ok pn h)) end.
Lemma full_sign_run : forall o w c f nn dv post1 post2 post3 h0 h oc ok, ossl_sane o -> world_ok w -> heap_wf h0 -> plenty h0 -> pledge_config h0 c f -> pledge_text_ok f -> post_ok post1 -> post_ok post2 -> post_ca_ok post3 -> device_ok dv ->
  texts_at nn h0 -> pledge_fits w f post1 ->
  arrs [] h0 h [(oc, 0, 0%Z); (ok, 0, 0%Z)] -> full_sign_ends o w f dv post1 post2 post3 h0 oc ok (full_post_sign_cert o w c nn dv post1 post2 post3 h oc ok).
Proof.
  intros o w c f nn dv post1 post2 post3 h0 h oc ok OS WO W PL CF TX PO1 PO2 PO3 DO TA FI A. unfold full_post_sign_cert. destruct (arrs_local _ _ _ _ A) as (h1 & E1 & A1 & _). rewrite E1. set (pn := hp_next h) in *. clearbody pn.
  destruct (dv_random dv) as [r|] eqn:ER.
  2:{ unfold full_generate_sign_cert. rewrite ER. cbn [obind]. change ((-1 <? 0)%Z) with true. cbv iota. destruct (arrs_drop _ _ _ _ _ _ A1) as (h2 & E2 & A2 & _). rewrite E2. cbn [obind]. right.
      assert (NG : forall key response, ~ enrolled o w f dv post1 post2 post3 key response) by (intros key response (? & ? & ? & ? & ? & _ & _ & (r & Q & _) & _); congruence).
      split; [intros [[Q _]|(key & response & Q & _)]; [congruence|exact (NG _ _ Q)]|]. exists (-1)%Z, h2, []. split; [reflexivity|]. split; [reflexivity|]. left. split; [reflexivity|]. split; [exact A2|]. intros key cert (response & Q & _). exact (NG _ _ Q). }
  assert (B1 : arrs [] h0 h1 [(oc, 0, 0%Z); (ok, 0, 0%Z); (pn, 0, 0%Z)]) by (eapply arrs_perm; [|exact A1]; apply (Permutation_cons_append [(oc, 0, 0%Z); (ok, 0, 0%Z)])).
  destruct (full_gen_run nn dv h0 h1 oc ok _ r DO PL TA ER B1) as (h2 & bc & zc & bk & zk & E2 & A2 & _ & MK & MC). rewrite E2. cbn [obind]. change ((0 <? 0)%Z) with false. cbv iota.
  pose proof A2 as (X2 & _ & F2). pose proof (arrs_plenty _ _ _ _ A2 PL) as PL2. pose proof (arrs_wf _ _ _ _ A2) as W2.
  assert (C2 : pn <> 0 /\ hp_cell h2 pn = Live (Struct [P 0; I 0])) by (destruct (cells_inv _ _ _ _ _ F2) as (_ & _ & F3); destruct (cells_inv _ _ _ _ _ F3) as (_ & _ & F4); destruct (cells_inv _ _ _ _ _ F4) as (Q1 & Q2 & _); auto). destruct C2 as [P0 C2].
  destruct (full_pledge_run o w c f post1 post2 h2 pn OS WO W2 PL2 (ext_pledge _ _ _ _ W X2 CF) TX PO1 PO2 FI P0 C2) as [[U [k E3]]|[NU (z & h3 & lk & E3 & CL & D)]]; rewrite E3; cbn [obind].
  { left. split; [left; split; [congruence|exact U]|]. exists k. reflexivity. }
  destruct D as [(-> & X3 & S3 & NO)|(-> & t1 & t2 & d & bp & OB & BS & CP3 & Cbp & S3)].
  { change ((-1 <? 0)%Z) with true. cbv iota. pose proof (arrs_more _ _ _ _ _ _ A2 X3 S3) as A3. rewrite app_nil_r in A3. destruct (err_run _ _ _ _ _ _ _ _ _ _ _ _ A3) as (h4 & E4 & A4). to_err pn h3. rewrite E4. right.
    assert (NG : forall key response, ~ enrolled o w f dv post1 post2 post3 key response) by (intros key response (? & ? & ? & ? & ? & Q & _); exact (NO _ _ _ Q)).
    split; [intros [[_ Q]|(key & response & Q & _)]; [contradiction|exact (NG _ _ Q)]|]. exists (-1)%Z, h4, lk. split; [reflexivity|]. split; [exact CL|]. left. split; [reflexivity|]. split; [exact A4|]. intros key cert (response & Q & _). exact (NG _ _ Q). }
  change ((0 <? 0)%Z) with false. cbv iota.
  assert (B2 : arrs [] h0 h2 [(pn, 0, 0%Z); (oc, bc, zc); (ok, bk, zk)]) by (eapply arrs_perm; [|exact A2]; symmetry; apply (Permutation_cons_append [(oc, bc, zc); (ok, bk, zk)])).
  destruct (full_pinned _ _ _ _ _ _ _ _ B2 BS CP3 Cbp S3) as (A3 & BP0 & K3).
  assert (MK3 : made h3 (dv_key dv) bk zk) by (eapply made_frame; [exact MK|]; intros Q; apply K3; eapply places_b; [right; left; reflexivity|exact Q]).
  assert (MC3 : made h3 (made_cert dv r) bc zc) by (eapply made_frame; [exact MC|]; intros Q; apply K3; eapply places_b; [left; reflexivity|exact Q]).
  assert (FAIL : forall h', arrs (bufs lk) h0 h' [(oc, bc, zc); (ok, bk, zk); (pn, bp, Z.of_N (blen d))] -> (forall key response, ~ enrolled o w f dv post1 post2 post3 key response) ->
    full_sign_ends o w f dv post1 post2 post3 h0 oc ok (sign_err oc ok pn h')).
  { intros h' A' NG. destruct (err_run _ _ _ _ _ _ _ _ _ _ _ _ A') as (h4 & E4 & A4). rewrite E4. right.
    split; [intros [[_ Q]|(key & response & Q & _)]; [contradiction|exact (NG _ _ Q)]|]. exists (-1)%Z, h4, lk. split; [reflexivity|]. split; [exact CL|]. left. split; [reflexivity|]. split; [exact A4|]. intros key cert (response & Q & _). exact (NG _ _ Q). }
  assert (ONE : forall key response, enrolled o w f dv post1 post2 post3 key response -> exists cert s, made_cert dv r = Some cert /\ dv_key dv = Some key /\ blen d < SIZE_MAX / 4 /\ blen cert < SIZE_MAX / 4 /\
    post3 (pem d) (rfc_encode cert) = (s, response) /\ (0 <= s < 400)%Z).
  { intros key response (u1 & u2 & d' & cert & s & Q1 & Q2 & (r' & R1 & R2 & R3) & Q3 & Q4). rewrite <- (obtains_fun _ _ _ _ _ _ _ _ _ _ _ OB Q1) in *. exists cert, s. unfold made_cert. rewrite R2. assert (r' = r) as -> by congruence. auto. }
  destruct (enc_step (bufs lk) h0 h3 pn bp (Z.of_N (blen d)) _ (Some d) PL A3) as (h4 & E4 & A4 & K4); [split; [exact BP0|auto]|intros d' Q; injection Q as <-; eapply obtains_bytes; eassumption|].
  rewrite E4. cbn [obind]. assert (A4' : arrs (bufs lk) h0 h4 [(oc, bc, zc); (ok, bk, zk); (pn, bp, Z.of_N (blen d))]) by (eapply arrs_perm; [|exact A4]; apply (Permutation_cons_append [(oc, bc, zc); (ok, bk, zk)])).
  destruct (N.ltb_spec (blen d) (SIZE_MAX / 4)) as [Ld|Ld].
  2:{ apply FAIL; [exact A4'|]. intros key response Q. destruct (ONE _ _ Q) as (? & ? & _ & _ & Q1 & _). lia. }
  assert (MK4 : made h4 (dv_key dv) bk zk) by (eapply made_frame; [exact MK3|]; intros Q; apply K4; eapply places_b; [right; right; left; reflexivity|exact Q]).
  assert (MC4 : made h4 (made_cert dv r) bc zc) by (eapply made_frame; [exact MC3|]; intros Q; apply K4; eapply places_b; [right; left; reflexivity|exact Q]).
  destruct (enc_step (bufs lk) h0 h4 oc bc zc _ (made_cert dv r) PL A4' MC4) as (h5 & E5 & A5 & K5).
  { intros d' Q. unfold made_cert in Q. destruct (dv_key dv) as [k|]; [|discriminate]. destruct DO as (_ & _ & _ & Q1 & _). eapply Q1. exact Q. }
  rewrite E5. cbn [obind]. clear E2 E3 E4 E5.
  destruct (made_cert dv r) as [cert|] eqn:EC.
  2:{ apply FAIL; [exact A5|]. intros key response Q. destruct (ONE _ _ Q) as (? & ? & Q1 & _). discriminate. }
  destruct (N.ltb_spec (blen cert) (SIZE_MAX / 4)) as [Lc|Lc].
  2:{ apply FAIL; [exact A5|]. intros key response Q. destruct (ONE _ _ Q) as (? & ? & Q1 & _ & _ & Q2 & _). injection Q1 as <-. lia. }
  change (create_cert_string (rfc_encode d)) with (pem d). destruct (post3 (pem d) (rfc_encode cert)) as [s response] eqn:E3.
  assert (BC : bytes_ok cert) by (unfold made_cert in EC; destruct (dv_key dv) as [k|]; [|discriminate]; destruct DO as (_ & _ & _ & Q1 & _); eapply Q1; exact EC).
  assert (BR : bytes_ok response) by (eapply PO3; [|exact E3]; apply cstr_ok_bytes_encode; exact BC).
  destruct (Z.ltb_spec s 0) as [Ls|Ls].
  { apply FAIL; [exact A5|]. intros key re Q. destruct (ONE _ _ Q) as (cert' & s' & Q1 & _ & _ & _ & Q2 & Q3). injection Q1 as <-. rewrite E3 in Q2. injection Q2 as <- <-. lia. }
  destruct (Z.leb_spec 400 s) as [Lt|Lt].
  { apply FAIL; [exact A5|]. intros key re Q. destruct (ONE _ _ Q) as (cert' & s' & Q1 & _ & _ & _ & Q2 & Q3). injection Q1 as <-. rewrite E3 in Q2. injection Q2 as <- <-. lia. }
  unfold made_cert in EC. destruct (dv_key dv) as [key|] eqn:EK; [|discriminate].
  assert (EN : enrolled o w f dv post1 post2 post3 key response) by (exists t1, t2, d, cert, s; split; [exact OB|]; split; [exact Ld|]; split; [exists r; auto|]; auto).
  assert (EU : forall k re, enrolled o w f dv post1 post2 post3 k re -> k = key /\ re = response).
  { intros k re Q. destruct (ONE _ _ Q) as (cert' & s' & Q1 & Q2 & _ & _ & Q3 & _). injection Q1 as <-. rewrite E3 in Q3. injection Q3 as _ <-. split; congruence. }
  assert (MK5 : made h5 (Some key) bk zk) by (eapply made_frame; [exact MK4|]; intros Q; apply K5; eapply places_b; [right; left; reflexivity|exact Q]).
  destruct (arrs_content _ _ _ _ _ _ _ A5) as (h6 & E6 & A6 & K6 & _). rewrite E6. cbn [obind]. rewrite c_str_ok. cbn [obind].
  assert (MK6 : made h6 (Some key) bk zk) by (eapply made_frame; [exact MK5|]; intros Q; apply K6; eapply places_b; [left; reflexivity|exact Q]).
  pose proof (arrs_wf _ _ _ _ A6) as W6. pose proof (arrs_plenty _ _ _ _ A6 PL) as PL6. pose proof (decode_arrives h6 (c_string response) W6 PL6 (c_string_bytes _ BR)) as DA.
  pose proof A6 as (_ & S6 & F6). destruct (cells_inv _ _ _ _ _ F6) as (OC0 & C6 & _).
  destruct (rfc_decode (c_string response)) as [got|] eqn:ED.
  - destruct DA as (p & h7 & E7 & P70 & (X7 & F & S7) & L7). rewrite E7. cbn [obind].
    assert (C7 : hp_cell h7 oc = Live (Struct [P 0; I 0])) by (rewrite <- C6; apply X7; eapply (arrs_places _ _ _ _ oc A6), places_p; left; reflexivity).
    erewrite set_field_at; [|exact OC0|exact C7|reflexivity]. cbn [set_nthv obind]. destruct (Z.ltb_spec (Z.of_N (blen got)) 0) as [Q|_]; [lia|].
    assert (CP : hp_cell h7 p = Live (Buf got)) by (unfold load_buf in L7; rewrite (proj2 (N.eqb_neq _ _) P70) in L7; destruct (hp_cell h7 p) as [|[x|x]|]; try discriminate; congruence).
    assert (FP : F = [p]) by (destruct S7 as (_ & Q & _); inversion Q as [|? ? Q1 _]; subst; destruct Q1 as [[Q1 _]|(_ & _ & Q1)]; [cbn [fst] in Q1; contradiction|exact Q1]). subst F.
    destruct (arrs_attach (bufs lk) h0 h6 h7 oc 0%Z _ p got 0%Z A6 X7 S7 P70 CP) as [A8 K8]. erewrite set_field_at; [|exact OC0|apply put_same|reflexivity]. cbn [set_nthv obind].
    destruct (arrs_put _ _ _ _ _ _ _ (Z.of_N (blen got)) A8) as [A9 K9]. set (h9 := MHeap.put _ oc (Live (Struct [P p; I (Z.of_N (blen got))]))) in *.
    assert (NDO : ~ In oc (places (bufs lk) [(ok, bk, zk); (pn, bp, Z.of_N (blen d))])). { destruct S6 as (_ & _ & ND & _). intros Q. eapply (disjoint_of_NoDup [oc] (places (bufs lk) [(ok, bk, zk); (pn, bp, Z.of_N (blen d))])); [exact ND|left; reflexivity|exact Q]. }
    assert (CP9 : hp_cell h9 p = Live (Buf got)). { assert (p <> oc) by (intros ->; rewrite CP in C7; discriminate). rewrite K9, K8 by assumption. exact CP. }
    assert (MK9 : made h9 (Some key) bk zk).
    { eapply made_frame; [exact MK6|]. intros Q. assert (IB : In bk (places (bufs lk) [(ok, bk, zk); (pn, bp, Z.of_N (blen d))])) by (eapply places_b; [left; reflexivity|exact Q]). assert (bk <> oc) by (intros ->; contradiction). rewrite K9, K8 by assumption.
      apply X7. eapply (arrs_places _ _ _ _ bk A6). rewrite places_cons. apply in_or_app. right. exact IB. }
    assert (B9 : arrs (bufs lk) h0 h9 [(pn, bp, Z.of_N (blen d)); (oc, p, Z.of_N (blen got)); (ok, bk, zk)]) by (eapply arrs_perm; [|exact A9]; symmetry; apply (Permutation_cons_append [(oc, p, Z.of_N (blen got)); (ok, bk, zk)])).
    destruct (arrs_content _ _ _ _ _ _ _ B9) as (h10 & E10 & A10 & K10 & _). rewrite E10. cbn [obind]. destruct (arrs_drop _ _ _ _ _ _ A10) as (h11 & E11 & A11 & K11). rewrite E11. cbn [obind].
    assert (NPN : forall a, In a (places (bufs lk) [(oc, p, Z.of_N (blen got)); (ok, bk, zk)]) -> a <> pn). { pose proof A10 as (_ & (_ & _ & ND & _) & _). intros a Q ->. eapply (disjoint_of_NoDup [pn] (places (bufs lk) [(oc, p, Z.of_N (blen got)); (ok, bk, zk)])); [exact ND|left; reflexivity|exact Q]. }
    assert (K : forall a, In a (places (bufs lk) [(oc, p, Z.of_N (blen got)); (ok, bk, zk)]) -> hp_cell h11 a = hp_cell h9 a) by (intros a Q; rewrite K11 by (apply NPN; exact Q); apply K10; exact Q).
    destruct MK9 as (BK0 & -> & CK). right. split.
    { intros [[_ Q]|(k & re & Q & Bd)]; [contradiction|]. destruct (EU _ _ Q) as [-> ->]. apply decode_bad in Bd. destruct Bd as [Bd _]. congruence. }
    exists 0%Z, h11, lk. split; [reflexivity|]. split; [exact CL|]. right. split; [reflexivity|]. exists key, got, p, bk. split; [exists response; auto|]. split; [exact A11|]. split; [exact P70|]. split; [exact BK0|].
    split; [rewrite K; [exact CP9|eapply places_b; [left; reflexivity|exact P70]]|rewrite K; [exact CK|eapply places_b; [right; left; reflexivity|exact BK0]]].
  - assert (NS : forall k ce, ~ sign_obtains o w f dv post1 post2 post3 k ce) by (intros k ce (re & Q & Q2); destruct (EU _ _ Q) as [_ ->]; congruence).
    destruct (filter b64_relevant (c_string response)) as [|x rest] eqn:EF.
    + rewrite DA. cbn [obind]. erewrite set_field_at; [|exact OC0|exact C6|reflexivity]. cbn [set_nthv obind]. change ((-1 <? 0)%Z) with true. cbv iota.
      destruct (arrs_put _ _ _ _ _ _ _ 0%Z A6) as [A7 _]. destruct (err_run _ _ _ _ _ _ _ _ _ _ _ _ A7) as (h8 & E8 & A8). match type of E8 with sign_err _ _ _ ?h = _ => to_err pn h end. rewrite E8. right. split.
      { intros [[_ Q]|(k & re & Q & Bd)]; [contradiction|]. destruct (EU _ _ Q) as [-> ->]. apply decode_bad in Bd. destruct Bd as [_ Bd]. congruence. }
      exists (-1)%Z, h8, lk. split; [reflexivity|]. split; [exact CL|]. left. auto.
    + destruct DA as (p & h7 & E7 & P70 & X7 & S7 & Cp). rewrite E7. cbn [obind].
      assert (C7 : hp_cell h7 oc = Live (Struct [P 0; I 0])) by (rewrite <- C6; apply X7; eapply (arrs_places _ _ _ _ oc A6), places_p; left; reflexivity).
      erewrite set_field_at; [|exact OC0|exact C7|reflexivity]. cbn [set_nthv obind]. change ((-1 <? 0)%Z) with true. cbv iota. left. split.
      { right. exists key, response. split; [exact EN|]. apply decode_bad. split; [exact ED|rewrite EF; discriminate]. }
      exists DoubleFree. unfold sign_err, h_free_binary_array_content. cbn [fst snd]. rewrite (proj2 (N.eqb_neq _ _) OC0). erewrite get_ptr_at; [|exact OC0|apply put_same|reflexivity]. cbn [obind].
      unfold sys_free. rewrite (proj2 (N.eqb_neq _ _) P70). rewrite put_other by (intros ->; rewrite Cp in C7; discriminate). rewrite Cp. reflexivity.
Qed.
