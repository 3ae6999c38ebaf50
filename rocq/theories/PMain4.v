(** Proofs about the program: the other commands and the whole. *)
From Coq Require Import Permutation.
From Verif Require Import Base PBase MOs MBase64 MSerialize MVoucher MCrypto MRequest MHeap MArray MVoucherHeap MConfig MHandlers MLog MSignCert MMain SBase64 SHeap SArray SConfig SVoucher SRequest SHandlers SPledge SLog SSignCert SMain
  PBase64 PHeap PArray PBlocks PConfig PConfigMore PCertFiles POwn PAcquire PAcquire2 PRequest PRequest2 PRequest3 PRequest4 PRequest5 PRequest6 PRequest7 PMasa PRegistrar PVoucher PPledge PPledge2 PPledge3 PPledge4 PLog PSignCert PSignCert2 PSignCert3 PMain PMain2 PMain3.
Open Scope N_scope.

(** *** epvr *)
Lemma free_ext : forall h0 h x F l, POwn.ext h0 h -> st (hp_next h0) h ((x, F) :: l) -> exists h', free_owned h x = Ok h' /\ POwn.ext h0 h' /\ st (hp_next h0) h' l.
Proof.
  intros h0 h x F l E S. destruct (st_free _ _ _ _ _ S) as (h' & E2 & S2 & R2 & N2 & O2). exists h'. split; [exact E2|]. split; [|exact S2].
  eapply (part_ext h0 h h' [(x, F)] l); [exact E|exact S|exact S2| |exact N2|exact O2]. unfold oprint. cbn [map List.concat snd]. rewrite app_nil_r. exact R2.
Qed.
Lemma epvr_run : forall e o m a h cfg, outside_ok e -> ini_ok m -> configured m a h cfg ->
  ends (export_crash e m) (delivers (export_gives e m) (shown_request e (op_out o))) h (main_epvr e o h cfg).
Proof.
  intros e o m a h cfg OK IK CO. pose proof CO as (W & PL & _). pose proof OK as (_ & OS & WO & _). destruct (fields_ok m _ h cfg CO IK) as (c & EF & FS). unfold main_epvr. rewrite EF. cbn [obind].
  destruct (tls_path_ok m a h cfg CO) as (p & EP & HP). rewrite EP. cbn [obind]. unfold export_crash, h_file_to_cert. destruct (registrar_setting m (s2b "tlsCertPath")) as [t|] eqn:ET.
  2:{ subst p. rewrite null_cert. left. split; [exact Logic.I|]. exists NullDeref. reflexivity. }
  assert (NOG : (forall tls cms r', w_cert (e_world e) t = Some tls -> signs m -> pledge_asks (e_ossl e) (e_world e) (settings m) tls cms -> ~ shown_request e (op_out o) cms r') -> forall cms r', export_gives e m cms -> ~ shown_request e (op_out o) cms r').
  { intros Q cms r' (t' & tls & Q1 & Q2 & Q3 & Q4). assert (t' = t) as -> by congruence. eapply Q; eassumption. }
  pose proof (cert_arrives (w_cert (e_world e)) h p t W PL HP) as D1. destruct (w_cert (e_world e) t) as [tb|] eqn:EW.
  2:{ rewrite D1. cbn [obind N.eqb]. right. split; [intros [Q _]; congruence|]. eexists _, h. split; [reflexivity|]. split; [apply POwn.ext_refl; exact W|]. right. split; [reflexivity|]. apply NOG. intros tls cms r' Q. discriminate Q. }
  destruct D1 as (tls & h1 & E1 & T0 & A1 & B1). rewrite E1. cbn [obind]. rewrite (proj2 (N.eqb_neq _ _) T0).
  pose proof (proj1 A1) as X1. destruct (arrived_list _ _ _ _ _ (st_init h W) A1) as [Ft S1]. pose proof (proj1 X1) as W1. pose proof (ext_plenty _ _ X1 PL) as PL1. pose proof (fields_ext _ _ _ _ W X1 FS) as FS1. pose proof (proj1 WO _ _ EW) as BT.
  assert (BACK : forall h2, POwn.ext h1 h2 -> st (hp_next h1) h2 [] -> exists h3, h_free_binary_array h2 tls = Ok h3 /\ POwn.ext h h3).
  { intros h2 X2 S2. destruct (free_ext h h2 _ _ _ (POwn.ext_trans _ _ _ X1 X2) (st_acquire _ _ _ _ _ S1 X2 S2)) as (h3 & E3 & X3 & _). exists h3. split; [exact E3|exact X3]. }
  destruct (signs_dec m) as [SG|NS].
  - pose proof (fields_config _ _ _ FS1 SG) as CF. pose proof (settings_text m IK) as TX. destruct (op_out o) as [|c0 out] eqn:EO.
    + destruct (ask64_run (e_ossl e) (e_world e) c (settings m) h1 tls tb OS WO W1 PL1 CF TX T0 B1 BT) as [[U [k E]]|[NU (text & h2 & E & X2 & S2 & D)]]; rewrite E; cbn [obind].
      { left. split; [split; [discriminate|apply request_asks; assumption]|]. exists k. reflexivity. }
      right. split; [intros [_ Q]; apply NU, request_asks; assumption|]. destruct (BACK h2 X2 S2) as (h3 & E3 & X3). rewrite E3. cbn [obind]. destruct text as [x|].
      * destruct D as (cms & Q1 & Q2 & ->). eexists _, h3. split; [reflexivity|]. split; [exact X3|]. left. exists cms. split; [exists t, tb; auto|]. left. auto.
      * eexists _, h3. split; [reflexivity|]. split; [exact X3|]. right. split; [reflexivity|]. apply NOG. intros tls' cms r' Q Q1 Q2 [(_ & Q3 & _)|(Q3 & _)]; [|congruence]. assert (tls' = tb) as -> by congruence. exact (D _ Q2 Q3).
    + destruct (ask_run (e_ossl e) (e_world e) c (settings m) h1 tls tb OS WO W1 PL1 CF TX T0 B1 BT) as [[U [k E]]|[NU (p2 & h2 & E & X2 & D)]]; rewrite E; cbn [obind].
      { left. split; [split; [discriminate|apply request_asks; assumption]|]. exists k. reflexivity. }
      right. split; [intros [_ Q]; apply NU, request_asks; assumption|]. destruct D as [(-> & S2 & NO)|(P0 & cms & F & S2 & Bc & AS)].
      * cbn [N.eqb]. eexists _, h2. split; [reflexivity|]. split; [eapply POwn.ext_trans; eassumption|]. right. split; [reflexivity|]. apply NOG. intros tls' cms r' Q _ Q2. assert (tls' = tb) as -> by congruence. destruct (NO _ Q2).
      * rewrite (proj2 (N.eqb_neq _ _) P0). assert (ED : array_data h2 p2 = Ok cms) by (unfold array_data; rewrite Bc; cbn [obind]; apply take_mem_all). rewrite ED. cbn [obind].
        destruct (free_ext h1 h2 _ _ _ X2 S2) as (h3 & E3 & X3 & S3). cbn [free_owned] in E3. destruct (BACK h3 X3 S3) as (h4 & E4 & X4).
        assert (NOT : (forall r', ~ shown_request e (c0 :: out) cms r') -> forall x r', export_gives e m x -> ~ shown_request e (c0 :: out) x r').
        { intros Q. apply NOG. intros tls' cms' r' Q1 _ Q2. assert (tls' = tb) as -> by congruence. rewrite (asks_fun _ _ _ _ _ _ Q2 AS). apply Q. }
        unfold cms_to_file, out_name. destruct (e_smime e cms) as [tx|] eqn:ES; [destruct (e_open e (firstn 254 ((c0 :: out) ++ s2b ".smime"))) eqn:OP|]; rewrite E3; cbn [obind].
        -- change ((0 <? 0)%Z) with false. cbv iota. rewrite E4. cbn [obind]. eexists _, h4. split; [reflexivity|]. split; [exact X4|]. left. exists cms. split; [exists t, tb; auto|]. right. split; [discriminate|]. exists tx. auto.
        -- change ((-1 <? 0)%Z) with true. cbv iota. eexists _, h3. split; [reflexivity|]. split; [exact (POwn.ext_trans _ _ _ X1 X3)|]. right. split; [reflexivity|]. apply NOT. intros r' [(Q & _)|(_ & ? & _ & Q & _)]; congruence.
        -- change ((-1 <? 0)%Z) with true. cbv iota. eexists _, h3. split; [reflexivity|]. split; [exact (POwn.ext_trans _ _ _ X1 X3)|]. right. split; [reflexivity|]. apply NOT. intros r' [(Q & _)|(_ & ? & Q & _)]; congruence.
  - assert (NG : forall cms r', export_gives e m cms -> ~ shown_request e (op_out o) cms r') by (apply NOG; intros ? ? ? _ Q; contradiction).
    destruct (op_out o) as [|c0 out] eqn:EO.
    + destruct (ask64_null (e_ossl e) (e_world e) m c h1 tls IK W1 PL1 FS1 NS T0) as [[U [k E]]|[NU (h2 & E & X2 & S2)]]; rewrite E; cbn [obind].
      { left. split; [split; [discriminate|exact U]|]. exists k. reflexivity. }
      right. split; [tauto|]. destruct (BACK h2 X2 S2) as (h3 & E3 & X3). rewrite E3. cbn [obind]. eexists _, h3. split; [reflexivity|]. split; [exact X3|]. right. split; [reflexivity|exact NG].
    + destruct (ask_null (e_ossl e) (e_world e) m c h1 tls IK W1 PL1 FS1 NS T0) as [[U [k E]]|[NU (h2 & E & X2 & S2)]]; rewrite E; cbn [obind N.eqb].
      { left. split; [split; [discriminate|exact U]|]. exists k. reflexivity. }
      right. split; [tauto|]. eexists _, h2. split; [reflexivity|]. split; [eapply POwn.ext_trans; eassumption|]. right. split; [reflexivity|exact NG].
Qed.

(** *** vmasa *)
Lemma local_step : forall h b, heap_wf h -> exists h', local h b = (hp_next h, h') /\ POwn.ext h h' /\ hp_cell h' (hp_next h) = Live b /\ hp_next h' = hp_next h + 1.
Proof.
  intros h b W. unfold local. set (h' := mk_heap _ _ _). exists h'. split; [reflexivity|].
  assert (X : forall a, a <> hp_next h -> hp_cell h' a = hp_cell h a) by (intros a Ha; cbn [h' hp_cell]; rewrite (proj2 (N.eqb_neq _ _) Ha); reflexivity).
  assert (Y : hp_cell h' (hp_next h) = Live b) by (cbn [h' hp_cell]; rewrite N.eqb_refl; reflexivity).
  assert (W' : heap_wf h'). { destruct W as (W1 & W2 & W3). split; [cbn; lia|]. split; [rewrite X by lia; exact W2|]. intros a Ha. cbn [h' hp_next] in Ha. rewrite X by lia. apply W3. lia. }
  split; [split; [exact W'|]; split; [cbn; lia|]; split; [intros a Ha; apply X; lia|reflexivity]|]. split; [exact Y|reflexivity].
Qed.
Definition with_signer (c : pledge_conf) (p : N) : pledge_conf := mk_pconf (pl_created c) (pl_serial c) (pl_nonce c) p p (pl_add c) (pl_verify c) (pl_store c).
Lemma verify_signer : forall o w c p h rc arr tls pinned, verify_masa_pledge_request o w (with_signer c p) h rc arr tls pinned = verify_masa_pledge_request o w c h rc arr tls pinned.
Proof. reflexivity. Qed.
Definition with_files (f : pledge_files) (t : bytes) : pledge_files := mk_pfiles (pf_created f) (pf_serial f) (pf_nonce f) t t (pf_add f) (pf_verify f) (pf_store f).
Lemma fields_signer : forall m h c p t, fields_say m h c -> heap_string h p = Ok t -> pledge_config h (with_signer c p) (with_files (settings m) t).
Proof.
  intros m h c p t (A1 & A2 & A3 & A4 & A5 & A6 & A7 & A8) S. unfold pledge_config, with_files, with_signer, settings. cbn [pf_created pf_serial pf_nonce pf_cert pf_key pf_add pf_verify pf_store pl_created pl_serial pl_nonce pl_cert pl_key pl_add pl_verify pl_store]. auto 10.
Qed.
Lemma takes_fun : forall o w f tls m d d', pledge_takes o w f tls m d -> pledge_takes o w f tls m d' -> d = d'.
Proof.
  intros o w f tls m d d' (s & n & vc & vs & mv & _ & _ & C1 & C2 & Y & _ & _ & G & _) (s' & n' & vc' & vs' & mv' & _ & _ & C1' & C2' & Y' & _ & _ & G' & _).
  rewrite <- (cert_list_fun _ _ _ _ C1 C1'), <- (cert_list_fun _ _ _ _ C2 C2') in Y'. rewrite <- (says_fun _ _ _ _ _ _ _ _ _ _ Y Y') in G'. rewrite G in G'. injection G' as Q _. congruence.
Qed.
Lemma takes_bytes : forall o w f tls m d, ossl_sane o -> pledge_takes o w f tls m d -> bytes_ok d.
Proof.
  intros o w f tls m d OS (s & n & vc & vs & mv & _ & _ & _ & _ & Y & _ & _ & G & _). destruct (says_values _ _ _ _ _ _ _ OS Y) as [VA _].
  destruct (VA APinned _ G) as [Q|(d' & Q & B)]; [discriminate|]. unfold ba_of in Q. injection Q as -> _. exact B.
Qed.
Lemma vm_decode : forall h src, heap_wf h -> plenty h -> bytes_ok src -> exists rc arr h', h_base64str2array h src = Ok (rc, arr, h') /\ POwn.ext h h' /\
  match rfc_decode src with Some d => rc = Z.of_N (blen d) /\ load_buf h' arr = Ok (Some d) /\ bytes_ok d /\ arr < hp_next h' | None => rc = (-1)%Z end.
Proof.
  intros h src W PL B. pose proof (decode_arrives h src W PL B) as D. destruct (rfc_decode src) as [d|] eqn:E.
  - destruct D as (p & h' & E1 & P0 & A & L). exists (Z.of_N (blen d)), p, h'. split; [exact E1|]. split; [exact (proj1 A)|]. split; [reflexivity|]. split; [exact L|]. split; [eapply rfc_decode_bytes; exact E|].
    pose proof (proj1 (proj1 A)) as (_ & _ & W3). unfold load_buf in L. rewrite (proj2 (N.eqb_neq _ _) P0) in L. destruct (N.lt_ge_cases p (hp_next h')) as [Q|Q]; [exact Q|]. rewrite (W3 p Q) in L. discriminate L.
  - destruct (filter b64_relevant src).
    + exists (-1)%Z, 0, h. split; [exact D|]. split; [apply POwn.ext_refl; exact W|reflexivity].
    + destruct D as (p & h' & E1 & _ & X & _). exists (-1)%Z, p, h'. auto.
Qed.
Lemma vmasa_run : forall e o m a h cfg, outside_ok e -> ini_ok m -> cstr_ok (op_in o) -> configured m a h cfg ->
  ends (check_crash e m o) (delivers (check_gives e m o) (shown e (op_out o))) h (main_vmasa e o h cfg).
Proof.
  intros e o m a h cfg OK IK CI CO. pose proof CO as (W & PL & _). pose proof OK as (_ & OS & WO & _ & BS & LJ & _). destruct (fields_ok m _ h cfg CO IK) as (c & EF & FS). unfold main_vmasa. rewrite EF. cbn [obind].
  destruct (local_step h (Struct [P 0; I 0]) W) as (h1 & E1 & X1 & C1 & N1). rewrite E1. set (pn := hp_next h) in *.
  unfold check_crash. destruct (op_in o) as [|c0 inp] eqn:EI.
  { right. split; [intros [Q _]; congruence|]. eexists _, h1. split; [reflexivity|]. split; [exact X1|]. right. split; [reflexivity|]. intros x r' (Q & _). congruence. }
  rewrite <- EI in *. assert (IN : op_in o <> []) by congruence. pose proof (proj1 X1) as W1. pose proof (ext_plenty _ _ X1 PL) as PL1.
  destruct (N.lt_ge_cases (blen (e_stdin e)) 4096) as [LS|LS].
  2:{ rewrite main_reads_over by assumption. left. split; [auto|]. exists OOBWrite. reflexivity. }
  destruct (main_reads_ok _ _ LJ LS) as (buf & ER & LB & FB & _). rewrite ER. cbn [obind].
  assert (ET : take_mem buf (blen (e_stdin e)) = Ok (e_stdin e)). { unfold take_mem. replace (blen (e_stdin e) <=? blen buf) with true by (symmetry; apply N.leb_le; lia). f_equal. unfold blen. rewrite Nat2N.id. exact FB. }
  rewrite ET. cbn [obind]. destruct (vm_decode h1 (e_stdin e) W1 PL1 BS) as (rc & arr & h2 & ED & X2 & D2). rewrite ED. cbn [obind].
  pose proof (proj1 X2) as W2. pose proof (ext_plenty _ _ X2 PL1) as PL2. destruct (local_step h2 (Buf (op_in o ++ [0])) W2) as (h3 & E3 & X3 & C3 & N3). rewrite E3. set (pp := hp_next h2) in *.
  pose proof (proj1 X3) as W3. pose proof (ext_plenty _ _ X3 PL2) as PL3. assert (PP0 : pp <> 0) by (destruct W2 as (Q & _); unfold pp; lia).
  assert (HS : heap_string h3 pp = Ok (op_in o)). { rewrite (heap_string_exact _ _ _ PP0 C3) by (apply in_or_app; right; left; reflexivity). rewrite PConfig.c_string_app by exact CI. reflexivity. }
  unfold h_file_to_cert. pose proof (cert_arrives (w_cert (e_world e)) h3 pp _ W3 PL3 HS) as D3. destruct (w_cert (e_world e) (op_in o)) as [tb|] eqn:EW.
  2:{ rewrite D3. cbn [obind N.eqb]. right. split; [intros (_ & [Q|[Q _]]); [lia|congruence]|]. eexists _, h3. split; [reflexivity|]. split; [exact (POwn.ext_trans _ _ _ X1 (POwn.ext_trans _ _ _ X2 X3))|]. right. split; [reflexivity|]. intros x r' (_ & _ & tls & msg & Q & _). congruence. }
  destruct D3 as (tls & h4 & E4 & T0 & A4 & B4). rewrite E4. cbn [obind]. rewrite (proj2 (N.eqb_neq _ _) T0).
  pose proof (proj1 A4) as X4. destruct (arrived_list _ _ _ _ _ (st_init h3 W3) A4) as [Ft S4]. pose proof (proj1 X4) as W4. pose proof (ext_plenty _ _ X4 PL3) as PL4.
  pose proof (POwn.ext_trans _ _ _ X2 (POwn.ext_trans _ _ _ X3 X4)) as X14. pose proof (POwn.ext_trans _ _ _ X1 X14) as X04.
  assert (P0 : pn <> 0) by (destruct W as (Q & _); unfold pn; lia). assert (CP : hp_cell h4 pn = Live (Struct [P 0; I 0])) by (destruct X14 as (_ & _ & K & _); rewrite K by lia; exact C1).
  assert (HS4 : heap_string h4 pp = Ok (op_in o)) by (eapply ext_string; [exact W3|exact X4|exact HS]).
  assert (HM : match rfc_decode (e_stdin e) with Some d => rc = Z.of_N (blen d) /\ load_buf h4 arr = Ok (Some d) /\ bytes_ok d | None => rc = (-1)%Z end).
  { destruct (rfc_decode (e_stdin e)) as [d|]; [|exact D2]. destruct D2 as (Q1 & Q2 & Q3 & Q4). split; [exact Q1|]. split; [|exact Q3]. rewrite <- Q2. unfold load_buf. destruct (POwn.ext_trans _ _ _ X3 X4) as (_ & _ & K & _). rewrite K by exact Q4. reflexivity. }
  rewrite <- (verify_signer _ _ c pp). pose proof (settings_text m IK) as TX.
  destruct (verify_run (e_ossl e) (e_world e) (with_signer c pp) (with_files (settings m) (op_in o)) h4 rc arr _ tls tb pn OS WO W4 PL4 (fields_signer _ _ _ _ _ (fields_ext _ _ _ _ W X04 FS) HS4) TX B4 (proj1 WO _ _ EW) P0 CP HM)
    as [[U [k E]]|[NU (z & h5 & E & D)]]; rewrite E; cbn [obind].
  { left. split; [|exists k; reflexivity]. split; [exact IN|]. right. split; [discriminate|exact U]. }
  right. split; [intros (_ & [Q|[_ Q]]); [lia|exact (NU Q)]|]. destruct D as [(-> & X5 & S5 & NO)|(-> & msg & d & EM & TK & (b & B0 & N5 & W5 & O5 & S5 & Cb & Cp & K5))].
  { change ((-1 <? 0)%Z) with true. cbv iota. eexists _, h5. split; [reflexivity|]. split; [eapply POwn.ext_trans; eassumption|]. right. split; [reflexivity|]. intros x r' (_ & _ & tls' & msg & Q & Q2 & Q3). assert (tls' = tb) as -> by congruence. destruct (NO _ _ Q2 Q3). }
  change ((0 <? 0)%Z) with false. cbv iota. assert (GV : check_gives e m o d) by (split; [exact IN|]; split; [exact LS|]; exists tb, msg; auto).
  assert (PL5 : plenty h5) by (intros x; rewrite O5; apply PL4).
  destruct (out_step e h5 pn b d (op_out o) W5 PL5 (takes_bytes _ _ _ _ _ _ OS TK) P0 B0 Cp Cb) as (z & text & fs & h6 & E6 & X6 & S6 & R6). rewrite E6. cbn [obind].
  assert (Lpn : pn < hp_next h1) by lia. pose proof X2 as (_ & Q2 & _). pose proof X3 as (_ & Q3 & _). pose proof X4 as (_ & Q4 & _). pose proof X6 as (W6 & Q6 & K6 & O6).
  assert (LOW : forall x, x < hp_next h -> hp_cell h6 x = hp_cell h x). { intros x Hx. rewrite K6 by lia. rewrite K5 by (unfold pn; lia). apply X04. exact Hx. }
  assert (X06 : POwn.ext h h6). { split; [exact W6|]. pose proof X04 as (_ & ? & _ & O4). split; [lia|]. split; [intros x Hx; apply LOW; exact Hx|congruence]. }
  destruct R6 as [[-> R6]|[-> R6]].
  2:{ change ((-1 <? 0)%Z) with true. cbv iota. eexists _, h6. split; [reflexivity|]. split; [exact X06|]. right. split; [reflexivity|]. intros x r' (_ & _ & tls' & msg' & G1 & G2 & G3) R. assert (tls' = tb) as -> by congruence. assert (msg' = msg) as -> by congruence.
      assert (x = d) as -> by exact (takes_fun _ _ _ _ _ _ _ G3 TK). exact (R6 _ R). }
  change ((0 <? 0)%Z) with false. cbv iota.
  (* the array of the certificate and the block of the result are still there *)
  set (hx := MHeap.put h5 pn (Live (Struct [P 0; I 0]))). assert (LV : is_live h5 pn) by (eexists; exact Cp).
  assert (Sx : st (hp_next h4) hx [(OBuf b, [b])]) by (apply st_write; [exact S5|lia|exact P0|exact LV]).
  assert (Xx : POwn.ext h4 hx). { split; [eapply st_wf; exact Sx|]. split; [exact N5|]. split; [|exact O5]. intros x Hx. destruct (N.eq_dec x pn) as [->|D]; [unfold hx; rewrite put_same; symmetry; exact CP|]. unfold hx. rewrite put_other by exact D. apply K5; assumption. }
  pose proof (st_acquire _ _ _ _ _ S4 Xx Sx) as Sy. set (hy := MHeap.put hx pn (Live (Struct [P b; I (Z.of_N (blen d))]))).
  assert (Lx : is_live hx pn) by (eexists; unfold hx; apply put_same). assert (Sz : st (hp_next h3) hy ([(OBuf b, [b])] ++ [(OArr tls, Ft)])) by (apply st_write; [exact Sy|lia|exact P0|exact Lx]).
  assert (Xz : POwn.ext hy h6). { split; [exact W6|]. split; [exact Q6|]. split; [|exact O6]. intros x Hx. rewrite K6 by exact Hx. unfold hy. destruct (N.eq_dec x pn) as [->|D]; [rewrite put_same; exact Cp|]. rewrite put_other by exact D. unfold hx. rewrite put_other by exact D. reflexivity. }
  pose proof (st_acquire _ _ _ _ _ Sz Xz S6) as S6'. cbn [app] in S6'. pose proof (st_perm _ _ _ _ (perm_swap _ _ _) S6') as S6''.
  destruct (st_free _ _ _ _ _ S6'') as (h7 & E7 & S7 & [_ R7] & N7 & O7). cbn [free_owned] in E7. rewrite E7. cbn [obind].
  assert (BF : forall x, In x Ft -> hp_next h3 <= x) by (intros x Hx; apply S4; unfold oprint; cbn [map List.concat snd]; rewrite app_nil_r; exact Hx).
  assert (Cp7 : hp_cell h7 pn = Live (Struct [P b; I (Z.of_N (blen d))])). { rewrite R7 by (intros Q; apply BF in Q; lia). rewrite K6 by lia. exact Cp. }
  unfold h_free_binary_array_content. cbn [fst snd]. rewrite (proj2 (N.eqb_neq _ _) P0). rewrite (get_ptr_at h7 pn [P b; I (Z.of_N (blen d))] 0%nat b P0 Cp7 eq_refl). cbn [obind]. rewrite (proj2 (N.eqb_neq _ _) B0).
  destruct (st_free _ _ _ _ _ S7) as (h8 & E8 & S8 & [_ R8] & N8 & O8). cbn [free_owned] in E8. rewrite E8. cbn [obind].
  assert (Bb : hp_next h4 <= b) by (apply S5; left; reflexivity). assert (Cp8 : hp_cell h8 pn = Live (Struct [P b; I (Z.of_N (blen d))])) by (rewrite R8 by (intros [Q|[]]; lia); exact Cp7).
  erewrite set_field_at; [|exact P0|exact Cp8|reflexivity]. cbn [obind set_nthv Nat.add].
  erewrite set_field_at; [|exact P0|apply put_same|reflexivity]. cbn [obind set_nthv].
  eexists _, _. split; [reflexivity|]. split; [|left; exists d; auto].
  pose proof X06 as (_ & Nh & _ & Oh). assert (W8 : heap_wf h8) by (eapply st_wf; exact S8).
  split; [eapply wf_write; [eapply wf_write; [exact W8|exact P0|exact Cp8|auto]|exact P0|apply put_same|auto]|]. split; [cbn [MHeap.put hp_next]; lia|]. split; [|cbn [MHeap.put hp_oom]; congruence].
  intros x Hx. rewrite !put_other by (unfold pn; lia). rewrite R8 by (intros [Q|[]]; lia). rewrite R7 by (intros Q; apply BF in Q; lia). apply LOW. exact Hx.
Qed.
