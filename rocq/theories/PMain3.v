(** Proofs about the program: the commands. *)
From Coq Require Import Permutation.
From Verif Require Import Base PBase MOs MBase64 MSerialize MVoucher MCrypto MRequest MHeap MArray MVoucherHeap MConfig MHandlers MLog MSignCert MMain SBase64 SHeap SArray SConfig SVoucher SRequest SHandlers SPledge SLog SSignCert SMain
  PBase64 PHeap PArray PBlocks PConfig PConfigMore PCertFiles POwn PAcquire PAcquire2 PRequest PRequest2 PRequest3 PRequest4 PRequest5 PRequest6 PRequest7 PMasa PRegistrar PVoucher PPledge PPledge2 PPledge3 PPledge4 PLog PSignCert PSignCert2 PSignCert3 PMain PMain2.
Open Scope N_scope.

Lemma signs_dec : forall m, signs m \/ ~ signs m.
Proof. intros m. unfold signs. destruct (pledge_setting m (s2b "cmsSignCertPath")); destruct (pledge_setting m (s2b "cmsSignKeyPath")); try (left; split; discriminate); right; intros [A B]; congruence. Qed.
Lemma request_asks : forall w m, signs m -> (request_crash w m <-> asks_crash w (settings m)).
Proof.
  intros w m [S1 S2]. unfold request_crash, asks_crash. cbn [settings pf_nonce pf_cert pf_key pf_add]. destruct (pledge_setting m (s2b "cmsSignCertPath")); [|congruence]. destruct (pledge_setting m (s2b "cmsSignKeyPath")); [|congruence]. cbn [or_empty]. tauto.
Qed.
Lemma exchange_unsafe : forall e m o, signs m -> (exchange_crash e m o <-> pledge_unsafe (e_ossl e) (e_world e) (settings m) (contact1 e m o) (contact2 e m o)).
Proof.
  intros e m o S. unfold exchange_crash, pledge_unsafe. split; intros (t & F & [Q|Q]); exists t; (split; [exact F|]).
  - left. apply request_asks; assumption.
  - right. apply Q.
  - left. apply request_asks; assumption.
  - right. split; [exact S|exact Q].
Qed.

(** *** Without the files for signing *)
Lemma null_cert : forall rd h, h_file_to_x509buf rd h 0 = UB NullDeref.
Proof. intros rd h. reflexivity. Qed.
Lemma ask_null : forall ossl w m c h tls, ini_ok m -> heap_wf h -> plenty h -> fields_say m h c -> ~ signs m -> tls <> 0 ->
  (request_crash w m /\ exists k, voucher_pledge_request_to_array ossl w c h tls = UB k) \/
  (~ request_crash w m /\ exists h', voucher_pledge_request_to_array ossl w c h tls = Ok (0, h') /\ POwn.ext h h' /\ st (hp_next h) h' []).
Proof.
  intros ossl w m c h tls OK W PL (Ccr & Cse & Cno & Cce & Cke & _) NS T0. destruct (settings_text m OK) as [_ TN]. change (pf_nonce (settings m)) with (pledge_setting m (s2b "nonce")) in TN.
  unfold voucher_pledge_request_to_array, request_crash. rewrite (proj2 (N.eqb_neq _ _) T0), Ccr. cbn [obind].
  change (match string_of_file m (s2b "pledge") (s2b "createdOn") [] 22 with Some _ => serialize_str2time (string_of_file m (s2b "pledge") (s2b "createdOn") [] 22) | None => w_now w end) with (pledge_time w (settings m)).
  destruct (pledge_time w (settings m)) as [t|] eqn:Et.
  2:{ right. split; [intros [Q _]; congruence|]. exists h. split; [reflexivity|]. split; [apply POwn.ext_refl; exact W|apply st_init; exact W]. }
  pose proof (st_init h W) as S0.
  destruct (nonce_arrives h _ _ W PL Cno TN) as [(no & h1 & nn & E1 & A1 & NT & B1)|[(no & h1 & E1 & N0 & A1 & NT & NB)|(no & h1 & arr & E1 & N0 & R0 & Ex & Sn & Cn & Ca & BP & NT)]]; rewrite E1; cbn [obind negb].
  - assert (NG : exists n, nonce_given (settings m) n) by (exists nn; exact NT).
    assert (NOB : ~ exists x, pledge_setting m (s2b "nonce") = Some x /\ bad_padding x). { intros (x & Q & Q2). unfold nonce_text in NT. rewrite Q in NT. destruct NT as (d & Q3 & _). apply decode_bad in Q2. destruct Q2. congruence. }
    pose proof (proj1 A1) as Ex1. destruct (arrived_list _ _ _ _ _ S0 A1) as [Fn S1]. pose proof (proj1 Ex1) as W1. pose proof (ext_plenty _ _ Ex1 PL) as PL1. unfold h_file_to_cert, h_file_to_keybuf.
    destruct (pledge_setting m (s2b "cmsSignCertPath")) as [ct|] eqn:Ect.
    2:{ rewrite Cce, null_cert. left. split; [split; [congruence|]; right; auto|]. exists NullDeref. reflexivity. }
    assert (FIN : forall hx l xs nulls, st (hp_next h) hx l -> POwn.ext h hx -> Forall is_null nulls -> Permutation xs (nulls ++ map fst l) -> exists h', obind (cleanup hx xs) (fun h => Ok (0, h)) = Ok (0, h') /\ POwn.ext h h' /\ st (hp_next h) h' []).
    { intros hx l xs nulls S E Nl Pm. destruct (cleanup_all _ _ _ _ nulls S Nl Pm) as (h2 & E2 & S2 & K2 & Hn & Ho). rewrite E2. cbn [obind]. exists h2. split; [reflexivity|]. split; [|exact S2].
      pose proof E as (Wx & Nx & Kx & Ox). split; [eapply st_wf; exact S2|]. split; [lia|]. split; [|congruence]. intros a Ha. rewrite K2 by lia. apply Kx. exact Ha. }
    pose proof (cert_arrives (w_cert w) h1 _ _ W1 PL1 (ext_string _ _ _ _ W Ex1 Cce)) as D2. destruct (w_cert w ct) as [dc|] eqn:Elc.
    2:{ rewrite D2. cbn [obind N.eqb]. right. split; [intros (_ & [Q|(_ & Q & _)]); [contradiction|congruence]|]. eapply (FIN _ _ _ [OArr 0; OArr 0; OList 0]); [exact S1|exact Ex1|null|perm]. }
    destruct D2 as (ce & h2 & E2 & ce0 & A2 & B2). rewrite E2. cbn [obind]. rewrite (proj2 (N.eqb_neq _ _) ce0).
    destruct (pledge_setting m (s2b "cmsSignKeyPath")) as [kt|] eqn:Ekt. { exfalso. apply NS. unfold signs. rewrite Ect, Ekt. split; discriminate. }
    rewrite Cke, null_cert. left. split; [split; [congruence|]; right; split; [exact NG|]; split; [congruence|exact Logic.I]|]. exists NullDeref. reflexivity.
  - right. split.
    { intros (_ & [Q|([nn Q] & _)]); [contradiction|exact (NT _ Q)]. }
    destruct A1 as [Ex1 [Fn S1]]. change (obind (h_free_binary_array h1 no) (fun h => Ok (0, h))) with (obind (free_owned h1 (OArr no)) (fun h => Ok (0, h))).
    destruct (st_free _ _ _ _ _ S1) as (h2 & E2 & S2 & R2 & N2 & O2). rewrite E2. cbn [obind]. exists h2. split; [reflexivity|].
    split; [eapply (part_ext h h1 h2 [(OArr no, Fn)] []); [exact Ex1|exact S1|exact S2| |exact N2|exact O2]; unfold oprint; cbn [map List.concat snd]; rewrite app_nil_r; exact R2|exact S2].
  - left. split; [split; [congruence|]; left; exact BP|].
    destruct (cleanup_hold _ _ _ [] [] [] [] no arr 0%Z [] Sn (Permutation_refl _) (Forall_nil _) (Permutation_refl _) N0 R0 Cn Ca) as [k Q]. cbn [app cleanup free_owned] in Q.
    destruct (h_free_binary_array h1 no) as [h2|k2]; [discriminate Q|]. exists k2. reflexivity.
Qed.
Lemma ask64_null : forall ossl w m c h tls, ini_ok m -> heap_wf h -> plenty h -> fields_say m h c -> ~ signs m -> tls <> 0 ->
  (request_crash w m /\ exists k, voucher_pledge_request_to_base64 ossl w c h tls = UB k) \/
  (~ request_crash w m /\ exists h', voucher_pledge_request_to_base64 ossl w c h tls = Ok (None, h') /\ POwn.ext h h' /\ st (hp_next h) h' []).
Proof.
  intros ossl w m c h tls OK W PL F NS T0. unfold voucher_pledge_request_to_base64.
  destruct (ask_null ossl w m c h tls OK W PL F NS T0) as [[C [k E]]|[NC (h' & E & X & S)]]; rewrite E; cbn [obind N.eqb]; [left; split; [exact C|]; exists k; reflexivity|right; split; [exact NC|]; exists h'; auto].
Qed.
Lemma pledge_null : forall ossl w m c post1 post2 h pinned, ini_ok m -> heap_wf h -> plenty h -> fields_say m h c -> ~ signs m ->
  ((exists t, first_contact post1 t) /\ request_crash w m /\ exists k, post_voucher_pledge_request ossl w c post1 post2 h pinned = UB k) \/
  (~ ((exists t, first_contact post1 t) /\ request_crash w m) /\ exists h', post_voucher_pledge_request ossl w c post1 post2 h pinned = Ok ((-1)%Z, h') /\ POwn.ext h h' /\ st (hp_next h) h' []).
Proof.
  intros ossl w m c post1 post2 h pinned OK W PL F NS. unfold post_voucher_pledge_request. destruct (post1 []) as [[s1 r1] v1] eqn:E1.
  assert (BYE : (forall t, ~ first_contact post1 t) -> ~ ((exists t, first_contact post1 t) /\ request_crash w m) /\ exists h', @Ok (Z * heap) ((-1)%Z, h) = Ok ((-1)%Z, h') /\ POwn.ext h h' /\ st (hp_next h) h' []).
  { intros Q. split; [intros [[t H] _]; exact (Q _ H)|]. exists h. split; [reflexivity|]. split; [apply POwn.ext_refl; exact W|apply st_init; exact W]. }
  destruct (Z.ltb_spec s1 0) as [L1|L1]. { right. apply BYE. intros t (s & r & v & Q & Q2 & _). rewrite E1 in Q. injection Q; intros; subst; lia. }
  pose proof (cert2buf_arrives h v1 W PL) as D1. destruct v1 as [v1|]; [destruct (cv_der v1) as [tb1|] eqn:Ed1|].
  2:{ rewrite D1. cbn [obind N.eqb]. right. apply BYE. intros t (s & r & v & Q & _ & Q2). rewrite E1 in Q. injection Q as <- <- <-. congruence. }
  2:{ rewrite D1. cbn [obind N.eqb]. right. apply BYE. intros t (s & r & v & Q & _ & Q2). congruence. }
  assert (FC : exists t, first_contact post1 t) by (exists tb1, s1, r1, v1; auto). destruct D1 as (tls & h1 & E2 & T0 & A1 & B1). rewrite E2. cbn [obind]. rewrite (proj2 (N.eqb_neq _ _) T0).
  pose proof (st_init h W) as S0. pose proof (proj1 A1) as Ex1. destruct (arrived_list _ _ _ _ _ S0 A1) as [Ft S1]. pose proof (proj1 Ex1) as W1. pose proof (ext_plenty _ _ Ex1 PL) as PL1.
  destruct (ask64_null ossl w m c h1 tls OK W1 PL1 (fields_ext _ _ _ _ W Ex1 F) NS T0) as [[C [k E]]|[NC (h2 & E & Ex12 & S12)]]; rewrite E; cbn [obind].
  { left. split; [exact FC|]. split; [exact C|]. exists k. reflexivity. }
  right. split; [tauto|]. pose proof (POwn.ext_trans _ _ _ Ex1 Ex12) as Ex2. pose proof (st_acquire _ _ _ _ _ S1 Ex12 S12) as S2. cbn [app] in S2.
  change (h_free_binary_array h2 tls) with (free_owned h2 (OArr tls)). destruct (st_free _ _ _ _ _ S2) as (h3 & E3 & S3 & R3 & N3 & O3). rewrite E3. cbn [obind].
  exists h3. split; [reflexivity|]. split; [|exact S3]. eapply (part_ext h h2 h3 [(OArr tls, Ft)] []); [exact Ex2|exact S2|exact S3| |exact N3|exact O3]; unfold oprint; cbn [map List.concat snd]; rewrite app_nil_r; exact R3.
Qed.
Lemma sign_null : forall ossl w m c dv post1 post2 post3 h, ini_ok m -> device_ok dv -> heap_wf h -> plenty h -> fields_say m h c -> ~ signs m ->
  let U := dv_random dv <> None /\ (exists t, first_contact post1 t) /\ request_crash w m in
  (U /\ exists k, sign_cert_command ossl w c dv post1 post2 post3 h = UB k) \/
  (~ U /\ exists h', sign_cert_command ossl w c dv post1 post2 post3 h = Ok ((-1)%Z, h') /\ POwn.ext h h').
Proof.
  intros ossl w m c dv post1 post2 post3 h OK DO W PL FS NS U. unfold sign_cert_command.
  assert (A0 : arrs h h []) by (split; [apply POwn.ext_refl; exact W|]; split; [apply st_init; exact W|constructor]).
  destruct (arrs_local _ _ _ A0) as (h1 & E1 & A1 & _). rewrite E1. destruct (arrs_local _ _ _ A1) as (h2 & E2 & A2 & _). rewrite E2. unfold post_sign_cert. destruct (arrs_local _ _ _ A2) as (h3 & E3 & A3 & _). rewrite E3.
  set (oc := hp_next h) in *. set (ok := hp_next h1) in *. set (pn := hp_next h2) in *. clearbody oc ok pn.
  destruct (dv_random dv) as [r|] eqn:ER.
  2:{ unfold generate_sign_cert. rewrite ER. cbn [obind]. change ((-1 <? 0)%Z) with true. cbv iota. destruct (arrs_drop _ _ _ _ _ A3) as (h4 & E4 & A4 & _). rewrite E4. cbn [obind]. right. split; [intros [Q _]; congruence|]. exists h4. split; [reflexivity|apply A4]. }
  assert (B3 : arrs h h3 [(oc, 0, 0%Z); (ok, 0, 0%Z); (pn, 0, 0%Z)]).
  { eapply arrs_perm; [|exact A3]. eapply perm_trans; [apply (Permutation_cons_append [(ok, 0, 0%Z); (oc, 0, 0%Z)])|]. cbn [app]. apply perm_swap. }
  destruct (gen_run dv h h3 oc ok _ r DO PL ER B3) as (h4 & bc & zc & bk & zk & E4 & A4 & _). rewrite E4. cbn [obind]. change ((0 <? 0)%Z) with false. cbv iota.
  pose proof A4 as (X4 & _). pose proof (arrs_plenty _ _ _ A4 PL) as PL4. pose proof (arrs_wf _ _ _ A4) as W4.
  destruct (pledge_null ossl w m c post1 post2 h4 pn OK W4 PL4 (fields_ext _ _ _ _ W X4 FS) NS) as [(Q1 & Q2 & k & E5)|(NU & h5 & E5 & X5 & S5)]; rewrite E5; cbn [obind].
  { left. split; [split; [discriminate|auto]|]. exists k. reflexivity. }
  change ((-1 <? 0)%Z) with true. cbv iota. right. split; [unfold U; tauto|].
  destruct (err_run _ _ _ _ _ _ _ _ _ _ _ (arrs_ext _ _ _ _ A4 X5 S5)) as (h6 & E6 & A6). change (obind (h_free_binary_array_content h5 (oc, 0%nat)) _) with (sign_err oc ok pn h5). rewrite E6. exists h6. split; [reflexivity|apply A6].
Qed.

(** *** Output *)
Definition ends (U : Prop) (R : ending -> Prop) (h : heap) (x : outcome (ending * heap)) : Prop :=
  (U /\ exists k, x = UB k) \/ (~ U /\ exists r h', x = Ok (r, h') /\ POwn.ext h h' /\ R r).

Lemma data_at : forall h p b d, p <> 0 -> b <> 0 -> hp_cell h p = Live (Struct [P b; I (Z.of_N (blen d))]) -> hp_cell h b = Live (Buf d) -> array_data h p = Ok d.
Proof.
  intros h p b d P0 B0 C Cb. unfold array_data. rewrite (barray_cells h p b d _ P0 B0 C Cb), N2Z.id. cbn [obind]. apply take_mem_all.
Qed.
Lemma print_step : forall h p b d, heap_wf h -> plenty h -> bytes_ok d -> p <> 0 -> b <> 0 -> hp_cell h p = Live (Struct [P b; I (Z.of_N (blen d))]) -> hp_cell h b = Live (Buf d) ->
  exists h', encode_array h p = Ok (if blen d <? SIZE_MAX / 4 then Some (rfc_encode d) else None, h') /\ POwn.ext h h' /\ st (hp_next h) h' [].
Proof.
  intros h p b d W PL Bd P0 B0 C Cb. unfold encode_array. rewrite (get_int_at h p [P b; I (Z.of_N (blen d))] 1%nat _ P0 C eq_refl). cbn [obind]. rewrite N2Z.id.
  pose proof (N.leb_antisym (blen d) (SIZE_MAX / 4)) as Q. rewrite Q. destruct (blen d <? SIZE_MAX / 4) eqn:L; cbn [negb].
  - destruct (encode_step h p d W PL Bd) as (h' & E & X & S).
    { rewrite (barray_cells h p b d _ P0 B0 C Cb). unfold ba_of. rewrite N2Z.id. reflexivity. }
    rewrite L in E. exists h'. auto.
  - exists h. split; [reflexivity|]. split; [apply POwn.ext_refl; exact W|apply st_init; exact W].
Qed.
Lemma out_step : forall e h p b d out, heap_wf h -> plenty h -> bytes_ok d -> p <> 0 -> b <> 0 -> hp_cell h p = Live (Struct [P b; I (Z.of_N (blen d))]) -> hp_cell h b = Live (Buf d) ->
  exists z text fs h', output_domain_cert e h p out = Ok (z, text, fs, h') /\ POwn.ext h h' /\ st (hp_next h) h' [] /\
    (z = 0%Z /\ shown e out d (mk_ending 0 text fs) \/ z = (-1)%Z /\ forall r, ~ shown e out d r).
Proof.
  intros e h p b d out W PL Bd P0 B0 C Cb. unfold output_domain_cert, shown. destruct out as [|c0 out].
  - destruct (print_step h p b d W PL Bd P0 B0 C Cb) as (h' & E & X & S). rewrite E. cbn [obind]. destruct (N.ltb_spec (blen d) (SIZE_MAX / 4)) as [L|L].
    + eexists _, _, _, h'. split; [reflexivity|]. split; [exact X|]. split; [exact S|]. left. split; [reflexivity|]. left. auto.
    + eexists _, _, _, h'. split; [reflexivity|]. split; [exact X|]. split; [exact S|]. right. split; [reflexivity|]. intros r [(_ & Q & _)|(Q & _)]; [lia|congruence].
  - rewrite (data_at h p b d P0 B0 C Cb). cbn [obind]. unfold pem_to_file, out_name. destruct (e_open e (firstn 254 ((c0 :: out) ++ s2b ".crt"))) eqn:EO; [destruct (e_pem_cert e d) as [t|] eqn:EP|].
    + eexists _, _, _, h. split; [reflexivity|]. split; [apply POwn.ext_refl; exact W|]. split; [apply st_init; exact W|]. left. split; [reflexivity|]. right. split; [discriminate|]. exists t. auto.
    + eexists _, _, _, h. split; [reflexivity|]. split; [apply POwn.ext_refl; exact W|]. split; [apply st_init; exact W|]. right. split; [reflexivity|]. intros r [(Q & _)|(_ & t & _ & Q & _)]; discriminate.
    + eexists _, _, _, h. split; [reflexivity|]. split; [apply POwn.ext_refl; exact W|]. split; [apply st_init; exact W|]. right. split; [reflexivity|]. intros r [(Q & _)|(_ & t & Q & _)]; discriminate.
Qed.

(** *** The contacts *)
Lemma refused_ok : post_ok (fun _ => ((-1)%Z, [], None)).
Proof. intros body s r v _ E. injection E as <- <- <-. split; [constructor|]. intros v' Q. discriminate Q. Qed.
Lemma refused_ca_ok : post_ca_ok (fun _ _ => ((-1)%Z, [])).
Proof. intros ca body s r _ E. injection E as <- <-. constructor. Qed.
Lemma contacts_ok : forall e m o, outside_ok e -> post_ok (contact1 e m o) /\ post_ok (contact2 e m o) /\ post_ca_ok (contact3 e m o).
Proof.
  intros e m o (_ & _ & _ & _ & _ & _ & Q1 & Q2 & Q3). unfold contact1, contact2, contact3, contact_for.
  destruct (address_of m (op_address o)); [|split; [apply refused_ok|split; [apply refused_ok|apply refused_ca_ok]]].
  destruct (pledge_setting m (s2b "idevidKeyPath")); [|split; [apply refused_ok|split; [apply refused_ok|apply refused_ca_ok]]].
  destruct (pledge_setting m (s2b "idevidCertPath")); [|split; [apply refused_ok|split; [apply refused_ok|apply refused_ca_ok]]]. auto.
Qed.

(** *** preq *)
Lemma arrs_nil : forall h, heap_wf h -> arrs h h [].
Proof. intros h W. split; [apply POwn.ext_refl; exact W|]. split; [apply st_init; exact W|constructor]. Qed.
Lemma preq_run : forall e o m h cfg, outside_ok e -> ini_ok m -> configured m (op_address o) h cfg ->
  ends (exchange_crash e m o) (delivers (exchange_gives e m o) (shown e (op_out o))) h (main_preq e o (port_of e o) h cfg).
Proof.
  intros e o m h cfg OK IK CO. pose proof CO as (W & PL & _). pose proof OK as (_ & OS & WO & _). destruct (fields_ok m _ h cfg CO IK) as (c & EF & FS). unfold main_preq. rewrite EF. cbn [obind]. rewrite (client_ok m _ h cfg CO). cbn [obind].
  destruct (arrs_local _ _ _ (arrs_nil h W)) as (h1 & E1 & A1 & _). rewrite E1. set (pn := hp_next h) in *. clearbody pn.
  assert (EQ : match match address_of m (op_address o), pledge_setting m (s2b "idevidKeyPath"), pledge_setting m (s2b "idevidCertPath") with Some a, Some k, Some ct => Some (k, ct, a) | _, _, _ => None end with
    | Some (key, cert, address) => post_voucher_pledge_request (e_ossl e) (e_world e) c (e_post1 e key cert address (port_of e o)) (e_post2 e key cert address (port_of e o)) h1 pn
    | None => post_voucher_pledge_request (e_ossl e) (e_world e) c refused refused h1 pn end = post_voucher_pledge_request (e_ossl e) (e_world e) c (contact1 e m o) (contact2 e m o) h1 pn).
  { unfold contact1, contact2, contact_for. destruct (address_of m (op_address o)); [|reflexivity]. destruct (pledge_setting m (s2b "idevidKeyPath")); [|reflexivity]. destruct (pledge_setting m (s2b "idevidCertPath")); reflexivity. }
  rewrite EQ. clear EQ. pose proof A1 as (X1 & _ & FC). destruct (cells_inv _ _ _ _ _ FC) as (P0 & C & _). pose proof (arrs_wf _ _ _ A1) as W1. pose proof (arrs_plenty _ _ _ A1 PL) as PL1. destruct (contacts_ok e m o OK) as (K1 & K2 & _).
  destruct (signs_dec m) as [SG|NS].
  - destruct (pledge_run (e_ossl e) (e_world e) c (settings m) (contact1 e m o) (contact2 e m o) h1 pn OS WO W1 PL1 (fields_config _ _ _ (fields_ext _ _ _ _ W X1 FS) SG) (settings_text m IK) K1 K2 P0 C) as [[U [k E]]|[NU (z & h2 & E & D)]]; rewrite E; cbn [obind].
    { left. split; [apply exchange_unsafe; assumption|]. exists k. reflexivity. }
    right. split; [rewrite exchange_unsafe by exact SG; exact NU|]. destruct D as [(-> & X2 & S2 & NO)|(-> & W2 & N2 & O2 & t1 & t2 & d & OB & PR)].
    + change ((-1 <? 0)%Z) with true. cbv iota. eexists _, h2. split; [reflexivity|]. split; [eapply POwn.ext_trans; eassumption|]. right. split; [reflexivity|]. intros x r' (_ & a & b & Q). destruct (NO _ _ _ Q).
    + change ((0 <? 0)%Z) with false. cbv iota. destruct (arrs_pinned _ _ _ _ _ _ A1 W2 N2 O2 PR) as (b & A2 & B0 & Cb & _). pose proof A2 as (_ & _ & FC2). destruct (cells_inv _ _ _ _ _ FC2) as (_ & C2 & _).
      destruct (out_step e h2 pn b d (op_out o) W2 (arrs_plenty _ _ _ A2 PL) (obtains_bytes _ _ _ _ _ _ _ _ OS OB) P0 B0 C2 Cb) as (z & text & fs & h3 & E3 & X3 & S3 & R3). rewrite E3. cbn [obind]. pose proof (arrs_ext _ _ _ _ A2 X3 S3) as A3.
      destruct R3 as [[-> R3]|[-> R3]].
      * change ((0 <? 0)%Z) with false. cbv iota. destruct (arrs_content _ _ _ _ _ _ A3) as (h4 & E4 & A4 & _). rewrite E4. cbn [obind]. eexists _, h4. split; [reflexivity|]. split; [apply A4|]. left. exists d. split; [split; [exact SG|]; eauto|exact R3].
      * change ((-1 <? 0)%Z) with true. cbv iota. eexists _, h3. split; [reflexivity|]. split; [apply A3|]. right. split; [reflexivity|]. intros x r' (_ & a & b' & Q) R. rewrite (PSignCert2.obtains_fun _ _ _ _ _ _ _ _ _ _ _ Q OB) in R. exact (R3 _ R).
  - assert (CR : exchange_crash e m o <-> (exists t, first_contact (contact1 e m o) t) /\ request_crash (e_world e) m).
    { unfold exchange_crash. split; [intros (t & F & [Q|[Q _]]); [eauto|contradiction]|]. intros [[t F] Q]. exists t. auto. }
    destruct (pledge_null (e_ossl e) (e_world e) m c (contact1 e m o) (contact2 e m o) h1 pn IK W1 PL1 (fields_ext _ _ _ _ W X1 FS) NS) as [(F & Q & k & E)|(NU & h2 & E & X2 & S2)]; rewrite E; cbn [obind].
    { left. split; [apply CR; auto|]. exists k. reflexivity. }
    change ((-1 <? 0)%Z) with true. cbv iota. right. split; [rewrite CR; exact NU|]. eexists _, h2. split; [reflexivity|]. split; [eapply POwn.ext_trans; eassumption|]. right. split; [reflexivity|]. intros x r' (Q & _). contradiction.
Qed.

(** *** sign *)
Lemma sign_bytes : forall o w f dv p1 p2 p3 key cert, device_ok dv -> sign_obtains o w f dv p1 p2 p3 key cert -> bytes_ok key /\ bytes_ok cert.
Proof.
  intros o w f dv p1 p2 p3 key cert (_ & _ & K & _) (r & (t1 & t2 & d & ct & s & _ & _ & (rn & _ & G & _) & _) & D). split; [exact (K _ G)|eapply rfc_decode_bytes; exact D].
Qed.
Lemma sign_fun : forall o w f dv p1 p2 p3 key cert key' cert', sign_obtains o w f dv p1 p2 p3 key cert -> sign_obtains o w f dv p1 p2 p3 key' cert' -> key = key' /\ cert = cert'.
Proof.
  intros o w f dv p1 p2 p3 key cert key' cert' (r & (t1 & t2 & d & ct & s & OB & _ & (rn & G1 & G2 & G3) & _ & P & _) & D) (r' & (t1' & t2' & d' & ct' & s' & OB' & _ & (rn' & G1' & G2' & G3') & _ & P' & _) & D').
  rewrite (PSignCert2.obtains_fun _ _ _ _ _ _ _ _ _ _ _ OB OB') in P. assert (rn' = rn) as -> by congruence. assert (key' = key) as -> by congruence. assert (ct' = ct) as -> by congruence. split; [reflexivity|]. assert (r' = r) as -> by congruence. congruence.
Qed.
Lemma sign_main : forall e o m h cfg, outside_ok e -> ini_ok m -> configured m (op_address o) h cfg ->
  ends (enrol_crash e m o) (delivers (fun x => enrol_gives e m o (snd x) (fst x)) (fun x => shown_pair e (op_out o) (fst x) (snd x))) h (main_sign e o (port_of e o) h cfg).
Proof.
  intros e o m h cfg OK IK CO. pose proof CO as (W & PL & _). pose proof OK as (_ & OS & WO & DO & _). destruct (fields_ok m _ h cfg CO IK) as (c & EF & FS). unfold main_sign. rewrite EF. cbn [obind]. rewrite (client_ok m _ h cfg CO). cbn [obind].
  assert (EQ : match match address_of m (op_address o), pledge_setting m (s2b "idevidKeyPath"), pledge_setting m (s2b "idevidCertPath") with Some a, Some k, Some ct => Some (k, ct, a) | _, _, _ => None end with
    | Some (key, cert, address) => sign_cert_command (e_ossl e) (e_world e) c (e_device e) (e_post1 e key cert address (port_of e o)) (e_post2 e key cert address (port_of e o)) (e_post3 e key cert address (port_of e o)) h
    | None => sign_cert_command (e_ossl e) (e_world e) c (e_device e) refused refused (fun _ _ => ((-1)%Z, [])) h end = sign_cert_command (e_ossl e) (e_world e) c (e_device e) (contact1 e m o) (contact2 e m o) (contact3 e m o) h).
  { unfold contact1, contact2, contact3, contact_for. destruct (address_of m (op_address o)); [|reflexivity]. destruct (pledge_setting m (s2b "idevidKeyPath")); [|reflexivity]. destruct (pledge_setting m (s2b "idevidCertPath")); reflexivity. }
  rewrite EQ. clear EQ. destruct (contacts_ok e m o OK) as (K1 & K2 & K3).
  destruct (signs_dec m) as [SG|NS].
  - assert (CR : enrol_crash e m o <-> sign_unsafe (e_ossl e) (e_world e) (settings m) (e_device e) (contact1 e m o) (contact2 e m o) (contact3 e m o)).
    { unfold enrol_crash, sign_unsafe. rewrite (exchange_unsafe e m o SG). tauto. }
    destruct (command_run (e_ossl e) (e_world e) c (settings m) (e_device e) (contact1 e m o) (contact2 e m o) (contact3 e m o) h OS WO W PL (fields_config _ _ _ FS SG) (settings_text m IK) K1 K2 K3 DO) as [[U [k E]]|[NU (z & h1 & E & D)]]; rewrite E; cbn [obind].
    { left. split; [apply CR; exact U|]. exists k. reflexivity. }
    right. split; [rewrite CR; exact NU|]. destruct D as [(-> & A1 & NO)|(-> & key & cert & bc & bk & OB & A1 & Bc & Bk & Cc & Ck)].
    { change ((-1 <? 0)%Z) with true. cbv iota. eexists _, h1. split; [reflexivity|]. split; [apply A1|]. right. split; [reflexivity|]. intros [ct ky] r' [_ Q]. destruct (NO _ _ Q). }
    change ((0 <? 0)%Z) with false. cbv iota. destruct (sign_bytes _ _ _ _ _ _ _ _ _ DO OB) as [BK BC]. set (oc := hp_next h) in *. set (ok := oc + 1) in *. clearbody ok oc.
    assert (GV : enrol_gives e m o key cert) by (split; assumption).
    assert (NOT : (forall r', ~ shown_pair e (op_out o) cert key r') -> forall x r', enrol_gives e m o (snd x) (fst x) -> ~ shown_pair e (op_out o) (fst x) (snd x) r').
    { intros Q [ct ky] r' [_ Q2] R. cbn [fst snd] in *. destruct (sign_fun _ _ _ _ _ _ _ _ _ _ _ OB Q2) as [<- <-]. exact (Q _ R). }
    assert (FIN : forall hx text fs, arrs h hx [(oc, bc, Z.of_N (blen cert)); (ok, bk, Z.of_N (blen key))] -> shown_pair e (op_out o) cert key (mk_ending 0 text fs) ->
      exists r h', obind (h_free_binary_array_content hx (oc, 0%nat)) (fun h => obind (h_free_binary_array_content h (ok, 0%nat)) (fun h => Ok (mk_ending 0 text fs, h))) = Ok (r, h') /\ POwn.ext h h' /\
        delivers (fun x => enrol_gives e m o (snd x) (fst x)) (fun x => shown_pair e (op_out o) (fst x) (snd x)) r).
    { intros hx text fs A R. destruct (arrs_content _ _ _ _ _ _ A) as (h2 & E2 & A2 & _). rewrite E2. cbn [obind]. pose proof (arrs_perm _ _ _ _ (perm_swap _ _ _) A2) as A3. destruct (arrs_content _ _ _ _ _ _ A3) as (h3 & E3 & A4 & _). rewrite E3. cbn [obind].
      eexists _, h3. split; [reflexivity|]. split; [apply A4|]. left. exists (cert, key). split; [exact GV|exact R]. }
    pose proof A1 as (_ & _ & FC). destruct (cells_inv _ _ _ _ _ FC) as (P0 & Co & FC2). destruct (cells_inv _ _ _ _ _ FC2) as (P1 & Ckp & _).
    destruct (op_out o) as [|c0 out] eqn:EO.
    + destruct (enc_step h h1 oc bc _ _ (Some cert) PL A1) as (h2 & E2 & A2 & F2); [split; [exact Bc|split; [reflexivity|exact Cc]]|intros d' Q; injection Q as <-; exact BC|].
      rewrite E2. cbn [obind]. destruct (N.ltb_spec (blen cert) (SIZE_MAX / 4)) as [L|L].
      2:{ eexists _, h2. split; [reflexivity|]. split; [apply A2|]. right. split; [reflexivity|]. apply NOT. intros r' [(_ & Q & _)|(Q & _)]; [lia|congruence]. }
      pose proof (arrs_perm _ _ _ _ (perm_swap _ _ _) A2) as A2'.
      destruct (enc_step h h2 ok bk _ _ (Some key) PL A2') as (h3 & E3 & A3 & _).
      { split; [exact Bk|split; [reflexivity|]]. rewrite F2; [exact Ck|]. eapply places_b; [right; left; reflexivity|exact Bk]. }
      { intros d' Q. injection Q as <-. exact BK. }
      rewrite E3. cbn [obind]. destruct (N.ltb_spec (blen key) (SIZE_MAX / 4)) as [L2|L2].
      2:{ eexists _, h3. split; [reflexivity|]. split; [apply A3|]. right. split; [reflexivity|]. apply NOT. intros r' [(_ & _ & Q & _)|(Q & _)]; [lia|congruence]. }
      apply FIN; [eapply arrs_perm; [apply perm_swap|exact A3]|]. left. auto.
    + rewrite (data_at h1 oc bc cert P0 Bc Co Cc). cbn [obind]. unfold pem_to_file, out_name.
      destruct (e_open e (firstn 254 ((c0 :: out) ++ s2b ".crt"))) eqn:O1; [destruct (e_pem_cert e cert) as [t|] eqn:T1|].
      2:{ eexists _, h1. split; [reflexivity|]. split; [apply A1|]. right. split; [reflexivity|]. apply NOT. intros r' [(Q & _)|(_ & ? & ? & _ & Q & _)]; congruence. }
      2:{ eexists _, h1. split; [reflexivity|]. split; [apply A1|]. right. split; [reflexivity|]. apply NOT. intros r' [(Q & _)|(_ & ? & ? & Q & _)]; congruence. }
      change ((0 <? 0)%Z) with false. cbv iota. rewrite (data_at h1 ok bk key P1 Bk Ckp Ck). cbn [obind].
      destruct (e_open e (firstn 254 ((c0 :: out) ++ s2b ".key"))) eqn:O2; [destruct (e_pem_key e key) as [t'|] eqn:T2|].
      2:{ eexists _, h1. split; [reflexivity|]. split; [apply A1|]. right. split; [reflexivity|]. apply NOT. intros r' [(Q & _)|(_ & ? & ? & _ & _ & _ & Q & _)]; congruence. }
      2:{ eexists _, h1. split; [reflexivity|]. split; [apply A1|]. right. split; [reflexivity|]. apply NOT. intros r' [(Q & _)|(_ & ? & ? & _ & _ & Q & _)]; congruence. }
      change ((0 <? 0)%Z) with false. cbv iota. apply FIN; [exact A1|]. right. split; [discriminate|]. exists t, t'. auto 10.
  - assert (CR : enrol_crash e m o <-> dv_random (e_device e) <> None /\ (exists t, first_contact (contact1 e m o) t) /\ request_crash (e_world e) m).
    { unfold enrol_crash, exchange_crash. split; [intros [(R & t & F & [Q|[Q _]])|[Q _]]; [eauto|contradiction|contradiction]|]. intros (R & [t F] & Q). left. split; [exact R|]. exists t. auto. }
    destruct (sign_null (e_ossl e) (e_world e) m c (e_device e) (contact1 e m o) (contact2 e m o) (contact3 e m o) h IK DO W PL FS NS) as [(U & k & E)|(NU & h1 & E & X1)]; rewrite E; cbn [obind].
    { left. split; [apply CR; exact U|]. exists k. reflexivity. }
    change ((-1 <? 0)%Z) with true. cbv iota. right. split; [rewrite CR; exact NU|]. eexists _, h1. split; [reflexivity|]. split; [exact X1|]. right. split; [reflexivity|]. intros [ct ky] r' [Q _]. contradiction.
Qed.
