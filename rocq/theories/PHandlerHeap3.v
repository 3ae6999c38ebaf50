(** What a signed message that is no voucher costs the MASA. *)
From Coq Require Import Permutation ZifyBool ZifyNat ZifyN.
From Verif Require Import Base PBase MOs MBase64 MSerialize MVoucher MCrypto MRequest MHeap MArray MVoucherHeap MConfig MHandlers MSerialHeap MRequestHeap MHandlerHeap
  SBase64 SHeap SArray SConfig SVoucher SRequest SHandlers SSerialHeap SRequestHeap SHandlerHeap
  PBase64 PHeap PArray PBlocks PConfig PConfigMore PCertFiles POwn PHold PVoucherHeap PVoucherHeapOom PAcquire PRequest PRequest2 PRequest3 PRequest4 PRequest5 PRequest6 PRequest7 PMasa
  PRequestHeap PRequestHeap2 PRequestHeap3 PRequestHeap4 PRequestHeap6 PRequestHeap8 PRequestHeap9 PHandlerHeap PHandlerHeap2.
From Verif Require Import SJson PRequestHeap5.
Open Scope N_scope.

Lemma opened : forall o x lc ls c st json regs, verified o x lc ls c st json -> signer_certs o c st true (Some regs) ->
  crypto_verify_cms o x lc ls true = Ok (Some (match json with [] => None | _ => Some json end, Some regs)).
Proof.
  intros o x lc ls c st json regs (d & s & H1 & H2 & H3 & H4 & H5) H7. unfold crypto_verify_cms.
  assert (Ef : match s with None => true | Some _ => false end = match ls with None => true | Some _ => false end) by (destruct ls, s; cbn in H4; tauto).
  apply ba_read_iff in H1. apply opt_stack_iff in H3. apply opt_store_iff in H4. rewrite H1. cbn [obind]. rewrite H2, H3, H4, Ef, H5.
  cbn [signer_certs] in H7. unfold exatract_cms_certs. destruct (cms_signers o c st) as [[|y xs]|]; [discriminate| |discriminate].
  destruct H7 as [m [Hm Q]]. assert (m = regs) as -> by congruence. apply der_iff in Hm. rewrite Hm. reflexivity.
Qed.

(** The list of signers stays when the content is no voucher. *)
Lemma nothing_said : forall o h cms certs store x lc ls c st json regs, ossl_sane o -> heap_wf h -> plenty h -> array_at h cms (Some x) -> h_certlist h certs = Ok lc -> h_certlist h store = Ok ls ->
  verified o x lc ls c st json -> signer_certs o c st true (Some regs) -> ~ (exists v l, says o x lc ls true v l) ->
  exists pl l h' L, h_verify_cms_voucher o h cms certs store true = Ok (0, pl, l, h') /\ ext h h' /\ hold (hp_next h) h' L /\ L <> [].
Proof.
  intros o h cms certs store x lc ls c st json regs So W PL Ax Al As V Sg NS. unfold h_verify_cms_voucher. rewrite (proj2 (N.eqb_neq _ _) (proj1 Ax)).
  pose proof (opens_ok o h cms certs store true x lc ls _ W Ax Al As (opened _ _ _ _ _ _ _ _ V Sg)) as X. destruct (h_crypto_verify_cms o h cms certs store true) as [[[[n data] l] h1]|e]; cbn [obind opens] in *; [|destruct X as [_ X]; destruct (plenty_not_starved _ PL X)].
  destruct X as [E1 X]. pose proof E1 as (W1 & N1 & K1 & O1).
  destruct X as [(Hn & -> & Q & _)|(Hn & c' & st' & json' & lst & F & Hv & Et & Sg' & Li & H1 & _ & D)].
  { exfalso. destruct Q as [Q|Q]; [discriminate|]. apply (plenty_not_starved _ PL). eapply refused_starved. exact Q. }
  destruct (n <? 0)%Z eqn:En; [lia|].
  assert (HF : F <> []).
  { assert (lst = Some regs) as -> by congruence. destruct Li as [(_ & Q & _)|(items & _ & Li)]; [discriminate|]. destruct (alist_head _ _ _ _ Li) as [Q _]. destruct F; [destruct Q|discriminate]. }
  unfold h_deserialize. destruct D as [(-> & ->)|(J0 & D0 & Cd)].
  { cbn [load_buf N.eqb obind sys_free]. exists init_voucher, l, h1, F. auto. }
  unfold load_buf. rewrite (proj2 (N.eqb_neq _ _) D0), Cd. cbn [obind].
  assert (Sj : bytes_ok json' /\ blen json' < 2147483648) by (destruct Hv as (d & s & _ & _ & _ & _ & Y); eapply (proj1 So); exact Y). destruct Sj as [Bj Lj].
  pose proof (deserialize_oom json' h1 Bj Lj W1) as R. destruct (h_deserialize_voucher h1 json') as [[v h2]|e]; cbn [obind fst snd reads] in *.
  2:{ destruct R as [_ R]. exfalso. apply (plenty_not_starved _ (ext_plenty _ _ E1 PL) R). }
  destruct R as [G2 R]. destruct R as [(-> & _ & lk & H2 & _)|(V0 & f & lk & w & Hs & Ew & Ag & HL)].
  2:{ exfalso. apply NS. exists w, lst. exists c', st', json'. auto. }
  pose proof (ext_of _ _ (hold_wf _ _ _ H2) G2) as E2. pose proof (hold_grow _ _ _ _ _ H1 E2 H2) as H3.
  assert (H3' : hold (hp_next h) h2 (nz data ++ (lk ++ F))) by (eapply hold_perm; [|exact H3]; apply Permutation_app_swap_app).
  destruct (free_data _ _ _ _ H3') as (h3 & -> & G3 & Hn3 & K3 & H4). cbn [obind]. eexists _, l, h3, (lk ++ F). split; [reflexivity|]. split; [|split; [exact H4|destruct lk; [exact HF|discriminate]]].
  apply ext_of; [eapply hold_wf; exact H4|]. eapply gentle_trans; [apply (gentle_of_ext _ _ _ (N.le_refl _) E1)|]. eapply gentle_trans; [apply (gentle_of_ext _ _ _ N1 E2)|exact G3].
Qed.

Lemma masa_wasted : forall o w c f ld h body, ossl_sane o -> heap_wf h -> plenty h -> masa_config h c f -> bytes_ok body -> masa_wastes o w f body ->
  exists ld' h' lk, full_masa_requestvoucher o w c ld h body = Ok (400%Z, [], ld', h') /\ ext h h' /\ hold (hp_next h) h' lk /\ lk <> [].
Proof.
  intros o w c f ld h body OS W PL MC B [RD (m0 & rv0 & rs0 & cm & sk & json & regs & Em & R1 & R2 & V & Sg & NS)].
  destruct (masa_reach (masa_sign o) (masa_sign o) w c f ld h body W PL MC B) as [[_ Q]|R]; [reflexivity|contradiction|].
  destruct R as (t & m & cms & ldc & ld' & certd & cert & keyd & key & rv & lrv & rs & lrs & pv & lpv & ps & lps & ad & lad & h9 & l & Et & Ed & El & Ec & Ek & Lrv & Lrs & Lpv & Lps & Lad & X9 & S9 & Ml & CM0 & LB & Ac & Ak & Brv & Brs & Bpv & Bps & Bad & HU).
  assert (m0 = m) as -> by congruence. rewrite (cert_list_fun _ _ _ _ R1 Lrv), (cert_list_fun _ _ _ _ R2 Lrs) in *. clear R1 R2 rv0 rs0 Em.
  unfold full_masa_requestvoucher. rewrite HU. clear HU. pose proof (proj1 X9) as W9. pose proof (ext_plenty _ _ X9 PL) as PL9.
  assert (CALL : exists h10 lk, masa_sign o h9 (Z.of_N (blen m)) cms t (0%Z, ba_of ldc) cert key rv rs pv ps ad = Ok (0, h10) /\ ext h9 h10 /\ hold (hp_next h9) h10 lk /\ lk <> []).
  { unfold masa_sign. destruct (Z.ltb_spec (Z.of_N (blen m)) 0) as [Q|_]; [lia|]. destruct (local h9 (Struct [P cms; I (Z.of_N (blen m))])) as [s h1] eqn:Eloc.
    destruct (hold_local _ _ _ _ _ _ (hold_init h9 W9) Eloc) as (X1 & Es & S0 & Hn1 & Cs & K1 & H1). pose proof (ext_plenty _ _ X1 PL9) as PL1.
    assert (Am : array_at h1 (s, 0%nat) (Some (ba_of m))).
    { cbn [array_at fst snd ba_of ba_len ba_data]. split; [exact S0|]. exists [P cms; I (Z.of_N (blen m))], cms. split; [exact Cs|]. split; [reflexivity|]. split; [reflexivity|]. split; [exact CM0|].
      destruct (ok_live_buf _ _ _ LB) as [_ Cc]. split; [|lia]. rewrite K1 by (eexists; exact Cc). exact Cc. }
    destruct (nothing_said o h1 (s, 0%nat) rv rs (ba_of m) lrv lrs cm sk json regs OS (proj1 X1) PL1 Am (ext_certlist _ _ _ _ W9 X1 Brv) (ext_certlist _ _ _ _ W9 X1 Brs) V Sg NS) as (pl & lst & h2 & L & E2 & X2 & H2 & HL).
    assert (G : gotten L h1 (h_sign_masa_pledge_voucher o h1 (s, 0%nat) (Some t) (Some (fun _ _ => (0%Z, ba_of ldc))) cert key rv rs pv ps ad) None).
    { unfold h_sign_masa_pledge_voucher. rewrite E2. cbn [obind N.eqb]. split; [exact X2|]. left. auto. }
    apply (gotten_local L h9 _ s h1 _ None W9 PL9 Eloc) in G. unfold h_sign_masa_pledge_voucher in G |- *. rewrite E2 in G |- *. cbn [obind N.eqb fst snd] in G |- *.
    destruct (sys_free h2 s) as [h3|k]; cbn [obind] in G |- *; [|destruct G as [_ G]; destruct (plenty_not_starved _ PL9 G)].
    exists h3, L. split; [reflexivity|]. destruct G as [X3 [(_ & H3 & _)|(d & b & Q & _)]]; [auto|discriminate]. }
  destruct CALL as (h10 & lk & -> & X10 & HK & HL). cbn [obind]. unfold masa_tail. cbv zeta. cbn [N.eqb]. pose proof (ext_trans _ _ _ X9 X10) as Ex10.
  pose proof (st_acquire _ _ _ _ _ S9 X10 (hold_st _ _ _ HK)) as S10. apply (st_perm _ _ _ (l ++ bufs lk)) in S10; [|apply Permutation_app_comm].
  destruct (cleanup_most (hp_next h) h10 l (bufs lk) [OArr ld'; OArr cert; OArr key; OList rv; OList rs; OList pv; OList ps; OList ad; OBuf cms; OArr 0] [OArr 0] S10) as (h12 & E12 & S12 & K12 & Hn12 & Ho12); [null|rewrite Ml; perm|]. rewrite E12. cbn [obind].
  exists ld', h12, lk. split; [reflexivity|]. split; [|split; [apply st_hold in S12; rewrite oprint_bufs in S12; exact S12|exact HL]].
  destruct Ex10 as (Wa & Na & Ka & Oa). split; [eapply st_wf; exact S12|]. split; [lia|]. split; [|congruence]. intros a Ha. rewrite K12 by exact Ha. apply Ka. exact Ha.
Qed.

Lemma masa_wasted_all : forall o w c f bodies ld h, ossl_sane o -> heap_wf h -> plenty h -> masa_config h c f -> Forall bytes_ok bodies -> Forall (masa_wastes o w f) bodies ->
  exists answers h' lk, full_masa_serves o w c ld h bodies = Ok (answers, h') /\ ext h h' /\ hold (hp_next h) h' lk /\ (List.length bodies <= List.length lk)%nat /\ Forall (eq (400%Z, [])) answers.
Proof.
  intros o w c f bodies. induction bodies as [|b r IH]; intros ld h OS W PL MC B F.
  { exists [], h, []. split; [reflexivity|]. split; [apply ext_refl; exact W|]. split; [apply hold_init; exact W|]. split; [reflexivity|constructor]. }
  inversion B as [|? ? B1 B2]; subst. inversion F as [|? ? F1 F2]; subst. cbn [full_masa_serves].
  destruct (masa_wasted o w c f ld h b OS W PL MC B1 F1) as (l1 & h1 & lk1 & E & X & S & N1). rewrite E. cbn [obind].
  destruct (IH l1 h1 OS (proj1 X) (ext_plenty _ _ X PL) (ext_config _ _ _ _ W X MC) B2 F2) as (ans & h2 & lk2 & E2 & X2 & S2 & L2 & A2). rewrite E2. cbn [obind fst snd].
  exists ((400%Z, []) :: ans), h2, (lk2 ++ lk1). split; [reflexivity|]. split; [eapply ext_trans; eassumption|]. split; [eapply hold_grow; eassumption|]. split; [|constructor; auto].
  rewrite app_length. cbn [List.length]. destruct lk1; [contradiction|]. cbn [List.length]. lia.
Qed.

Lemma hold_lost : forall h h' lk n, hold (hp_next h) h' lk -> (n <= List.length lk)%nat -> lost h h' n.
Proof.
  intros h h' lk n H L. exists (firstn n lk). split; [|split; [apply firstn_length_le; exact L|]].
  - pose proof H as (_ & _ & D & _). rewrite <- (firstn_skipn n lk) in D. induction (firstn n lk) as [|a r IH]; [constructor|]. inversion D as [|? ? D1 D2]; subst. constructor; [intros Q; apply D1; apply in_or_app; left; exact Q|exact (IH D2)].
  - apply Forall_forall. intros a Ha. assert (In a lk) as Q by (rewrite <- (firstn_skipn n lk); apply in_or_app; left; exact Ha). destruct (hold_in _ _ _ a H Q) as (Q1 & _ & _ & Q2). split; assumption.
Qed.

(** ** The theorems *)

Lemma full_masa_exact : forall o w c f bodies h, ossl_sane o -> world_ok w -> heap_wf h -> plenty h -> masa_config h c f -> Forall bytes_ok bodies -> Forall (masa_fits o w f) bodies ->
  ((exists k, full_masa_serves o w c 0 h bodies = UB k) <-> Exists (masa_crash w f) bodies).
Proof.
  intros o w c f bodies h OS WO W PL MC B Ft. destruct (full_masa_sequence o w c f bodies 0 h OS WO W PL MC B Ft (or_introl eq_refl)) as [[C E]|[NC (a & h' & lk & E & _)]]; [tauto|].
  split; [intros [k Q]; congruence|contradiction].
Qed.
Lemma full_masa_answers : forall o w c f bodies h answers h', ossl_sane o -> world_ok w -> heap_wf h -> plenty h -> masa_config h c f -> Forall bytes_ok bodies -> Forall (masa_fits o w f) bodies ->
  full_masa_serves o w c 0 h bodies = Ok (answers, h') ->
  Forall2 (masa_answer o w f) bodies answers /\ kept (hp_next h) h h' /\ (Forall (masa_clean o w f) bodies -> no_leak (hp_next h) h').
Proof.
  intros o w c f bodies h answers h' OS WO W PL MC B Ft E0. destruct (full_masa_sequence o w c f bodies 0 h OS WO W PL MC B Ft (or_introl eq_refl)) as [[C [k E]]|[NC (a & h2 & lk & E & X & H & Cl & F)]]; [congruence|].
  assert (a = answers /\ h2 = h') as [-> ->] by (split; congruence). split; [exact F|]. split; [apply X|]. intros Q. rewrite (Cl Q) in H. apply hold_none. exact H.
Qed.
Lemma full_masa_wasted : forall o w c f bodies h, ossl_sane o -> heap_wf h -> plenty h -> masa_config h c f -> Forall bytes_ok bodies -> Forall (masa_wastes o w f) bodies ->
  exists answers h', full_masa_serves o w c 0 h bodies = Ok (answers, h') /\ Forall (eq (400%Z, [])) answers /\ lost h h' (List.length bodies).
Proof.
  intros o w c f bodies h OS W PL MC B F. destruct (masa_wasted_all o w c f bodies 0 h OS W PL MC B F) as (a & h' & lk & E & X & H & L & A). exists a, h'. split; [exact E|]. split; [exact A|]. eapply hold_lost; eassumption.
Qed.

(** ** A case *)

Lemma case_lists : cert_list (w_cert masa_world) [] None /\ cert_list (w_cert masa_world) [s2b "registrar"] registrars_store /\ cert_list (w_cert masa_world) [s2b "maker"] pledges_store.
Proof. split; [reflexivity|]. split; (split; [discriminate|]; constructor; [split; reflexivity|constructor]). Qed.
Definition waste : bytes := rfc_encode nonsense.
Lemma waste_wastes : masa_wastes toy masa_world masa_case_files waste.
Proof.
  split.
  { split; [vm_compute; discriminate|]. split; [vm_compute; discriminate|]. split; [vm_compute; discriminate|]. split; [vm_compute; discriminate|]. split; [vm_compute; discriminate|].
    repeat (apply Forall_cons; [intros (t & Ht & Q); cbn [In mf_verify mf_store mf_pverify mf_pstore mf_add masa_case_files] in Ht; repeat (destruct Ht as [<-|Ht]; [vm_compute in Q; discriminate Q|]); exact Ht|]). apply Forall_nil. }
  exists nonsense, None, registrars_store, (2, s2b "x"), None, (s2b "x"), [([2], 0%Z)]. split; [vm_compute; reflexivity|]. split; [apply case_lists|]. split; [apply case_lists|].
  split. { exists nonsense, (Some [inl [2; 0]]). split; [right; apply ba_of_has|]. split; [reflexivity|]. split; [exact Logic.I|]. split; [split; [constructor; [split; reflexivity|constructor]|split; [reflexivity|exact Logic.I]]|]. vm_compute. reflexivity. }
  split. { unfold signer_certs. cbn [cms_signers toy fst]. eexists. split; [|reflexivity]. constructor; [split; reflexivity|constructor]. }
  intros (v & l & Sy). apply verify_says in Sy. apply (f_equal (fun o => match o with Ok None => true | _ => false end)) in Sy. vm_compute in Sy. discriminate Sy.
Qed.

Definition good : bytes := rfc_encode reg_asked.
Lemma good_decode : rfc_decode (c_string good) = Some reg_asked.
Proof. vm_compute. reflexivity. Qed.
Lemma good_bytes : bytes_ok good.
Proof. apply bytes_okb_ok. vm_compute. reflexivity. Qed.
Lemma good_fits : masa_fits toy masa_world masa_case_files good.
Proof.
  intros m t ldc rv rs vr regs s n Ed Et El L1 L2 Sy Es Hn v text Hv Ht. rewrite good_decode in Ed. assert (m = reg_asked) as -> by congruence. clear Ed.
  destruct case_lists as (C1 & C2 & _). rewrite (cert_list_fun _ _ _ _ L1 C1), (cert_list_fun _ _ _ _ L2 C2) in Sy. clear L1 L2 C1 C2.
  apply pv3_unique in Hv. subst v. assert (ldc = [7; 7]) as -> by (vm_compute in El; congruence).
  apply verify_says in Sy. assert (Ns : v_nonce vr = ba_of (s2b "hello") /\ v_serial vr = Some (s2b "A1")).
  { split; [apply (f_equal (fun o => match o with Ok (Some (v, _)) => v_nonce v | _ => ba_null end)) in Sy|apply (f_equal (fun o => match o with Ok (Some (v, _)) => v_serial v | _ => None end)) in Sy]; rewrite <- Sy; vm_compute; reflexivity. }
  destruct Ns as [N1 N2]. unfold nonce_is in Hn. cbn [get_attr_array] in Hn. rewrite N1 in Hn. destruct n as [n|]; [|discriminate Hn]. assert (n = s2b "hello") as -> by (unfold ba_of in Hn; congruence).
  cbn [get_attr_str] in Es. rewrite N2 in Es. assert (s = s2b "A1") as -> by congruence.
  assert (Some t = serialize_str2time (mf_expires masa_case_files)) as Et' by congruence. vm_compute in Et'. assert (exists t0, t = t0 /\ Some t0 = Some t) as (t0 & -> & _) by eauto. injection Et' as ->.
  apply (f_equal (fun o => match o with Ok (Some y) => blen y | _ => 0 end)) in Ht. rewrite <- Ht. vm_compute. reflexivity.
Qed.
Lemma good_clean : masa_clean toy masa_world masa_case_files good.
Proof.
  intros m rv rs pv ps Ed L1 L2 L3 L4. rewrite good_decode in Ed. assert (m = reg_asked) as -> by congruence. destruct case_lists as (C1 & C2 & C3).
  rewrite (cert_list_fun _ _ _ _ L1 C1), (cert_list_fun _ _ _ _ L2 C2), (cert_list_fun _ _ _ _ L3 C1), (cert_list_fun _ _ _ _ L4 C3). split; [exact reg_clean|].
  intros x Ex. assert (x = ba_of reg_asked) as -> by congruence. right. destruct (verify_cms_voucher toy (Some (ba_of reg_asked)) None registrars_store true) as [[[vr regs]|]|] eqn:Ev.
  - exists vr, regs. apply verify_says. exact Ev.
  - exfalso. apply (f_equal (fun o => match o with Ok None => true | _ => false end)) in Ev. vm_compute in Ev. discriminate Ev.
  - exfalso. apply (f_equal (fun o => match o with UB _ => true | _ => false end)) in Ev. vm_compute in Ev. discriminate Ev.
Qed.

Lemma full_masa_refuted : exists o w c f h body, ossl_sane o /\ world_ok w /\ heap_wf h /\ plenty h /\ masa_config h c f /\ bytes_ok body /\ forall n,
  exists answers h', full_masa_serves o w c 0 h (repeat body n) = Ok (answers, h') /\ Forall (eq (400%Z, [])) answers /\ lost h h' n.
Proof.
  assert (B : bytes_ok waste) by (apply bytes_okb_ok; vm_compute; reflexivity). assert (PL : plenty PMasa.masa_case) by (intros a; reflexivity).
  exists toy, masa_world, masa_case_conf, masa_case_files, PMasa.masa_case, waste. split; [exact toy_sane|]. split; [exact masa_world_ok|]. split; [exact masa_case_wf|]. split; [exact PL|]. split; [exact masa_case_config|]. split; [exact B|].
  intros n. assert (L : List.length (repeat waste n) = n) by apply repeat_length.
  destruct (full_masa_wasted toy masa_world masa_case_conf masa_case_files (repeat waste n) PMasa.masa_case toy_sane masa_case_wf PL masa_case_config) as (a & h' & E & F & Lo).
  - apply Forall_forall. intros x Hx. apply repeat_spec in Hx. subst x. exact B.
  - apply Forall_forall. intros x Hx. apply repeat_spec in Hx. subst x. exact waste_wastes.
  - exists a, h'. split; [exact E|]. split; [exact F|]. rewrite L in Lo. exact Lo.
Qed.

Lemma full_masa_twice : exists v h', full_masa_serves toy masa_world masa_case_conf 0 PMasa.masa_case [good; good] = Ok ([(200%Z, v); (200%Z, v)], h') /\ v <> [] /\ no_leak (hp_next PMasa.masa_case) h'.
Proof.
  destruct (full_masa_serves toy masa_world masa_case_conf 0 PMasa.masa_case [good; good]) as [[a h']|k] eqn:E.
  - assert (AA : exists v, a = [(200%Z, v); (200%Z, v)] /\ v <> []).
    { exists (snd (hd (0%Z, []) a)). assert (QQ : match full_masa_serves toy masa_world masa_case_conf 0 PMasa.masa_case [good; good] with Ok ([(x, v); (y, u)], _) => (x =? 200)%Z && (y =? 200)%Z && beqb v u && negb (beqb v []) | _ => false end = true) by (vm_compute; reflexivity).
      rewrite E in QQ. destruct a as [|[x v] [|[y u] [|]]]; try discriminate QQ. apply andb_prop in QQ as [QQ Q4]. apply andb_prop in QQ as [QQ Q3]. apply andb_prop in QQ as [Q1 Q2]. apply Z.eqb_eq in Q1, Q2. apply beqb_eq in Q3. subst.
      split; [reflexivity|]. cbn [hd snd]. intros ->. discriminate Q4. }
    destruct AA as (v & -> & NE). exists v, h'. split; [reflexivity|]. split; [exact NE|].
    eapply (full_masa_answers toy masa_world masa_case_conf masa_case_files [good; good]); [exact toy_sane|exact masa_world_ok|exact masa_case_wf|intros x; reflexivity|exact masa_case_config| | |exact E|].
    + repeat (apply Forall_cons; [exact good_bytes|]). apply Forall_nil.
    + repeat (apply Forall_cons; [exact good_fits|]). apply Forall_nil.
    + repeat (apply Forall_cons; [exact good_clean|]). apply Forall_nil.
  - exfalso. assert (QQ : match full_masa_serves toy masa_world masa_case_conf 0 PMasa.masa_case [good; good] with Ok _ => true | _ => false end = true) by (vm_compute; reflexivity). rewrite E in QQ. discriminate QQ.
Qed.
