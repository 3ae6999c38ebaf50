(** The pledge client with the memory of request.c: the request. *)
From Coq Require Import Permutation ZifyBool ZifyNat ZifyN.
From Verif Require Import Base PBase MOs MBase64 MSerialize MVoucher MCrypto MRequest MHeap MArray MVoucherHeap MConfig MHandlers MSerialHeap MRequestHeap MHandlerHeap
  SBase64 SHeap SArray SConfig SVoucher SRequest SHandlers SPledge SSerialHeap SRequestHeap SHandlerHeap
  PBase64 PHeap PArray PBlocks PConfig PConfigMore PCertFiles POwn PHold PVoucherHeap PAcquire PAcquire2 PRequest PRequest2 PRequest3 PRequest4 PRequest5 PRequest6 PRequest7 PMasa PRegistrar
  PRequestHeap PRequestHeap2 PRequestHeap3 PRequestHeap4 PRequestHeap6 PHandlerHeap PHandlerHeap2 PHandlerHeap4 PPledge PPledge2 PPledge3.
Open Scope N_scope.

(** *** Arguments *)
Lemma opt_string_at : forall h p x, opt_string h p = Ok x -> (forall s, x = Some s -> cstr_ok s) -> string_at h p x.
Proof.
  intros h p x E C. unfold opt_string in E. destruct (N.eqb_spec p 0) as [->|P0]; [injection E as <-; reflexivity|].
  destruct (heap_string h p) as [s|] eqn:Es; [|discriminate]. cbn [obind] in E. injection E as <-. split; [exact P0|]. split; [apply C; reflexivity|].
  destruct (ok_string_live _ _ _ Es) as [b Cb]. pose proof Es as E2. unfold heap_string, load_buf in E2. rewrite (proj2 (N.eqb_neq _ _) P0), Cb in E2. destruct b as [d|]; [|discriminate]. cbn [obind] in E2.
  exists d. split; [exact Cb|]. destruct (in_dec N.eq_dec 0 d) as [Q|Q].
  - split; [exact Q|]. pose proof (heap_string_exact h p d P0 Cb Q) as E3. congruence.
  - exfalso. pose proof (strlen_exact d) as Q2. destruct (strlen d); [destruct Q2; contradiction|discriminate].
Qed.
Lemma nonce_at : forall h p x n h' nn, heap_wf h -> plenty h -> opt_string h p = Ok x -> (forall s, x = Some s -> bytes_ok s) -> load_nonce h p = Ok (true, n, h') -> nonce_text x nn -> array_at h' (n, 0%nat) (option_map ba_of nn).
Proof.
  intros h p x n h' nn W PL E B L NT. unfold load_nonce in L. unfold opt_string in E. destruct (N.eqb_spec p 0) as [->|P0].
  { assert (x = None) as -> by congruence. cbn [nonce_text] in NT. subst nn. assert (n = 0) as -> by congruence. reflexivity. }
  destruct (heap_string h p) as [s|] eqn:Es; [|discriminate]. cbn [obind] in E. assert (x = Some s) as -> by congruence. clear E. specialize (B s eq_refl). cbn [nonce_text] in NT. destruct NT as (d & Ed & ->).
  destruct (decode_into h s W PL B) as (n1 & h1 & rc & arr & h2 & h3 & h4 & Q1 & N0 & X1 & Q2 & Q3 & Q4 & D). rewrite Q1, (proj2 (N.eqb_neq _ _) N0), (ext_string _ _ _ _ W X1 Es) in L. cbn [obind] in L. rewrite Q2 in L. cbn [obind] in L. rewrite Q3 in L. cbn [obind] in L.
  pose proof (decoded_at _ _ _ _ _ _ _ _ d N0 Q3 Q4 D Ed) as T. unfold decoded_into in D. rewrite Ed in D. destruct D as (-> & _). destruct (Z.ltb_spec (Z.of_N (blen d)) 0) as [Q|_]; [lia|]. rewrite Q4 in L. cbn [obind] in L.
  assert (n = n1) as -> by congruence. assert (h' = h4) as -> by congruence. exact T.
Qed.
Lemma cert2buf_comes : forall h v d, heap_wf h -> plenty h -> cv_der v = Some d ->
  exists p h', crypto_cert2buf h (Some v) = Ok (p, h') /\ p <> 0 /\ arrived h h' (OArr p) /\ h_barray h' p = Ok (Some (ba_of d)) /\ array_at h' (p, 0%nat) (Some (ba_of d)).
Proof. intros h v d W PL E. cbn [crypto_cert2buf]. rewrite E. apply new_array_comes; assumption. Qed.

(** *** The request *)
Definition full_asked (o : ossl) (w : world) (f : pledge_files) (tls : bytes) (h : heap) (r : outcome (N * heap)) : Prop :=
  exists p h', r = Ok (p, h') /\ ext h h' /\
    (p = 0 /\ st (hp_next h) h' [] /\ (forall cms, ~ pledge_asks o w f tls cms) \/
     p <> 0 /\ exists cms b, st (hp_next h) h' [(OArr p, p :: nz b)] /\ arr_new h' p b cms /\ pledge_asks o w f tls cms).
Lemma full_asked_no : forall o w f tls h h1 l xs nulls, st (hp_next h) h1 l -> ext h h1 -> Forall is_null nulls -> Permutation xs (nulls ++ map fst l) ->
  (forall cms, ~ pledge_asks o w f tls cms) -> full_asked o w f tls h (obind (cleanup h1 xs) (fun h => Ok (0, h))).
Proof.
  intros o w f tls h h1 l xs nulls S E Nl Pm A. destruct (asked_no o w f tls h h1 l xs nulls S E Nl Pm A) as (p & h' & E1 & X & D). exists p, h'. split; [exact E1|]. split; [exact X|].
  destruct D as [D|(P0 & _)]; [left; exact D|]. exfalso. destruct (cleanup h1 xs) as [h2|]; cbn [obind] in E1; [|discriminate]. congruence.
Qed.
Lemma arr_new_keeps : forall base h h' l1 l2 p b d, st base h (l1 ++ l2) -> released h h' (oprint l1) -> In (OArr p, p :: nz b) l2 -> arr_new h p b d -> arr_new h' p b d.
Proof.
  intros base h h' l1 l2 p b d (_ & _ & ND & _) [_ R] Hin [C1 C2]. rewrite oprint_app in ND.
  assert (K : forall a, In a (p :: nz b) -> hp_cell h' a = hp_cell h a) by (intros a Ha; apply R; intros Q; apply (disjoint_of_NoDup _ _ ND a Q); eapply oprint_in; [exact Hin|exact Ha]).
  split; [rewrite K by (left; reflexivity); exact C1|]. destruct C2 as [C2|[B0 C2]]; [left; exact C2|right]. split; [exact B0|]. rewrite K; [exact C2|]. right. unfold nz. rewrite (proj2 (N.eqb_neq _ _) B0). left. reflexivity.
Qed.

Lemma full_ask_run : forall o w c f h tls tb, ossl_sane o -> world_ok w -> heap_wf h -> plenty h -> pledge_config h c f -> pledge_text_ok f ->
  tls <> 0 -> array_at h (tls, 0%nat) (Some (ba_of tb)) -> bytes_ok tb -> (forall t s n, pledge_time w f = Some t -> pf_serial f = Some s -> nonce_given f n -> text_fits (pledge_content t s n tb)) ->
  (asks_crash w f /\ exists k, pledge_request_handler (pledge_sign o c) w c h tls = UB k) \/
  (~ asks_crash w f /\ full_asked o w f tb h (pledge_request_handler (pledge_sign o c) w c h tls)).
Proof.
  intros o w c f h tls tb OS [WC WK] W PL (Ccr & Cse & Cno & Cce & Cke & Cad & Cve & Cst) [TS TN] T0 HT BT FITS.
  unfold pledge_request_handler. rewrite (proj2 (N.eqb_neq _ _) T0), Ccr. cbn [obind]. change (match pf_created f with Some _ => serialize_str2time (pf_created f) | None => w_now w end) with (pledge_time w f).
  destruct (pledge_time w f) as [t|] eqn:Et.
  2:{ right. split; [intros [Q _]; congruence|]. exists 0, h. split; [reflexivity|]. split; [apply ext_refl; exact W|]. left. split; [reflexivity|]. split; [apply st_init; exact W|]. intros cms (t & ? & ? & ? & ? & ? & Q & _). congruence. }
  pose proof (st_init h W) as S0. set (base := hp_next h) in *.
  pose proof (fun n h1 nn => nonce_at h _ _ n h1 nn W PL Cno TN) as NAT.
  destruct (nonce_arrives h _ _ W PL Cno TN) as [(no & h1 & nn & E1 & A1 & NT & B1)|[(no & h1 & E1 & N0 & A1 & NT & NB)|(no & h1 & arr & E1 & N0 & R0 & Ex & Sn & Cn & Ca & BP & NT)]]; rewrite E1; cbn [obind negb].
  - assert (NG : nonce_given f nn) by exact NT.
    assert (NOB : ~ exists x, pf_nonce f = Some x /\ bad_padding x). { intros (x & Q & Q2). unfold nonce_text in NT. rewrite Q in NT. destruct NT as (d & Q3 & _). apply decode_bad in Q2. destruct Q2. congruence. }
    pose proof (proj1 A1) as Ex1. destruct (arrived_list _ _ _ _ _ S0 A1) as [Fn S1]. pose proof (proj1 Ex1) as W1. pose proof (ext_plenty _ _ Ex1 PL) as PL1. unfold h_file_to_cert, h_file_to_keybuf.
    pose proof (NAT _ _ _ E1 NT) as T1. pose proof (cert_comes (w_cert w) h1 _ _ W1 PL1 (ext_string _ _ _ _ W Ex1 Cce)) as D2. destruct (w_cert w (pf_cert f)) as [dc|] eqn:Elc.
    2:{ rewrite D2. cbn [obind N.eqb]. right. split; [intros (_ & [Q|(_ & Q & _)]); [contradiction|congruence]|]. eapply (full_asked_no _ _ _ _ _ _ _ _ [OArr 0; OArr 0; OList 0]); [exact S1|exact Ex1|null|perm|].
        intros cms (? & ? & ? & ? & ? & ? & _ & _ & _ & _ & Q & _). congruence. }
    destruct D2 as (ce & h2 & E2 & ce0 & A2 & B2 & T2). rewrite E2. cbn [obind]. rewrite (proj2 (N.eqb_neq _ _) ce0). pose proof (ext_trans _ _ _ Ex1 (proj1 A2)) as Ex2. destruct (arrived_list _ _ _ _ _ S1 A2) as [Fc S2]. pose proof (proj1 Ex2) as W2. pose proof (ext_plenty _ _ Ex2 PL) as PL2.
    pose proof (cert_comes (w_key w) h2 _ _ W2 PL2 (ext_string _ _ _ _ W Ex2 Cke)) as D3. destruct (w_key w (pf_key f)) as [dk|] eqn:Elk.
    2:{ rewrite D3. cbn [obind N.eqb]. right. split; [intros (_ & [Q|(_ & _ & Q & _)]); [contradiction|congruence]|]. eapply (full_asked_no _ _ _ _ _ _ _ _ [OArr 0; OList 0]); [exact S2|exact Ex2|null|perm|].
        intros cms (? & ? & ? & ? & ? & ? & _ & _ & _ & _ & _ & Q & _). congruence. }
    destruct D3 as (ke & h3 & E3 & ke0 & A3 & B3 & T3). rewrite E3. cbn [obind]. rewrite (proj2 (N.eqb_neq _ _) ke0). pose proof (ext_trans _ _ _ Ex2 (proj1 A3)) as Ex3. destruct (arrived_list _ _ _ _ _ S2 A3) as [Fk S3]. pose proof (proj1 Ex3) as W3. pose proof (ext_plenty _ _ Ex3 PL) as PL3.
    destruct (list_arrives (w_cert w) h3 _ _ W3 PL3 (ext_path_list _ _ _ _ W Ex3 Cad)) as [(ad & h4 & lad & E4 & A4 & B4 & CL & NM)|(ad & h4 & E4 & R0 & Exf & Sf & Cf & Mi)]; rewrite E4; cbn [obind].
    2:{ change ((-1 <? 0)%Z) with true. cbv iota. left. split; [split; [congruence|]; right; split; [exists nn; exact NG|]; split; [congruence|]; split; [congruence|exact Mi]|].
        pose proof (st_acquire _ _ _ _ _ S3 Exf Sf) as S4. cbn [app] in S4.
        destruct (cleanup_crash _ _ _ _ [] [OArr no; OArr ce; OArr ke] [] (OList ad) [] S4 (eq_ind _ (fun z => Permutation _ z) (Permutation_refl _) _ (eq_sym (app_nil_r _))) (Forall_nil _)) as [k Q]; [perm|apply (freed_list h4); assumption|].
        cbn [app] in Q. rewrite Q. cbn [obind]. exists k. reflexivity. }
    change ((0 <? 0)%Z) with false. cbv iota. pose proof (ext_trans _ _ _ Ex3 (proj1 A4)) as Ex4. destruct (arrived_list _ _ _ _ _ S3 A4) as [Fa S4]. pose proof (proj1 Ex4) as W4. pose proof (ext_plenty _ _ Ex4 PL) as PL4.
    right. split; [intros (_ & [Q|(_ & _ & _ & Q)]); contradiction|].
    pose proof (ext_trans _ _ _ (proj1 A3) (proj1 A4)) as X24. pose proof (ext_trans _ _ _ (proj1 A2) X24) as X14.
    assert (BN : ba_bytes (option_map ba_of nn)). { destruct nn as [d|]; [|exact Logic.I]. apply ba_bytes_of. unfold nonce_text in NT. destruct (pf_nonce f); [|discriminate]. destruct NT as (d' & Q1 & Q2). injection Q2 as <-. eapply rfc_decode_bytes. exact Q1. }
    destruct (pledge_request_safe o t (pf_serial f) (option_map ba_of nn) (Some (ba_of tb)) (Some (ba_of dc)) (Some (ba_of dk)) lad TS BN (ba_bytes_of _ BT) (ba_bytes_of _ (WC _ _ Elc)) (ba_bytes_of _ (WK _ _ Elk))) as [r Er].
    assert (ON : forall n, opt_has (option_map ba_of nn) n <-> n = nn).
    { intros n. destruct nn as [d|], n as [d'|]; cbn [option_map opt_has]; split; intros Q; try contradiction; try discriminate; try reflexivity; try exact Logic.I; [f_equal; eapply ba_has_of; exact Q|injection Q as ->; apply ba_of_has]. }
    pose proof (pledge_iff o (Some t) (pf_serial f) (option_map ba_of nn) (Some (ba_of tb)) (Some (ba_of dc)) (Some (ba_of dk)) lad) as IFF.
    assert (ASK : forall cms, pledge_asks o w f tb cms <-> r = Some cms).
    { intros cms. transitivity (Ok r = Ok (Some cms)); [|split; [congruence|intros ->; reflexivity]]. rewrite <- Er, (IFF cms TS). split.
      - intros (t' & s & n & c' & k' & a' & Q1 & Q2 & Q3 & Q4 & Q5 & Q6 & Q7 & Q8). exists t, s, n, tb. assert (t' = t) as -> by congruence. assert (c' = dc) as -> by congruence. assert (k' = dk) as -> by congruence.
        rewrite (cert_list_fun _ _ _ _ CL Q7). split; [reflexivity|]. split; [exact Q2|]. split; [exact Q3|]. split; [|split; [apply ba_of_has|exact Q8]]. apply ON. unfold nonce_given in Q4, NG. destruct (pf_nonce f); [|congruence]. destruct Q4 as (d1 & R1 & ->), NG as (d2 & R2 & ->). congruence.
      - intros (t' & s & n & c' & Q1 & Q2 & Q3 & Q4 & Q5 & Q6). injection Q1 as <-. apply ON in Q4. subst n. assert (c' = tb) as -> by (eapply ba_has_of; exact Q5). exists t, s, nn, dc, dk, lad. auto 10. }
    assert (CALL : gets h4 (pledge_sign o c h4 t no tls ce ke ad) r).
    { unfold pledge_sign. pose proof (pledge_gets o h4 (Some t) (pl_serial c) no tls ce ke ad (pf_serial f) (option_map ba_of nn) (Some (ba_of tb)) (Some (ba_of dc)) (Some (ba_of dk)) lad W4 (ext_string_at _ _ _ _ W Ex4 (opt_string_at _ _ _ Cse TS))
        (ext_array_at _ _ _ _ W1 X14 T1) (ext_array_at _ _ _ _ W Ex4 HT) (ext_array_at _ _ _ _ W2 X24 T2) (ext_array_at _ _ _ _ W3 (proj1 A4) T3) B4 BN (ba_bytes_of _ BT)) as G. rewrite Er in G. cbn [ends] in G. apply G.
      intros t0 s' n' rt' Q1 Q2 Q3 Q4. assert (t0 = t) as -> by congruence. apply ON in Q3. subst n'. assert (rt' = tb) as -> by (eapply ba_has_of; exact Q4). apply FITS; assumption || reflexivity. }
    destruct (pledge_sign o c h4 t no tls ce ke ad) as [[p h5]|k]; [|destruct CALL as [_ Q]; destruct (plenty_not_starved _ PL4 Q)]. cbn [obind gets] in CALL |- *. destruct CALL as [X45 G]. pose proof (ext_trans _ _ _ Ex4 X45) as Ex5.
    destruct G as [(-> & HK & Q)|(cms & b & -> & AN & HK)].
    + assert (r = None) as -> by (destruct Q as [Q|Q]; [exact Q|exfalso; apply (plenty_not_starved _ PL4); eapply refused_starved; exact Q]).
      pose proof (st_acquire _ _ _ _ _ S4 X45 (hold_st _ _ _ HK)) as S5. cbn [bufs map app] in S5. eapply (full_asked_no _ _ _ _ _ _ _ _ []); [exact S5|exact Ex5|null|perm|]. intros cms Q'. apply ASK in Q'. discriminate.
    + assert (PA : pledge_asks o w f tb cms) by (apply ASK; reflexivity). assert (P0 : p <> 0) by (apply (hold_in _ _ _ p HK (or_introl eq_refl))). rewrite <- (app_nil_r (p :: nz b)) in HK. pose proof (hold_arr _ _ _ _ _ _ HK AN) as HS. cbn [bufs map] in HS.
      pose proof (st_acquire _ _ _ _ _ S4 X45 HS) as S5. cbn [app] in S5.
      assert (S6 : st base h5 ([(OArr no, Fn); (OArr ce, Fc); (OArr ke, Fk); (OList ad, Fa)] ++ [(OArr p, p :: nz b)])) by (eapply st_perm; [|exact S5]; perm).
      destruct (cleanup_part base h5 _ _ [OArr no; OArr ce; OArr ke; OList ad] [] S6 (Forall_nil _)) as (h6 & E6 & S7 & R6 & N6 & O6); [perm|]. rewrite E6. cbn [obind].
      exists p, h6. split; [reflexivity|]. split; [eapply part_ext; [exact Ex5|exact S6|exact S7|exact R6|exact N6|exact O6]|]. right. split; [exact P0|]. exists cms, b. split; [exact S7|]. split; [|exact PA].
      eapply arr_new_keeps; [exact S6|exact R6|left; reflexivity|exact AN].
  - right. split; [intros (_ & [Q|([nn Q] & _)]); [contradiction|exact (NT _ Q)]|]. destruct A1 as [Ex1 [Fn S1]].
    change (obind (h_free_binary_array h1 no) (fun h => Ok (0, h))) with (obind (free_owned h1 (OArr no)) (fun h => Ok (0, h))).
    destruct (st_free _ _ _ _ _ S1) as (h2 & E2 & S2 & R2 & N2 & O2). rewrite E2. cbn [obind]. exists 0, h2. split; [reflexivity|].
    split; [eapply (part_ext h h1 h2 [(OArr no, Fn)] []); [exact Ex1|exact S1|exact S2| |exact N2|exact O2]; unfold oprint; cbn [map List.concat snd]; rewrite app_nil_r; exact R2|]. left. split; [reflexivity|]. split; [exact S2|].
    intros cms (? & ? & n & ? & ? & ? & _ & _ & _ & Q & _). exact (NT _ Q).
  - left. split; [split; [congruence|]; left; exact BP|].
    destruct (cleanup_hold _ _ _ [] [] [] [] no arr 0%Z [] Sn (Permutation_refl _) (Forall_nil _) (Permutation_refl _) N0 R0 Cn Ca) as [k Q]. cbn [app cleanup free_owned] in Q.
    destruct (h_free_binary_array h1 no) as [h2|k2]; [discriminate Q|]. exists k2. reflexivity.
Qed.

Lemma full_ask64_run : forall o w c f h tls tb, ossl_sane o -> world_ok w -> heap_wf h -> plenty h -> pledge_config h c f -> pledge_text_ok f ->
  tls <> 0 -> array_at h (tls, 0%nat) (Some (ba_of tb)) -> bytes_ok tb -> (forall t s n, pledge_time w f = Some t -> pf_serial f = Some s -> nonce_given f n -> text_fits (pledge_content t s n tb)) ->
  (asks_crash w f /\ exists k, full_pledge_request_to_base64 o w c h tls = UB k) \/
  (~ asks_crash w f /\ exists text h', full_pledge_request_to_base64 o w c h tls = Ok (text, h') /\ ext h h' /\ st (hp_next h) h' [] /\
     match text with
     | None => forall cms, pledge_asks o w f tb cms -> blen cms < SIZE_MAX / 4 -> False
     | Some x => exists cms, pledge_asks o w f tb cms /\ blen cms < SIZE_MAX / 4 /\ x = rfc_encode cms
     end).
Proof.
  intros o w c f h tls tb OS WO W PL CF TX T0 HT BT FITS. unfold full_pledge_request_to_base64.
  destruct (full_ask_run o w c f h tls tb OS WO W PL CF TX T0 HT BT FITS) as [[C [k E]]|[NC (p & h1 & E & Ex1 & D)]]; rewrite E; cbn [obind].
  { left. split; [exact C|]. exists k. reflexivity. }
  right. split; [exact NC|]. destruct D as [(-> & S & N)|(P0 & cms & b & S & B & A)].
  { exists None, h1. cbn [N.eqb]. split; [reflexivity|]. split; [exact Ex1|]. split; [exact S|]. intros cms Q _. exact (N _ Q). }
  rewrite (proj2 (N.eqb_neq _ _) P0). pose proof (proj1 Ex1) as W1. pose proof (ext_plenty _ _ Ex1 PL) as PL1.
  assert (BC : bytes_ok cms) by (destruct A as (? & ? & ? & ? & ? & ? & _ & _ & _ & _ & _ & _ & _ & Q); eapply signed_bytes; [exact OS|exact Q]).
  destruct (encode_new h1 p b cms W1 PL1 BC P0 B) as (h2 & E2 & Ex2 & S2). rewrite E2. cbn [obind].
  pose proof (st_acquire _ _ _ _ _ S Ex2 S2) as S3. cbn [app] in S3.
  change (h_free_binary_array h2 p) with (free_owned h2 (OArr p)). destruct (st_free _ _ _ _ _ S3) as (h3 & E3 & S4 & R3 & N3 & O3). rewrite E3. cbn [obind].
  eexists _, h3. split; [reflexivity|]. split.
  { eapply (part_ext h h2 h3 [(OArr p, p :: nz b)] []); [exact (ext_trans _ _ _ Ex1 Ex2)|exact S3|exact S4| |exact N3|exact O3]; unfold oprint; cbn [map List.concat snd]; rewrite app_nil_r; exact R3. }
  split; [exact S4|]. destruct (N.ltb_spec (blen cms) (SIZE_MAX / 4)) as [L|L].
  - exists cms. auto.
  - intros cms' A' L'. assert (cms' = cms); [|subst; lia].
    destruct A as (t & s & n & ce & ke & ad & Q1 & Q2 & Q3 & Q4 & Q5 & Q6 & Q7 & Q8), A' as (t' & s' & n' & ce' & ke' & ad' & R1 & R2 & R3' & R4 & R5 & R6 & R7 & R8).
    assert (n' = n) as ->. { unfold nonce_given in *. destruct (pf_nonce f); [|congruence]. destruct Q4 as (? & ? & ->), R4 as (? & ? & ->). congruence. }
    rewrite <- (cert_list_fun _ _ _ _ Q7 R7) in R8. assert (t' = t) as -> by congruence. assert (s' = s) as -> by congruence. assert (ce' = ce) as -> by congruence. assert (ke' = ke) as -> by congruence.
    apply (signed_voucher_sign _ _ _ _ _ _ _ (fun v H => pv1_unique v _ _ _ _ H)) in Q8. apply (signed_voucher_sign _ _ _ _ _ _ _ (fun v H => pv1_unique v _ _ _ _ H)) in R8. congruence.
Qed.

