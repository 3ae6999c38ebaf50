(** Proofs about the MASA's voucher endpoint. *)
From Coq Require Import Permutation.
From Verif Require Import Base PBase MOs MBase64 MSerialize MVoucher MCrypto MRequest MHeap MArray MVoucherHeap MConfig MHandlers SBase64 SHeap SArray SConfig SVoucher SRequest SHandlers
  PBase64 PHeap PArray PBlocks PConfig PConfigMore PCertFiles POwn PAcquire PRequest PRequest2 PRequest3 PRequest4 PRequest5 PRequest6 PRequest7.
Open Scope N_scope.

Definition masa_runs (o : ossl) (w : world) (f : masa_files) (m cms : bytes) : Prop :=
  exists t ldc cert key rv rs pv ps add,
    serialize_str2time (mf_expires f) = Some t /\ w_cert w (mf_ldevid f) = Some ldc /\ w_cert w (mf_cert f) = Some cert /\ w_key w (mf_key f) = Some key /\
    cert_list (w_cert w) (mf_verify f) rv /\ cert_list (w_cert w) (mf_store f) rs /\ cert_list (w_cert w) (mf_pverify f) pv /\ cert_list (w_cert w) (mf_pstore f) ps /\ cert_list (w_cert w) (mf_add f) add /\
    sign_masa_pledge_voucher o (Some (ba_of m)) (Some t) (Some (fun _ _ => (0%Z, ba_of ldc))) (Some (ba_of cert)) (Some (ba_of key)) rv rs pv ps add = Ok (Some cms).

Lemma cert_list_fun : forall rd ts l l', cert_list rd ts l -> cert_list rd ts l' -> l = l'.
Proof.
  intros rd ts [l|] [l'|] H H'; cbn [cert_list] in *; [|destruct H; contradiction|destruct H'; contradiction|reflexivity].
  destruct H as [_ H], H' as [_ H']. f_equal. revert l' H'. induction H as [|t [d z] ts l [E1 E2] H IH]; intros l' H'; inversion H' as [|? [d' z'] ? ? [E1' E2'] H'']; subst; [reflexivity|]. cbn [fst snd] in *.
  rewrite E1 in E1'. injection E1' as <-. subst. f_equal. apply IH. assumption.
Qed.
Lemma pinned_cb : forall h ld ldc, ld <> 0 -> h_barray h ld = Ok (Some (ba_of ldc)) -> voucher_req_cb h ld = Ok (0%Z, ba_of ldc).
Proof.
  intros h ld ldc L0 E. unfold voucher_req_cb. rewrite (proj2 (N.eqb_neq _ _) L0), E. cbn [obind copy_binary_array ba_data ba_len ba_of sys_memdup negb]. unfold take_mem. rewrite N.leb_refl. cbn [obind].
  unfold blen. rewrite Nat2N.id, firstn_all. reflexivity.
Qed.
Lemma ba_bytes_of : forall d, bytes_ok d -> ba_bytes (Some (ba_of d)).
Proof. intros d H. cbn. split; [exact H|lia]. Qed.
Lemma with_cms_ok : forall A h arr d (g : option barray -> outcome (option A)), load_buf h arr = Ok (Some d) -> with_cms h (Z.of_N (blen d)) arr g = g (Some (ba_of d)).
Proof. intros A h arr d g H. unfold with_cms. destruct (Z.ltb_spec (Z.of_N (blen d)) 0) as [Q|_]; [lia|]. rewrite H. cbn [obind]. rewrite N2Z.id. reflexivity. Qed.

Lemma masa_runs_bytes : forall o w f m cms, ossl_sane o -> masa_runs o w f m cms -> bytes_ok cms.
Proof.
  intros o w f m cms OS (t & ldc & cert & key & rv & rs & pv & ps & add & _ & _ & _ & _ & _ & _ & _ & _ & _ & E).
  destruct (masa_says _ _ _ _ _ _ _ _ _ _ _ _ OS E) as (? & ? & ? & ? & ? & ? & ? & ? & ? & ? & ? & ? & _ & _ & _ & _ & _ & _ & _ & _ & _ & _ & (v & text & _ & _ & (? & ? & ? & ? & ? & ? & _ & _ & _ & _ & _ & _ & I))).
  destruct OS as (_ & _ & OS). eapply OS. exact I.
Qed.

(** What one request does. *)
Definition masa_done (o : ossl) (w : world) (f : masa_files) (h : heap) (body : bytes) (r : outcome (Z * bytes * N * heap)) : Prop :=
  exists status response ld h', r = Ok (status, response, ld, h') /\ ext h h' /\ st (hp_next h) h' [] /\ (ld = 0 \/ serialize_str2time (mf_expires f) <> None) /\
    ((status = 200%Z /\ exists m cms, rfc_decode (c_string body) = Some m /\ masa_runs o w f m cms /\ blen cms < SIZE_MAX / 4 /\ response = rfc_encode cms) \/
     (status = 400%Z /\ response = [] /\ ~ exists m cms, rfc_decode (c_string body) = Some m /\ masa_runs o w f m cms /\ blen cms < SIZE_MAX / 4)).

Ltac null := repeat (apply Forall_cons; [reflexivity|]); apply Forall_nil.

(** The clean-up at the end of a handler that fails. *)
Lemma masa_fail : forall o w f h body h1 l xs nulls ld, st (hp_next h) h1 l -> ext h h1 -> Forall is_null nulls -> Permutation xs (nulls ++ map fst l) ->
  (ld = 0 \/ serialize_str2time (mf_expires f) <> None) -> ~ (exists m cms, rfc_decode (c_string body) = Some m /\ masa_runs o w f m cms /\ blen cms < SIZE_MAX / 4) ->
  masa_done o w f h body (obind (cleanup h1 xs) (fun h => Ok (400%Z, [], ld, h))).
Proof.
  intros o w f h body h1 l xs nulls ld S E Nl P Hld No. destruct (cleanup_all _ _ _ _ _ S Nl P) as (h2 & E2 & S2 & K2 & Hn & Ho). rewrite E2. cbn [obind].
  exists 400%Z, [], ld, h2. split; [reflexivity|]. split; [|split; [exact S2|split; [exact Hld|right; auto]]].
  pose proof E as (W1 & N1 & K1 & O1). split; [eapply st_wf; exact S2|]. split; [lia|]. split; [|congruence]. intros a Ha. rewrite K2 by lia. apply K1. exact Ha.
Qed.

(** A clean-up that meets a released block. *)
Lemma crash_bind : forall A base h l l1 l2 xs x ys (g : heap -> outcome A), st base h l -> Permutation l (l1 ++ l2) -> Permutation xs (map fst l1) ->
  (forall h', (forall a, ~ is_live h a -> hp_cell h' a = hp_cell h a) -> exists k, free_owned h' x = UB k) -> exists k, obind (cleanup h (xs ++ x :: ys)) g = UB k.
Proof. intros A base h l l1 l2 xs x ys g S P1 P2 Bad. destruct (cleanup_crash base h l l1 l2 xs [] x ys S P1 (Forall_nil _) P2 Bad) as [k E]. exists k. rewrite E. reflexivity. Qed.

Lemma crash_nulls : forall A base h l l1 l2 xs nulls x ys (g : heap -> outcome A), st base h l -> Permutation l (l1 ++ l2) -> Forall is_null nulls -> Permutation xs (nulls ++ map fst l1) ->
  (forall h', (forall a, ~ is_live h a -> hp_cell h' a = hp_cell h a) -> exists k, free_owned h' x = UB k) -> exists k, obind (cleanup h (xs ++ x :: ys)) g = UB k.
Proof. intros A base h l l1 l2 xs nulls x ys g S P1 Nl P2 Bad. destruct (cleanup_crash base h l l1 l2 xs nulls x ys S P1 Nl P2 Bad) as [k E]. exists k. rewrite E. reflexivity. Qed.
Lemma ext_freed : forall h h' a, heap_wf h -> ext h h' -> hp_cell h a = Freed -> hp_cell h' a = Freed.
Proof. intros h h' a W (_ & _ & K & _) C. rewrite K; [exact C|]. destruct (N.lt_ge_cases a (hp_next h)) as [L|L]; [exact L|]. destruct W as (_ & _ & W). rewrite W in C by exact L. discriminate. Qed.

Lemma masa_run : forall o w c f ld h body, ossl_sane o -> world_ok w -> heap_wf h -> plenty h -> masa_config h c f -> bytes_ok body ->
  (ld = 0 \/ serialize_str2time (mf_expires f) <> None) ->
  (masa_crash w f body /\ exists k, masa_requestvoucher o w c ld h body = UB k) \/
  (~ masa_crash w f body /\ masa_done o w f h body (masa_requestvoucher o w c ld h body)).
Proof.
  intros o w c f ld h body OS [WC WK] W PL (Cex & Cld & Cce & Cke & Crv & Crs & Cpv & Cps & Cad) B Hld.
  unfold masa_requestvoucher. rewrite c_str_ok. cbn [obind]. cbv zeta. rewrite Cex. cbn [obind].
  pose proof (st_init h W) as S0. set (base := hp_next h) in *.
  destruct (serialize_str2time (mf_expires f)) as [t|] eqn:Et.
  2:{ right. split; [intros [Q _]; congruence|]. destruct Hld as [->|Q]; [|congruence].
      apply (masa_fail o w f h body h [] _ [OArr 0; OArr 0; OArr 0; OList 0; OList 0; OList 0; OList 0; OList 0; OBuf 0; OArr 0]); [exact S0|apply ext_refl; exact W|null|perm|left; reflexivity|].
      intros (m & cms & _ & (t & _ & _ & _ & _ & _ & _ & _ & _ & Q & _) & _). congruence. }
  assert (Hld' : forall x : N, x = 0 \/ Some t <> None) by (intros x; right; discriminate). clear Hld.
  (* decode *)
  pose proof (decode_arrives h (c_string body) W PL (c_string_bytes _ B)) as D.
  destruct (rfc_decode (c_string body)) as [m|] eqn:Ed.
  - destruct D as (cms & h1 & E1 & CM0 & A1 & LB). rewrite E1. cbn [obind]. pose proof (proj1 A1) as Ex1.
    assert (NB : ~ bad_padding (c_string body)) by (rewrite decode_bad; intros [Q _]; congruence).
    destruct (arrived_list _ _ _ _ _ S0 A1) as [Fcms S1].
    pose proof (proj1 Ex1) as W1. pose proof (ext_plenty _ _ Ex1 PL) as PL1.
    (* ldevid *)
    pose proof (cert_arrives (w_cert w) h1 _ _ W1 PL1 (ext_string _ _ _ _ W Ex1 Cld)) as D2. unfold h_file_to_cert, h_file_to_keybuf. destruct (w_cert w (mf_ldevid f)) as [ldc|] eqn:El.
    2:{ rewrite D2. cbn [obind N.eqb]. right. split; [intros [_ [Q|(Q & _)]]; [contradiction|congruence]|].
        eapply (masa_fail o w f h body h1 _ _ [OArr 0; OArr 0; OArr 0; OList 0; OList 0; OList 0; OList 0; OList 0; OArr 0]); [exact S1|exact Ex1|null|perm|rewrite Et; auto|].
        intros (m' & cms' & _ & (? & ? & ? & ? & ? & ? & ? & ? & ? & _ & Q & _) & _). congruence. }
    destruct D2 as (ld2 & h2 & E2 & L0 & A2 & B2). rewrite E2. cbn [obind]. rewrite (proj2 (N.eqb_neq _ _) L0). pose proof (ext_trans _ _ _ Ex1 (proj1 A2)) as Ex2.
    destruct (arrived_list _ _ _ _ _ S1 A2) as [Fld S2]. pose proof (proj1 Ex2) as W2. pose proof (ext_plenty _ _ Ex2 PL) as PL2.
    (* cert *)
    pose proof (cert_arrives (w_cert w) h2 _ _ W2 PL2 (ext_string _ _ _ _ W Ex2 Cce)) as D3. destruct (w_cert w (mf_cert f)) as [certd|] eqn:Ec.
    2:{ rewrite D3. cbn [obind N.eqb]. right. split; [intros [_ [Q|(_ & Q & _)]]; [contradiction|congruence]|].
        eapply (masa_fail o w f h body h2 _ _ [OArr 0; OArr 0; OList 0; OList 0; OList 0; OList 0; OList 0; OArr 0]); [exact S2|exact Ex2|null|perm|rewrite Et; auto|].
        intros (m' & cms' & _ & (? & ? & ? & ? & ? & ? & ? & ? & ? & _ & _ & Q & _) & _). congruence. }
    destruct D3 as (cert & h3 & E3 & C0 & A3 & B3). rewrite E3. cbn [obind]. rewrite (proj2 (N.eqb_neq _ _) C0). pose proof (ext_trans _ _ _ Ex2 (proj1 A3)) as Ex3.
    destruct (arrived_list _ _ _ _ _ S2 A3) as [Fce S3]. pose proof (proj1 Ex3) as W3. pose proof (ext_plenty _ _ Ex3 PL) as PL3.
    (* key *)
    pose proof (cert_arrives (w_key w) h3 _ _ W3 PL3 (ext_string _ _ _ _ W Ex3 Cke)) as D4. destruct (w_key w (mf_key f)) as [keyd|] eqn:Ek.
    2:{ rewrite D4. cbn [obind N.eqb]. right. split; [intros [_ [Q|(_ & _ & Q & _)]]; [contradiction|congruence]|].
        eapply (masa_fail o w f h body h3 _ _ [OArr 0; OList 0; OList 0; OList 0; OList 0; OList 0; OArr 0]); [exact S3|exact Ex3|null|perm|rewrite Et; auto|].
        intros (m' & cms' & _ & (? & ? & ? & ? & ? & ? & ? & ? & ? & _ & _ & _ & Q & _) & _). congruence. }
    destruct D4 as (key & h4 & E4 & K0 & A4 & B4). rewrite E4. cbn [obind]. rewrite (proj2 (N.eqb_neq _ _) K0). pose proof (ext_trans _ _ _ Ex3 (proj1 A4)) as Ex4.
    destruct (arrived_list _ _ _ _ _ S3 A4) as [Fke S4]. pose proof (proj1 Ex4) as W4. pose proof (ext_plenty _ _ Ex4 PL) as PL4.
    assert (CR : Exists (missing (w_cert w)) (masa_lists f) -> masa_crash w f body).
    { intros Q. split; [congruence|]. right. repeat split; congruence. }
    (* lists *)
    destruct (list_arrives (w_cert w) h4 _ _ W4 PL4 (ext_path_list _ _ _ _ W Ex4 Crv)) as [(rv & h5 & lrv & E5 & A5 & B5 & CLrv & NMrv)|(rv & h5 & E5 & R0 & Exf & Sf & Cf & Mi)]; rewrite E5; cbn [obind].
    2:{ change ((-1 <? 0)%Z) with true. cbv iota. left. split; [apply CR; apply Exists_cons_hd; exact Mi|].
        eapply (crash_bind _ _ _ _ [(OArr key, Fke); (OArr cert, Fce); (OArr ld2, Fld)] [(OBuf cms, Fcms)] [OArr ld2; OArr cert; OArr key] (OList rv) [OList 0; OList 0; OList 0; OList 0; OBuf cms; OArr 0]); [exact (st_acquire _ _ _ _ _ S4 Exf Sf)|perm|perm|apply freed_list; assumption]. }
    change ((0 <? 0)%Z) with false. cbv iota. pose proof (ext_trans _ _ _ Ex4 (proj1 A5)) as Ex5.
    destruct (arrived_list _ _ _ _ _ S4 A5) as [Frv S5]. pose proof (proj1 Ex5) as W5. pose proof (ext_plenty _ _ Ex5 PL) as PL5.
    destruct (list_arrives (w_cert w) h5 _ _ W5 PL5 (ext_path_list _ _ _ _ W Ex5 Crs)) as [(rs & h6 & lrs & E6 & A6 & B6 & CLrs & NMrs)|(rs & h6 & E6 & R0 & Exf & Sf & Cf & Mi)]; rewrite E6; cbn [obind].
    2:{ change ((-1 <? 0)%Z) with true. cbv iota. left. split; [apply CR; apply Exists_cons_tl; apply Exists_cons_hd; exact Mi|].
        eapply (crash_bind _ _ _ _ [(OList rv, Frv); (OArr key, Fke); (OArr cert, Fce); (OArr ld2, Fld)] [(OBuf cms, Fcms)] [OArr ld2; OArr cert; OArr key; OList rv] (OList rs) [OList 0; OList 0; OList 0; OBuf cms; OArr 0]); [exact (st_acquire _ _ _ _ _ S5 Exf Sf)|perm|perm|apply freed_list; assumption]. }
    change ((0 <? 0)%Z) with false. cbv iota. pose proof (ext_trans _ _ _ Ex5 (proj1 A6)) as Ex6.
    destruct (arrived_list _ _ _ _ _ S5 A6) as [Frs S6]. pose proof (proj1 Ex6) as W6. pose proof (ext_plenty _ _ Ex6 PL) as PL6.
    destruct (list_arrives (w_cert w) h6 _ _ W6 PL6 (ext_path_list _ _ _ _ W Ex6 Cpv)) as [(pv & h7 & lpv & E7 & A7 & B7 & CLpv & NMpv)|(pv & h7 & E7 & R0 & Exf & Sf & Cf & Mi)]; rewrite E7; cbn [obind].
    2:{ change ((-1 <? 0)%Z) with true. cbv iota. left. split; [apply CR; apply Exists_cons_tl; apply Exists_cons_tl; apply Exists_cons_hd; exact Mi|].
        eapply (crash_bind _ _ _ _ [(OList rs, Frs); (OList rv, Frv); (OArr key, Fke); (OArr cert, Fce); (OArr ld2, Fld)] [(OBuf cms, Fcms)] [OArr ld2; OArr cert; OArr key; OList rv; OList rs] (OList pv) [OList 0; OList 0; OBuf cms; OArr 0]); [exact (st_acquire _ _ _ _ _ S6 Exf Sf)|perm|perm|apply freed_list; assumption]. }
    change ((0 <? 0)%Z) with false. cbv iota. pose proof (ext_trans _ _ _ Ex6 (proj1 A7)) as Ex7.
    destruct (arrived_list _ _ _ _ _ S6 A7) as [Fpv S7]. pose proof (proj1 Ex7) as W7. pose proof (ext_plenty _ _ Ex7 PL) as PL7.
    destruct (list_arrives (w_cert w) h7 _ _ W7 PL7 (ext_path_list _ _ _ _ W Ex7 Cps)) as [(ps & h8 & lps & E8 & A8 & B8 & CLps & NMps)|(ps & h8 & E8 & R0 & Exf & Sf & Cf & Mi)]; rewrite E8; cbn [obind].
    2:{ change ((-1 <? 0)%Z) with true. cbv iota. left. split; [apply CR; apply Exists_cons_tl; apply Exists_cons_tl; apply Exists_cons_tl; apply Exists_cons_hd; exact Mi|].
        eapply (crash_bind _ _ _ _ [(OList pv, Fpv); (OList rs, Frs); (OList rv, Frv); (OArr key, Fke); (OArr cert, Fce); (OArr ld2, Fld)] [(OBuf cms, Fcms)] [OArr ld2; OArr cert; OArr key; OList rv; OList rs; OList pv] (OList ps) [OList 0; OBuf cms; OArr 0]); [exact (st_acquire _ _ _ _ _ S7 Exf Sf)|perm|perm|apply freed_list; assumption]. }
    change ((0 <? 0)%Z) with false. cbv iota. pose proof (ext_trans _ _ _ Ex7 (proj1 A8)) as Ex8.
    destruct (arrived_list _ _ _ _ _ S7 A8) as [Fps S8]. pose proof (proj1 Ex8) as W8. pose proof (ext_plenty _ _ Ex8 PL) as PL8.
    destruct (list_arrives (w_cert w) h8 _ _ W8 PL8 (ext_path_list _ _ _ _ W Ex8 Cad)) as [(ad & h9 & lad & E9 & A9 & B9 & CLad & NMad)|(ad & h9 & E9 & R0 & Exf & Sf & Cf & Mi)]; rewrite E9; cbn [obind].
    2:{ change ((-1 <? 0)%Z) with true. cbv iota. left. split; [apply CR; apply Exists_cons_tl; apply Exists_cons_tl; apply Exists_cons_tl; apply Exists_cons_tl; apply Exists_cons_hd; exact Mi|].
        eapply (crash_bind _ _ _ _ [(OList ps, Fps); (OList pv, Fpv); (OList rs, Frs); (OList rv, Frv); (OArr key, Fke); (OArr cert, Fce); (OArr ld2, Fld)] [(OBuf cms, Fcms)] [OArr ld2; OArr cert; OArr key; OList rv; OList rs; OList pv; OList ps] (OList ad) [OBuf cms; OArr 0]); [exact (st_acquire _ _ _ _ _ S8 Exf Sf)|perm|perm|apply freed_list; assumption]. }
    change ((0 <? 0)%Z) with false. cbv iota. pose proof (ext_trans _ _ _ Ex8 (proj1 A9)) as Ex9.
    destruct (arrived_list _ _ _ _ _ S8 A9) as [Fad S9]. pose proof (proj1 Ex9) as W9. pose proof (ext_plenty _ _ Ex9 PL) as PL9.
    assert (NC : ~ masa_crash w f body).
    { intros [_ [Q|(_ & _ & _ & Q)]]; [contradiction|]. unfold masa_lists in Q. repeat (inversion Q as [? ? Q'|? ? Q']; subst; [contradiction|]; clear Q; rename Q' into Q). inversion Q. }
    right. split; [exact NC|]. clear NC CR.
    (* reading *)
    pose proof (proj1 A3) as X23. pose proof (ext_trans _ _ _ (proj1 A3) (proj1 A4)) as X24. pose proof (ext_trans _ _ _ X24 (proj1 A5)) as X25. pose proof (ext_trans _ _ _ X25 (proj1 A6)) as X26.
    pose proof (ext_trans _ _ _ X26 (proj1 A7)) as X27. pose proof (ext_trans _ _ _ X27 (proj1 A8)) as X28. pose proof (ext_trans _ _ _ X28 (proj1 A9)) as X29.
    pose proof (ext_trans _ _ _ (proj1 A8) (proj1 A9)) as X79. pose proof (ext_trans _ _ _ (proj1 A7) X79) as X69. pose proof (ext_trans _ _ _ (proj1 A6) X69) as X59.
    pose proof (ext_trans _ _ _ (proj1 A5) X59) as X49. pose proof (ext_trans _ _ _ (proj1 A4) X49) as X39.
    rewrite (pinned_cb h9 ld2 ldc L0 (ext_barray _ _ _ _ W2 X29 B2)). cbn [obind].
    rewrite (ext_barray _ _ _ _ W3 X39 B3). cbn [obind]. rewrite (ext_barray _ _ _ _ W4 X49 B4). cbn [obind].
    rewrite (ext_certlist _ _ _ _ W5 X59 B5). cbn [obind]. rewrite (ext_certlist _ _ _ _ W6 X69 B6). cbn [obind]. rewrite (ext_certlist _ _ _ _ W7 X79 B7). cbn [obind].
    rewrite (ext_certlist _ _ _ _ W8 (proj1 A9) B8). cbn [obind]. rewrite B9. cbn [obind].
    rewrite (with_cms_ok _ h9 cms m) by (eapply ext_load_buf; [exact W1|exact (ext_trans _ _ _ (proj1 A2) X29)|exact LB]). cbv beta.
    pose proof (rfc_decode_bytes _ _ Ed) as Bm.
    destruct (masa_safe o (Some (ba_of m)) (Some t) (Some (fun _ _ => (0%Z, ba_of ldc))) (Some (ba_of certd)) (Some (ba_of keyd)) lrv lrs lpv lps lad OS) as [v Ev];
      [apply ba_bytes_of; exact Bm|apply ba_bytes_of; apply (WC _ _ Ec)|apply ba_bytes_of; apply (WK _ _ Ek)|intros g s regs Eg; injection Eg as <-; apply ba_bytes_of; apply (WC _ _ El)|].
    rewrite Ev. cbn [obind].
    assert (RUN : forall m' cms', Some m = Some m' -> masa_runs o w f m' cms' -> v = Some cms').
    { intros m' cms' Em (t' & ldc' & cert' & key' & rv' & rs' & pv' & ps' & add' & R1 & R2 & R3 & R4 & R5 & R6 & R7 & R8 & R9 & R10). injection Em as <-.
      rewrite (cert_list_fun _ _ _ _ CLrv R5), (cert_list_fun _ _ _ _ CLrs R6), (cert_list_fun _ _ _ _ CLpv R7), (cert_list_fun _ _ _ _ CLps R8), (cert_list_fun _ _ _ _ CLad R9) in Ev.
      assert (t' = t) as -> by congruence. assert (ldc' = ldc) as -> by congruence. assert (cert' = certd) as -> by congruence. assert (key' = keyd) as -> by congruence. congruence. }
    destruct v as [v|].
    2:{ eapply (masa_fail o w f h body h9 _ _ [OArr 0]); [exact S9|exact Ex9|null|perm|rewrite Et; auto|]. intros (m' & cms' & Q1 & Q2 & _). rewrite Ed in Q1. specialize (RUN _ _ Q1 Q2). discriminate. }
    assert (RV : masa_runs o w f m v) by (exists t, ldc, certd, keyd, lrv, lrs, lpv, lps, lad; auto 20).
    pose proof (masa_runs_bytes _ _ _ _ _ OS RV) as Bv.
    destruct (new_array_arrives h9 v W9 PL9) as (vo & h10 & E10 & V0 & A10 & B10). rewrite E10. cbn [obind]. rewrite (proj2 (N.eqb_neq _ _) V0).
    destruct (arrived_list _ _ _ _ _ S9 A10) as [Fvo S10]. pose proof (ext_trans _ _ _ Ex9 (proj1 A10)) as Ex10. pose proof (proj1 Ex10) as W10. pose proof (ext_plenty _ _ Ex10 PL) as PL10.
    destruct (encode_step h10 vo v W10 PL10 Bv B10) as (h11 & E11 & Xf & Sf). rewrite E11. cbn [obind]. clear E1 E2 E3 E4 E5 E6 E7 E8 E9 E10 E11.
    pose proof (ext_trans _ _ _ Ex10 Xf) as Ex11. pose proof (st_acquire _ _ _ _ _ S10 Xf Sf) as S11. cbn [app] in S11.
    destruct (blen v <? SIZE_MAX / 4) eqn:Lv.
    + edestruct (cleanup_all base h11 _ [OArr ld2; OArr key; OArr cert; OList rv; OList rs; OList pv; OList ps; OList ad; OBuf cms; OArr vo] [] S11) as (h12 & E12 & S12 & K12 & Hn12 & Ho12); [null|perm|]. rewrite E12. cbn [obind].
      exists 200%Z, (rfc_encode v), ld2, h12. split; [reflexivity|]. split; [|split; [exact S12|split; [rewrite Et; auto|left; split; [reflexivity|]; exists m, v; split; [exact Ed|split; [exact RV|split; [lia|reflexivity]]]]]].
      destruct Ex11 as (W11 & N11 & K11 & O11). split; [eapply st_wf; exact S12|]. split; [lia|]. split; [|congruence]. intros a Ha. rewrite K12 by exact Ha. apply K11. exact Ha.
    + eapply (masa_fail o w f h body h11 _ _ []); [exact S11|exact Ex11|null|perm|rewrite Et; auto|]. intros (m' & cms' & Q1 & Q2 & Q3). rewrite Ed in Q1. specialize (RUN _ _ Q1 Q2). injection RUN as <-. lia.
  - (* nothing decoded *)
    assert (BP : bad_padding (c_string body) <-> filter b64_relevant (c_string body) <> []) by (rewrite decode_bad; intuition).
    assert (NO : ~ exists m cms, rfc_decode (c_string body) = Some m /\ masa_runs o w f m cms /\ blen cms < SIZE_MAX / 4) by (intros (m & ? & Q & _); congruence).
    assert (CR : masa_crash w f body -> bad_padding (c_string body) \/ w_cert w (mf_ldevid f) <> None /\ w_cert w (mf_cert f) <> None /\ w_key w (mf_key f) <> None /\ Exists (missing (w_cert w)) (masa_lists f)) by (intros [_ Q]; exact Q).
    assert (CB : bad_padding (c_string body) -> masa_crash w f body) by (intros Q; split; [congruence|left; exact Q]).
    destruct (filter b64_relevant (c_string body)) as [|x0 r0] eqn:Ef.
    + assert (NB : ~ bad_padding (c_string body)) by (rewrite BP; intros Q; apply Q; reflexivity). rename D into E1. pose proof (ext_refl h W) as Ex1. rename S0 into S1. rename W into W1. rename PL into PL1. set (h1 := h) in *. rewrite E1. cbn [obind].
      pose proof (cert_arrives (w_cert w) h1 _ _ W1 PL1 (ext_string _ _ _ _ W1 Ex1 Cld)) as D2. unfold h_file_to_cert, h_file_to_keybuf. destruct (w_cert w (mf_ldevid f)) as [dld2|] eqn:Elld2.
      2:{ rewrite D2. cbn [obind N.eqb]. right. split; [intros Q; destruct (CR Q) as [Q'|(Q1 & Q2 & Q3 & _)]; [contradiction|congruence]|]. eapply (masa_fail o w f h body h1 _ _ [OArr 0; OArr 0; OArr 0; OList 0; OList 0; OList 0; OList 0; OList 0; OBuf 0; OArr 0]); [exact S1|exact Ex1|null|perm|rewrite Et; auto|exact NO]. }
      destruct D2 as (ld2 & h2 & E2 & ld20 & A2 & B2). rewrite E2. cbn [obind]. rewrite (proj2 (N.eqb_neq _ _) ld20). pose proof (ext_trans _ _ _ Ex1 (proj1 A2)) as Ex2. destruct (arrived_list _ _ _ _ _ S1 A2) as [Fld2 S2]. pose proof (proj1 Ex2) as W2. pose proof (ext_plenty _ _ Ex2 PL1) as PL2.
      pose proof (cert_arrives (w_cert w) h2 _ _ W2 PL2 (ext_string _ _ _ _ W1 Ex2 Cce)) as D3. destruct (w_cert w (mf_cert f)) as [dcert|] eqn:Elcert.
      2:{ rewrite D3. cbn [obind N.eqb]. right. split; [intros Q; destruct (CR Q) as [Q'|(Q1 & Q2 & Q3 & _)]; [contradiction|congruence]|]. eapply (masa_fail o w f h body h2 _ _ [OArr 0; OArr 0; OList 0; OList 0; OList 0; OList 0; OList 0; OBuf 0; OArr 0]); [exact S2|exact Ex2|null|perm|rewrite Et; auto|exact NO]. }
      destruct D3 as (cert & h3 & E3 & cert0 & A3 & B3). rewrite E3. cbn [obind]. rewrite (proj2 (N.eqb_neq _ _) cert0). pose proof (ext_trans _ _ _ Ex2 (proj1 A3)) as Ex3. destruct (arrived_list _ _ _ _ _ S2 A3) as [Fcert S3]. pose proof (proj1 Ex3) as W3. pose proof (ext_plenty _ _ Ex3 PL1) as PL3.
      pose proof (cert_arrives (w_key w) h3 _ _ W3 PL3 (ext_string _ _ _ _ W1 Ex3 Cke)) as D4. destruct (w_key w (mf_key f)) as [dkey|] eqn:Elkey.
      2:{ rewrite D4. cbn [obind N.eqb]. right. split; [intros Q; destruct (CR Q) as [Q'|(Q1 & Q2 & Q3 & _)]; [contradiction|congruence]|]. eapply (masa_fail o w f h body h3 _ _ [OArr 0; OList 0; OList 0; OList 0; OList 0; OList 0; OBuf 0; OArr 0]); [exact S3|exact Ex3|null|perm|rewrite Et; auto|exact NO]. }
      destruct D4 as (key & h4 & E4 & key0 & A4 & B4). rewrite E4. cbn [obind]. rewrite (proj2 (N.eqb_neq _ _) key0). pose proof (ext_trans _ _ _ Ex3 (proj1 A4)) as Ex4. destruct (arrived_list _ _ _ _ _ S3 A4) as [Fkey S4]. pose proof (proj1 Ex4) as W4. pose proof (ext_plenty _ _ Ex4 PL1) as PL4.
      destruct (list_arrives (w_cert w) h4 _ _ W4 PL4 (ext_path_list _ _ _ _ W1 Ex4 Crv)) as [(rv & h5 & lrv & E5 & A5 & B5 & CLrv & NMrv)|(rv & h5 & E5 & R0 & Exf & Sf & Cf & Mi)]; rewrite E5; cbn [obind].
      2:{ change ((-1 <? 0)%Z) with true. cbv iota. left. split; [split; [congruence|right; repeat split; try congruence; apply Exists_cons_hd; exact Mi]|]. eapply (crash_bind _ _ _ _ [(OArr key, Fkey); (OArr cert, Fcert); (OArr ld2, Fld2)] [] [OArr ld2; OArr cert; OArr key] (OList rv) [OList 0; OList 0; OList 0; OList 0; OBuf 0; OArr 0]); [exact (st_acquire _ _ _ _ _ S4 Exf Sf)|perm|perm|apply freed_list; assumption]. }
      change ((0 <? 0)%Z) with false. cbv iota. pose proof (ext_trans _ _ _ Ex4 (proj1 A5)) as Ex5. destruct (arrived_list _ _ _ _ _ S4 A5) as [Frv S5]. pose proof (proj1 Ex5) as W5. pose proof (ext_plenty _ _ Ex5 PL1) as PL5.
      destruct (list_arrives (w_cert w) h5 _ _ W5 PL5 (ext_path_list _ _ _ _ W1 Ex5 Crs)) as [(rs & h6 & lrs & E6 & A6 & B6 & CLrs & NMrs)|(rs & h6 & E6 & R0 & Exf & Sf & Cf & Mi)]; rewrite E6; cbn [obind].
      2:{ change ((-1 <? 0)%Z) with true. cbv iota. left. split; [split; [congruence|right; repeat split; try congruence; apply Exists_cons_tl; apply Exists_cons_hd; exact Mi]|]. eapply (crash_bind _ _ _ _ [(OList rv, Frv); (OArr key, Fkey); (OArr cert, Fcert); (OArr ld2, Fld2)] [] [OArr ld2; OArr cert; OArr key; OList rv] (OList rs) [OList 0; OList 0; OList 0; OBuf 0; OArr 0]); [exact (st_acquire _ _ _ _ _ S5 Exf Sf)|perm|perm|apply freed_list; assumption]. }
      change ((0 <? 0)%Z) with false. cbv iota. pose proof (ext_trans _ _ _ Ex5 (proj1 A6)) as Ex6. destruct (arrived_list _ _ _ _ _ S5 A6) as [Frs S6]. pose proof (proj1 Ex6) as W6. pose proof (ext_plenty _ _ Ex6 PL1) as PL6.
      destruct (list_arrives (w_cert w) h6 _ _ W6 PL6 (ext_path_list _ _ _ _ W1 Ex6 Cpv)) as [(pv & h7 & lpv & E7 & A7 & B7 & CLpv & NMpv)|(pv & h7 & E7 & R0 & Exf & Sf & Cf & Mi)]; rewrite E7; cbn [obind].
      2:{ change ((-1 <? 0)%Z) with true. cbv iota. left. split; [split; [congruence|right; repeat split; try congruence; apply Exists_cons_tl; apply Exists_cons_tl; apply Exists_cons_hd; exact Mi]|]. eapply (crash_bind _ _ _ _ [(OList rs, Frs); (OList rv, Frv); (OArr key, Fkey); (OArr cert, Fcert); (OArr ld2, Fld2)] [] [OArr ld2; OArr cert; OArr key; OList rv; OList rs] (OList pv) [OList 0; OList 0; OBuf 0; OArr 0]); [exact (st_acquire _ _ _ _ _ S6 Exf Sf)|perm|perm|apply freed_list; assumption]. }
      change ((0 <? 0)%Z) with false. cbv iota. pose proof (ext_trans _ _ _ Ex6 (proj1 A7)) as Ex7. destruct (arrived_list _ _ _ _ _ S6 A7) as [Fpv S7]. pose proof (proj1 Ex7) as W7. pose proof (ext_plenty _ _ Ex7 PL1) as PL7.
      destruct (list_arrives (w_cert w) h7 _ _ W7 PL7 (ext_path_list _ _ _ _ W1 Ex7 Cps)) as [(ps & h8 & lps & E8 & A8 & B8 & CLps & NMps)|(ps & h8 & E8 & R0 & Exf & Sf & Cf & Mi)]; rewrite E8; cbn [obind].
      2:{ change ((-1 <? 0)%Z) with true. cbv iota. left. split; [split; [congruence|right; repeat split; try congruence; apply Exists_cons_tl; apply Exists_cons_tl; apply Exists_cons_tl; apply Exists_cons_hd; exact Mi]|]. eapply (crash_bind _ _ _ _ [(OList pv, Fpv); (OList rs, Frs); (OList rv, Frv); (OArr key, Fkey); (OArr cert, Fcert); (OArr ld2, Fld2)] [] [OArr ld2; OArr cert; OArr key; OList rv; OList rs; OList pv] (OList ps) [OList 0; OBuf 0; OArr 0]); [exact (st_acquire _ _ _ _ _ S7 Exf Sf)|perm|perm|apply freed_list; assumption]. }
      change ((0 <? 0)%Z) with false. cbv iota. pose proof (ext_trans _ _ _ Ex7 (proj1 A8)) as Ex8. destruct (arrived_list _ _ _ _ _ S7 A8) as [Fps S8]. pose proof (proj1 Ex8) as W8. pose proof (ext_plenty _ _ Ex8 PL1) as PL8.
      destruct (list_arrives (w_cert w) h8 _ _ W8 PL8 (ext_path_list _ _ _ _ W1 Ex8 Cad)) as [(ad & h9 & lad & E9 & A9 & B9 & CLad & NMad)|(ad & h9 & E9 & R0 & Exf & Sf & Cf & Mi)]; rewrite E9; cbn [obind].
      2:{ change ((-1 <? 0)%Z) with true. cbv iota. left. split; [split; [congruence|right; repeat split; try congruence; apply Exists_cons_tl; apply Exists_cons_tl; apply Exists_cons_tl; apply Exists_cons_tl; apply Exists_cons_hd; exact Mi]|]. eapply (crash_bind _ _ _ _ [(OList ps, Fps); (OList pv, Fpv); (OList rs, Frs); (OList rv, Frv); (OArr key, Fkey); (OArr cert, Fcert); (OArr ld2, Fld2)] [] [OArr ld2; OArr cert; OArr key; OList rv; OList rs; OList pv; OList ps] (OList ad) [OBuf 0; OArr 0]); [exact (st_acquire _ _ _ _ _ S8 Exf Sf)|perm|perm|apply freed_list; assumption]. }
      change ((0 <? 0)%Z) with false. cbv iota. pose proof (ext_trans _ _ _ Ex8 (proj1 A9)) as Ex9. destruct (arrived_list _ _ _ _ _ S8 A9) as [Fad S9]. pose proof (proj1 Ex9) as W9. pose proof (ext_plenty _ _ Ex9 PL1) as PL9.
      pose proof (ext_trans _ _ _ (proj1 A8) (proj1 A9)) as X79. pose proof (ext_trans _ _ _ (proj1 A7) X79) as X69. pose proof (ext_trans _ _ _ (proj1 A6) X69) as X59.
      pose proof (ext_trans _ _ _ (proj1 A5) X59) as X49. pose proof (ext_trans _ _ _ (proj1 A4) X49) as X39. pose proof (ext_trans _ _ _ (proj1 A3) X39) as X29.
      rewrite (pinned_cb h9 ld2 dld2 ld20 (ext_barray _ _ _ _ W2 X29 B2)). cbn [obind].
      rewrite (ext_barray _ _ _ _ W3 X39 B3). cbn [obind]. rewrite (ext_barray _ _ _ _ W4 X49 B4). cbn [obind].
      rewrite (ext_certlist _ _ _ _ W5 X59 B5). cbn [obind]. rewrite (ext_certlist _ _ _ _ W6 X69 B6). cbn [obind]. rewrite (ext_certlist _ _ _ _ W7 X79 B7). cbn [obind].
      rewrite (ext_certlist _ _ _ _ W8 (proj1 A9) B8). cbn [obind]. rewrite B9. cbn [obind]. unfold with_cms at 1. change ((-1 <? 0)%Z) with true. cbv iota. cbn [obind].
      right. split; [intros Q; destruct (CR Q) as [Q'|(_ & _ & _ & Q')]; [contradiction|]; unfold masa_lists in Q'; repeat (inversion Q' as [? ? Q''|? ? Q'']; subst; [contradiction|]; clear Q'; rename Q'' into Q'); inversion Q'|].
      eapply (masa_fail o w f h body h9 _ _ [OBuf 0; OArr 0]); [exact S9|exact Ex9|null|perm|rewrite Et; auto|exact NO].
    + destruct D as (cms & h1 & E1 & CM0 & Ex1 & S1' & Cc). rewrite E1. cbn [obind]. pose proof (st_acquire _ _ _ _ _ S0 Ex1 S1') as S1. cbn [app] in S1. pose proof (proj1 Ex1) as W1. pose proof (ext_plenty _ _ Ex1 PL) as PL1.
      left. split; [apply CB, BP; discriminate|].
      pose proof (cert_arrives (w_cert w) h1 _ _ W1 PL1 (ext_string _ _ _ _ W Ex1 Cld)) as D2. unfold h_file_to_cert, h_file_to_keybuf. destruct (w_cert w (mf_ldevid f)) as [dld2|] eqn:Elld2.
      2:{ rewrite D2. cbn [obind N.eqb]. eapply (crash_nulls _ _ _ _ [] [] [OArr 0; OArr 0; OArr 0; OList 0; OList 0; OList 0; OList 0; OList 0] [OArr 0; OArr 0; OArr 0; OList 0; OList 0; OList 0; OList 0; OList 0] (OBuf cms) [OArr 0]); [exact S1|perm|null|perm|apply freed_buf; assumption]. }
      destruct D2 as (ld2 & h2 & E2 & ld20 & A2 & B2). rewrite E2. cbn [obind]. rewrite (proj2 (N.eqb_neq _ _) ld20). pose proof (ext_trans _ _ _ Ex1 (proj1 A2)) as Ex2. destruct (arrived_list _ _ _ _ _ S1 A2) as [Fld2 S2]. pose proof (proj1 Ex2) as W2. pose proof (ext_plenty _ _ Ex2 PL) as PL2.
      pose proof (proj1 A2) as Xs. apply (ext_freed _ _ _ W1 Xs) in Cc. clear Xs.
      pose proof (cert_arrives (w_cert w) h2 _ _ W2 PL2 (ext_string _ _ _ _ W Ex2 Cce)) as D3. destruct (w_cert w (mf_cert f)) as [dcert|] eqn:Elcert.
      2:{ rewrite D3. cbn [obind N.eqb]. eapply (crash_nulls _ _ _ _ [(OArr ld2, Fld2)] [] [OArr ld2; OArr 0; OArr 0; OList 0; OList 0; OList 0; OList 0; OList 0] [OArr 0; OArr 0; OList 0; OList 0; OList 0; OList 0; OList 0] (OBuf cms) [OArr 0]); [exact S2|perm|null|perm|apply freed_buf; assumption]. }
      destruct D3 as (cert & h3 & E3 & cert0 & A3 & B3). rewrite E3. cbn [obind]. rewrite (proj2 (N.eqb_neq _ _) cert0). pose proof (ext_trans _ _ _ Ex2 (proj1 A3)) as Ex3. destruct (arrived_list _ _ _ _ _ S2 A3) as [Fcert S3]. pose proof (proj1 Ex3) as W3. pose proof (ext_plenty _ _ Ex3 PL) as PL3.
      pose proof (proj1 A3) as Xs. apply (ext_freed _ _ _ W2 Xs) in Cc. clear Xs.
      pose proof (cert_arrives (w_key w) h3 _ _ W3 PL3 (ext_string _ _ _ _ W Ex3 Cke)) as D4. destruct (w_key w (mf_key f)) as [dkey|] eqn:Elkey.
      2:{ rewrite D4. cbn [obind N.eqb]. eapply (crash_nulls _ _ _ _ [(OArr cert, Fcert); (OArr ld2, Fld2)] [] [OArr ld2; OArr cert; OArr 0; OList 0; OList 0; OList 0; OList 0; OList 0] [OArr 0; OList 0; OList 0; OList 0; OList 0; OList 0] (OBuf cms) [OArr 0]); [exact S3|perm|null|perm|apply freed_buf; assumption]. }
      destruct D4 as (key & h4 & E4 & key0 & A4 & B4). rewrite E4. cbn [obind]. rewrite (proj2 (N.eqb_neq _ _) key0). pose proof (ext_trans _ _ _ Ex3 (proj1 A4)) as Ex4. destruct (arrived_list _ _ _ _ _ S3 A4) as [Fkey S4]. pose proof (proj1 Ex4) as W4. pose proof (ext_plenty _ _ Ex4 PL) as PL4.
      pose proof (proj1 A4) as Xs. apply (ext_freed _ _ _ W3 Xs) in Cc. clear Xs.
      destruct (list_arrives (w_cert w) h4 _ _ W4 PL4 (ext_path_list _ _ _ _ W Ex4 Crv)) as [(rv & h5 & lrv & E5 & A5 & B5 & CLrv & NMrv)|(rv & h5 & E5 & R0 & Exf & Sf & Cf & Mi)]; rewrite E5; cbn [obind].
      2:{ change ((-1 <? 0)%Z) with true. cbv iota. eapply (crash_bind _ _ _ _ [(OArr key, Fkey); (OArr cert, Fcert); (OArr ld2, Fld2)] [] [OArr ld2; OArr cert; OArr key] (OList rv) [OList 0; OList 0; OList 0; OList 0; OBuf cms; OArr 0]); [exact (st_acquire _ _ _ _ _ S4 Exf Sf)|perm|perm|apply freed_list; assumption]. }
      change ((0 <? 0)%Z) with false. cbv iota. pose proof (ext_trans _ _ _ Ex4 (proj1 A5)) as Ex5. destruct (arrived_list _ _ _ _ _ S4 A5) as [Frv S5]. pose proof (proj1 Ex5) as W5. pose proof (ext_plenty _ _ Ex5 PL) as PL5.
      pose proof (proj1 A5) as Xs. apply (ext_freed _ _ _ W4 Xs) in Cc. clear Xs.
      destruct (list_arrives (w_cert w) h5 _ _ W5 PL5 (ext_path_list _ _ _ _ W Ex5 Crs)) as [(rs & h6 & lrs & E6 & A6 & B6 & CLrs & NMrs)|(rs & h6 & E6 & R0 & Exf & Sf & Cf & Mi)]; rewrite E6; cbn [obind].
      2:{ change ((-1 <? 0)%Z) with true. cbv iota. eapply (crash_bind _ _ _ _ [(OList rv, Frv); (OArr key, Fkey); (OArr cert, Fcert); (OArr ld2, Fld2)] [] [OArr ld2; OArr cert; OArr key; OList rv] (OList rs) [OList 0; OList 0; OList 0; OBuf cms; OArr 0]); [exact (st_acquire _ _ _ _ _ S5 Exf Sf)|perm|perm|apply freed_list; assumption]. }
      change ((0 <? 0)%Z) with false. cbv iota. pose proof (ext_trans _ _ _ Ex5 (proj1 A6)) as Ex6. destruct (arrived_list _ _ _ _ _ S5 A6) as [Frs S6]. pose proof (proj1 Ex6) as W6. pose proof (ext_plenty _ _ Ex6 PL) as PL6.
      pose proof (proj1 A6) as Xs. apply (ext_freed _ _ _ W5 Xs) in Cc. clear Xs.
      destruct (list_arrives (w_cert w) h6 _ _ W6 PL6 (ext_path_list _ _ _ _ W Ex6 Cpv)) as [(pv & h7 & lpv & E7 & A7 & B7 & CLpv & NMpv)|(pv & h7 & E7 & R0 & Exf & Sf & Cf & Mi)]; rewrite E7; cbn [obind].
      2:{ change ((-1 <? 0)%Z) with true. cbv iota. eapply (crash_bind _ _ _ _ [(OList rs, Frs); (OList rv, Frv); (OArr key, Fkey); (OArr cert, Fcert); (OArr ld2, Fld2)] [] [OArr ld2; OArr cert; OArr key; OList rv; OList rs] (OList pv) [OList 0; OList 0; OBuf cms; OArr 0]); [exact (st_acquire _ _ _ _ _ S6 Exf Sf)|perm|perm|apply freed_list; assumption]. }
      change ((0 <? 0)%Z) with false. cbv iota. pose proof (ext_trans _ _ _ Ex6 (proj1 A7)) as Ex7. destruct (arrived_list _ _ _ _ _ S6 A7) as [Fpv S7]. pose proof (proj1 Ex7) as W7. pose proof (ext_plenty _ _ Ex7 PL) as PL7.
      pose proof (proj1 A7) as Xs. apply (ext_freed _ _ _ W6 Xs) in Cc. clear Xs.
      destruct (list_arrives (w_cert w) h7 _ _ W7 PL7 (ext_path_list _ _ _ _ W Ex7 Cps)) as [(ps & h8 & lps & E8 & A8 & B8 & CLps & NMps)|(ps & h8 & E8 & R0 & Exf & Sf & Cf & Mi)]; rewrite E8; cbn [obind].
      2:{ change ((-1 <? 0)%Z) with true. cbv iota. eapply (crash_bind _ _ _ _ [(OList pv, Fpv); (OList rs, Frs); (OList rv, Frv); (OArr key, Fkey); (OArr cert, Fcert); (OArr ld2, Fld2)] [] [OArr ld2; OArr cert; OArr key; OList rv; OList rs; OList pv] (OList ps) [OList 0; OBuf cms; OArr 0]); [exact (st_acquire _ _ _ _ _ S7 Exf Sf)|perm|perm|apply freed_list; assumption]. }
      change ((0 <? 0)%Z) with false. cbv iota. pose proof (ext_trans _ _ _ Ex7 (proj1 A8)) as Ex8. destruct (arrived_list _ _ _ _ _ S7 A8) as [Fps S8]. pose proof (proj1 Ex8) as W8. pose proof (ext_plenty _ _ Ex8 PL) as PL8.
      pose proof (proj1 A8) as Xs. apply (ext_freed _ _ _ W7 Xs) in Cc. clear Xs.
      destruct (list_arrives (w_cert w) h8 _ _ W8 PL8 (ext_path_list _ _ _ _ W Ex8 Cad)) as [(ad & h9 & lad & E9 & A9 & B9 & CLad & NMad)|(ad & h9 & E9 & R0 & Exf & Sf & Cf & Mi)]; rewrite E9; cbn [obind].
      2:{ change ((-1 <? 0)%Z) with true. cbv iota. eapply (crash_bind _ _ _ _ [(OList ps, Fps); (OList pv, Fpv); (OList rs, Frs); (OList rv, Frv); (OArr key, Fkey); (OArr cert, Fcert); (OArr ld2, Fld2)] [] [OArr ld2; OArr cert; OArr key; OList rv; OList rs; OList pv; OList ps] (OList ad) [OBuf cms; OArr 0]); [exact (st_acquire _ _ _ _ _ S8 Exf Sf)|perm|perm|apply freed_list; assumption]. }
      change ((0 <? 0)%Z) with false. cbv iota. pose proof (ext_trans _ _ _ Ex8 (proj1 A9)) as Ex9. destruct (arrived_list _ _ _ _ _ S8 A9) as [Fad S9]. pose proof (proj1 Ex9) as W9. pose proof (ext_plenty _ _ Ex9 PL) as PL9.
      pose proof (proj1 A9) as Xs. apply (ext_freed _ _ _ W8 Xs) in Cc. clear Xs.
      pose proof (ext_trans _ _ _ (proj1 A8) (proj1 A9)) as X79. pose proof (ext_trans _ _ _ (proj1 A7) X79) as X69. pose proof (ext_trans _ _ _ (proj1 A6) X69) as X59.
      pose proof (ext_trans _ _ _ (proj1 A5) X59) as X49. pose proof (ext_trans _ _ _ (proj1 A4) X49) as X39. pose proof (ext_trans _ _ _ (proj1 A3) X39) as X29.
      rewrite (pinned_cb h9 ld2 dld2 ld20 (ext_barray _ _ _ _ W2 X29 B2)). cbn [obind].
      rewrite (ext_barray _ _ _ _ W3 X39 B3). cbn [obind]. rewrite (ext_barray _ _ _ _ W4 X49 B4). cbn [obind].
      rewrite (ext_certlist _ _ _ _ W5 X59 B5). cbn [obind]. rewrite (ext_certlist _ _ _ _ W6 X69 B6). cbn [obind]. rewrite (ext_certlist _ _ _ _ W7 X79 B7). cbn [obind].
      rewrite (ext_certlist _ _ _ _ W8 (proj1 A9) B8). cbn [obind]. rewrite B9. cbn [obind]. unfold with_cms at 1. change ((-1 <? 0)%Z) with true. cbv iota. cbn [obind].
      eapply (crash_bind _ _ _ _ [(OList ad, Fad); (OList ps, Fps); (OList pv, Fpv); (OList rs, Frs); (OList rv, Frv); (OArr key, Fkey); (OArr cert, Fcert); (OArr ld2, Fld2)] [] [OArr ld2; OArr cert; OArr key; OList rv; OList rs; OList pv; OList ps; OList ad] (OBuf cms) [OArr 0]); [exact S9|perm|perm|apply freed_buf; assumption].
Qed.

Lemma masa_runs_issues : forall o w f m cms, ossl_sane o -> masa_runs o w f m cms -> masa_issues o w f m cms.
Proof.
  intros o w f m cms OS (t & ldc & cert & key & rv & rs & pv & ps & add & H1 & H2 & H3 & H4 & H5 & H6 & H7 & H8 & H9 & H).
  destruct (masa_voucher_says _ _ _ _ _ _ _ _ _ _ _ _ OS H) as
    (rc & vr & regs & prior & p & pvr & t' & fn & s & rcode & pinned & d & n & A1 & A2 & A3 & A4 & A5 & -> & A7 & A8 & A9 & A10 & A11 & A12 & A13 & A14).
  injection A1 as <-. injection A2 as <-. injection A3 as <-. injection A10 as <- <-.
  assert (d = ldc) as ->.
  { destruct A12 as (b' & rest & Q1 & Q2 & Q3). injection Q1 as <-. cbn [ba_data ba_len ba_of] in *. injection Q2 as ->. unfold blen in Q3. rewrite app_length in Q3. destruct rest; [rewrite app_nil_r; reflexivity|cbn [List.length] in Q3; lia]. }
  exists t, ldc, cert, key, rv, rs, pv, ps, add, vr, regs, p, pvr, s, n. repeat (split; [assumption|]). assumption.
Qed.

Lemma masa_issues_runs : forall o w f m cms, ossl_sane o -> masa_issues o w f m cms -> masa_runs o w f m cms.
Proof.
  intros o w f m cms OS (t & ldc & cert & key & rv & rs & pv & ps & add & vr & regs & p & pvr & s & n & H1 & H2 & H3 & H4 & H5 & H6 & H7 & H8 & H9 & A1 & A2 & A3 & A4 & A5 & A6 & A7).
  exists t, ldc, cert, key, rv, rs, pv, ps, add. repeat (split; [assumption|]). apply masa_iff; [exact OS|].
  exists (ba_of m), vr, regs, p, pvr, t, (fun _ _ => (0%Z, ba_of ldc)), s, 0%Z, (ba_of ldc), ldc, n. repeat (split; [reflexivity || assumption || lia|]). split; [apply ba_of_has|]. auto.
Qed.

Lemma ext_config : forall h h' c f, heap_wf h -> ext h h' -> masa_config h c f -> masa_config h' c f.
Proof.
  intros h h' c f W E (Cex & Cld & Cce & Cke & Crv & Crs & Cpv & Cps & Cad).
  split; [eapply ext_opt_string; eassumption|]. split; [eapply ext_string; eassumption|]. split; [eapply ext_string; eassumption|]. split; [eapply ext_string; eassumption|].
  split; [eapply ext_path_list; eassumption|]. split; [eapply ext_path_list; eassumption|]. split; [eapply ext_path_list; eassumption|]. split; [eapply ext_path_list; eassumption|]. eapply ext_path_list; eassumption.
Qed.

Lemma masa_one : forall o w c f ld h body status response ld' h', ossl_sane o -> world_ok w -> heap_wf h -> plenty h -> masa_config h c f -> bytes_ok body ->
  (ld = 0 \/ serialize_str2time (mf_expires f) <> None) -> masa_requestvoucher o w c ld h body = Ok (status, response, ld', h') ->
  masa_answer o w f body (status, response) /\ ext h h' /\ st (hp_next h) h' [] /\ (ld' = 0 \/ serialize_str2time (mf_expires f) <> None).
Proof.
  intros o w c f ld h body status response ld' h' OS WO W PL MC B Hld E. destruct (masa_run o w c f ld h body OS WO W PL MC B Hld) as [[_ [k Q]]|[_ D]]; [congruence|].
  destruct D as (s1 & r1 & l1 & h1 & Q & X & S & L & D). rewrite E in Q. injection Q as <- <- <- <-. split; [|auto]. unfold masa_answer. cbn [fst snd].
  destruct D as [(-> & m & cms & Q1 & Q2 & _ & ->)|(-> & -> & Q)]; [left|right].
  - split; [reflexivity|]. exists m, cms. split; [exact Q1|]. split; [|reflexivity]. eapply masa_runs_issues; eassumption.
  - split; [reflexivity|]. split; [reflexivity|]. intros (m & cms & Q1 & Q2 & Q3). apply Q. exists m, cms. split; [exact Q1|]. split; [|exact Q3]. apply masa_issues_runs; assumption.
Qed.

Lemma st_chain : forall base h h', st base h [] -> ext h h' -> st (hp_next h) h' [] -> st base h' [].
Proof. intros base h h' S E S'. exact (st_acquire _ _ _ _ _ S E S'). Qed.

Lemma masa_sequence : forall o w c f bodies ld h, ossl_sane o -> world_ok w -> heap_wf h -> plenty h -> masa_config h c f -> Forall bytes_ok bodies ->
  (ld = 0 \/ serialize_str2time (mf_expires f) <> None) ->
  (Exists (masa_crash w f) bodies /\ exists k, masa_serves o w c ld h bodies = UB k) \/
  (~ Exists (masa_crash w f) bodies /\ exists answers h', masa_serves o w c ld h bodies = Ok (answers, h') /\ ext h h' /\ st (hp_next h) h' [] /\ Forall2 (masa_answer o w f) bodies answers).
Proof.
  intros o w c f bodies. induction bodies as [|b r IH]; intros ld h OS WO W PL MC B Hld.
  { right. split; [intros Q; inversion Q|]. exists [], h. split; [reflexivity|]. split; [apply ext_refl; exact W|]. split; [apply st_init; exact W|constructor]. }
  inversion B as [|? ? B1 B2]; subst. cbn [masa_serves].
  destruct (masa_run o w c f ld h b OS WO W PL MC B1 Hld) as [[C [k E]]|[NC D]].
  { left. split; [apply Exists_cons_hd; exact C|]. exists k. rewrite E. reflexivity. }
  destruct D as (s1 & r1 & l1 & h1 & E & X & S & L & D). rewrite E. cbn [obind].
  destruct (masa_one _ _ _ _ _ _ _ _ _ _ _ OS WO W PL MC B1 Hld E) as (A & _ & _ & _).
  destruct (IH l1 h1 OS WO (proj1 X) (ext_plenty _ _ X PL) (ext_config _ _ _ _ W X MC) B2 L) as [[C [k E2]]|[NC2 (ans & h2 & E2 & X2 & S2 & F2)]]; rewrite E2; cbn [obind fst snd].
  - left. split; [apply Exists_cons_tl; exact C|]. exists k. reflexivity.
  - right. split; [intros Q; inversion Q; subst; contradiction|]. exists ((s1, r1) :: ans), h2. split; [reflexivity|]. split; [eapply ext_trans; eassumption|]. split; [eapply st_chain; eassumption|]. constructor; assumption.
Qed.

Lemma masa_survives_iff : forall o w c f bodies h, ossl_sane o -> world_ok w -> heap_wf h -> plenty h -> masa_config h c f -> Forall bytes_ok bodies ->
  ((exists k, masa_serves o w c 0 h bodies = UB k) <-> Exists (masa_crash w f) bodies).
Proof.
  intros o w c f bodies h OS WO W PL MC B. destruct (masa_sequence o w c f bodies 0 h OS WO W PL MC B (or_introl eq_refl)) as [[C E]|[NC (ans & h2 & E2 & _)]]; [tauto|].
  split; [intros [k Q]; congruence|contradiction].
Qed.
Lemma masa_answers : forall o w c f bodies h answers h', ossl_sane o -> world_ok w -> heap_wf h -> plenty h -> masa_config h c f -> Forall bytes_ok bodies ->
  masa_serves o w c 0 h bodies = Ok (answers, h') -> Forall2 (masa_answer o w f) bodies answers.
Proof.
  intros o w c f bodies h answers h' OS WO W PL MC B E. destruct (masa_sequence o w c f bodies 0 h OS WO W PL MC B (or_introl eq_refl)) as [[C [k Q]]|[NC (ans & h2 & E2 & _ & _ & F)]]; [congruence|].
  rewrite E in E2. injection E2 as <- <-. exact F.
Qed.
Lemma masa_survives : forall o w c f bodies h, ossl_sane o -> world_ok w -> heap_wf h -> plenty h -> masa_config h c f -> Forall bytes_ok bodies ->
  Forall (fun ts => ~ missing (w_cert w) ts) (masa_lists f) -> Forall (fun b => ~ bad_padding (c_string b)) bodies ->
  exists answers h', masa_serves o w c 0 h bodies = Ok (answers, h') /\ kept (hp_next h) h h' /\ no_leak (hp_next h) h'.
Proof.
  intros o w c f bodies h OS WO W PL MC B Fl Fb. destruct (masa_sequence o w c f bodies 0 h OS WO W PL MC B (or_introl eq_refl)) as [[C _]|[NC (ans & h2 & E2 & X & S & F)]].
  - exfalso. apply Exists_exists in C. destruct C as (b & Hb & _ & [Q|(_ & _ & _ & Q)]).
    + rewrite Forall_forall in Fb. exact (Fb _ Hb Q).
    + apply Exists_exists in Q. destruct Q as (ts & Ht & Q). rewrite Forall_forall in Fl. exact (Fl _ Ht Q).
  - exists ans, h2. split; [exact E2|]. split; [exact (proj1 (proj2 (proj2 X)))|]. eapply st_leak. exact S.
Qed.
Lemma masa_released : forall o w c f bodies h answers h', ossl_sane o -> world_ok w -> heap_wf h -> plenty h -> masa_config h c f -> Forall bytes_ok bodies ->
  masa_serves o w c 0 h bodies = Ok (answers, h') -> kept (hp_next h) h h' /\ no_leak (hp_next h) h'.
Proof.
  intros o w c f bodies h answers h' OS WO W PL MC B E. destruct (masa_sequence o w c f bodies 0 h OS WO W PL MC B (or_introl eq_refl)) as [[C [k Q]]|[NC (ans & h2 & E2 & X & S & F)]]; [congruence|].
  rewrite E in E2. injection E2 as <- <-. split; [exact (proj1 (proj2 (proj2 X)))|]. eapply st_leak. exact S.
Qed.

(** A MASA with one trusted registrar and one trusted manufacturer. *)
Definition cells (l : list cell) (a : N) : cell := nth (N.to_nat a) l Fresh.
Definition text (s : bytes) : cell := Live (Buf (s ++ [0])).
Definition one_path (head : N) : list cell :=
  [Live (Struct [P 0; I 0; I 0; P (head + 1); P (head + 1); P head]); Live (Struct [P (head + 2); I 2; I 0; P head; P head; P (head + 1)])].
Definition masa_cells : list cell :=
  [Fresh; text (s2b "1973-11-29T21:33:09Z"); text (s2b "ldevid"); text (s2b "masa"); text (s2b "masakey")] ++ one_path 5 ++ [text (s2b "registrar")] ++ one_path 8 ++ [text (s2b "maker")].
Definition masa_case : heap := mk_heap 11 (cells masa_cells) (fun _ => false).
Definition masa_case_conf : masa_conf := mk_mconf 1 2 3 4 0 5 0 8 0.
Definition masa_case_files : masa_files := mk_mfiles (Some (s2b "1973-11-29T21:33:09Z")) (s2b "ldevid") (s2b "masa") (s2b "masakey") [] [s2b "registrar"] [] [s2b "maker"] [].
Definition files_case (l : list (bytes * bytes)) (t : bytes) : option bytes := option_map snd (find (fun e => beqb (fst e) t) l).
Definition masa_world : world :=
  mk_world (files_case [(s2b "ldevid", [7; 7]); (s2b "masa", [3; 0]); (s2b "registrar", [2; 0]); (s2b "maker", [1; 0])]) (files_case [(s2b "masakey", [3])]) None.

Lemma cells_wf : forall n l oom, 0 < n -> (List.length l <= N.to_nat n)%nat -> nth 0 l Fresh = Fresh -> heap_wf (mk_heap n (cells l) oom).
Proof. intros n l oom N0 L Z. split; [exact N0|]. split; [exact Z|]. intros a Ha. cbn [hp_next hp_cell] in *. unfold cells. apply nth_overflow. lia. Qed.
Lemma files_ok : forall l, Forall (fun e => bytes_okb (snd e) = true) l -> forall t d, files_case l t = Some d -> bytes_ok d.
Proof.
  intros l F t d H. unfold files_case in H. destruct (find _ l) as [e|] eqn:E; [|discriminate]. injection H as <-. apply find_some in E. rewrite Forall_forall in F. apply bytes_okb_ok. apply F. tauto.
Qed.
Lemma masa_world_ok : world_ok masa_world.
Proof. split; apply files_ok; repeat (apply Forall_cons; [reflexivity|]); apply Forall_nil. Qed.
Lemma masa_case_wf : heap_wf masa_case.
Proof. apply cells_wf; [lia|vm_compute; lia|reflexivity]. Qed.
Lemma one_path_list : forall h head q t, dl_list_for_each arr_off h head = Ok [head + 1] -> dl_list_len arr_off h head = Ok 1 -> get_ptr h (head + 1) 0 = Ok q -> heap_string h q = Ok t -> path_list h head [t].
Proof. intros h head q t H1 H2 H3 H4. right. exists [head + 1]. split; [exact H1|]. split; [exact H2|]. constructor; [|constructor]. exists q. auto. Qed.
Lemma masa_case_config : masa_config masa_case masa_case_conf masa_case_files.
Proof.
  split; [reflexivity|]. split; [reflexivity|]. split; [reflexivity|]. split; [reflexivity|].
  split; [left; split; reflexivity|]. split; [apply (one_path_list _ 5 7); vm_compute; reflexivity|]. split; [left; split; reflexivity|]. split; [apply (one_path_list _ 8 10); vm_compute; reflexivity|]. left; split; reflexivity.
Qed.
