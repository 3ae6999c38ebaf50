(** The MASA's endpoint with the memory of request.c. *)
From Coq Require Import Permutation ZifyBool ZifyNat ZifyN.
From Verif Require Import Base PBase MOs MBase64 MSerialize MVoucher MCrypto MRequest MHeap MArray MVoucherHeap MConfig MHandlers MSerialHeap MRequestHeap MHandlerHeap
  SBase64 SHeap SArray SConfig SVoucher SRequest SHandlers SSerialHeap SRequestHeap SHandlerHeap
  PBase64 PHeap PArray PBlocks PConfig PConfigMore PCertFiles POwn PHold PVoucherHeap PAcquire PRequest PRequest2 PRequest3 PRequest4 PRequest5 PRequest6 PRequest7 PMasa
  PRequestHeap PRequestHeap3 PRequestHeap4 PRequestHeap6 PRequestHeap8 PRequestHeap9 PHandlerHeap.
Open Scope N_scope.

(** The call of MHandlers, as an argument of the handler. *)
Definition masa_sign_values (o : ossl) : masa_sign_fn := fun h rc cms t pinned cert key rv rs pv ps add =>
  obind (h_barray h cert) (fun bcert => obind (h_barray h key) (fun bkey => obind (h_certlist h rv) (fun lrv => obind (h_certlist h rs) (fun lrs =>
  obind (h_certlist h pv) (fun lpv => obind (h_certlist h ps) (fun lps => obind (h_certlist h add) (fun ladd =>
  obind (with_cms h rc cms (fun b => sign_masa_pledge_voucher o b (Some t) (Some (fun _ _ => pinned)) bcert bkey lrv lrs lpv lps ladd)) (fun v =>
  match v with None => Ok (0, h) | Some v => h_new_array h (Some v) end)))))))).

Tactic Notation "same" simple_intropattern(p) := match goal with |- obind ?x _ = obind ?x _ => destruct x as [p|]; cbn [obind]; [|reflexivity] end.
Lemma masa_values : forall o w c ld h body, masa_requestvoucher o w c ld h body = masa_handler (masa_sign_values o) w c ld h body.
Proof.
  intros o w c ld h body. unfold masa_requestvoucher, masa_handler, masa_sign_values. same cs. same ex. cbv zeta. destruct (serialize_str2time _) as [t|]; [|reflexivity].
  same [[rc cms] h1]. same [ld2 h2]. destruct (ld2 =? 0); [reflexivity|]. same [cert h3]. destruct (cert =? 0); [reflexivity|].
  same [key h4]. destruct (key =? 0); [reflexivity|]. same [[z rv] h5]. destruct (z <? 0)%Z; [reflexivity|]. same [[z1 rs] h6]. destruct (z1 <? 0)%Z; [reflexivity|].
  same [[z2 pv] h7]. destruct (z2 <? 0)%Z; [reflexivity|]. same [[z3 ps] h8]. destruct (z3 <? 0)%Z; [reflexivity|]. same [[z4 ad] h9]. destruct (z4 <? 0)%Z; [reflexivity|].
  same pinned. destruct (h_barray h9 cert); cbn [obind]; [|reflexivity]. destruct (h_barray h9 key); cbn [obind]; [|reflexivity]. destruct (h_certlist h9 rv); cbn [obind]; [|reflexivity]. destruct (h_certlist h9 rs); cbn [obind]; [|reflexivity].
  destruct (h_certlist h9 pv); cbn [obind]; [|reflexivity]. destruct (h_certlist h9 ps); cbn [obind]; [|reflexivity]. destruct (h_certlist h9 ad); cbn [obind]; [|reflexivity].
  destruct (with_cms _ _ _ _) as [[v|]|]; cbn [obind]; [|reflexivity|reflexivity]. destruct (h_new_array h9 (Some v)) as [[vo h10]|]; cbn [obind]; reflexivity.
Qed.

(** What comes after the call. *)
Definition masa_tail (ld cert key rv rs pv ps add cms : N) (x : N * heap) : outcome (Z * bytes * N * heap) :=
  let (voucher, h) := x in
  let fail h voucher := obind (cleanup h [OArr ld; OArr cert; OArr key; OList rv; OList rs; OList pv; OList ps; OList add; OBuf cms; OArr voucher]) (fun h => Ok (400%Z, [], ld, h)) in
  if voucher =? 0 then fail h 0
  else obind (h_array2base64 h voucher) (fun y =>
    let (text, h) := y in
    match text with
    | None => fail h voucher
    | Some text => obind (cleanup h [OArr ld; OArr key; OArr cert; OList rv; OList rs; OList pv; OList ps; OList add; OBuf cms; OArr voucher]) (fun h => Ok (200%Z, text, ld, h))
    end).

(** The state in which request.c is called. *)
Definition masa_reached (w : world) (c : masa_conf) (f : masa_files) (ld : N) (h : heap) (body : bytes) : Prop :=
  exists t m cms ldc ld' certd cert keyd key rv lrv rs lrs pv lpv ps lps ad lad h9 l,
    serialize_str2time (mf_expires f) = Some t /\ rfc_decode (c_string body) = Some m /\
    w_cert w (mf_ldevid f) = Some ldc /\ w_cert w (mf_cert f) = Some certd /\ w_key w (mf_key f) = Some keyd /\
    cert_list (w_cert w) (mf_verify f) lrv /\ cert_list (w_cert w) (mf_store f) lrs /\ cert_list (w_cert w) (mf_pverify f) lpv /\ cert_list (w_cert w) (mf_pstore f) lps /\ cert_list (w_cert w) (mf_add f) lad /\
    ext h h9 /\ st (hp_next h) h9 l /\ map fst l = [OList ad; OList ps; OList pv; OList rs; OList rv; OArr key; OArr cert; OArr ld'; OBuf cms] /\
    cms <> 0 /\ load_buf h9 cms = Ok (Some m) /\ array_at h9 (cert, 0%nat) (Some (ba_of certd)) /\ array_at h9 (key, 0%nat) (Some (ba_of keyd)) /\
    h_certlist h9 rv = Ok lrv /\ h_certlist h9 rs = Ok lrs /\ h_certlist h9 pv = Ok lpv /\ h_certlist h9 ps = Ok lps /\ h_certlist h9 ad = Ok lad /\
    forall sign, masa_handler sign w c ld h body = obind (sign h9 (Z.of_N (blen m)) cms t (0%Z, ba_of ldc) cert key rv rs pv ps ad) (masa_tail ld' cert key rv rs pv ps ad cms).

Ltac unlisted M Q := repeat (let Q1 := fresh "Q" in let Q2 := fresh "Q" in inversion Q as [|? ? Q1 Q2]; subst; first [contradiction|clear Q Q1; rename Q2 into Q]).

Lemma masa_reach : forall s1 s2 w c f ld h body, heap_wf h -> plenty h -> masa_config h c f -> bytes_ok body ->
  (forall h rc cms t pinned cert key rv rs pv ps add x1 x2 x3 x4 x5 x6 x7, (rc < 0)%Z -> h_barray h cert = Ok x1 -> h_barray h key = Ok x2 -> h_certlist h rv = Ok x3 -> h_certlist h rs = Ok x4 -> h_certlist h pv = Ok x5 -> h_certlist h ps = Ok x6 -> h_certlist h add = Ok x7 ->
     s1 h rc cms t pinned cert key rv rs pv ps add = s2 h rc cms t pinned cert key rv rs pv ps add) ->
  (masa_handler s1 w c ld h body = masa_handler s2 w c ld h body /\ ~ masa_ready w f body) \/ masa_reached w c f ld h body.
Proof.
  intros s1 s2 w c f ld h body W PL (Cex & Cld & Cce & Cke & Crv & Crs & Cpv & Cps & Cad) B SS.
  assert (HU : forall sg, masa_handler sg w c ld h body = masa_handler sg w c ld h body) by reflexivity.
  unfold masa_handler at 2 in HU. unfold masa_handler at 1 2. rewrite c_str_ok in HU |- *. cbn [obind] in HU |- *. cbv zeta in HU |- *. rewrite Cex in HU |- *. cbn [obind] in HU |- *.
  pose proof (st_init h W) as S0. set (base := hp_next h) in *.
  destruct (serialize_str2time (mf_expires f)) as [t|] eqn:Et; [|left; split; [reflexivity|intros (Q & _); contradiction]].
  pose proof (decode_arrives h (c_string body) W PL (c_string_bytes _ B)) as D.
  assert (NEXT : exists rc cms h1, h_base64str2array h (c_string body) = Ok (rc, cms, h1) /\ ext h h1 /\
    ((rc < 0)%Z /\ rfc_decode (c_string body) = None \/ exists m, rfc_decode (c_string body) = Some m /\ rc = Z.of_N (blen m) /\ cms <> 0 /\ arrived h h1 (OBuf cms) /\ load_buf h1 cms = Ok (Some m))).
  { destruct (rfc_decode (c_string body)) as [m|]; [destruct D as (cms & h1 & E1 & CM0 & A1 & LB); exists (Z.of_N (blen m)), cms, h1; split; [exact E1|]; split; [apply A1|]; right; exists m; auto|].
    destruct (filter b64_relevant (c_string body)); [exists (-1)%Z, 0, h; split; [exact D|]; split; [apply ext_refl; exact W|left; split; [lia|reflexivity]]|].
    destruct D as (cms & h1 & E1 & _ & X & _). exists (-1)%Z, cms, h1. split; [exact E1|]. split; [exact X|left; split; [lia|reflexivity]]. }
  clear D. destruct NEXT as (rc & cms & h1 & E1 & Ex1 & DD). rewrite E1 in HU |- *. cbn [obind] in HU |- *.
  pose proof (proj1 Ex1) as W1. pose proof (ext_plenty _ _ Ex1 PL) as PL1.
  (* the three files *)
  pose proof (cert_comes (w_cert w) h1 _ _ W1 PL1 (ext_string _ _ _ _ W Ex1 Cld)) as D2. unfold h_file_to_cert, h_file_to_keybuf in HU |- *. destruct (w_cert w (mf_ldevid f)) as [ldc|] eqn:El; [|rewrite D2; left; split; [reflexivity|intros (_ & _ & Q & _); contradiction]].
  destruct D2 as (ld2 & h2 & E2 & L0 & A2 & B2 & _). rewrite E2 in HU |- *. cbn [obind] in HU |- *. rewrite (proj2 (N.eqb_neq _ _) L0) in HU |- *. pose proof (ext_trans _ _ _ Ex1 (proj1 A2)) as Ex2.
  pose proof (proj1 Ex2) as W2. pose proof (ext_plenty _ _ Ex2 PL) as PL2.
  pose proof (cert_comes (w_cert w) h2 _ _ W2 PL2 (ext_string _ _ _ _ W Ex2 Cce)) as D3. destruct (w_cert w (mf_cert f)) as [certd|] eqn:Ec; [|rewrite D3; left; split; [reflexivity|intros (_ & _ & _ & Q & _); contradiction]].
  destruct D3 as (cert & h3 & E3 & C0 & A3 & B3 & T3). rewrite E3 in HU |- *. cbn [obind] in HU |- *. rewrite (proj2 (N.eqb_neq _ _) C0) in HU |- *. pose proof (ext_trans _ _ _ Ex2 (proj1 A3)) as Ex3.
  pose proof (proj1 Ex3) as W3. pose proof (ext_plenty _ _ Ex3 PL) as PL3.
  pose proof (cert_comes (w_key w) h3 _ _ W3 PL3 (ext_string _ _ _ _ W Ex3 Cke)) as D4. destruct (w_key w (mf_key f)) as [keyd|] eqn:Ek; [|rewrite D4; left; split; [reflexivity|intros (_ & _ & _ & _ & Q & _); contradiction]].
  destruct D4 as (key & h4 & E4 & K0 & A4 & B4 & T4). rewrite E4 in HU |- *. cbn [obind] in HU |- *. rewrite (proj2 (N.eqb_neq _ _) K0) in HU |- *. pose proof (ext_trans _ _ _ Ex3 (proj1 A4)) as Ex4.
  pose proof (proj1 Ex4) as W4. pose proof (ext_plenty _ _ Ex4 PL) as PL4.
  (* lists *)
  destruct (list_arrives (w_cert w) h4 _ _ W4 PL4 (ext_path_list _ _ _ _ W Ex4 Crv)) as [(rv & h5 & lrv & E5 & A5 & B5 & CLrv & NMrv)|(rv & h5 & E5 & _ & _ & _ & _ & MISS)]; rewrite E5 in HU |- *; cbn [obind] in HU |- *; [|left; split; [reflexivity|intros (_ & _ & _ & _ & _ & Q); unfold masa_lists in Q; unlisted MISS Q]].
  change ((0 <? 0)%Z) with false in HU |- *. cbv iota in HU |- *. pose proof (ext_trans _ _ _ Ex4 (proj1 A5)) as Ex5. pose proof (proj1 Ex5) as W5. pose proof (ext_plenty _ _ Ex5 PL) as PL5.
  destruct (list_arrives (w_cert w) h5 _ _ W5 PL5 (ext_path_list _ _ _ _ W Ex5 Crs)) as [(rs & h6 & lrs & E6 & A6 & B6 & CLrs & NMrs)|(rs & h6 & E6 & _ & _ & _ & _ & MISS)]; rewrite E6 in HU |- *; cbn [obind] in HU |- *; [|left; split; [reflexivity|intros (_ & _ & _ & _ & _ & Q); unfold masa_lists in Q; unlisted MISS Q]].
  change ((0 <? 0)%Z) with false in HU |- *. cbv iota in HU |- *. pose proof (ext_trans _ _ _ Ex5 (proj1 A6)) as Ex6. pose proof (proj1 Ex6) as W6. pose proof (ext_plenty _ _ Ex6 PL) as PL6.
  destruct (list_arrives (w_cert w) h6 _ _ W6 PL6 (ext_path_list _ _ _ _ W Ex6 Cpv)) as [(pv & h7 & lpv & E7 & A7 & B7 & CLpv & NMpv)|(pv & h7 & E7 & _ & _ & _ & _ & MISS)]; rewrite E7 in HU |- *; cbn [obind] in HU |- *; [|left; split; [reflexivity|intros (_ & _ & _ & _ & _ & Q); unfold masa_lists in Q; unlisted MISS Q]].
  change ((0 <? 0)%Z) with false in HU |- *. cbv iota in HU |- *. pose proof (ext_trans _ _ _ Ex6 (proj1 A7)) as Ex7. pose proof (proj1 Ex7) as W7. pose proof (ext_plenty _ _ Ex7 PL) as PL7.
  destruct (list_arrives (w_cert w) h7 _ _ W7 PL7 (ext_path_list _ _ _ _ W Ex7 Cps)) as [(ps & h8 & lps & E8 & A8 & B8 & CLps & NMps)|(ps & h8 & E8 & _ & _ & _ & _ & MISS)]; rewrite E8 in HU |- *; cbn [obind] in HU |- *; [|left; split; [reflexivity|intros (_ & _ & _ & _ & _ & Q); unfold masa_lists in Q; unlisted MISS Q]].
  change ((0 <? 0)%Z) with false in HU |- *. cbv iota in HU |- *. pose proof (ext_trans _ _ _ Ex7 (proj1 A8)) as Ex8. pose proof (proj1 Ex8) as W8. pose proof (ext_plenty _ _ Ex8 PL) as PL8.
  destruct (list_arrives (w_cert w) h8 _ _ W8 PL8 (ext_path_list _ _ _ _ W Ex8 Cad)) as [(ad & h9 & lad & E9 & A9 & B9 & CLad & NMad)|(ad & h9 & E9 & _ & _ & _ & _ & MISS)]; rewrite E9 in HU |- *; cbn [obind] in HU |- *; [|left; split; [reflexivity|intros (_ & _ & _ & _ & _ & Q); unfold masa_lists in Q; unlisted MISS Q]].
  change ((0 <? 0)%Z) with false in HU |- *. cbv iota in HU |- *. pose proof (ext_trans _ _ _ Ex8 (proj1 A9)) as Ex9.
  pose proof (ext_trans _ _ _ (proj1 A8) (proj1 A9)) as X79. pose proof (ext_trans _ _ _ (proj1 A7) X79) as X69. pose proof (ext_trans _ _ _ (proj1 A6) X69) as X59.
  pose proof (ext_trans _ _ _ (proj1 A5) X59) as X49. pose proof (ext_trans _ _ _ (proj1 A4) X49) as X39. pose proof (ext_trans _ _ _ (proj1 A3) X39) as X29. pose proof (ext_trans _ _ _ (proj1 A2) X29) as X19.
  rewrite (pinned_cb h9 ld2 ldc L0 (ext_barray _ _ _ _ W2 X29 B2)) in HU |- *. cbn [obind] in HU |- *.
  destruct DD as [[NEG NEG2]|(m & Ed & -> & CM0 & A1 & LB)].
  { left. split; [|intros (_ & Q & _); apply Q; exact NEG2]. erewrite (SS h9 rc cms t (0%Z, ba_of ldc) cert key rv rs pv ps ad); [reflexivity|exact NEG|exact (ext_barray _ _ _ _ W3 X39 B3)|exact (ext_barray _ _ _ _ W4 X49 B4)|exact (ext_certlist _ _ _ _ W5 X59 B5)|exact (ext_certlist _ _ _ _ W6 X69 B6)|exact (ext_certlist _ _ _ _ W7 X79 B7)|exact (ext_certlist _ _ _ _ W8 (proj1 A9) B8)|exact B9]. }
  right.
  destruct (arrived_list _ _ _ _ _ S0 A1) as [Fcms S1]. destruct (arrived_list _ _ _ _ _ S1 A2) as [Fld S2]. destruct (arrived_list _ _ _ _ _ S2 A3) as [Fce S3]. destruct (arrived_list _ _ _ _ _ S3 A4) as [Fke S4].
  destruct (arrived_list _ _ _ _ _ S4 A5) as [Frv S5]. destruct (arrived_list _ _ _ _ _ S5 A6) as [Frs S6]. destruct (arrived_list _ _ _ _ _ S6 A7) as [Fpv S7]. destruct (arrived_list _ _ _ _ _ S7 A8) as [Fps S8]. destruct (arrived_list _ _ _ _ _ S8 A9) as [Fad S9].
  exists t, m, cms, ldc, ld2, certd, cert, keyd, key, rv, lrv, rs, lrs, pv, lpv, ps, lps, ad, lad, h9. eexists.
  do 10 (split; [assumption|]). split; [exact Ex9|]. split; [exact S9|]. split; [reflexivity|]. split; [exact CM0|].
  split; [exact (ext_load_buf _ _ _ _ W1 X19 LB)|]. split; [exact (ext_array_at _ _ _ _ W3 X39 T3)|]. split; [exact (ext_array_at _ _ _ _ W4 X49 T4)|].
  split; [exact (ext_certlist _ _ _ _ W5 X59 B5)|]. split; [exact (ext_certlist _ _ _ _ W6 X69 B6)|]. split; [exact (ext_certlist _ _ _ _ W7 X79 B7)|]. split; [exact (ext_certlist _ _ _ _ W8 (proj1 A9) B8)|]. split; [exact B9|].
  intros sign. rewrite HU. destruct (sign h9 _ cms t _ cert key rv rs pv ps ad) as [[vo h10]|]; cbn [obind]; [|reflexivity]. unfold masa_tail. destruct (vo =? 0); reflexivity.
Qed.

Lemma masa_sign_refuses : forall o h rc cms t pinned cert key rv rs pv ps add x1 x2 x3 x4 x5 x6 x7, (rc < 0)%Z -> h_barray h cert = Ok x1 -> h_barray h key = Ok x2 -> h_certlist h rv = Ok x3 -> h_certlist h rs = Ok x4 -> h_certlist h pv = Ok x5 -> h_certlist h ps = Ok x6 -> h_certlist h add = Ok x7 ->
  masa_sign o h rc cms t pinned cert key rv rs pv ps add = masa_sign_values o h rc cms t pinned cert key rv rs pv ps add.
Proof.
  intros o h rc cms t pinned cert key rv rs pv ps add x1 x2 x3 x4 x5 x6 x7 N H1 H2 H3 H4 H5 H6 H7. unfold masa_sign, masa_sign_values, with_cms. rewrite H1, H2, H3, H4, H5, H6, H7. cbn [obind].
  assert ((rc <? 0)%Z = true) as -> by lia. reflexivity.
Qed.
Lemma listed_not_missing : forall rd ts l, cert_list rd ts l -> ~ missing rd ts.
Proof.
  intros rd ts [l|] H; cbn [cert_list] in H; [|subst; intros (t & [] & _)]. destruct H as [_ H]. intros (t & Ht & Q). induction H as [|t' e ts l [H1 _] H IH]; [destruct Ht|]. destruct Ht as [->|Ht]; [congruence|exact (IH Ht)].
Qed.

(** What one request does, the blocks that are lost included. *)
Definition full_masa_done (o : ossl) (w : world) (f : masa_files) (h : heap) (body : bytes) (r : outcome (Z * bytes * N * heap)) : Prop :=
  exists status response ld h' lk, r = Ok (status, response, ld, h') /\ ext h h' /\ hold (hp_next h) h' lk /\ (masa_clean o w f body -> lk = []) /\ (ld = 0 \/ serialize_str2time (mf_expires f) <> None) /\
    ((status = 200%Z /\ exists m cms, rfc_decode (c_string body) = Some m /\ masa_runs o w f m cms /\ blen cms < SIZE_MAX / 4 /\ response = rfc_encode cms) \/
     (status = 400%Z /\ response = [] /\ ~ exists m cms, rfc_decode (c_string body) = Some m /\ masa_runs o w f m cms /\ blen cms < SIZE_MAX / 4)).

Lemma masa_called : forall o w c f ld h body, ossl_sane o -> world_ok w -> heap_wf h -> plenty h -> masa_fits o w f body -> masa_reached w c f ld h body ->
  ~ masa_crash w f body /\ full_masa_done o w f h body (full_masa_requestvoucher o w c ld h body).
Proof.
  intros o w c f ld h body OS [WC WK] W PL Fits
    (t & m & cms & ldc & ld' & certd & cert & keyd & key & rv & lrv & rs & lrs & pv & lpv & ps & lps & ad & lad & h9 & l & Et & Ed & El & Ec & Ek & Lrv & Lrs & Lpv & Lps & Lad & X9 & S9 & Ml & CM0 & LB & Ac & Ak & Brv & Brs & Bpv & Bps & Bad & HU).
  split.
  { intros [_ [Q|(_ & _ & _ & Q)]]; [apply decode_bad in Q; destruct Q; congruence|]. unfold masa_lists in Q.
    repeat (inversion Q as [? ? Q'|? ? Q']; subst; [eapply listed_not_missing; [|exact Q']; eassumption|]; clear Q; rename Q' into Q). inversion Q. }
  unfold full_masa_requestvoucher. rewrite HU. clear HU. pose proof (proj1 X9) as W9. pose proof (ext_plenty _ _ X9 PL) as PL9.
  pose proof (rfc_decode_bytes _ _ Ed) as Bm.
  destruct (masa_safe o (Some (ba_of m)) (Some t) (Some (fun _ _ => (0%Z, ba_of ldc))) (Some (ba_of certd)) (Some (ba_of keyd)) lrv lrs lpv lps lad OS) as [v Ev];
    [apply ba_bytes_of; exact Bm|apply ba_bytes_of; apply (WC _ _ Ec)|apply ba_bytes_of; apply (WK _ _ Ek)|intros g s regs Eg; injection Eg as <-; apply ba_bytes_of; apply (WC _ _ El)|].
  assert (RUN : forall m' cms', Some m = Some m' -> masa_runs o w f m' cms' -> v = Some cms').
  { intros m' cms' Em (t' & ldc' & cert' & key' & rv' & rs' & pv' & ps' & add' & R1 & R2 & R3 & R4 & R5 & R6 & R7 & R8 & R9 & R10). injection Em as <-.
    rewrite (cert_list_fun _ _ _ _ Lrv R5), (cert_list_fun _ _ _ _ Lrs R6), (cert_list_fun _ _ _ _ Lpv R7), (cert_list_fun _ _ _ _ Lps R8), (cert_list_fun _ _ _ _ Lad R9) in Ev.
    assert (t' = t) as -> by congruence. assert (ldc' = ldc) as -> by congruence. assert (cert' = certd) as -> by congruence. assert (key' = keyd) as -> by congruence. congruence. }
  (* the call *)
  assert (CALL : exists lk, (masa_clean o w f body -> lk = []) /\ gotten lk h9 (masa_sign o h9 (Z.of_N (blen m)) cms t (0%Z, ba_of ldc) cert key rv rs pv ps ad) v).
  { unfold masa_sign. destruct (Z.ltb_spec (Z.of_N (blen m)) 0) as [Q|_]; [lia|]. destruct (local h9 (Struct [P cms; I (Z.of_N (blen m))])) as [s h1] eqn:Eloc.
    destruct (hold_local _ _ _ _ _ _ (hold_init h9 W9) Eloc) as (X1 & Es & S0 & Hn1 & Cs & K1 & H1). pose proof (ext_plenty _ _ X1 PL9) as PL1.
    assert (Am : array_at h1 (s, 0%nat) (Some (ba_of m))).
    { cbn [array_at fst snd ba_of ba_len ba_data]. split; [exact S0|]. exists [P cms; I (Z.of_N (blen m))], cms. split; [exact Cs|]. split; [reflexivity|]. split; [reflexivity|]. split; [exact CM0|].
      destruct (ok_live_buf _ _ _ LB) as [_ Cc]. split; [|lia]. rewrite K1 by (eexists; exact Cc). exact Cc. }
    destruct (masa_by o h1 (s, 0%nat) (Some t) (Some (fun _ _ => (0%Z, ba_of ldc))) cert key rv rs pv ps ad (Some (ba_of m)) (Some (ba_of certd)) (Some (ba_of keyd)) lrv lrs lpv lps lad OS (proj1 X1) Am
      (ext_array_at _ _ _ _ W9 X1 Ac) (ext_array_at _ _ _ _ W9 X1 Ak) (ext_certlist _ _ _ _ W9 X1 Brv) (ext_certlist _ _ _ _ W9 X1 Brs) (ext_certlist _ _ _ _ W9 X1 Bpv) (ext_certlist _ _ _ _ W9 X1 Bps) (ext_certlist _ _ _ _ W9 X1 Bad) (ba_bytes_of _ Bm)) as (lk & HL & G).
    - intros g s0 regs Eg. assert (g = fun _ _ => (0%Z, ba_of ldc)) as -> by congruence. cbn [snd]. apply ba_bytes_of. apply (WC _ _ El).
    - intros t0 g s0 n d xb vr regs rc pinned Et0 Eg Exb Hs Hser Hp _ Hd Hn. assert (t0 = t) as -> by congruence. assert (g = fun _ _ => (0%Z, ba_of ldc)) as -> by congruence. assert (xb = ba_of m) as -> by congruence.
      assert (pinned = ba_of ldc) as -> by congruence. assert (d = ldc) as ->.
      { destruct Hd as (b' & rest & Q1 & Q2 & Q3). assert (b' = ba_of ldc) as -> by congruence. cbn [ba_data ba_len ba_of] in *. injection Q2 as ->. unfold blen in Q3. rewrite app_length in Q3. destruct rest; [rewrite app_nil_r; reflexivity|cbn [List.length] in Q3; lia]. }
      exact (Fits m t ldc lrv lrs vr regs s0 n Ed Et El Lrv Lrs Hs Hser Hn).
    - rewrite Ev in G. cbn [ends_by] in G. exists lk. split.
      + intros Cl. destruct (Cl m lrv lrs lpv lps Ed Lrv Lrs Lpv Lps) as [[C1 C2] Vn]. apply HL.
        * apply clean_of. exact C1.
        * intros xb vr regs prior Exb Hs Hp. apply clean_of. exact (C2 xb vr regs prior Exb Hs Hp).
        * destruct (Vn _ eq_refl) as [Q|(v0 & l0 & Q)]; [left; intros xb cm st0 json Exb; assert (xb = ba_of m) as -> by congruence; apply Q|right]. split; [exact PL1|]. exists (ba_of m), v0, l0. auto.
      + exact (gotten_local lk h9 _ s h1 _ v W9 PL9 Eloc G). }
  destruct CALL as (lk & HL & G). destruct (masa_sign o h9 (Z.of_N (blen m)) cms t (0%Z, ba_of ldc) cert key rv rs pv ps ad) as [[vo h10]|k]; [|destruct G as [_ G]; destruct (plenty_not_starved _ PL9 G)].
  destruct G as [X10 G]. pose proof (ext_trans _ _ _ X9 X10) as Ex10. pose proof (ext_plenty _ _ Ex10 PL) as PL10. cbn [obind]. unfold masa_tail. cbv zeta.
  assert (FIN : forall h11 h12 lx, ext h h11 -> st (hp_next h) h12 lx -> kept (hp_next h) h11 h12 -> hp_next h12 = hp_next h11 -> hp_oom h12 = hp_oom h11 -> ext h h12).
  { intros h11 h12 lx (Wa & Na & Ka & Oa) S12 K12 Hn12 Ho12. split; [eapply st_wf; exact S12|]. split; [lia|]. split; [|congruence]. intros a Ha. rewrite K12 by exact Ha. apply Ka. exact Ha. }
  destruct G as [(-> & HK & Q)|(d & b & -> & A & HK)].
  - cbn [N.eqb]. assert (v = None) as Ev0 by (destruct Q as [Q|Q]; [exact Q|exfalso; apply (plenty_not_starved _ PL9); eapply refused_starved; exact Q]).
    pose proof (st_acquire _ _ _ _ _ S9 X10 (hold_st _ _ _ HK)) as S10. apply (st_perm _ _ _ (l ++ bufs lk)) in S10; [|apply Permutation_app_comm].
    destruct (cleanup_most (hp_next h) h10 l (bufs lk) [OArr ld'; OArr cert; OArr key; OList rv; OList rs; OList pv; OList ps; OList ad; OBuf cms; OArr 0] [OArr 0] S10) as (h12 & E12 & S12 & K12 & Hn12 & Ho12); [null|rewrite Ml; perm|]. rewrite E12. cbn [obind].
    exists 400%Z, [], ld', h12, lk. split; [reflexivity|]. split; [eapply FIN; eassumption|]. split; [apply st_hold in S12; rewrite oprint_bufs in S12; exact S12|]. split; [exact HL|]. split; [right; congruence|]. right. split; [reflexivity|]. split; [reflexivity|].
    intros (m' & cms' & Q1 & Q2 & _). rewrite Ed in Q1. specialize (RUN _ _ Q1 Q2). congruence.
  - assert (RV : masa_runs o w f m d) by (exists t, ldc, certd, keyd, lrv, lrs, lpv, lps, lad; auto 20).
    pose proof (masa_runs_bytes _ _ _ _ _ OS RV) as Bv. destruct (hold_in _ _ _ vo HK (or_introl eq_refl)) as (_ & V0 & _). rewrite (proj2 (N.eqb_neq _ _) V0).
    pose proof (st_acquire _ _ _ _ _ S9 X10 (hold_arr _ _ _ _ _ _ HK A)) as S10.
    destruct (encode_new h10 vo b d (proj1 Ex10) PL10 Bv V0 A) as (h11 & E11 & Xf & Sf). rewrite E11. cbn [obind]. pose proof (ext_trans _ _ _ Ex10 Xf) as Ex11. pose proof (st_acquire _ _ _ _ _ S10 Xf Sf) as S11. cbn [app] in S11.
    assert (S11' : st (hp_next h) h11 (((OArr vo, vo :: nz b) :: l) ++ bufs lk)) by (eapply st_perm; [|exact S11]; cbn [app]; constructor; apply Permutation_app_comm). clear S11.
    destruct (blen d <? SIZE_MAX / 4) eqn:Lv.
    + destruct (cleanup_most (hp_next h) h11 _ (bufs lk) [OArr ld'; OArr key; OArr cert; OList rv; OList rs; OList pv; OList ps; OList ad; OBuf cms; OArr vo] [] S11') as (h12 & E12 & S12 & K12 & Hn12 & Ho12); [null|cbn [map fst]; rewrite Ml; perm|]. rewrite E12. cbn [obind].
      exists 200%Z, (rfc_encode d), ld', h12, lk. split; [reflexivity|]. split; [eapply FIN; eassumption|]. split; [apply st_hold in S12; rewrite oprint_bufs in S12; exact S12|]. split; [exact HL|]. split; [right; congruence|]. left. split; [reflexivity|].
      exists m, d. split; [exact Ed|]. split; [exact RV|]. split; [lia|reflexivity].
    + destruct (cleanup_most (hp_next h) h11 _ (bufs lk) [OArr ld'; OArr cert; OArr key; OList rv; OList rs; OList pv; OList ps; OList ad; OBuf cms; OArr vo] [] S11') as (h12 & E12 & S12 & K12 & Hn12 & Ho12); [null|cbn [map fst]; rewrite Ml; perm|]. rewrite E12. cbn [obind].
      exists 400%Z, [], ld', h12, lk. split; [reflexivity|]. split; [eapply FIN; eassumption|]. split; [apply st_hold in S12; rewrite oprint_bufs in S12; exact S12|]. split; [exact HL|]. split; [right; congruence|]. right. split; [reflexivity|]. split; [reflexivity|].
      intros (m' & cms' & Q1 & Q2 & Q3). rewrite Ed in Q1. specialize (RUN _ _ Q1 Q2). assert (cms' = d) as -> by congruence. lia.
Qed.

Lemma full_masa_run : forall o w c f ld h body, ossl_sane o -> world_ok w -> heap_wf h -> plenty h -> masa_config h c f -> bytes_ok body -> masa_fits o w f body ->
  (ld = 0 \/ serialize_str2time (mf_expires f) <> None) ->
  (masa_crash w f body /\ exists k, full_masa_requestvoucher o w c ld h body = UB k) \/
  (~ masa_crash w f body /\ full_masa_done o w f h body (full_masa_requestvoucher o w c ld h body)).
Proof.
  intros o w c f ld h body OS WO W PL MC B Fits Hld.
  destruct (masa_reach (masa_sign o) (masa_sign_values o) w c f ld h body W PL MC B) as [[E _]|R]; [intros; eapply masa_sign_refuses; eassumption| |right; eapply masa_called; eassumption].
  unfold full_masa_requestvoucher. rewrite E, <- masa_values. destruct (masa_run o w c f ld h body OS WO W PL MC B Hld) as [Q|[NC (s & r & l & h' & E1 & X & S & L & D)]]; [left; exact Q|right]. split; [exact NC|].
  exists s, r, l, h', []. split; [exact E1|]. split; [exact X|]. split; [exact (st_hold _ _ _ S)|]. split; [reflexivity|]. split; [exact L|exact D].
Qed.

Lemma full_masa_sequence : forall o w c f bodies ld h, ossl_sane o -> world_ok w -> heap_wf h -> plenty h -> masa_config h c f -> Forall bytes_ok bodies -> Forall (masa_fits o w f) bodies ->
  (ld = 0 \/ serialize_str2time (mf_expires f) <> None) ->
  (Exists (masa_crash w f) bodies /\ exists k, full_masa_serves o w c ld h bodies = UB k) \/
  (~ Exists (masa_crash w f) bodies /\ exists answers h' lk, full_masa_serves o w c ld h bodies = Ok (answers, h') /\ ext h h' /\ hold (hp_next h) h' lk /\ (Forall (masa_clean o w f) bodies -> lk = []) /\ Forall2 (masa_answer o w f) bodies answers).
Proof.
  intros o w c f bodies. induction bodies as [|b r IH]; intros ld h OS WO W PL MC B Ft Hld.
  { right. split; [intros Q; inversion Q|]. exists [], h, []. split; [reflexivity|]. split; [apply ext_refl; exact W|]. split; [apply hold_init; exact W|]. split; [reflexivity|constructor]. }
  inversion B as [|? ? B1 B2]; subst. inversion Ft as [|? ? Ft1 Ft2]; subst. cbn [full_masa_serves].
  destruct (full_masa_run o w c f ld h b OS WO W PL MC B1 Ft1 Hld) as [[C [k E]]|[NC D]].
  { left. split; [apply Exists_cons_hd; exact C|]. exists k. rewrite E. reflexivity. }
  destruct D as (s1 & r1 & l1 & h1 & lk1 & E & X & S & Cl & L & D). rewrite E. cbn [obind].
  assert (A : masa_answer o w f b (s1, r1)).
  { unfold masa_answer. cbn [fst snd]. destruct D as [(-> & m & cms & Q1 & Q2 & _ & ->)|(-> & -> & Q)]; [left|right].
    - split; [reflexivity|]. exists m, cms. split; [exact Q1|]. split; [|reflexivity]. eapply masa_runs_issues; eassumption.
    - split; [reflexivity|]. split; [reflexivity|]. intros (m & cms & Q1 & Q2 & Q3). apply Q. exists m, cms. split; [exact Q1|]. split; [|exact Q3]. apply masa_issues_runs; assumption. }
  destruct (IH l1 h1 OS WO (proj1 X) (ext_plenty _ _ X PL) (ext_config _ _ _ _ W X MC) B2 Ft2 L) as [[C [k E2]]|[NC2 (ans & h2 & lk2 & E2 & X2 & S2 & Cl2 & F2)]]; rewrite E2; cbn [obind fst snd].
  - left. split; [apply Exists_cons_tl; exact C|]. exists k. reflexivity.
  - right. split; [intros Q; inversion Q; subst; contradiction|]. exists ((s1, r1) :: ans), h2, (lk2 ++ lk1). split; [reflexivity|]. split; [eapply ext_trans; eassumption|]. split; [eapply hold_grow; eassumption|].
    split; [|constructor; assumption]. intros Q. inversion Q; subst. rewrite Cl, Cl2 by assumption. reflexivity.
Qed.
