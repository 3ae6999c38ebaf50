(** The three message functions, exactly: what they need is also enough. *)
From Coq Require Import ZifyBool ZifyNat ZifyN.
From Verif Require Import Base PBase MBase64 SBase64 PBase64 MSerialize SSerialize PSerialize MOs POs
  MJsmn PJsmn MVoucher SVoucher PVoucher SJson PVoucherText PJsonTok PVoucherJson PVoucherRound MCrypto MRequest SRequest
  PRequest PRequest2 PRequest3 PRequest4 PRequest5 PRequest6.
Open Scope N_scope.

Ltac field H a := let Q := fresh "Q" in pose proof (H a) as Q; unfold attr_blank, observe in Q; cbn in Q.
Ltac fields H := field H ACreatedOn; field H AExpiresOn; field H AAssertion; field H ASerial; field H AIssuer; field H APinned; field H ARevocation; field H ANonce; field H ALastRenewal; field H APrior; field H AProximity.

Ltac build := cbv [ba_of pv1 pv2 pv3 nonce_put put_value with_created with_expires with_assertion with_serial with_issuer with_pinned with_revocation with_nonce with_renewal with_prior with_proximity init_voucher v_created v_expires v_assertion v_serial v_issuer v_pinned v_revocation v_nonce v_renewal v_prior v_proximity]; f_equal; congruence.

Lemma pv1_unique : forall v t s n c, holds_exactly v (pledge_content t s n c) -> v = pv1 t n c s.
Proof. intros [a1 a2 a3 a4 a5 a6 a7 a8 a9 a10 a11] t s n c H. destruct n as [d|]; fields H; unfold ba_of in *; build. Qed.
Lemma pv2_unique : forall v t s n i p, holds_exactly v (registrar_content t s n i p) -> v = pv2 t n s i p.
Proof. intros [a1 a2 a3 a4 a5 a6 a7 a8 a9 a10 a11] t s n i p H. destruct n as [d|]; fields H; unfold ba_of in *; build. Qed.
Lemma pv3_unique : forall v t s n d, holds_exactly v (masa_content t s n d) -> v = pv3 t n s d.
Proof. intros [a1 a2 a3 a4 a5 a6 a7 a8 a9 a10 a11] t s n d H. destruct n as [d'|]; fields H; unfold ba_of in *; build. Qed.

(** Numbers shorter than the buffer are taken. *)
Lemma va_arr_has : forall a b d, kind a = KArr -> ba_has b d -> arg_val a (VArr b) (PArr d).
Proof. intros a b d H1 H2. split; [exact H1|]. exists d. auto. Qed.
Lemma signed_voucher_sign : forall o cert key extra kvs v cms, (forall v', holds_exactly v' kvs -> v' = v) ->
  signed_voucher o cert key extra kvs cms -> sign_cms_voucher o (Some v) cert key extra = Ok (Some cms).
Proof. intros o cert key extra kvs v cms U (v' & text & H1 & H2 & H3). rewrite <- (U v' H1). apply sign_inv. exists text. auto. Qed.
Lemma no_nul_cstr : forall s, bytes_ok s -> ~ In 0 s -> cstr_ok s.
Proof.
  intros s B H. unfold bytes_ok in B. unfold cstr_ok. rewrite Forall_forall in *. intros x Hx. specialize (B x Hx). cbv beta in B. assert (x <> 0) by (intros ->; contradiction). lia.
Qed.

Lemma registrar_iff : forall o pcms created serial issuer rtls cert key vcerts vstore extra cms,
  ossl_sane o -> (forall s, serial = Some s -> cstr_ok s) ->
  (sign_voucher_request o pcms created serial issuer rtls cert key vcerts vstore extra = Ok (Some cms) <->
   exists pc pvr t s i rc p prox n, pcms = Some pc /\ created = Some t /\ serial = Some s /\ rtls = Some rc /\
    says o pc vcerts vstore false pvr None /\
    get_attr_str (Some pvr) ASerial = Some (Some s) /\
    get_attr_array (Some pvr) AProximity = Some prox /\ same_bytes prox rc /\
    get_attr_enum (Some pvr) AAssertion = Some 3%Z /\
    nonce_is pvr n /\ ba_has issuer i /\ ba_has pcms p /\
    signed_voucher o cert key extra (registrar_content t s n i p) cms).
Proof.
  intros o pcms created serial issuer rtls cert key vcerts vstore extra cms HS HC. split.
  { apply registrar_request_says; [exact HS|]. intros s E Q. specialize (HC s E). unfold cstr_ok in HC. rewrite Forall_forall in HC. specialize (HC _ Q). cbv beta in HC. lia. }
  intros (pc & pvr & t & s & i & rc & p & prox & n & -> & -> & -> & -> & Hs & G1 & G2 & G3 & G4 & G5 & Hi & Hp & SV). specialize (HC s eq_refl).
  pose proof (says_wf _ _ _ _ _ _ _ HS Hs) as (_ & WS & _). cbn [get_attr_str] in G1. injection G1 as G1. destruct (WS _ G1) as [Ls _].
  apply (signed_voucher_sign _ _ _ _ _ _ _ (fun v H => pv2_unique v _ _ _ _ _ H)) in SV. rewrite <- SV. unfold sign_voucher_request.
  destruct issuer as [is|]; [|destruct Hi as (b & r & Q & _); discriminate].
  apply verify_says in Hs. rewrite Hs. cbn [obind]. cbn [get_attr_str]. rewrite G1. cbn [strcmp_eq obind]. rewrite beqb_refl. cbn [negb].
  rewrite G2. destruct G3 as (d & D1 & D2). rewrite (compare_yes prox rc d D1 D2). cbn [obind Z.ltb Z.compare Pos.compare Pos.compare_cont].
  rewrite G4. cbn [Z.eqb Pos.eqb negb]. rewrite (sof_put _ _ _ _ _ (va_time ACreatedOn t eq_refl)) by discriminate. rewrite (nonce_nonempty pvr n G5).
  assert (F : forall v, set_or_fail v ASerial (vstr (Some s)) (fun v => set_or_fail v AIssuer (VArr (Some is)) (fun v =>
             set_or_fail v APrior (VArr (Some pc)) (fun v => sign_cms_voucher o (Some v) cert key extra))) =
    sign_cms_voucher o (Some (put_value (put_value (put_value v ASerial (PStr s)) AIssuer (PArr i)) APrior (PArr p))) cert key extra).
  { intros v. rewrite (sof_put _ _ _ _ _ (va_str s HC Ls)) by (intros u Hu; inversion Hu; eauto).
    rewrite (sof_put _ _ _ _ _ (va_arr_has AIssuer _ i eq_refl Hi)) by discriminate. rewrite (sof_put _ _ _ _ _ (va_arr_has APrior _ p eq_refl Hp)) by discriminate. reflexivity. }
  destruct n as [d'|].
  - unfold nonce_is in G5. rewrite G5. rewrite (sof_put _ _ _ _ _ (va_arr ANonce d' eq_refl)) by discriminate. apply F.
  - apply F.
Qed.

Lemma masa_iff : forall o rcms expires cb cert key rcerts rstore pcerts pstore extra cms,
  ossl_sane o ->
  (sign_masa_pledge_voucher o rcms expires cb cert key rcerts rstore pcerts pstore extra = Ok (Some cms) <->
   exists rc vr regs p pvr t f s rcode pinned d n,
    rcms = Some rc /\ expires = Some t /\ cb = Some f /\
    says o rc rcerts rstore true vr regs /\
    get_attr_array (Some vr) APrior = Some (ba_of p) /\ says o (ba_of p) pcerts pstore false pvr None /\
    get_attr_str (Some vr) ASerial = Some (Some s) /\ get_attr_str (Some pvr) ASerial = Some (Some s) /\
    f s regs = (rcode, pinned) /\ (0 <= rcode)%Z /\ ba_has (Some pinned) d /\ nonce_is vr n /\
    signed_voucher o cert key extra (masa_content t s n d) cms).
Proof.
  intros o rcms expires cb cert key rcerts rstore pcerts pstore extra cms HS. split.
  { intros H. destruct (masa_voucher_says _ _ _ _ _ _ _ _ _ _ _ _ HS H) as (rc & vr & regs & prior & p & pvr & t & f & s & rcode & pinned & d & n & A1 & A2 & A3 & A4 & A5 & -> & A6 & A7 & A8 & A9 & A10 & A11 & A12 & A13).
    exists rc, vr, regs, p, pvr, t, f, s, rcode, pinned, d, n. repeat (split; [assumption|]). assumption. }
  intros (rc & vr & regs & p & pvr & t & f & s & rcode & pinned & d & n & -> & -> & -> & Hs & G3 & Hs1 & G1 & G4 & Hf & Hr & Hp & G2 & SV).
  destruct (proj2 (says_values _ _ _ _ _ _ _ HS Hs) s G1) as [Cs Ls].
  apply (signed_voucher_sign _ _ _ _ _ _ _ (fun v H => pv3_unique v _ _ _ _ H)) in SV. rewrite <- SV.
  unfold sign_masa_pledge_voucher. apply verify_says in Hs. rewrite Hs. cbn [obind].
  rewrite (nonce_nonempty vr n G2). unfold nonce_is in G2. cbn [get_attr_str get_attr_array] in *.
  inversion G1 as [E1]. inversion G2 as [E2]. inversion G3 as [E3]. cbn [is_attr_nonempty]. rewrite E1, E2, E3. cbn [negb is_attr_array_nonempty ba_of ba_data].
  assert (B : (match n with Some _ => true | None => false end &&
       match (if match n with Some _ => true | None => false end then Some match n with Some d => ba_of d | None => ba_null end else None) with
       | Some _ => false | None => true end)%bool = false) by (destruct n; reflexivity).
  change (mk_ba (Some p) (blen p)) with (ba_of p).
  match goal with |- (if ?b then _ else _) = _ => replace b with false by (symmetry; exact B) end.
  apply verify_says in Hs1. rewrite Hs1. cbn [obind]. inversion G4 as [E4]. rewrite E4. cbn [negb strcmp_eq obind]. rewrite beqb_refl. cbn [negb].
  rewrite Hf.
  assert (F : forall v, set_or_fail v AAssertion (VInt 3) (fun v => if (rcode <? 0)%Z then Ok None else
            set_or_fail v APinned (VArr (Some pinned)) (fun v =>
            set_or_fail v ASerial (vstr (Some s)) (fun v =>
            set_or_fail v ARevocation (VInt 0) (fun v =>
            set_or_fail v AExpiresOn (VTime (Some t)) (fun v =>
            sign_cms_voucher o (Some v) cert key extra))))) =
     sign_cms_voucher o (Some (put_value (put_value (put_value (put_value (put_value v AAssertion (PEnum 3)) APinned (PArr d)) ASerial (PStr s)) ARevocation (PBool false)) AExpiresOn (PTime t))) cert key extra).
  { intros v. rewrite (sof_put _ _ _ _ _ va_prox) by discriminate. destruct (rcode <? 0)%Z eqn:Er; [lia|].
    rewrite (sof_put _ _ _ _ _ (va_arr_has APinned _ d eq_refl Hp)) by discriminate.
    rewrite (sof_put _ _ _ _ _ (va_str s Cs Ls)) by (intros u Hu; inversion Hu; eauto).
    rewrite (sof_put _ _ _ _ _ va_rev) by discriminate. rewrite (sof_put _ _ _ _ _ (va_time AExpiresOn t eq_refl)) by discriminate. reflexivity. }
  destruct n as [d'|].
  - rewrite (sof_put _ _ _ _ _ (va_arr ANonce d' eq_refl)) by discriminate. apply F.
  - apply F.
Qed.

Lemma pledge_iff : forall o created serial nonce rtls cert key extra cms, (forall s, serial = Some s -> cstr_ok s) ->
  (sign_pledge_voucher_request o created serial nonce rtls cert key extra = Ok (Some cms) <->
   exists t s n c, created = Some t /\ serial = Some s /\ blen s < 128 /\ opt_has nonce n /\ ba_has rtls c /\
     signed_voucher o cert key extra (pledge_content t s n c) cms).
Proof.
  intros o created serial nonce rtls cert key extra cms HC. split.
  { intros H. assert (NZ : forall s, serial = Some s -> ~ In 0 s).
    { intros s E Q. specialize (HC s E). unfold cstr_ok in HC. rewrite Forall_forall in HC. specialize (HC _ Q). cbv beta in HC. lia. }
    destruct (pledge_request_says _ _ _ _ _ _ _ _ _ NZ H) as (t & s & n & c & -> & -> & A3 & A4 & A5). exists t, s, n, c. split; [reflexivity|]. split; [reflexivity|]. split; [|auto].
    destruct (N.ltb_spec (blen s) 128) as [L|L]; [exact L|]. exfalso. unfold sign_pledge_voucher_request in H.
    assert (BAD : forall v (k : voucher -> outcome (option bytes)) c', set_or_fail v ASerial (vstr (Some s)) k = Ok (Some c') -> False).
    { intros v k c' Q. apply sof_inv in Q. destruct Q as (p & [_ (mem & Q1 & Q2 & _)] & _). injection Q1 as <-. rewrite upto_nul_end in Q2 by (apply HC; reflexivity). lia. }
    apply sof_inv in H. destruct H as (p1 & _ & H).
    assert (REST : forall v, set_or_fail v AAssertion (VInt 3) (fun v => set_or_fail v AProximity (VArr rtls) (fun v =>
      set_or_fail v ASerial (vstr (Some s)) (fun v => sign_cms_voucher o (Some v) cert key extra))) = Ok (Some cms) -> False).
    { intros v Q. apply sof_inv in Q. destruct Q as (q1 & _ & Q). apply sof_inv in Q. destruct Q as (q2 & _ & Q). exact (BAD _ _ _ Q). }
    destruct nonce as [b|]; [|exact (REST _ H)]. apply sof_inv in H. destruct H as (p2 & _ & H). exact (REST _ H). }
  intros (t & s & n & c & -> & -> & Ls & Hn & Hc & SV). specialize (HC s eq_refl).
  apply (signed_voucher_sign _ _ _ _ _ _ _ (fun v H => pv1_unique v _ _ _ _ H)) in SV. rewrite <- SV. unfold sign_pledge_voucher_request.
  rewrite (sof_put _ _ _ _ _ (va_time ACreatedOn t eq_refl)) by discriminate.
  assert (F : forall v, set_or_fail v AAssertion (VInt 3) (fun v => set_or_fail v AProximity (VArr rtls) (fun v =>
    set_or_fail v ASerial (vstr (Some s)) (fun v => sign_cms_voucher o (Some v) cert key extra))) =
    sign_cms_voucher o (Some (put_value (put_value (put_value v AAssertion (PEnum 3)) AProximity (PArr c)) ASerial (PStr s))) cert key extra).
  { intros v. rewrite (sof_put _ _ _ _ _ va_prox) by discriminate. rewrite (sof_put _ _ _ _ _ (va_arr_has AProximity _ c eq_refl Hc)) by discriminate.
    rewrite (sof_put _ _ _ _ _ (va_str s HC Ls)) by (intros u Hu; inversion Hu; eauto). reflexivity. }
  unfold opt_has in Hn. destruct nonce as [b|], n as [d|]; try contradiction; try discriminate Hn.
  - rewrite (sof_put _ _ _ _ _ (va_arr_has ANonce _ d eq_refl Hn)) by discriminate. apply F.
  - apply F.
Qed.
