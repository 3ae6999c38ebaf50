(** Proofs: what the signed messages say and when they are made. *)
From Coq Require Import ZifyBool ZifyNat ZifyN.
From Verif Require Import Base PBase MBase64 SBase64 PBase64 MSerialize SSerialize PSerialize MOs POs
  MJsmn PJsmn MVoucher SVoucher PVoucher SJson PVoucherText PJsonTok PVoucherJson PVoucherRound MCrypto MRequest SRequest PRequest.
Open Scope N_scope.

Ltac exactly := let a := fresh in intros a; destruct a; reflexivity.

Lemma arg_time : forall a t p, arg_val a (VTime t) p -> exists t', t = Some t' /\ p = PTime t'.
Proof. intros a t p [_ H]. exact H. Qed.
Lemma arg_enum : forall z p, arg_val AAssertion (VInt z) p -> p = PEnum z.
Proof. intros z p [[_ [_ H]]|[H _]]; [exact H|discriminate]. Qed.
Lemma arg_bool : forall z p, arg_val ARevocation (VInt z) p -> p = PBool (negb (z =? 0)%Z).
Proof. intros z p [[H _]|[_ H]]; [discriminate|exact H]. Qed.
Lemma arg_str : forall s p, (forall t, s = Some t -> ~ In 0 t) -> arg_val ASerial (vstr s) p ->
  exists t, s = Some t /\ blen t < 128 /\ p = PStr t.
Proof.
  intros s p Hc [_ [mem [E [H1 H2]]]]. unfold vstr in E. destruct s as [t|]; [|discriminate]. inversion E; subst mem.
  rewrite upto_nul_cstr in H1, H2 by (apply Forall_forall; intros x Hx; assert (x <> 0) by (intros ->; apply (Hc t); auto); lia). eauto.
Qed.
Lemma arg_arr : forall a b p, arg_val a (VArr b) p -> exists d, ba_has b d /\ p = PArr d.
Proof. intros a b p [_ H]. exact H. Qed.

(** C29. *)
Lemma pledge_request_says : forall o created serial nonce rtls cert key extra cms,
  (forall s, serial = Some s -> ~ In 0 s) ->
  sign_pledge_voucher_request o created serial nonce rtls cert key extra = Ok (Some cms) ->
  exists t s n c, created = Some t /\ serial = Some s /\ opt_has nonce n /\ ba_has rtls c /\
    signed_voucher o cert key extra (pledge_content t s n c) cms.
Proof.
  intros o created serial nonce rtls cert key extra cms Hc H. unfold sign_pledge_voucher_request in H.
  apply sof_inv in H. destruct H as [p1 [P1 H]]. apply arg_time in P1. destruct P1 as [t [-> ->]].
  destruct nonce as [n|].
  - apply sof_inv in H. destruct H as [p2 [P2 H]]. apply arg_arr in P2. destruct P2 as [d [Hd ->]].
    apply sof_inv in H. destruct H as [p3 [P3 H]]. apply arg_enum in P3. subst p3.
    apply sof_inv in H. destruct H as [p4 [P4 H]]. apply arg_arr in P4. destruct P4 as [c [Hcc ->]].
    apply sof_inv in H. destruct H as [p5 [P5 H]]. apply arg_str in P5; [|exact Hc]. destruct P5 as [s [-> [Hs ->]]].
    apply sign_inv in H. destruct H as [text [H1 H2]].
    exists t, s, (Some d), c. repeat split; auto. eexists _, text. split; [|split; [exact H1|exact H2]]. exactly.
  - apply sof_inv in H. destruct H as [p3 [P3 H]]. apply arg_enum in P3. subst p3.
    apply sof_inv in H. destruct H as [p4 [P4 H]]. apply arg_arr in P4. destruct P4 as [c [Hcc ->]].
    apply sof_inv in H. destruct H as [p5 [P5 H]]. apply arg_str in P5; [|exact Hc]. destruct P5 as [s [-> [Hs ->]]].
    apply sign_inv in H. destruct H as [text [H1 H2]].
    exists t, s, None, c. repeat split; auto. eexists _, text. split; [|split; [exact H1|exact H2]]. exactly.
Qed.

(** ** Attributes of parsed vouchers *)

Lemma wf_arr : forall v a b, voucher_wf v -> get_attr_array (Some v) a = Some b -> b = ba_null \/ exists d, b = ba_of d.
Proof.
  intros v a b [_ [_ H]] Hb. destruct (H a b Hb) as [[H1 H2]|[d [H1 H2]]].
  - left. destruct b as [x y]. cbn in *. subst. reflexivity.
  - right. exists d. destruct b as [x y]. cbn in *. subst. reflexivity.
Qed.

Lemma compare_same : forall a b x, compare_binary_array (Some a) (Some b) = Ok x -> (0 < x)%Z -> same_bytes a b.
Proof.
  intros a b x H Hx. unfold compare_binary_array in H. destruct (ba_len b =? ba_len a) eqn:E; cbn [negb] in H; [|inversion H; lia].
  apply N.eqb_eq in E. unfold memcmp_eq in H. destruct (ba_len a =? 0) eqn:E0.
  - apply N.eqb_eq in E0. exists []. split; apply ba_read_iff; unfold ba_read; [rewrite E0|rewrite E, E0].
    + destruct (ba_data a) as [m|]; [|reflexivity]. apply (take_mem_app [] m).
    + destruct (ba_data b) as [m|]; [|reflexivity]. apply (take_mem_app [] m).
  - destruct (ba_data b) as [mb|] eqn:Eb; [|discriminate]. destruct (ba_data a) as [ma|] eqn:Ea; [|discriminate].
    destruct (take_mem mb (ba_len a)) as [u|] eqn:T1; cbn [obind] in H; [|discriminate].
    destruct (take_mem ma (ba_len a)) as [w|] eqn:T2; cbn [obind] in H; [|discriminate].
    destruct (beqb u w) eqn:Eu; [|inversion H; lia]. apply beqb_eq in Eu. subst w. exists u.
    split; apply ba_read_iff; unfold ba_read; [rewrite Ea|rewrite Eb, E]; assumption.
Qed.

(** Array arguments whose contents are known to be readable. *)
Lemma compare_safe : forall a b, ba_bytes (Some a) -> ba_bytes (Some b) -> exists x, compare_binary_array (Some a) (Some b) = Ok x.
Proof.
  intros a b Ha Hb. unfold compare_binary_array. destruct (ba_len b =? ba_len a) eqn:E; cbn [negb]; [|eauto].
  apply N.eqb_eq in E. unfold memcmp_eq. destruct (ba_len a =? 0) eqn:E0; [cbn; eauto|].
  unfold ba_bytes in *. destruct (ba_data b) as [mb|]; [|lia]. destruct (ba_data a) as [ma|]; [|lia].
  unfold take_mem. destruct (ba_len a <=? blen mb) eqn:E1; [|lia]. destruct (ba_len a <=? blen ma) eqn:E2; [|lia].
  cbn [obind]. eauto.
Qed.

Lemma compare_yes : forall a b d, holds_bytes a d -> holds_bytes b d -> compare_binary_array (Some a) (Some b) = Ok 1%Z.
Proof.
  intros a b d Ha Hb. unfold compare_binary_array.
  assert (L : forall x, holds_bytes x d -> ba_len x = blen d).
  { intros x [[_ [H1 H2]]|[x' [r [E [_ H]]]]]; [subst; exact H1|inversion E; subst; exact H]. }
  rewrite (L a Ha), (L b Hb), N.eqb_refl. cbn [negb]. unfold memcmp_eq. destruct (blen d =? 0) eqn:E0; [reflexivity|].
  destruct Ha as [[_ [_ ->]]|[a' [r [Ea [Ha _]]]]]; [discriminate|]. destruct Hb as [[_ [_ ->]]|[b' [r' [Eb [Hb _]]]]]; [discriminate|].
  inversion Ea; inversion Eb; subst a' b'. rewrite Ha, Hb, !take_mem_app. cbn [obind]. rewrite beqb_refl. reflexivity.
Qed.

Lemma nonce_cases : forall v, voucher_wf v ->
  (is_attr_nonempty v ANonce = false /\ nonce_is v None) \/
  (is_attr_nonempty v ANonce = true /\ exists d, nonce_is v (Some d)).
Proof.
  intros v Hv. unfold nonce_is. destruct (wf_arr v ANonce (v_nonce v) Hv eq_refl) as [E|[d E]]; cbn [is_attr_nonempty get_attr_array]; rewrite E.
  - left. auto.
  - right. split; [reflexivity|]. eauto.
Qed.

(** C30 and C31. *)
Lemma registrar_request_says : forall o pcms created serial issuer rtls cert key vcerts vstore extra cms,
  ossl_sane o -> (forall s, serial = Some s -> ~ In 0 s) ->
  sign_voucher_request o pcms created serial issuer rtls cert key vcerts vstore extra = Ok (Some cms) ->
  exists pc pvr t s i rc p prox n, pcms = Some pc /\ created = Some t /\ serial = Some s /\ rtls = Some rc /\
    says o pc vcerts vstore false pvr None /\
    get_attr_str (Some pvr) ASerial = Some (Some s) /\
    get_attr_array (Some pvr) AProximity = Some prox /\ same_bytes prox rc /\
    get_attr_enum (Some pvr) AAssertion = Some 3%Z /\
    nonce_is pvr n /\ ba_has issuer i /\ ba_has pcms p /\
    signed_voucher o cert key extra (registrar_content t s n i p) cms.
Proof.
  intros o pcms created serial issuer rtls cert key vcerts vstore extra cms HS Hc H. unfold sign_voucher_request in H.
  destruct serial as [s|]; [|discriminate]. destruct issuer as [is|]; [|discriminate].
  destruct (verify_cms_voucher o pcms vcerts vstore false) as [[[pvr l]|]|] eqn:Ev; cbn [obind] in H; try discriminate.
  destruct pcms as [pc|]; [|discriminate]. apply verify_says in Ev. pose proof (says_wf _ _ _ _ _ _ _ HS Ev) as Hwf.
  destruct (get_attr_str (Some pvr) ASerial) as [ps|] eqn:Es; [|discriminate].
  destruct ps as [ps|]; cbn [strcmp_eq obind] in H; [|discriminate].
  destruct (beqb ps s) eqn:Eb; cbn [negb] in H; [|discriminate]. apply beqb_eq in Eb. subst ps.
  destruct (get_attr_array (Some pvr) AProximity) as [prox|] eqn:Ep; [|discriminate].
  destruct rtls as [rc|]; [|discriminate].
  destruct (compare_binary_array (Some prox) (Some rc)) as [x|] eqn:Ec; cbn [obind] in H; [|discriminate].
  destruct (x <? 1)%Z eqn:Ex; [discriminate|].
  destruct (get_attr_enum (Some pvr) AAssertion) as [a|] eqn:Ea; [|discriminate].
  destruct (a =? 3)%Z eqn:E3; cbn [negb] in H; [|discriminate]. apply Z.eqb_eq in E3. subst a.
  apply sof_inv in H. destruct H as [p1 [P1 H]]. apply arg_time in P1. destruct P1 as [t [-> ->]].
  assert (Hl : l = None) by (destruct Ev as [? [? [? [_ [_ Hl]]]]]; exact Hl). subst l.
  assert (Hsame : same_bytes prox rc) by (eapply compare_same; [exact Ec|lia]).
  destruct (nonce_cases pvr Hwf) as [[En Hn]|[En [d Hn]]]; rewrite En in H.
  - apply sof_inv in H. destruct H as [p2 [P2 H]]. apply arg_str in P2; [|exact Hc]. destruct P2 as [s' [E' [Hs ->]]]. inversion E'; subst s'.
    apply sof_inv in H. destruct H as [p3 [P3 H]]. apply arg_arr in P3. destruct P3 as [i [Hi ->]].
    apply sof_inv in H. destruct H as [p4 [P4 H]]. apply arg_arr in P4. destruct P4 as [p [Hp ->]].
    apply sign_inv in H. destruct H as [text [H1 H2]].
    exists pc, pvr, t, s, i, rc, p, prox, None. repeat (split; [solve [auto]|]).
    eexists _, text. split; [|split; [exact H1|exact H2]]. exactly.
  - pose proof Hn as Hn'. unfold nonce_is in Hn'. rewrite Hn' in H.
    apply sof_inv in H. destruct H as [p5 [P5 H]]. apply arg_arr in P5. destruct P5 as [d' [Hd ->]].
    assert (d' = d) by (eapply ba_has_fun; [exact Hd|apply ba_of_has]). subst d'.
    apply sof_inv in H. destruct H as [p2 [P2 H]]. apply arg_str in P2; [|exact Hc]. destruct P2 as [s' [E' [Hs ->]]]. inversion E'; subst s'.
    apply sof_inv in H. destruct H as [p3 [P3 H]]. apply arg_arr in P3. destruct P3 as [i [Hi ->]].
    apply sof_inv in H. destruct H as [p4 [P4 H]]. apply arg_arr in P4. destruct P4 as [p [Hp ->]].
    apply sign_inv in H. destruct H as [text [H1 H2]].
    exists pc, pvr, t, s, i, rc, p, prox, (Some d). repeat (split; [solve [auto]|]).
    eexists _, text. split; [|split; [exact H1|exact H2]]. exactly.
Qed.

(** C33 and C34. *)
Lemma masa_voucher_says : forall o rcms expires cb cert key rcerts rstore pcerts pstore extra cms,
  ossl_sane o ->
  sign_masa_pledge_voucher o rcms expires cb cert key rcerts rstore pcerts pstore extra = Ok (Some cms) ->
  exists rc vr regs prior p pvr t f s rcode pinned d n,
    rcms = Some rc /\ expires = Some t /\ cb = Some f /\
    says o rc rcerts rstore true vr regs /\
    get_attr_array (Some vr) APrior = Some prior /\ prior = ba_of p /\
    says o prior pcerts pstore false pvr None /\
    get_attr_str (Some vr) ASerial = Some (Some s) /\ get_attr_str (Some pvr) ASerial = Some (Some s) /\
    f s regs = (rcode, pinned) /\ (0 <= rcode)%Z /\ ba_has (Some pinned) d /\ nonce_is vr n /\
    signed_voucher o cert key extra (masa_content t s n d) cms.
Proof.
  intros o rcms expires cb cert key rcerts rstore pcerts pstore extra cms HS H. unfold sign_masa_pledge_voucher in H.
  destruct expires as [t|]; [|discriminate]. destruct cb as [f|]; [|discriminate].
  destruct (verify_cms_voucher o rcms rcerts rstore true) as [[[vr regs]|]|] eqn:Ev; cbn [obind] in H; try discriminate.
  destruct rcms as [rc|]; [|discriminate]. apply verify_says in Ev. pose proof (says_wf _ _ _ _ _ _ _ HS Ev) as Hwf.
  destruct (is_attr_nonempty vr ASerial) eqn:E1; cbn [negb] in H; [|discriminate].
  cbn [get_attr_str] in H. destruct (v_serial vr) as [s|] eqn:Es; [|cbn in E1; rewrite Es in E1; discriminate].
  destruct (is_attr_nonempty vr APrior) eqn:E2; cbn [negb] in H.
  2:{ destruct (_ && _); discriminate. }
  destruct (_ && _) eqn:E3 in H; [discriminate|].
  destruct (get_attr_array (Some vr) APrior) as [prior|] eqn:Ep; [|discriminate].
  destruct (wf_arr vr APrior prior Hwf Ep) as [->|[p ->]].
  { cbn [get_attr_array] in Ep. inversion Ep as [Ep']. cbn in E2. rewrite Ep' in E2. discriminate. }
  destruct (verify_cms_voucher o (Some (ba_of p)) pcerts pstore false) as [[[pvr l]|]|] eqn:Ev2; cbn [obind] in H; try discriminate.
  apply verify_says in Ev2. pose proof (says_wf _ _ _ _ _ _ _ HS Ev2) as Hwf2.
  assert (Hl : l = None) by (destruct Ev2 as [? [? [? [_ [_ Hl]]]]]; exact Hl). subst l.
  destruct (is_attr_nonempty pvr ASerial) eqn:E4; cbn [negb] in H; [|discriminate].
  destruct (v_serial pvr) as [ps|] eqn:Eps; [|cbn in E4; rewrite Eps in E4; discriminate].
  cbn [strcmp_eq obind] in H. destruct (beqb s ps) eqn:Eb; cbn [negb] in H; [|discriminate].
  apply beqb_eq in Eb. subst ps.
  destruct (f s regs) as [rcode pinned] eqn:Ef.
  assert (G : exists n v0, nonce_is vr n /\ set_or_fail v0 AAssertion (VInt 3)
         (fun v => if (rcode <? 0)%Z then Ok None else
            set_or_fail v APinned (VArr (Some pinned)) (fun v =>
            set_or_fail v ASerial (vstr (Some s)) (fun v =>
            set_or_fail v ARevocation (VInt 0) (fun v =>
            set_or_fail v AExpiresOn (VTime (Some t)) (fun v =>
            sign_cms_voucher o (Some v) cert key extra))))) = Ok (Some cms) /\
      v0 = match n with None => init_voucher | Some d => put_value init_voucher ANonce (PArr d) end).
  { destruct (nonce_cases vr Hwf) as [[En Hn]|[En [d Hn]]]; rewrite En in H.
    - exists None. eexists. split; [exact Hn|]. split; [|reflexivity]. exact H.
    - pose proof Hn as Hn'. unfold nonce_is in Hn'. cbn [get_attr_array] in Hn', H. inversion Hn' as [Hn'']. rewrite Hn'' in H.
      apply sof_inv in H. destruct H as [p5 [P5 H]]. apply arg_arr in P5. destruct P5 as [d' [Hd ->]].
      assert (d' = d) by (eapply ba_has_fun; [exact Hd|apply ba_of_has]). subst d'.
      exists (Some d). eexists. split; [exact Hn|]. split; [|reflexivity]. exact H. }
  clear H. destruct G as [n [v0 [Hn [H Hv0]]]].
  apply sof_inv in H. destruct H as [p1 [P1 H]]. apply arg_enum in P1. subst p1.
  destruct (rcode <? 0)%Z eqn:Er; [discriminate|].
  apply sof_inv in H. destruct H as [p2 [P2 H]]. apply arg_arr in P2. destruct P2 as [d [Hd ->]].
  apply sof_inv in H. destruct H as [p3 [P3 H]].
  apply arg_str in P3; [|intros u Hu; inversion Hu; subst].
  2:{ destruct Hwf as [_ [Hw _]]. apply (Hw u Es). }
  destruct P3 as [s' [E' [Hs ->]]]. inversion E'; subst s'.
  apply sof_inv in H. destruct H as [p4 [P4 H]]. apply arg_bool in P4. subst p4.
  apply sof_inv in H. destruct H as [p6 [P6 H]]. apply arg_time in P6. destruct P6 as [t' [Et ->]]. inversion Et; subst t'.
  apply sign_inv in H. destruct H as [text [H1 H2]].
  exists rc, vr, regs, (ba_of p), p, pvr, t, f, s, rcode, pinned, d, n.
  repeat (split; [solve [auto | cbn; congruence | lia]|]).
  eexists _, text. split; [|split; [exact H1|exact H2]]. subst v0. destruct n; exactly.
Qed.
