(** Proofs for C35 with an honest registrar and for what the pledge looks at (C39). *)
From Coq Require Import ZifyBool ZifyNat ZifyN.
From Verif Require Import Base PBase MBase64 SBase64 PBase64 MSerialize SSerialize MOs MVoucher SVoucher PVoucher SJson PVoucherJson PVoucherRound
  MCrypto MRequest SRequest SChain PRequest PRequest2 PRequest3 PRequest5 PRequest6 PRequest7.
Open Scope N_scope.

Lemma decode_shorter : forall x d, rfc_decode x = Some d -> blen d <= blen x + 3.
Proof.
  intros x d H. unfold rfc_decode in H.
  assert (F : blen (filter b64_relevant x) <= blen x) by (unfold blen; clear; induction x as [|a x IH]; cbn [filter List.length]; [lia|]; destruct (b64_relevant a); cbn [List.length]; lia).
  destruct (filter b64_relevant x) as [|c l] eqn:E; [discriminate|]. apply decode_groups_fit in H. unfold decode_olen in H.
  assert (extra_pad (blen (c :: l)) <= 3) by (unfold extra_pad; lia). lia.
Qed.

Lemma says_short : forall o cms certs store want v l a d, ossl_sane o -> says o cms certs store want v l ->
  get_attr_array (Some v) a = Some (ba_of d) -> bytes_ok d /\ blen d < SIZE_MAX / 4.
Proof.
  intros o cms certs store want v l a d HS Hs Hb. split.
  { destruct (says_values _ _ _ _ _ _ _ HS Hs) as [V _]. destruct (V a _ Hb) as [X|(d' & X & Y)]; [discriminate X|]. injection X as <- _. exact Y. }
  destruct HS as [HS _]. destruct Hs as [c [st [json [[e [s [_ [_ [_ [_ H]]]]]] [H2 _]]]]]. apply HS in H. destruct H as [H3 H4].
  destruct (deserialize_only json v H3 H4 H2) as [es [He Hh]]. rewrite Forall_forall in He. specialize (Hh a).
  destruct (last_of a (map entry_kv es)) as [p|] eqn:El.
  - apply last_of_some in El. apply in_map_iff in El. destruct El as [[[a' x] q] [E Hi]]. cbn in E. injection E as -> ->.
    apply He in Hi. cbn in Hi. destruct Hi as [I1 [I2 [_ (A & M & B & EJ)]]]. unfold value_ok in I2.
    assert (exists d', rfc_decode x = Some d' /\ p = PArr d') as (d' & I3 & ->) by (destruct a; try discriminate Hb; exact I2).
    cbn [has_value] in Hh. rewrite Hb in Hh. injection Hh as <- _. apply decode_shorter in I3.
    assert (blen x <= blen json) by (rewrite EJ, !blen_app; lia). unfold SIZE_MAX. lia.
  - assert (E5 : get_attr_array (Some v) a = get_attr_array (Some init_voucher) a) by (unfold attr_blank, observe in Hh; congruence).
    rewrite Hb in E5. destruct a; discriminate E5.
Qed.

Lemma holds_ready : forall v kvs, holds_exactly v kvs -> Forall (fun kv => value_ready (snd kv)) kvs -> json_ready v.
Proof.
  intros v kvs H R. rewrite Forall_forall in R.
  assert (V : forall a p, last_of a kvs = Some p -> value_ready p). { intros a p E. apply last_of_some in E. exact (R _ E). }
  split; [|split; [|split]].
  - intros a t E. specialize (H a). destruct (last_of a kvs) as [p|] eqn:El.
    + apply V in El. destruct p; cbn [has_value value_ready] in *; try (destruct a; discriminate). rewrite E in H. injection H as ->. exact El.
    + left. assert (X : get_attr_time (Some v) a = get_attr_time (Some init_voucher) a) by (unfold attr_blank, observe in H; congruence). rewrite E in X. destruct a; try discriminate X; injection X as ->; reflexivity.
  - intros a b E. specialize (H a). destruct (last_of a kvs) as [p|] eqn:El.
    + apply V in El. destruct p; cbn [has_value value_ready] in *; try (destruct a; discriminate). rewrite E in H. injection H as ->. right. exists d. split; [reflexivity|exact El].
    + left. assert (X : get_attr_array (Some v) a = get_attr_array (Some init_voucher) a) by (unfold attr_blank, observe in H; congruence). rewrite E in X. destruct a; try discriminate X; injection X as ->; reflexivity.
  - specialize (H AAssertion). destruct (last_of AAssertion kvs) as [p|] eqn:El.
    + apply V in El. destruct p; cbn [has_value value_ready] in *; try discriminate. cbn in H. injection H as ->. lia.
    + assert (X : get_attr_enum (Some v) AAssertion = get_attr_enum (Some init_voucher) AAssertion) by (unfold attr_blank, observe in H; congruence). cbn in X. injection X as ->. lia.
  - intros s E. specialize (H ASerial). destruct (last_of ASerial kvs) as [p|] eqn:El.
    + apply V in El. destruct p; cbn [has_value value_ready] in *; try discriminate. cbn in H. rewrite E in H. injection H as ->. exact El.
    + assert (X : get_attr_str (Some v) ASerial = get_attr_str (Some init_voucher) ASerial) by (unfold attr_blank, observe in H; congruence). cbn in X. rewrite E in X. discriminate X.
Qed.

(** A signed voucher that verifies says what was written. *)
Lemma signed_says : forall o cert key extra kvs cms certs store want w l, ossl_sane o -> genuine o ->
  Forall (fun kv => value_ready (snd kv)) kvs -> signed_voucher o cert key extra kvs cms ->
  says o (ba_of cms) certs store want w l -> exists v, holds_exactly v kvs /\ same_voucher v w.
Proof.
  intros o cert key extra kvs cms certs store want w l HS HC HR (v & text & Hv & Hse & Hsg) (c' & st' & json & Hver & Hj & _).
  assert (json = text) by (eapply HC; eassumption). subst json. destruct Hver as (d & s & _ & _ & _ & _ & Hver). destruct HS as [HS _]. apply HS in Hver. destruct Hver as [_ HL].
  pose proof (holds_ready _ _ Hv HR) as Rv. destruct (json_roundtrip v Rv) as (text' & E1 & E2).
  assert (text' = text) by (rewrite E1 in Hse; clear -Hse; injection Hse; auto). subst text'.
  destruct (E2 HL) as (w' & Ew & Sw). exists v. split; [exact Hv|]. assert (w' = w) by (rewrite Ew in Hj; clear -Hj; injection Hj; auto). subst w'. exact Sw.
Qed.

Lemma nonce_fun : forall v n m, nonce_is v n -> nonce_is v m -> n = m.
Proof. unfold nonce_is. intros v n m H1 H2. rewrite H1 in H2. destruct n, m; cbn in H2; try discriminate H2; [injection H2 as -> _|]; reflexivity. Qed.

Lemma nonce_of : forall v n t s i p, holds_exactly v (registrar_content t s n i p) -> nonce_is v n /\ get_attr_str (Some v) ASerial = Some (Some s).
Proof.
  intros v n t s i p H. split; [|exact (H ASerial)] || (split; [|pose proof (H ASerial) as X; destruct n; exact X]).
  pose proof (H ANonce) as X. unfold nonce_is. destruct n as [d|]; [exact X|]. cbn in X. unfold attr_blank, observe in X. cbn in X. cbn. congruence.
Qed.

Lemma honest_bound : forall o p pvr n t s i rtls rcert rkey rp_certs rp_store rextra rcms expires cb mcert mkey mr_certs mr_store mp_certs mp_store mextra cms,
  ossl_sane o -> genuine o -> date_ready t -> Forall plain_char s ->
  p <> [] -> bytes_ok p -> blen p < SIZE_MAX / 4 -> i <> [] -> bytes_ok i -> blen i < SIZE_MAX / 4 ->
  says o (ba_of p) rp_certs rp_store false pvr None -> nonce_is pvr n -> n <> Some [] ->
  sign_voucher_request o (Some (ba_of p)) (Some t) (Some s) (Some (ba_of i)) rtls rcert rkey rp_certs rp_store rextra = Ok (Some rcms) ->
  sign_masa_pledge_voucher o (Some (ba_of rcms)) expires cb mcert mkey mr_certs mr_store mp_certs mp_store mextra = Ok (Some cms) ->
  get_attr_enum (Some pvr) AAssertion = Some 3%Z /\ get_attr_str (Some pvr) ASerial = Some (Some s) /\
  exists e d, expires = Some e /\ signed_voucher o mcert mkey mextra (masa_content e s n d) cms.
Proof.
  intros o p pvr n t s i rtls rcert rkey rp_certs rp_store rextra rcms expires cb mcert mkey mr_certs mr_store mp_certs mp_store mextra cms
    HS HC Ht Hs P1 P2 P3 I1 I2 I3 Hp Hn Hne Hr Hm.
  assert (Hcs : forall x, Some s = Some x -> cstr_ok x) by (intros x X; injection X as <-; apply plain_cstr; exact Hs).
  apply (registrar_iff _ _ _ _ _ _ _ _ _ _ _ _ HS Hcs) in Hr.
  destruct Hr as (pc & pvr' & t' & s' & i' & rc & p' & prox & n' & E1 & E2 & E3 & _ & Sp & Se & _ & _ & As & No & Bi & Bp & Sg).
  injection E1 as <-. injection E2 as <-. injection E3 as <-.
  assert (p' = p) by (eapply ba_has_fun; [exact Bp|apply ba_of_has]). subst p'. assert (i' = i) by (eapply ba_has_fun; [exact Bi|apply ba_of_has]). subst i'.
  assert (pvr' = pvr). { apply verify_says in Hp. apply verify_says in Sp. rewrite Hp in Sp. injection Sp as ->. reflexivity. } subst pvr'.
  pose proof (nonce_fun _ _ _ No Hn). subst n'.
  apply (masa_iff _ _ _ _ _ _ _ _ _ _ _ _ HS) in Hm.
  destruct Hm as (rc' & vr & regs & q & qvr & e & f & s' & rcode & pinned & d & m & F1 & F2 & _ & Sr & _ & _ & Sv & _ & _ & _ & Pd & Nv & Sm).
  injection F1 as <-. split; [exact As|]. split; [exact Se|]. exists e, d. split; [exact F2|].
  assert (Ls : blen s < 128) by (destruct (says_values _ _ _ _ _ _ _ HS Sp) as [_ V]; exact (proj2 (V s Se))).
  assert (R : Forall (fun kv => value_ready (snd kv)) (registrar_content t s n i p)).
  { unfold registrar_content. apply Forall_app. split; [repeat (apply Forall_cons; [cbn [snd value_ready]; auto|]); apply Forall_nil|].
    destruct n as [x|]; cbn [opt_entry]; [|constructor]. constructor; [|constructor]. cbn [snd value_ready]. destruct (says_short _ _ _ _ _ _ _ ANonce x HS Sp Hn) as [B1 B2].
    split; [intros X; apply Hne; rewrite X; reflexivity|]. split; assumption. }
  destruct (signed_says _ _ _ _ _ _ _ _ _ _ _ HS HC R Sg Sr) as (v & Hv & Sw).
  destruct (nonce_of _ _ _ _ _ _ Hv) as [Nn Ns]. destruct (same_get _ _ Sw) as (G1 & G2 & _).
  assert (s' = s) by (rewrite G2, Ns in Sv; injection Sv as ->; reflexivity). subst s'.
  assert (nonce_is v m) as Nm by (unfold nonce_is in *; rewrite <- G1; exact Nv). rewrite (nonce_fun _ _ _ Nn Nm). exact Sm.
Qed.

(** ** What the pledge looks at *)

Lemma says_fun : forall o cms certs store want v l v' l', says o cms certs store want v l -> says o cms certs store want v' l' -> v = v' /\ l = l'.
Proof. intros o cms certs store want v l v' l' H1 H2. apply verify_says in H1, H2. rewrite H1 in H2. injection H2 as -> ->. split; reflexivity. Qed.

Lemma pledge_looks : forall o cms1 cms2 serial nonce rtls dstore certs1 certs2 store1 store2 want v1 v2 l1 l2 p, ossl_sane o ->
  says o cms1 certs1 store1 want v1 l1 -> says o cms2 certs2 store2 want v2 l2 ->
  get_attr_str (Some v1) ASerial = get_attr_str (Some v2) ASerial ->
  get_attr_array (Some v1) APinned = get_attr_array (Some v2) APinned ->
  (nonce <> None -> get_attr_array (Some v1) ANonce = get_attr_array (Some v2) ANonce) ->
  verify_masa_pledge_voucher o (Some cms1) serial nonce rtls dstore certs1 store1 want true = Ok (Some (p, l1)) ->
  verify_masa_pledge_voucher o (Some cms2) serial nonce rtls dstore certs2 store2 want true = Ok (Some (p, l2)).
Proof.
  intros o cms1 cms2 serial nonce rtls dstore certs1 certs2 store1 store2 want v1 v2 l1 l2 p HS S1 S2 Es Ep En H.
  apply (pledge_accepts _ _ _ _ _ _ _ _ _ _ _ HS) in H. destruct H as (m & mv & s & d & E & E2 & Sy & Gs & Gn & Gp & Ch & ->).
  injection E as <-. destruct (says_fun _ _ _ _ _ _ _ _ _ Sy S1) as [-> _].
  apply (pledge_accepts _ _ _ _ _ _ _ _ _ _ _ HS). exists cms2, v2, s, d. split; [reflexivity|]. split; [exact E2|]. split; [exact S2|]. split; [congruence|].
  split; [|split; [congruence|split; [exact Ch|reflexivity]]].
  intros n Hn. destruct (Gn n Hn) as (x & X1 & X2). exists x. split; [|exact X2]. unfold nonce_is in *. rewrite <- En by congruence. exact X1.
Qed.
