(** Proofs: acceptance by the pledge, memory safety, the honest run. *)
From Coq Require Import ZifyBool ZifyNat ZifyN.
From Verif Require Import Base PBase MBase64 SBase64 PBase64 MSerialize SSerialize PSerialize MOs POs
  MJsmn PJsmn MVoucher SVoucher PVoucher SJson PVoucherText PJsonTok PVoucherJson PVoucherRound MCrypto MRequest SRequest PRequest PRequest2.
Open Scope N_scope.

(** ** Values of parsed vouchers *)

Lemma val0_small : forall c, val0 c < 64.
Proof.
  intros c. unfold val0, b64_val. destruct ((65 <=? c) && (c <=? 90)) eqn:E1; [lia|]. destruct ((97 <=? c) && (c <=? 122)) eqn:E2; [lia|].
  destruct ((48 <=? c) && (c <=? 57)) eqn:E3; [lia|]. destruct (c =? 43); [lia|]. destruct (c =? 47); lia.
Qed.

Lemma group_bytes_ok : forall a b c d, bytes_ok (group_bytes a b c d).
Proof.
  intros a b c d. unfold group_bytes. pose proof (val0_small a). pose proof (val0_small b). pose proof (val0_small c). pose proof (val0_small d).
  repeat constructor; try (apply N.mod_lt; lia). apply N.div_lt_upper_bound; lia.
Qed.

Lemma close_bytes_ok : forall g a b c d out, close_group g (group_bytes a b c d) = Some out -> bytes_ok out.
Proof.
  intros g a b c d out H. pose proof (group_bytes_ok a b c d) as G. unfold close_group in H.
  destruct (pads g) as [|[|[|n]]]; try discriminate; inversion H; unfold group_bytes in *; cbn [firstn];
    inversion G as [|? ? G1 G2]; subst; inversion G2; subst; repeat constructor; assumption.
Qed.

Lemma rfc_groups_bytes : forall n l out, (List.length l <= n)%nat -> rfc_decode_groups l = Some out -> bytes_ok out.
Proof.
  induction n as [|n IH]; intros l out Hl H.
  - destruct l; [|cbn in Hl; lia]. inversion H. constructor.
  - destruct l as [|c0 [|c1 [|c2 [|c3 rest]]]]; cbn [rfc_decode_groups] in H; try discriminate.
    + inversion H. constructor.
    + eapply close_bytes_ok; exact H.
    + eapply close_bytes_ok; exact H.
    + destruct (_ =? 0)%nat.
      * destruct (rfc_decode_groups rest) as [o|] eqn:E; [|discriminate]. assert (out = group_bytes c0 c1 c2 c3 ++ o) as -> by congruence. apply bytes_ok_app.
        split; [apply group_bytes_ok|]. apply (IH rest); [cbn in Hl; lia|exact E].
      * eapply close_bytes_ok; exact H.
Qed.

Lemma rfc_decode_bytes : forall x d, rfc_decode x = Some d -> bytes_ok d.
Proof.
  intros x d H. unfold rfc_decode in H. destruct (filter b64_relevant x) as [|c l]; [discriminate|].
  eapply rfc_groups_bytes; [apply Nat.le_refl|exact H].
Qed.

Lemma parsed_values : forall js v, bytes_ok js -> blen js < 2147483648 -> deserialize_voucher true (Some js) = Ok (Some v) ->
  (forall a b, get_attr_array (Some v) a = Some b -> b = ba_null \/ exists d, b = ba_of d /\ bytes_ok d) /\
  (forall s, get_attr_str (Some v) ASerial = Some (Some s) -> cstr_ok s /\ blen s < 128).
Proof.
  intros js v H1 H2 H. pose proof (parsed_wf js v H1 H2 H) as Hwf. destruct (deserialize_only js v H1 H2 H) as [es [He Hh]].
  rewrite Forall_forall in He. split.
  - intros a b Hb. destruct (wf_arr v a b Hwf Hb) as [->|[d ->]]; [auto|]. right. exists d. split; [reflexivity|].
    specialize (Hh a). destruct (last_of a (map entry_kv es)) as [p|] eqn:El.
    + apply last_of_some in El. apply in_map_iff in El. destruct El as [[[a' x] q] [E Hi]]. cbn in E. inversion E; subst.
      apply He in Hi. cbn in Hi. destruct Hi as [I1 [I2 _]]. unfold value_ok in I2.
      destruct a; try discriminate; cbn [kind] in I2; destruct I2 as [d' [I3 ->]]; cbn [has_value] in Hh; rewrite Hb in Hh;
        inversion Hh; subst d'; eapply rfc_decode_bytes; exact I3.
    + assert (E5 : get_attr_array (Some v) a = get_attr_array (Some init_voucher) a) by (unfold attr_blank, observe in Hh; congruence).
      rewrite Hb in E5. destruct a; discriminate.
  - intros s Hs. specialize (Hh ASerial). destruct (last_of ASerial (map entry_kv es)) as [p|] eqn:El.
    + apply last_of_some in El. apply in_map_iff in El. destruct El as [[[a' x] q] [E Hi]]. cbn in E. inversion E; subst.
      apply He in Hi. cbn in Hi. destruct Hi as [I1 [I2 [I3 _]]]. unfold value_ok in I2. cbn [kind] in I2. destruct I2 as [I4 ->].
      cbn [has_value] in Hh. rewrite Hs in Hh. inversion Hh; subst. auto.
    + assert (E4 : get_attr_str (Some v) ASerial = get_attr_str (Some init_voucher) ASerial) by (unfold attr_blank, observe in Hh; congruence).
      rewrite Hs in E4. discriminate.
Qed.

Lemma says_values : forall o cms certs store want v l, ossl_sane o -> says o cms certs store want v l ->
  (forall a b, get_attr_array (Some v) a = Some b -> b = ba_null \/ exists d, b = ba_of d /\ bytes_ok d) /\
  (forall s, get_attr_str (Some v) ASerial = Some (Some s) -> cstr_ok s /\ blen s < 128).
Proof.
  intros o cms certs store want v l [HS _] [c [st [json [[d [s [_ [_ [_ [_ H]]]]]] [H2 _]]]]].
  apply HS in H. destruct H as [H3 H4]. eapply parsed_values; eauto.
Qed.

(** ** Acceptance by the pledge *)

Lemma verify_cert_iff : forall o rc d store,
  crypto_verify_cert o rc (Some [(d, 0%Z)]) store = Ok 0%Z <-> chains o (Some rc) d store.
Proof.
  intros o rc d store. unfold crypto_verify_cert, chains. cbn [get_certificate_stack]. split.
  - intros H. destruct (ba_data rc) as [m|] eqn:Em; [|discriminate].
    destruct (ba_read rc) as [cb|] eqn:Er; cbn [obind] in H; [|discriminate].
    destruct (d2i_x509 o cb) as [x|] eqn:Ex; [|discriminate]. destruct (d2i_x509 o d) as [y|] eqn:Ey; [|discriminate].
    destruct (opt_store o store) as [st|] eqn:Es; [|discriminate].
    destruct (build_chain o x [y] st) as [[|c ch]|] eqn:Eb; try discriminate.
    apply ba_read_iff in Er. destruct Er as [[? _]|Er]; [congruence|]. apply opt_store_iff in Es.
    exists cb, x, y, st, (c :: ch). repeat (split; [first [assumption|reflexivity]|]). discriminate.
  - intros [cb [x [y [st [ch [H1 [H2 [H3 [H4 [H5 H6]]]]]]]]]].
    assert (R : ba_read rc = Ok cb) by (apply ba_read_iff; right; exact H1).
    destruct H1 as [b [r [E [F _]]]]. inversion E; subst b. rewrite F, R. cbn [obind]. rewrite H2, H3.
    apply opt_store_iff in H4. rewrite H4, H5. destruct ch; [congruence|reflexivity].
Qed.

Lemma verify_cert_values : forall o rc d store, ba_bytes (Some rc) ->
  crypto_verify_cert o rc (Some [(d, 0%Z)]) store = Ok 0%Z \/ crypto_verify_cert o rc (Some [(d, 0%Z)]) store = Ok (-1)%Z.
Proof.
  intros o rc d store Hb. unfold crypto_verify_cert. cbn [get_certificate_stack]. destruct (ba_data rc); [|auto].
  destruct (ba_bytes_read rc Hb) as [cb [-> _]]. cbn [obind]. destruct (d2i_x509 o cb); [|auto]. destruct (d2i_x509 o d); [|auto].
  destruct (opt_store o store); [|auto]. destruct (build_chain _ _ _ _) as [[|? ?]|]; auto.
Qed.

Lemma verify_cert_neg : forall o rc cl store z, crypto_verify_cert o rc cl store = Ok z -> z = 0%Z \/ z = (-1)%Z.
Proof.
  intros o rc cl store z H. unfold crypto_verify_cert, obind in H.
  repeat (match type of H with context [match ?x with _ => _ end] => destruct x end; try discriminate);
  inversion H; auto.
Qed.

Lemma copy_of : forall d, copy_binary_array true ba_null (Some (ba_of d)) = Ok (0%Z, ba_of d).
Proof. intros d. unfold copy_binary_array, ba_of. cbn [ba_data ba_len sys_memdup negb]. rewrite take_mem_all. reflexivity. Qed.

Lemma read_of : forall d, ba_read (ba_of d) = Ok d.
Proof. intros d. apply take_mem_all. Qed.

(** C36. *)
Lemma pledge_accepts : forall o cms serial nonce rtls dstore vcerts vstore want p l, ossl_sane o ->
  (verify_masa_pledge_voucher o cms serial nonce rtls dstore vcerts vstore want true = Ok (Some (p, l)) <->
   exists mcms mv s d, cms = Some mcms /\ serial = Some s /\ says o mcms vcerts vstore want mv l /\
     get_attr_str (Some mv) ASerial = Some (Some s) /\
     (forall n, nonce = Some n -> exists d, nonce_is mv (Some d) /\ holds_bytes n d) /\
     get_attr_array (Some mv) APinned = Some (ba_of d) /\ chains o rtls d dstore /\ p = ba_of d).
Proof.
  intros o cms serial nonce rtls dstore vcerts vstore want p l HS. unfold verify_masa_pledge_voucher. split.
  - intros H. destruct serial as [s|]; [|discriminate].
    destruct (verify_cms_voucher o cms vcerts vstore want) as [[[mv l']|]|] eqn:Ev; cbn [obind] in H; try discriminate.
    destruct cms as [mcms|]; [|discriminate]. apply verify_says in Ev. pose proof (says_wf _ _ _ _ _ _ _ HS Ev) as Hwf.
    cbn [is_attr_nonempty get_attr_str] in H. destruct (v_serial mv) as [vs|] eqn:Es; cbn [negb] in H; [|discriminate].
    cbn [strcmp_eq obind] in H. destruct (beqb s vs) eqn:Eb; cbn [negb] in H; [|discriminate]. apply beqb_eq in Eb. subst vs.
    match type of H with obind ?e _ = _ => destruct e as [nok|] eqn:En; cbn [obind] in H; [|discriminate] end.
    destruct nok; cbn [negb] in H; [|discriminate].
    destruct (is_attr_array_nonempty (Some (v_pinned mv))) eqn:Ep; cbn [negb] in H; [|discriminate].
    cbn [get_attr_array] in H. destruct (wf_arr mv APinned (v_pinned mv) Hwf eq_refl) as [Epp|[d Epp]]; rewrite Epp in *; [discriminate|].
    rewrite copy_of in H. cbn [obind fst snd Z.ltb Z.compare] in H. rewrite read_of in H. cbn [obind] in H.
    destruct rtls as [rc|]; [|discriminate].
    destruct (crypto_verify_cert o rc (Some [(d, 0%Z)]) dstore) as [e|] eqn:Ec; cbn [obind] in H; [|discriminate].
    destruct (e <? 0)%Z eqn:Ee; [discriminate|]. cbn [negb] in H. inversion H; subst p l'.
    assert (e = 0%Z) by (destruct (verify_cert_neg _ _ _ _ _ Ec); [assumption|lia]). subst e. apply verify_cert_iff in Ec.
    exists mcms, mv, s, d. split; [reflexivity|]. split; [reflexivity|]. split; [exact Ev|]. split; [cbn; congruence|].
    split; [|split; [cbn; congruence|split; [exact Ec|reflexivity]]].
    intros n ->. destruct (is_attr_array_nonempty (Some (v_nonce mv))) eqn:Enn; [|discriminate].
    destruct (wf_arr mv ANonce (v_nonce mv) Hwf eq_refl) as [E0|[nd E0]].
    { exfalso. rewrite E0 in Enn. discriminate Enn. }
    cbn [get_attr_array] in En. rewrite E0 in En.
    destruct (compare_binary_array (Some n) (Some (ba_of nd))) as [x|] eqn:Ex; cbn [obind] in En; [|discriminate].
    inversion En. destruct (compare_same _ _ _ Ex) as [nd' [N1 N2]]; [lia|].
    assert (nd' = nd) by (eapply holds_bytes_fun; [exact N2|right; apply ba_of_has]). subst nd'.
    exists nd. split; [|exact N1]. unfold nonce_is. cbn. congruence.
  - intros [mcms [mv [s [d [-> [-> [Hs [H1 [H2 [H3 [H4 ->]]]]]]]]]]].
    apply verify_says in Hs. rewrite Hs. cbn [obind]. cbn [get_attr_str get_attr_array] in *. inversion H1 as [Es]. inversion H3 as [Epp].
    cbn [is_attr_nonempty]. rewrite Es, Epp. cbn [negb strcmp_eq obind]. rewrite beqb_refl. cbn [negb].
    assert (N : match nonce with
                | None => Ok true
                | Some _ => if is_attr_array_nonempty (Some (v_nonce mv)) then
                    obind (compare_binary_array nonce (Some (v_nonce mv))) (fun c => Ok (negb (c <? 1)%Z)) else Ok false
                end = Ok true).
    { destruct nonce as [n|]; [|reflexivity]. destruct (H2 n eq_refl) as [nd [N1 N2]]. unfold nonce_is in N1. cbn [get_attr_array] in N1.
      inversion N1 as [E]. rewrite E. cbn [is_attr_array_nonempty ba_of ba_data].
      rewrite (compare_yes n (ba_of nd) nd) by (assumption || (right; apply ba_of_has)). reflexivity. }
    rewrite N. cbn [obind negb is_attr_array_nonempty ba_data ba_of]. change (mk_ba (Some d) (blen d)) with (ba_of d).
    rewrite copy_of. cbn [obind fst snd Z.ltb Z.compare]. rewrite read_of. cbn [obind].
    destruct rtls as [rc|]; [|destruct H4 as [? [? [? [? [? [[? [? [? _]]] _]]]]]]; discriminate].
    apply verify_cert_iff in H4. rewrite H4. cbn [obind Z.ltb Z.compare negb]. reflexivity.
Qed.
