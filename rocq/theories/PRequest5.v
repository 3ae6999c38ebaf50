(** Proofs: size of a written voucher and the honest run. *)
From Coq Require Import ZifyBool ZifyNat ZifyN.
From Verif Require Import Base PBase MBase64 SBase64 PBase64 MSerialize SSerialize PSerialize MOs POs
  MJsmn PJsmn MVoucher SVoucher PVoucher SJson PVoucherText PJsonTok PVoucherJson PVoucherRound MCrypto MRequest SRequest
  PRequest PRequest2 PRequest3 PRequest4.
Open Scope N_scope.

(** ** Size and characters of the text of a voucher *)

Definition alen (v : voucher) (a : attr) : N :=
  match get_attr_array (Some v) a with Some b => rfc_len (ba_len b) + 2 | None => 130 end.
Definition kvsize (kvs : list (bytes * bytes)) : N := fold_right (fun kv n => blen (fst kv) + blen (snd kv) + 2 + n) 0 kvs.
Definition asize (v : voucher) (attrs : list attr) : N := fold_right (fun a n => blen (attr_name a) + 4 + alen v a + n) 0 attrs.

Lemma attr_len : forall v a x, json_ready v -> serialize_attr v a = Ok (Some x) -> is_attr_nonempty v a = true -> blen x <= alen v a.
Proof.
  intros v a x Hr H Hn. pose proof Hr as [RT [RA [RE RS]]].
  assert (T : forall t, escape_serialize_time t = Ok (Some x) -> blen x <= 130).
  { intros t Ht. unfold escape_serialize_time in Ht. destruct (serialize_time2str t) as [s|] eqn:E; [|discriminate].
    rewrite escapestr_ok in Ht. inversion Ht. unfold serialize_time2str in E. cbv zeta in E.
    destruct (blen (strftime_iso t) + 1 <=? 22) eqn:El; [|discriminate]. inversion E; subst.
    rewrite blen_cons, blen_app, blen_cons. unfold blen at 2. cbn [List.length]. lia. }
  assert (A : forall b, get_attr_array (Some v) a = Some b -> is_attr_array_nonempty (Some b) = true ->
     escape_serialize_array b = Ok (Some x) -> blen x <= rfc_len (ba_len b) + 2).
  { intros b Hb Hne Hx. destruct (RA a b Hb) as [->|[d [-> [D1 [D2 D3]]]]]; [discriminate|].
    rewrite array_text in Hx by assumption. assert (x = jrender (JQuoted (rfc_encode d))) as -> by congruence.
    cbn [jrender]. rewrite !blen_app, rfc_encode_len. cbn [ba_of ba_len]. change (blen (s2b """")) with 1. lia. }
  unfold alen. destruct a; cbn [serialize_attr get_attr_array is_attr_nonempty] in *; try (eapply T; exact H); try (eapply A; [reflexivity|assumption|assumption]).
  - assert (C : (v_assertion v = 1 \/ v_assertion v = 2 \/ v_assertion v = 3)%Z) by lia.
    destruct C as [C|[C|C]]; rewrite C in H; cbn [assertion_name obind] in H; rewrite escapestr_ok in H; inversion H; vm_compute; discriminate.
  - destruct (v_serial v) as [s|] eqn:Es; [|discriminate]. rewrite escapestr_ok in H. inversion H. destruct (RS s eq_refl) as [_ S2].
    rewrite blen_cons, blen_app, blen_cons. unfold blen at 2. cbn [List.length]. lia.
  - destruct (v_revocation v); inversion H; vm_compute; discriminate.
  - discriminate.
Qed.

Lemma kv_len : forall v, json_ready v -> forall attrs acc kvs, voucher_to_keyvalue v attrs acc = Ok (Some kvs) ->
  kvsize kvs <= kvsize acc + asize v attrs.
Proof.
  intros v Hr. induction attrs as [|a attrs IH]; intros acc kvs H; cbn [voucher_to_keyvalue asize fold_right] in *.
  - inversion H; subst. lia.
  - fold (asize v attrs). destruct (is_attr_nonempty v a) eqn:En.
    + rewrite escapestr_ok in H. cbn [obind] in H. destruct (serialize_attr v a) as [[x|]|] eqn:Ex; cbn [obind] in H; try discriminate.
      apply IH in H. pose proof (attr_len v a x Hr Ex En).
      assert (S : forall l k y, kvsize (l ++ [(k, y)]) = kvsize l + blen k + blen y + 2).
      { induction l as [|e l IHl]; intros k y; cbn [app kvsize fold_right fst snd]; [lia|]. fold (kvsize (l ++ [(k, y)])). fold (kvsize l). rewrite IHl. lia. }
      rewrite S, !blen_app in H. change (blen [34]) with 1 in H. lia.
    + apply IH in H. lia.
Qed.

Lemma join_size : forall kvs, blen (join (s2b ",") (map (fun kv : bytes * bytes => fst kv ++ s2b ":" ++ snd kv) kvs)) <= kvsize kvs.
Proof.
  change (s2b ",") with [44]. change (s2b ":") with [58].
  induction kvs as [|kv kvs IH]; [cbn; lia|]. cbn [map join kvsize fold_right]. fold (kvsize kvs).
  destruct (map _ kvs) eqn:E.
  - rewrite !blen_app. unfold blen at 2. cbn [List.length]. lia.
  - rewrite !blen_app. change (blen [58]) with 1. change (blen [44]) with 1. lia.
Qed.

Lemma text_len : forall v text, json_ready v -> serialize_voucher (Some v) = Ok (Some text) ->
  blen text <= asize v all_attrs + 30.
Proof.
  intros v text Hr H. unfold serialize_voucher, serialize_child_voucher in H.
  destruct (vkv_ok v Hr all_attrs [] (fun a H => H)) as [l [L1 [L2 L3]]]. 
  pose proof (kv_len v Hr all_attrs [] _ L1) as K. rewrite L1 in H. cbn [obind app] in *.
  assert (Hll : (List.length (map enc l) <= 11)%nat).
  { rewrite map_length, <- (map_length att_of), L3. clear. 
    assert (G : forall (f : attr -> bool) m, (List.length (filter f m) <= List.length m)%nat).
    { intros f. induction m as [|x m IH]; cbn; [lia|]. destruct (f x); cbn; lia. }
    exact (G (is_attr_nonempty v) all_attrs). }
  destruct (map enc l) as [|e r] eqn:E.
  - cbn in H. discriminate.
  - rewrite keyvalue2json_ok in H; [|discriminate|cbn [List.length] in *; lia]. cbn [obind] in H. rewrite escapestr_ok in H. cbn [obind] in H.
    rewrite keyvalue2json_ok in H; [|discriminate|cbn; lia]. inversion H as [Ht]. clear H.
    unfold kv_json at 1. cbn [map fst snd join].
    rewrite !blen_app. unfold kv_json. rewrite !blen_app. pose proof (join_size (e :: r)) as J.
    change (kvsize []) with 0 in K. change (blen (s2b "{")) with 1. change (blen (s2b "}")) with 1. change (blen (s2b ":")) with 1.
    change (blen root_name) with 20. change (blen []) with 0. change (blen [34]) with 1. unfold bytes in *.
    set (j := blen (join _ _)) in *. clearbody j. set (ks := kvsize _) in *. clearbody ks. set (az := asize _ _) in *. clearbody az.
    unfold blen. cbn [List.length]. lia.
Qed.

Lemma asize_arrays : forall v, asize v all_attrs <= 1200 + rfc_len (ba_len (v_issuer v)) + rfc_len (ba_len (v_pinned v)) +
  rfc_len (ba_len (v_nonce v)) + rfc_len (ba_len (v_prior v)) + rfc_len (ba_len (v_proximity v)).
Proof.
  intros v. cbn [asize all_attrs fold_right alen get_attr_array]. unfold alen. cbn [get_attr_array].
  repeat match goal with |- context [blen (attr_name ?a)] => let n := eval vm_compute in (blen (attr_name a)) in change (blen (attr_name a)) with n end.
  lia.
Qed.

Lemma plain_bytes : forall s, Forall plain_char s -> bytes_ok s.
Proof. intros s H. eapply Forall_impl; [|exact H]. unfold plain_char. cbv beta. lia. Qed.
Lemma bare_bytes : forall s, Forall bare_char s -> bytes_ok s.
Proof. intros s H. eapply Forall_impl; [|exact H]. unfold bare_char. cbv beta. lia. Qed.
Lemma ws_bytes : forall s, Forall ws_char s -> bytes_ok s.
Proof. intros s H. eapply Forall_impl; [|exact H]. unfold ws_char. cbv beta. lia. Qed.

Lemma document_bytes : forall w key ms, layout_ok w -> Forall plain_char key -> Forall member_ok ms -> bytes_ok (document w key ms).
Proof.
  intros w key ms [W1 [W2 [W3 [W4 [W5 [W6 W7]]]]]] Hk Hm. unfold document.
  assert (M : bytes_ok (join (s2b ",") (map member_text ms))).
  { induction Hm as [|m ms [M1 [M2 [M3 [M4 [M5 M6]]]]] Hm IH]; [constructor|].
    assert (Mt : bytes_ok (member_text m)).
    { unfold member_text. rewrite !bytes_ok_app. repeat split; try (apply ws_bytes; assumption); try (apply plain_bytes; assumption);
        try (apply bytes_okb_ok; vm_compute; reflexivity).
      destruct (m_val m) as [s|s]; cbn [jrender jval_ok] in *.
      - rewrite !bytes_ok_app. repeat split; try (apply plain_bytes; assumption); apply bytes_okb_ok; vm_compute; reflexivity.
      - apply bare_bytes. apply M6. }
    cbn [map join]. destruct (map member_text ms); [exact Mt|]. rewrite !bytes_ok_app. repeat split; auto.
    apply bytes_okb_ok; vm_compute; reflexivity. }
  rewrite !bytes_ok_app. repeat split; try (apply ws_bytes; assumption); try (apply plain_bytes; assumption); try exact M;
    apply bytes_okb_ok; vm_compute; reflexivity.
Qed.

Lemma text_bytes : forall v text, json_ready v -> serialize_voucher (Some v) = Ok (Some text) -> bytes_ok text.
Proof.
  intros v text Hr H. destruct (serialize_text v Hr) as [l [G [L S]]]. rewrite S in H. inversion H; subst.
  apply document_bytes; [exact no_ws_ok|exact root_plain|apply (good_meaning v l G)].
Qed.

(** ** The honest run *)

Definition value_ready (p : pval) : Prop :=
  match p with
  | PTime t => date_ready t
  | PEnum z => (1 <= z <= 3)%Z
  | PStr s => Forall plain_char s /\ blen s < 128
  | PArr d => d <> [] /\ bytes_ok d /\ blen d < SIZE_MAX / 4
  | PBool _ => True
  end.

Lemma init_ready : json_ready init_voucher.
Proof.
  repeat split; try (cbn; lia); try discriminate.
  - intros a t H. left. destruct a; try discriminate; inversion H; reflexivity.
  - intros a b H. left. destruct a; try discriminate; inversion H; reflexivity.
Qed.

Lemma put_ready : forall v a p, json_ready v -> value_ready p -> json_ready (put_value v a p).
Proof.
  intros v a p [R1 [R2 [R3 R4]]] Hp.
  destruct a; destruct p; cbn [put_value value_ready] in *; try (split; [|split; [|split]]; assumption);
    (split; [|split; [|split]]); try exact R3; try exact R4; try (cbn; lia);
    try (intros a' t' H'; first [apply (R1 a' t'); destruct a'; exact H' | destruct a'; cbn in H'; try discriminate;
       inversion H'; subst; first [assumption | apply (R1 ACreatedOn); reflexivity | apply (R1 AExpiresOn); reflexivity | apply (R1 ALastRenewal); reflexivity]]);
    try (intros a' t' H'; first [apply (R2 a' t'); destruct a'; exact H' | destruct a'; cbn in H'; try discriminate;
       inversion H'; subst; first [right; eexists; split; [reflexivity|assumption] | apply (R2 AIssuer); reflexivity | apply (R2 APinned); reflexivity
         | apply (R2 ANonce); reflexivity | apply (R2 APrior); reflexivity | apply (R2 AProximity); reflexivity]]).
  intros s' H'. cbn in H'. inversion H'; subst. exact Hp.
Qed.

Lemma message : forall o cert key extra certs store want k v,
  trusts o cert key extra certs store want k -> json_ready v -> asize v all_attrs + 30 < 2147483648 ->
  exists text cms w l, serialize_voucher (Some v) = Ok (Some text) /\ sign_cms_voucher o (Some v) cert key extra = Ok (Some cms) /\
    bytes_ok cms /\ cms <> [] /\ blen cms <= asize v all_attrs + 30 + k /\
    says o (ba_of cms) certs store want w l /\ same_voucher v w.
Proof.
  intros o cert key extra certs store want k v HT Hr Hs. destruct (json_roundtrip v Hr) as [text [S1 S2]].
  pose proof (text_len v text Hr S1) as HL. destruct (S2 ltac:(lia)) as [w [W1 W2]].
  destruct (HT text (text_bytes v text Hr S1) ltac:(lia)) as [cms [c [st [l [T1 [T2 [T3 [T4 [T5 T6]]]]]]]]].
  exists text, cms, w, l. split; [exact S1|]. split; [apply sign_inv; eauto|]. split; [exact T2|]. split; [exact T3|].
  split; [lia|]. split; [|exact W2]. exists c, st, text. auto.
Qed.

Lemma same_get : forall v w, same_voucher v w ->
  (forall a, get_attr_array (Some w) a = get_attr_array (Some v) a) /\ get_attr_str (Some w) ASerial = get_attr_str (Some v) ASerial /\
  get_attr_enum (Some w) AAssertion = get_attr_enum (Some v) AAssertion /\ (forall a, is_attr_nonempty w a = is_attr_nonempty v a).
Proof.
  intros v w [H1 [H2 H3]].
  assert (O : forall a, kind a <> KTime -> get_attr_array (Some w) a = get_attr_array (Some v) a /\ get_attr_str (Some w) a = get_attr_str (Some v) a /\
     get_attr_enum (Some w) a = get_attr_enum (Some v) a).
  { intros a Ha. specialize (H2 a Ha). unfold observe in H2. repeat split; congruence. }
  repeat split.
  - intros a. destruct (kind a) eqn:E; try (apply O; congruence). destruct a; try discriminate; reflexivity.
  - apply O. discriminate.
  - apply O. discriminate.
  - intros a. symmetry. apply H3.
Qed.

Definition nonce_arg (n : option bytes) : option barray := match n with None => None | Some d => Some (ba_of d) end.
Definition nonce_put (v : voucher) (n : option bytes) : voucher :=
  match n with None => v | Some d => put_value v ANonce (PArr d) end.
Definition nlen (n : option bytes) : N := match n with None => 0 | Some d => blen d end.

Lemma nonce_ready : forall v n, json_ready v -> (forall d, n = Some d -> d <> [] /\ bytes_ok d) -> nlen n < SIZE_MAX / 4 -> json_ready (nonce_put v n).
Proof.
  intros v [d|] Hv Hn Hl; [|exact Hv]. apply put_ready; [exact Hv|]. destruct (Hn d eq_refl). cbn in *. auto.
Qed.

Definition pv1 (t1 : tm) (n : option bytes) (rc s : bytes) : voucher :=
  put_value (put_value (put_value (nonce_put (put_value init_voucher ACreatedOn (PTime t1)) n) AAssertion (PEnum 3)) AProximity (PArr rc)) ASerial (PStr s).
Definition pv2 (t2 : tm) (n : option bytes) (s i cms1 : bytes) : voucher :=
  put_value (put_value (put_value (nonce_put (put_value init_voucher ACreatedOn (PTime t2)) n) ASerial (PStr s)) AIssuer (PArr i)) APrior (PArr cms1).
Definition pv3 (t3 : tm) (n : option bytes) (s pinned : bytes) : voucher :=
  put_value (put_value (put_value (put_value (put_value (nonce_put init_voucher n) AAssertion (PEnum 3)) APinned (PArr pinned)) ASerial (PStr s)) ARevocation (PBool false)) AExpiresOn (PTime t3).

Lemma va_arr : forall a d, kind a = KArr -> arg_val a (VArr (Some (ba_of d))) (PArr d).
Proof. intros a d H. split; [exact H|]. exists d. split; [apply ba_of_has|reflexivity]. Qed.
Lemma va_str : forall s, cstr_ok s -> blen s < 128 -> arg_val ASerial (vstr (Some s)) (PStr s).
Proof. intros s H Hl. split; [reflexivity|]. exists (s ++ [0]). rewrite upto_nul_end by assumption. auto. Qed.
Lemma va_time : forall a t, kind a = KTime -> arg_val a (VTime (Some t)) (PTime t).
Proof. intros a t H. split; [exact H|]. eauto. Qed.
Lemma va_prox : arg_val AAssertion (VInt 3) (PEnum 3).
Proof. left. split; [reflexivity|]. split; [lia|reflexivity]. Qed.
Lemma va_rev : arg_val ARevocation (VInt 0) (PBool false).
Proof. right. auto. Qed.

Lemma plain_cstr : forall s, Forall plain_char s -> cstr_ok s.
Proof. intros s H. eapply Forall_impl; [|exact H]. unfold plain_char. cbv beta. lia. Qed.

Lemma pledge_computes : forall o t1 s n rc cert key extra, cstr_ok s -> blen s < 128 ->
  sign_pledge_voucher_request o (Some t1) (Some s) (nonce_arg n) (Some (ba_of rc)) cert key extra =
  sign_cms_voucher o (Some (pv1 t1 n rc s)) cert key extra.
Proof.
  intros o t1 s n rc cert key extra H1 H2. unfold sign_pledge_voucher_request.
  rewrite (sof_put _ _ _ _ _ (va_time ACreatedOn t1 eq_refl)) by discriminate.
  assert (F : forall v, set_or_fail v AAssertion (VInt 3) (fun v => set_or_fail v AProximity (VArr (Some (ba_of rc))) (fun v =>
    set_or_fail v ASerial (vstr (Some s)) (fun v => sign_cms_voucher o (Some v) cert key extra))) =
    sign_cms_voucher o (Some (put_value (put_value (put_value v AAssertion (PEnum 3)) AProximity (PArr rc)) ASerial (PStr s))) cert key extra).
  { intros v. rewrite (sof_put _ _ _ _ _ va_prox) by discriminate. rewrite (sof_put _ _ _ _ _ (va_arr AProximity rc eq_refl)) by discriminate.
    rewrite (sof_put _ _ _ _ _ (va_str s H1 H2)) by (intros u Hu; inversion Hu; eauto). reflexivity. }
  destruct n as [d|]; cbn [nonce_arg].
  - rewrite (sof_put _ _ _ _ _ (va_arr ANonce d eq_refl)) by discriminate. apply F.
  - apply F.
Qed.

Lemma nonce_nonempty : forall v n, get_attr_array (Some v) ANonce = Some (match n with None => ba_null | Some d => ba_of d end) ->
  is_attr_nonempty v ANonce = match n with None => false | Some _ => true end.
Proof. intros v n H. cbn [is_attr_nonempty get_attr_array] in *. inversion H as [E]. rewrite E. destruct n; reflexivity. Qed.

Lemma registrar_computes : forall o cms1 t2 s i rc cert key vcerts vstore extra w n,
  cstr_ok s -> blen s < 128 ->
  says o (ba_of cms1) vcerts vstore false w None ->
  get_attr_str (Some w) ASerial = Some (Some s) -> get_attr_array (Some w) AProximity = Some (ba_of rc) ->
  get_attr_enum (Some w) AAssertion = Some 3%Z -> nonce_is w n ->
  sign_voucher_request o (Some (ba_of cms1)) (Some t2) (Some s) (Some (ba_of i)) (Some (ba_of rc)) cert key vcerts vstore extra =
  sign_cms_voucher o (Some (pv2 t2 n s i cms1)) cert key extra.
Proof.
  intros o cms1 t2 s i rc cert key vcerts vstore extra w n H1 H2 Hs G1 G2 G3 G4. unfold sign_voucher_request.
  apply verify_says in Hs. rewrite Hs. cbn [obind]. rewrite G1. cbn [strcmp_eq obind]. rewrite beqb_refl. cbn [negb].
  rewrite G2. rewrite (compare_yes (ba_of rc) (ba_of rc) rc) by (right; apply ba_of_has). cbn [obind Z.ltb Z.compare Pos.compare Pos.compare_cont].
  rewrite G3. cbn [Z.eqb Pos.eqb negb].
  rewrite (sof_put _ _ _ _ _ (va_time ACreatedOn t2 eq_refl)) by discriminate.
  rewrite (nonce_nonempty w n G4).
  assert (F : forall v, set_or_fail v ASerial (vstr (Some s)) (fun v => set_or_fail v AIssuer (VArr (Some (ba_of i))) (fun v =>
             set_or_fail v APrior (VArr (Some (ba_of cms1))) (fun v => sign_cms_voucher o (Some v) cert key extra))) =
    sign_cms_voucher o (Some (put_value (put_value (put_value v ASerial (PStr s)) AIssuer (PArr i)) APrior (PArr cms1))) cert key extra).
  { intros v. rewrite (sof_put _ _ _ _ _ (va_str s H1 H2)) by (intros u Hu; inversion Hu; eauto).
    rewrite (sof_put _ _ _ _ _ (va_arr AIssuer i eq_refl)) by discriminate. rewrite (sof_put _ _ _ _ _ (va_arr APrior cms1 eq_refl)) by discriminate. reflexivity. }
  destruct n as [d|].
  - unfold nonce_is in G4. rewrite G4. rewrite (sof_put _ _ _ _ _ (va_arr ANonce d eq_refl)) by discriminate. apply F.
  - apply F.
Qed.

Lemma masa_computes : forall o cms2 t3 f s cert key rcerts rstore pcerts pstore extra w2 regs p w1 n rcode pinned,
  cstr_ok s -> blen s < 128 ->
  says o (ba_of cms2) rcerts rstore true w2 regs -> get_attr_str (Some w2) ASerial = Some (Some s) ->
  nonce_is w2 n -> get_attr_array (Some w2) APrior = Some (ba_of p) ->
  says o (ba_of p) pcerts pstore false w1 None -> get_attr_str (Some w1) ASerial = Some (Some s) ->
  f s regs = (rcode, ba_of pinned) -> (0 <= rcode)%Z ->
  sign_masa_pledge_voucher o (Some (ba_of cms2)) (Some t3) (Some f) cert key rcerts rstore pcerts pstore extra =
  sign_cms_voucher o (Some (pv3 t3 n s pinned)) cert key extra.
Proof.
  intros o cms2 t3 f s cert key rcerts rstore pcerts pstore extra w2 regs p w1 n rcode pinned H1 H2 Hs G1 G2 G3 Hs1 G4 Hf Hr.
  unfold sign_masa_pledge_voucher. apply verify_says in Hs. rewrite Hs. cbn [obind].
  rewrite (nonce_nonempty w2 n G2). unfold nonce_is in G2. cbn [get_attr_str get_attr_array] in *.
  inversion G1 as [E1]. inversion G2 as [E2]. inversion G3 as [E3]. cbn [is_attr_nonempty]. rewrite E1, E2, E3. cbn [negb is_attr_array_nonempty ba_of ba_data].
  assert (B : (match n with Some _ => true | None => false end &&
       match (if match n with Some _ => true | None => false end then Some match n with Some d => ba_of d | None => ba_null end else None) with
       | Some _ => false | None => true end)%bool = false) by (destruct n; reflexivity).
  change (mk_ba (Some p) (blen p)) with (ba_of p). 
  match goal with |- (if ?b then _ else _) = _ => replace b with false by (symmetry; exact B) end.
  apply verify_says in Hs1. rewrite Hs1. cbn [obind]. inversion G4 as [E4]. rewrite E4. cbn [negb strcmp_eq obind]. rewrite beqb_refl. cbn [negb].
  rewrite Hf.
  assert (F : forall v, set_or_fail v AAssertion (VInt 3) (fun v => if (rcode <? 0)%Z then Ok None else
            set_or_fail v APinned (VArr (Some (ba_of pinned))) (fun v =>
            set_or_fail v ASerial (vstr (Some s)) (fun v =>
            set_or_fail v ARevocation (VInt 0) (fun v =>
            set_or_fail v AExpiresOn (VTime (Some t3)) (fun v =>
            sign_cms_voucher o (Some v) cert key extra))))) =
     sign_cms_voucher o (Some (put_value (put_value (put_value (put_value (put_value v AAssertion (PEnum 3)) APinned (PArr pinned)) ASerial (PStr s)) ARevocation (PBool false)) AExpiresOn (PTime t3))) cert key extra).
  { intros v. rewrite (sof_put _ _ _ _ _ va_prox) by discriminate. destruct (rcode <? 0)%Z eqn:Er; [lia|].
    rewrite (sof_put _ _ _ _ _ (va_arr APinned pinned eq_refl)) by discriminate.
    rewrite (sof_put _ _ _ _ _ (va_str s H1 H2)) by (intros u Hu; inversion Hu; eauto).
    rewrite (sof_put _ _ _ _ _ va_rev) by discriminate. rewrite (sof_put _ _ _ _ _ (va_time AExpiresOn t3 eq_refl)) by discriminate. reflexivity. }
  destruct n as [d|].
  - rewrite (sof_put _ _ _ _ _ (va_arr ANonce d eq_refl)) by discriminate. apply F.
  - apply F.
Qed.

(** C37, with the sizes of the messages. *)
Lemma honest_sized : forall o t1 t2 t3 s n rc i pinned f k want
    pcert pkey pextra rcert rkey rextra mcert mkey mextra
    rp_certs rp_store mr_certs mr_store mp_certs mp_store pm_certs pm_store dstore,
  ossl_sane o ->
  date_ready t1 -> date_ready t2 -> date_ready t3 -> Forall plain_char s -> blen s < 128 ->
  (forall d, n = Some d -> d <> [] /\ bytes_ok d) -> rc <> [] -> bytes_ok rc -> i <> [] -> bytes_ok i -> pinned <> [] -> bytes_ok pinned ->
  4 * (match n with None => 0 | Some d => blen d end + blen rc + blen i + blen pinned + k) + 40000 < 2147483648 ->
  trusts o pcert pkey pextra rp_certs rp_store false k -> trusts o pcert pkey pextra mp_certs mp_store false k ->
  trusts o rcert rkey rextra mr_certs mr_store true k -> trusts o mcert mkey mextra pm_certs pm_store want k ->
  (forall regs, exists code, f s regs = (code, ba_of pinned) /\ (0 <= code)%Z) -> chains o (Some (ba_of rc)) pinned dstore ->
  let nonce := match n with None => None | Some d => Some (ba_of d) end in
  exists cms1 cms2 cms3 l,
    sign_pledge_voucher_request o (Some t1) (Some s) nonce (Some (ba_of rc)) pcert pkey pextra = Ok (Some cms1) /\
    sign_voucher_request o (Some (ba_of cms1)) (Some t2) (Some s) (Some (ba_of i)) (Some (ba_of rc)) rcert rkey rp_certs rp_store rextra = Ok (Some cms2) /\
    sign_masa_pledge_voucher o (Some (ba_of cms2)) (Some t3) (Some f) mcert mkey mr_certs mr_store mp_certs mp_store mextra = Ok (Some cms3) /\
    verify_masa_pledge_voucher o (Some (ba_of cms3)) (Some s) nonce (Some (ba_of rc)) dstore pm_certs pm_store want true = Ok (Some (ba_of pinned, l)) /\
    (blen cms1 < SIZE_MAX / 4 /\ blen cms2 < SIZE_MAX / 4 /\ blen cms3 < SIZE_MAX / 4) /\ cms1 <> [] /\ cms2 <> [] /\ cms3 <> [].
Proof.
  intros o t1 t2 t3 s n rc i pinned f k want pcert pkey pextra rcert rkey rextra mcert mkey mextra
    rp_certs rp_store mr_certs mr_store mp_certs mp_store pm_certs pm_store dstore
    HS D1 D2 D3 Sp Sl Hn Rc1 Rc2 I1 I2 P1 P2 Hsz Trp Tmp Tmr Tpm Hf Hch nonce.
  assert (Hsm : SIZE_MAX / 4 = 4611686018427387903) by reflexivity. pose proof (plain_cstr s Sp) as Sc.
  assert (Hsz' : 4 * (nlen n + blen rc + blen i + blen pinned + k) + 40000 < 2147483648) by exact Hsz. clear Hsz. rename Hsz' into Hsz.
  assert (Hnl : nlen n < SIZE_MAX / 4) by (rewrite Hsm; lia).
  assert (RF : forall m, rfc_len m <= 4 * m / 3 + 4) by (intros m; unfold rfc_len; lia).
  assert (NL : forall v, v_nonce v = ba_null -> ba_len (v_nonce (nonce_put v n)) = nlen n) by (intros v E; destruct n; [reflexivity|cbn; rewrite E; reflexivity]).
  (* pledge request *)
  assert (R1 : json_ready (pv1 t1 n rc s)).
  { unfold pv1. repeat apply put_ready; try (cbn; auto; fail).
    - apply nonce_ready; auto. apply put_ready; [exact init_ready|exact D1].
    - cbn. lia.
    - cbn [value_ready]; split; [assumption|]; split; [assumption|]; rewrite Hsm. lia. }
  assert (A1 : asize (pv1 t1 n rc s) all_attrs <= 1200 + rfc_len (nlen n) + rfc_len (blen rc)).
  { eapply N.le_trans; [apply asize_arrays|]. assert (F : ba_len (v_issuer (pv1 t1 n rc s)) = 0 /\ ba_len (v_pinned (pv1 t1 n rc s)) = 0 /\ ba_len (v_nonce (pv1 t1 n rc s)) = nlen n /\ ba_len (v_prior (pv1 t1 n rc s)) = 0 /\ ba_len (v_proximity (pv1 t1 n rc s)) = blen rc) by (clear; destruct n; repeat split).
    destruct F as [F1 [F2 [F3 [F4 F5]]]]. rewrite F1, F2, F3, F4, F5. change (rfc_len 0) with 0. lia. }
  destruct (message o pcert pkey pextra rp_certs rp_store false k _ Trp R1) as [tx1 [cms1 [w1 [l1 [M1 [M2 [M3 [M4 [M5 [M6 M7]]]]]]]]]].
  { pose proof (RF (nlen n)). pose proof (RF (blen rc)). lia. }
  destruct (message o pcert pkey pextra mp_certs mp_store false k _ Tmp R1) as [tx1' [cms1' [w1' [l1' [M1' [M2' [_ [_ [_ [M6' M7']]]]]]]]]].
  { pose proof (RF (nlen n)). pose proof (RF (blen rc)). lia. }
  rewrite M2 in M2'. inversion M2'; subst cms1'. clear M2' M1'.
  assert (El1 : l1 = None) by (destruct M6 as [? [? [? [_ [_ Hl]]]]]; exact Hl). subst l1.
  assert (El1' : l1' = None) by (destruct M6' as [? [? [? [_ [_ Hl]]]]]; exact Hl). subst l1'.
  destruct (same_get _ _ M7) as [Ga [Gs [Ge Gn]]]. destruct (same_get _ _ M7') as [Ga' [Gs' [Ge' Gn']]].
  (* registrar request *)
  assert (R2 : json_ready (pv2 t2 n s i cms1)).
  { unfold pv2. repeat apply put_ready; try (cbn; auto; fail).
    - apply nonce_ready; auto. apply put_ready; [exact init_ready|exact D2].
    - cbn [value_ready]; split; [assumption|]; split; [assumption|]; rewrite Hsm. lia.
    - cbn [value_ready]; split; [assumption|]; split; [assumption|]; rewrite Hsm. pose proof (RF (nlen n)). pose proof (RF (blen rc)). lia. }
  assert (A2 : asize (pv2 t2 n s i cms1) all_attrs <= 1200 + rfc_len (nlen n) + rfc_len (blen i) + rfc_len (blen cms1)).
  { eapply N.le_trans; [apply asize_arrays|]. assert (F : ba_len (v_issuer (pv2 t2 n s i cms1)) = blen i /\ ba_len (v_pinned (pv2 t2 n s i cms1)) = 0 /\ ba_len (v_nonce (pv2 t2 n s i cms1)) = nlen n /\ ba_len (v_prior (pv2 t2 n s i cms1)) = blen cms1 /\ ba_len (v_proximity (pv2 t2 n s i cms1)) = 0) by (clear; destruct n; repeat split).
    destruct F as [F1 [F2 [F3 [F4 F5]]]]. rewrite F1, F2, F3, F4, F5. change (rfc_len 0) with 0. lia. }
  destruct (message o rcert rkey rextra mr_certs mr_store true k _ Tmr R2) as [tx2 [cms2 [w2 [regs [N1 [N2 [N3 [N4 [N5 [N6 N7]]]]]]]]]].
  { pose proof (RF (nlen n)). pose proof (RF (blen rc)). pose proof (RF (blen i)). pose proof (RF (blen cms1)). lia. }
  destruct (same_get _ _ N7) as [Gb [Gt [Gu Gv]]].
  (* voucher *)
  assert (R3 : json_ready (pv3 t3 n s pinned)).
  { unfold pv3. repeat apply put_ready; try (cbn; auto; fail).
    - apply nonce_ready; auto. exact init_ready.
    - cbn. lia.
    - cbn [value_ready]; split; [assumption|]; split; [assumption|]; rewrite Hsm. lia. }
  assert (A3 : asize (pv3 t3 n s pinned) all_attrs <= 1200 + rfc_len (nlen n) + rfc_len (blen pinned)).
  { eapply N.le_trans; [apply asize_arrays|]. assert (F : ba_len (v_issuer (pv3 t3 n s pinned)) = 0 /\ ba_len (v_pinned (pv3 t3 n s pinned)) = blen pinned /\ ba_len (v_nonce (pv3 t3 n s pinned)) = nlen n /\ ba_len (v_prior (pv3 t3 n s pinned)) = 0 /\ ba_len (v_proximity (pv3 t3 n s pinned)) = 0) by (clear; destruct n; repeat split).
    destruct F as [F1 [F2 [F3 [F4 F5]]]]. rewrite F1, F2, F3, F4, F5. change (rfc_len 0) with 0. lia. }
  destruct (message o mcert mkey mextra pm_certs pm_store want k _ Tpm R3) as [tx3 [cms3 [w3 [l3 [Q1 [Q2 [Q3 [Q4 [Q5 [Q6 Q7]]]]]]]]]].
  { pose proof (RF (nlen n)). pose proof (RF (blen pinned)). lia. }
  destruct (same_get _ _ Q7) as [Gc [Gd [Gf Gg]]].
  exists cms1, cms2, cms3, l3.
  destruct (Hf regs) as [code [F1 F2]].
  split; [change nonce with (nonce_arg n); rewrite pledge_computes by assumption; exact M2|].
  split.
  { eapply eq_trans; [eapply (registrar_computes o cms1 t2 s i rc rcert rkey rp_certs rp_store rextra w1 n); auto|exact N2];
      unfold nonce_is; rewrite ?Gs, ?Ga, ?Ge; destruct n; reflexivity. }
  split.
  { eapply eq_trans; [eapply (masa_computes o cms2 t3 f s mcert mkey mr_certs mr_store mp_certs mp_store mextra w2 regs cms1 w1' n code pinned); auto|exact Q2];
      unfold nonce_is; rewrite ?Gs', ?Gt, ?Gb; destruct n; reflexivity. }
  split; [|split; [|auto]; rewrite Hsm; pose proof (RF (nlen n)); pose proof (RF (blen rc)); pose proof (RF (blen i)); pose proof (RF (blen cms1)); pose proof (RF (blen pinned)); split; [|split]; lia].
  apply pledge_accepts; [exact HS|]. exists (ba_of cms3), w3, s, pinned. split; [reflexivity|]. split; [reflexivity|].
  split; [exact Q6|]. split; [rewrite Gd; reflexivity|]. split.
  - intros m Hm. unfold nonce in Hm. destruct n as [d|]; [|discriminate]. inversion Hm; subst m. exists d. split; [|right; apply ba_of_has].
    unfold nonce_is. rewrite Gc. reflexivity.
  - split; [rewrite Gc; reflexivity|]. split; [exact Hch|reflexivity].
Qed.

(** C37. *)
Lemma honest_run : forall o t1 t2 t3 s n rc i pinned f k want
    pcert pkey pextra rcert rkey rextra mcert mkey mextra
    rp_certs rp_store mr_certs mr_store mp_certs mp_store pm_certs pm_store dstore,
  ossl_sane o ->
  date_ready t1 -> date_ready t2 -> date_ready t3 -> Forall plain_char s -> blen s < 128 ->
  (forall d, n = Some d -> d <> [] /\ bytes_ok d) -> rc <> [] -> bytes_ok rc -> i <> [] -> bytes_ok i -> pinned <> [] -> bytes_ok pinned ->
  4 * (match n with None => 0 | Some d => blen d end + blen rc + blen i + blen pinned + k) + 40000 < 2147483648 ->
  trusts o pcert pkey pextra rp_certs rp_store false k -> trusts o pcert pkey pextra mp_certs mp_store false k ->
  trusts o rcert rkey rextra mr_certs mr_store true k -> trusts o mcert mkey mextra pm_certs pm_store want k ->
  (forall regs, exists code, f s regs = (code, ba_of pinned) /\ (0 <= code)%Z) -> chains o (Some (ba_of rc)) pinned dstore ->
  let nonce := match n with None => None | Some d => Some (ba_of d) end in
  exists cms1 cms2 cms3 l,
    sign_pledge_voucher_request o (Some t1) (Some s) nonce (Some (ba_of rc)) pcert pkey pextra = Ok (Some cms1) /\
    sign_voucher_request o (Some (ba_of cms1)) (Some t2) (Some s) (Some (ba_of i)) (Some (ba_of rc)) rcert rkey rp_certs rp_store rextra = Ok (Some cms2) /\
    sign_masa_pledge_voucher o (Some (ba_of cms2)) (Some t3) (Some f) mcert mkey mr_certs mr_store mp_certs mp_store mextra = Ok (Some cms3) /\
    verify_masa_pledge_voucher o (Some (ba_of cms3)) (Some s) nonce (Some (ba_of rc)) dstore pm_certs pm_store want true = Ok (Some (ba_of pinned, l)).
Proof.
  cbv zeta. intros o t1 t2 t3 s n rc i pinned f k want pcert pkey pextra rcert rkey rextra mcert mkey mextra rp_certs rp_store mr_certs mr_store mp_certs mp_store pm_certs pm_store dstore
    HS D1 D2 D3 Sp Sl Hn Rc1 Rc2 I1 I2 P1 P2 Hsz Trp Tmp Tmr Tpm Hf Hch.
  destruct (honest_sized o t1 t2 t3 s n rc i pinned f k want pcert pkey pextra rcert rkey rextra mcert mkey mextra rp_certs rp_store mr_certs mr_store mp_certs mp_store pm_certs pm_store dstore
    HS D1 D2 D3 Sp Sl Hn Rc1 Rc2 I1 I2 P1 P2 Hsz Trp Tmp Tmr Tpm Hf Hch) as (c1 & c2 & c3 & l & E1 & E2 & E3 & E4 & _). exists c1, c2, c3, l. auto.
Qed.
