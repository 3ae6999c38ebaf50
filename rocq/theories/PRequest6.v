(** Consequences and counterexamples for the signed messages. *)
From Verif Require Import Base PBase MBase64 SBase64 MSerialize SSerialize MJsmn MVoucher SVoucher SJson MCrypto MRequest SRequest
  PVoucher PVoucherJson PVoucherRound PRequest PRequest2 PRequest3 PRequest4 PRequest5.
Open Scope N_scope.

(** C38. *)
Lemma foreign_rejected : forall o cms s nb m rc dstore vcerts vstore want out mv l ms mn,
  ossl_sane o -> ba_bytes (Some cms) -> ba_bytes (Some rc) -> ba_bytes (Some nb) -> holds_bytes nb m ->
  says o cms vcerts vstore want mv l -> get_attr_str (Some mv) ASerial = Some ms -> nonce_is mv mn ->
  ms <> Some s \/ mn <> Some m ->
  verify_masa_pledge_voucher o (Some cms) (Some s) (Some nb) (Some rc) dstore vcerts vstore want out = Ok None.
Proof.
  intros o cms s nb m rc dstore vcerts vstore want out mv l ms mn HS Hc Hr Hb Hm Hs G1 G2 Hd.
  destruct (pledge_verify_safe o (Some cms) (Some s) (Some nb) rc dstore vcerts vstore want out HS Hc) as [r E]; auto.
  destruct r as [[p l']|]; [|exact E]. exfalso.
  assert (A : verify_masa_pledge_voucher o (Some cms) (Some s) (Some nb) (Some rc) dstore vcerts vstore want true = Ok (Some (p, l'))).
  { destruct out; [exact E|]. revert E. unfold verify_masa_pledge_voucher, obind.
    repeat (match goal with |- context [match ?x with _ => _ end] => destruct x end; try discriminate). }
  apply pledge_accepts in A; [|exact HS]. destruct A as [c [mv' [s' [d [A1 [A2 [A3 [A4 [A5 _]]]]]]]]].
  inversion A1; subst c. inversion A2; subst s'. pose proof (says_fun _ _ _ _ _ _ _ _ _ _ Hs A3) as <-.
  rewrite G1 in A4. inversion A4; subst ms.
  destruct (A5 _ eq_refl) as [d' [B1 B2]]. unfold nonce_is in *. rewrite G2 in B1. inversion B1 as [B].
  assert (d' = m) by (eapply holds_bytes_fun; [exact B2|exact Hm]). subst d'.
  destruct Hd as [Hd|Hd]; [congruence|]. destruct mn as [e|]; [|discriminate]. inversion B. congruence.
Qed.

(** C40: with a store every accepted message passed OpenSSL's check of the
    signer against exactly the configured entries. *)
Lemma says_trusted : forall o cms certs l want v sg,
  says o cms certs (Some l) want v sg ->
  exists d c st s json, holds_bytes cms d /\ d2i_cms o d = Some c /\ loads_certs o certs st /\ loads_store o (Some l) (Some s) /\ cms_verify o c st (Some s) false = Some json /\ deserialize_voucher true (Some json) = Ok (Some v).
Proof.
  intros o cms certs l want v sg [c [st [json [[d [s [A1 [A2 [A3 [A4 A5]]]]]] [A6 _]]]]].
  destruct s as [s|]; [|destruct A4]. exists d, c, st, s, json. repeat (split; [assumption|]). exact A6.
Qed.

(** ** A small concrete OpenSSL: a certificate is an identity byte and an
    issuer byte, a signed message is the signer's identity and the text. *)
Definition toy_in (id : N) (e : bytes + bytes) : bool := match e with inl x => hd 0 x =? id | inr _ => false end.
Definition toy : ossl := {|
  X509 := bytes; CRL := bytes; CMS := N * bytes; PKEY := bytes;
  d2i_x509 := fun b => match b with [] => None | _ => Some b end;
  i2d_x509 := fun x => if bytes_okb x then Some x else None;
  d2i_crl := fun b => Some b;
  d2i_cms := fun b => match b with [] => None | id :: t => Some (id, t) end;
  i2d_cms := fun c => if bytes_okb (fst c :: snd c) then Some (fst c :: snd c) else None;
  d2i_key := fun b => Some b; d2i_eckey := fun b => Some b; d2i_rsakey := fun b => Some b;
  store_add := fun _ _ => true;
  cms_sign := fun x k _ t => if hd 0 x =? hd 0 k then Some (hd 0 x, t) else None;
  cms_verify := fun c _ st skip =>
    if bytes_okb (snd c) && (blen (snd c) <? 2147483648) && (skip || match st with None => false | Some l => existsb (toy_in (fst c)) l end)
    then Some (snd c) else None;
  cms_signers := fun c _ => Some [[fst c]];
  build_chain := fun x certs st => match st with
    | None => Some [x]
    | Some l => if existsb (toy_in (nth 1 x 0)) l then Some [x]
                else match certs with
                     | y :: _ => if (hd 0 y =? nth 1 x 0) && existsb (toy_in (nth 1 y 0)) l then Some [x; y] else None
                     | [] => None
                     end
    end |}.

Lemma toy_sane : ossl_sane toy.
Proof.
  split; [|split].
  - intros [id t] st s f json H. cbn [cms_verify toy fst snd] in H. destruct (bytes_okb t) eqn:E1; [|discriminate H]. destruct (blen t <? 2147483648) eqn:E2; [|discriminate H].
    cbn [andb] in H. destruct (f || _); [|discriminate H]. injection H as <-.
    split; [apply bytes_okb_ok; exact E1|lia].
  - intros x d H. cbn [i2d_x509 toy] in H. destruct (bytes_okb x) eqn:E; [|discriminate]. injection H as <-. apply bytes_okb_ok. exact E.
  - intros c d H. cbn [i2d_cms toy] in H. destruct (bytes_okb _) eqn:E in H; [|discriminate]. injection H as <-. apply bytes_okb_ok. exact E.
Qed.

Lemma okb_of : forall l, bytes_ok l -> bytes_okb l = true.
Proof. intros l H. unfold bytes_okb. apply forallb_forall. intros x Hx. unfold bytes_ok in H. rewrite Forall_forall in H. specialize (H x Hx). cbv beta in *. lia. Qed.

Lemma toy_trusts : forall id want, id < 256 ->
  trusts toy (Some (ba_of [id; 0])) (Some (ba_of [id])) None None (Some [([id; 0], 0%Z)]) want 1.
Proof.
  intros id want Hid text Ht Hl. exists (id :: text), (id, text), None, (if want then Some [([id], 0%Z)] else None).
  assert (B : bytes_ok (id :: text)) by (constructor; assumption).
  assert (B' : bytes_okb (id :: text) = true) by (apply okb_of; exact B).
  split. { exists [id; 0], [id], [id; 0], [id], None, (id, text). split; [apply ba_of_has|]. split; [apply ba_of_has|].
    split; [reflexivity|]. split; [reflexivity|]. split; [exact I|]. split; [cbn; rewrite N.eqb_refl; reflexivity|]. unfold toy, i2d_cms, fst, snd. rewrite B'. reflexivity. }
  split; [exact B|]. split; [discriminate|]. split; [unfold blen; cbn [List.length]; lia|]. split.
  - exists (id :: text), (Some [inl [id; 0]]). split; [right; apply ba_of_has|]. split; [reflexivity|]. split; [exact I|].
    split. { split; [constructor; [split; reflexivity|constructor]|split; [reflexivity|exact I]]. }
    cbn [cms_verify toy fst snd]. rewrite okb_of by exact Ht. replace (blen text <? 2147483648) with true by (symmetry; lia).
    cbn. rewrite N.eqb_refl. reflexivity.
  - destruct want; [|reflexivity]. exists [([id], 0%Z)]. split; [|reflexivity]. constructor; [|constructor].
    split; [|reflexivity]. cbn. replace (id <? 256) with true by (symmetry; lia). reflexivity.
Qed.

(** C62: what OpenSSL documents for X509_build_chain without a store: the
    chain is built as far as possible, ignoring errors. *)
Definition no_store_builds (o : ossl) : Prop := forall x certs, exists ch, build_chain o x certs None = Some ch /\ ch <> [].

Lemma any_registrar : forall o cms serial nonce rc rc' cb x vcerts vstore want p l,
  ossl_sane o -> no_store_builds o ->
  verify_masa_pledge_voucher o cms serial nonce (Some rc) None vcerts vstore want true = Ok (Some (p, l)) ->
  ba_has (Some rc') cb -> d2i_x509 o cb = Some x ->
  verify_masa_pledge_voucher o cms serial nonce (Some rc') None vcerts vstore want true = Ok (Some (p, l)).
Proof.
  intros o cms serial nonce rc rc' cb x vcerts vstore want p l HS HN H H1 H2.
  apply pledge_accepts in H; [|exact HS]. apply pledge_accepts; [exact HS|].
  destruct H as [mcms [mv [s [d [A1 [A2 [A3 [A4 [A5 [A6 [A7 A8]]]]]]]]]]]. exists mcms, mv, s, d.
  repeat (split; [assumption|]). split; [|exact A8].
  destruct A7 as [cb0 [x0 [y [st [ch [B1 [B2 [B3 [B4 [B5 B6]]]]]]]]]]. destruct st; [destruct B4|].
  destruct (HN x [y]) as [ch' [C1 C2]]. exists cb, x, y, None, ch'. auto 10.
Qed.

Lemma toy_no_store : no_store_builds toy.
Proof. intros x certs. exists [x]. split; [reflexivity|discriminate]. Qed.

(** Witnesses. Identities: 1 pledge, 2 registrar, 3 MASA, 66 a stranger. *)
Definition id_cert (id : N) : option barray := Some (ba_of [id; 0]).
Definition id_key (id : N) : option barray := Some (ba_of [id]).
Definition id_store (id : N) : option certlist := Some [([id; 0], 0%Z)].

Definition no_serial : barray := ba_of (1 :: s2b "{""ietf-voucher:voucher"":{""assertion"":""proximity""}}").
Definition tm_case : tm := mk_tm 9 33 21 29 10 73 4 332 0.

Lemma no_serial_refuted : exists o pc t s issuer rtls cert key vstore pvr, ossl_sane o /\
  says o pc None (Some vstore) false pvr None /\
  sign_voucher_request o (Some pc) (Some t) (Some s) (Some issuer) (Some rtls) (Some cert) (Some key) None (Some vstore) None = UB NullDeref.
Proof.
  exists toy, no_serial, tm_case, (s2b "A"), (ba_of [1]), (ba_of [2; 0]), (ba_of [2; 0]), (ba_of [2]), [([1; 0], 0%Z)], (with_assertion init_voucher 3).
  split; [exact toy_sane|]. split; [|vm_compute; reflexivity]. apply verify_says. vm_compute. reflexivity.
Qed.

(** The pledge signs nonce 01 02 03 and the assertion "logged"; the registrar
    puts nonce 09 into its own request. *)
Definition inner_cms : bytes := 1 :: s2b "{""ietf-voucher:voucher"":{""assertion"":""logged"",""serial-number"":""A"",""nonce"":""AQID""}}".
Definition outer_voucher : voucher := with_prior (with_nonce (with_serial init_voucher (Some (s2b "A"))) (ba_of [9])) (ba_of inner_cms).
Definition outer_cms : bytes :=
  match sign_cms_voucher toy (Some outer_voucher) (id_cert 2) (id_key 2) None with Ok (Some c) => c | _ => [] end.
Definition issued : bytes :=
  match sign_masa_pledge_voucher toy (Some (ba_of outer_cms)) (Some tm_case) (Some (fun _ _ => (0%Z, ba_of [7; 7]))) (id_cert 3) (id_key 3)
          None (id_store 2) None (id_store 1) None with Ok (Some c) => c | _ => [] end.
Definition issued_voucher : voucher :=
  match verify_cms_voucher toy (Some (ba_of issued)) None (id_store 3) false with Ok (Some (v, _)) => v | _ => init_voucher end.

Lemma unbound_refuted : exists o rcms t f cert key rstore pstore mstore cms vr regs prior pvr v, ossl_sane o /\
  says o rcms None (Some rstore) true vr regs /\ get_attr_array (Some vr) APrior = Some prior /\
  says o prior None (Some pstore) false pvr None /\
  sign_masa_pledge_voucher o (Some rcms) (Some t) (Some f) (Some cert) (Some key) None (Some rstore) None (Some pstore) None = Ok (Some cms) /\
  says o (ba_of cms) None (Some mstore) false v None /\
  nonce_is pvr (Some [1; 2; 3]) /\ nonce_is v (Some [9]) /\
  get_attr_enum (Some pvr) AAssertion = Some 2%Z /\ get_attr_enum (Some v) AAssertion = Some 3%Z.
Proof.
  exists toy, (ba_of outer_cms), tm_case, (fun _ _ => (0%Z, ba_of [7; 7])), (ba_of [3; 0]), (ba_of [3]), [([2; 0], 0%Z)], [([1; 0], 0%Z)], [([3; 0], 0%Z)],
    issued, outer_voucher, (Some [([2], 0%Z)]), (ba_of inner_cms), (with_nonce (with_serial (with_assertion init_voucher 2) (Some (s2b "A"))) (ba_of [1;2;3])), issued_voucher.
  split; [exact toy_sane|]. split; [apply verify_says; vm_compute; reflexivity|]. split; [reflexivity|].
  split; [apply verify_says; vm_compute; reflexivity|]. split; [vm_compute; reflexivity|].
  split; [apply verify_says; vm_compute; reflexivity|]. repeat split; vm_compute; reflexivity.
Qed.

Definition old_cms : barray := ba_of (3 :: s2b "{""ietf-voucher:voucher"":{""expires-on"":""1950-01-02T03:04:05Z"",""assertion"":""logged"",""serial-number"":""A"",""pinned-domain-cert"":""BwA="",""nonce"":""CQ==""}}").
Definition old_voucher : voucher :=
  match verify_cms_voucher toy (Some old_cms) None (id_store 3) false with Ok (Some (v, _)) => v | _ => init_voucher end.

Lemma expired_refuted : exists o cms s rc vstore mv t p, ossl_sane o /\
  says o cms None (Some vstore) false mv None /\
  get_attr_time (Some mv) AExpiresOn = Some t /\ (tm_year t + 1900 = 1950)%Z /\
  get_attr_enum (Some mv) AAssertion = Some 2%Z /\ nonce_is mv (Some [9]) /\
  verify_masa_pledge_voucher o (Some cms) (Some s) None (Some rc) None None (Some vstore) false true = Ok (Some (p, None)).
Proof.
  exists toy, old_cms, (s2b "A"), (ba_of [2; 7]), [([3; 0], 0%Z)], old_voucher, (v_expires old_voucher), (ba_of [7; 0]).
  split; [exact toy_sane|]. split; [apply verify_says; vm_compute; reflexivity|]. repeat split; vm_compute; reflexivity.
Qed.

Definition forged_cms : barray := ba_of (66 :: s2b "{""ietf-voucher:voucher"":{""serial-number"":""A"",""pinned-domain-cert"":""QkI=""}}").

(** A stranger's voucher is rejected with a store and accepted without. *)
Lemma no_store_refuted : exists o cms s rc l p, ossl_sane o /\
  verify_masa_pledge_voucher o (Some cms) (Some s) None (Some rc) None None (Some l) false true = Ok None /\
  verify_masa_pledge_voucher o (Some cms) (Some s) None (Some rc) None None None false true = Ok (Some (p, None)).
Proof.
  exists toy, forged_cms, (s2b "A"), (ba_of [66; 66]), [([3; 0], 0%Z)], (ba_of [66; 66]).
  split; [exact toy_sane|]. split; vm_compute; reflexivity.
Qed.

(** The registrar's certificate [2; 50] was not issued by the pinned
    certificate [7; 0], and is accepted. With a domain store holding the
    pinned certificate it is rejected. *)
Lemma unpinned_refuted : exists o cms s rc rb vstore pinned p, ossl_sane o /\ no_store_builds o /\
  rc = ba_of rb /\ ~ chains o (Some rc) pinned (Some [(pinned, 0%Z)]) /\
  verify_masa_pledge_voucher o (Some cms) (Some s) None (Some rc) None None (Some vstore) false true = Ok (Some (p, None)) /\ p = ba_of pinned.
Proof.
  exists toy, old_cms, (s2b "A"), (ba_of [2; 50]), [2; 50], [([3; 0], 0%Z)], [7; 0], (ba_of [7; 0]).
  split; [exact toy_sane|]. split; [exact toy_no_store|]. split; [reflexivity|]. split; [|split; [vm_compute; reflexivity|reflexivity]].
  intros [cb [x [y [st [ch [B1 [B2 [B3 [B4 [B5 B6]]]]]]]]]].
  assert (cb = [2; 50]) by (eapply ba_has_fun; [exact B1|apply ba_of_has]). subst cb.
  cbn in B2, B3. injection B2 as <-. injection B3 as <-. destruct st as [st|]; [|destruct B4]. destruct B4 as [F _].
  inversion F as [|e z l' r' Hz Hr E1 E2]; subst. inversion Hr; subst. destruct z as [z|z]; cbn in Hz; [|destruct Hz; discriminate].
  destruct Hz as [_ Hz]. injection Hz as <-. vm_compute in B5. discriminate.
Qed.

(** Forms used by the theorems. *)
Lemma registrar_accepts : forall o pcms created serial issuer rtls cert key vcerts vstore extra cms,
  ossl_sane o -> (forall s, serial = Some s -> ~ In 0 s) ->
  sign_voucher_request o pcms created serial issuer rtls cert key vcerts vstore extra = Ok (Some cms) ->
  exists pc pvr s rc prox, pcms = Some pc /\ serial = Some s /\ rtls = Some rc /\
    says o pc vcerts vstore false pvr None /\ get_attr_str (Some pvr) ASerial = Some (Some s) /\
    get_attr_array (Some pvr) AProximity = Some prox /\ same_bytes prox rc /\ get_attr_enum (Some pvr) AAssertion = Some 3%Z.
Proof.
  intros o pcms created serial issuer rtls cert key vcerts vstore extra cms HS Hc H.
  destruct (registrar_request_says _ _ _ _ _ _ _ _ _ _ _ _ HS Hc H) as
    (pc & pvr & t & s & i & rc & p & prox & n & A1 & A2 & A3 & A4 & A5 & A6 & A7 & A8 & A9 & _).
  exists pc, pvr, s, rc, prox. repeat (split; [assumption|]). assumption.
Qed.

Lemma registrar_says : forall o pcms created serial issuer rtls cert key vcerts vstore extra cms,
  ossl_sane o -> (forall s, serial = Some s -> ~ In 0 s) ->
  sign_voucher_request o pcms created serial issuer rtls cert key vcerts vstore extra = Ok (Some cms) ->
  exists pc pvr t s i p n, pcms = Some pc /\ created = Some t /\ serial = Some s /\
    says o pc vcerts vstore false pvr None /\ get_attr_str (Some pvr) ASerial = Some (Some s) /\
    nonce_is pvr n /\ ba_has issuer i /\ ba_has pcms p /\
    signed_voucher o cert key extra (registrar_content t s n i p) cms.
Proof.
  intros o pcms created serial issuer rtls cert key vcerts vstore extra cms HS Hc H.
  destruct (registrar_request_says _ _ _ _ _ _ _ _ _ _ _ _ HS Hc H) as
    (pc & pvr & t & s & i & rc & p & prox & n & A1 & A2 & A3 & A4 & A5 & A6 & A7 & A8 & A9 & A10 & A11 & A12 & A13).
  exists pc, pvr, t, s, i, p, n. repeat (split; [assumption|]). assumption.
Qed.

Lemma masa_accepts : forall o rcms expires cb cert key rcerts rstore pcerts pstore extra cms,
  ossl_sane o ->
  sign_masa_pledge_voucher o rcms expires cb cert key rcerts rstore pcerts pstore extra = Ok (Some cms) ->
  exists rc vr regs p pvr f s rcode pinned,
    rcms = Some rc /\ cb = Some f /\ says o rc rcerts rstore true vr regs /\
    get_attr_array (Some vr) APrior = Some (ba_of p) /\ says o (ba_of p) pcerts pstore false pvr None /\
    get_attr_str (Some vr) ASerial = Some (Some s) /\ get_attr_str (Some pvr) ASerial = Some (Some s) /\
    f s regs = (rcode, pinned) /\ (0 <= rcode)%Z.
Proof.
  intros o rcms expires cb cert key rcerts rstore pcerts pstore extra cms HS H.
  destruct (masa_voucher_says _ _ _ _ _ _ _ _ _ _ _ _ HS H) as
    (rc & vr & regs & prior & p & pvr & t & f & s & rcode & pinned & d & n & A1 & A2 & A3 & A4 & A5 & -> & A7 & A8 & A9 & A10 & A11 & _).
  exists rc, vr, regs, p, pvr, f, s, rcode, pinned. repeat (split; [assumption|]). assumption.
Qed.

Lemma masa_says : forall o rcms expires cb cert key rcerts rstore pcerts pstore extra cms,
  ossl_sane o ->
  sign_masa_pledge_voucher o rcms expires cb cert key rcerts rstore pcerts pstore extra = Ok (Some cms) ->
  exists rc vr regs p pvr t f s rcode pinned d n,
    rcms = Some rc /\ expires = Some t /\ cb = Some f /\ says o rc rcerts rstore true vr regs /\
    get_attr_array (Some vr) APrior = Some (ba_of p) /\ says o (ba_of p) pcerts pstore false pvr None /\
    get_attr_str (Some pvr) ASerial = Some (Some s) /\
    f s regs = (rcode, pinned) /\ ba_has (Some pinned) d /\ nonce_is vr n /\
    signed_voucher o cert key extra (masa_content t s n d) cms.
Proof.
  intros o rcms expires cb cert key rcerts rstore pcerts pstore extra cms HS H.
  destruct (masa_voucher_says _ _ _ _ _ _ _ _ _ _ _ _ HS H) as
    (rc & vr & regs & prior & p & pvr & t & f & s & rcode & pinned & d & n & A1 & A2 & A3 & A4 & A5 & -> & A7 & A8 & A9 & A10 & A11 & A12 & A13 & A14).
  exists rc, vr, regs, p, pvr, t, f, s, rcode, pinned, d, n. repeat (split; [assumption|]). assumption.
Qed.

Lemma store_checked : forall o (ok : CMS o -> option (list (X509 o)) -> list (X509 o + CRL o) -> Prop) cms certs l want v sg,
  (forall c st s json, cms_verify o c st (Some s) false = Some json -> ok c st s) ->
  verify_cms_voucher o (Some cms) certs (Some l) want = Ok (Some (v, sg)) ->
  exists d c st s, holds_bytes cms d /\ d2i_cms o d = Some c /\ loads_certs o certs st /\ loads_store o (Some l) (Some s) /\ ok c st s.
Proof.
  intros o ok cms certs l want v sg Hok H. apply verify_says in H. destruct (says_trusted _ _ _ _ _ _ _ H) as [d [c [st [s [json [A1 [A2 [A3 [A4 [A5 _]]]]]]]]]].
  exists d, c, st, s. repeat (split; [assumption|]). eapply Hok. exact A5.
Qed.
