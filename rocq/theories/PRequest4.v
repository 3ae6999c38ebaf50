(** Proofs: memory safety of the request functions and the honest run. *)
From Coq Require Import ZifyBool ZifyNat ZifyN.
From Verif Require Import Base PBase MBase64 SBase64 PBase64 MSerialize SSerialize PSerialize MOs POs
  MJsmn PJsmn MVoucher SVoucher PVoucher SJson PVoucherText PJsonTok PVoucherJson PVoucherRound MCrypto MRequest SRequest
  PRequest PRequest2 PRequest3.
Open Scope N_scope.

(** ** Safety *)

Lemma init_writable : writable init_voucher.
Proof. split; [cbn; lia|]. intros a b H. left. destruct a; try discriminate; inversion H; reflexivity. Qed.

Lemma put_writable : forall v a x p, writable v -> arg_val a x p ->
  (forall b, x = VArr b -> ba_bytes b) -> writable (put_value v a p).
Proof.
  intros v a x p [H1 H2] Hx Hb. unfold arg_val in Hx. 
  assert (A : forall b d, x = VArr b -> ba_has b d -> bytes_ok d).
  { intros b d Ex Hd. specialize (Hb b Ex). destruct b as [b|]; [|destruct Hd as [? [? [? _]]]; discriminate].
    destruct (ba_bytes_read b Hb) as [d' [R Hd']]. apply ba_read_iff in R.
    assert (d = d') by (eapply holds_bytes_fun; [right; exact Hd|exact R]). subst. exact Hd'. }
  destruct x as [t|z|s|b].
  - destruct Hx as [Hk [t' [-> ->]]]. destruct a; try discriminate; (split; [exact H1|]); intros a' b' Hb'; apply (H2 a'); destruct a'; exact Hb'.
  - destruct Hx as [[-> [Hz ->]]|[-> ->]].
    + split; [cbn; lia|]. intros a' b' Hb'; apply (H2 a'); destruct a'; exact Hb'.
    + split; [exact H1|]. intros a' b' Hb'; apply (H2 a'); destruct a'; exact Hb'.
  - destruct Hx as [-> [m [-> [_ ->]]]]. split; [exact H1|]. intros a' b' Hb'; apply (H2 a'); destruct a'; exact Hb'.
  - destruct Hx as [Hk [d [Hd ->]]]. specialize (A b d eq_refl Hd).
    destruct a; try discriminate; (split; [exact H1|]); intros a' b' Hb'; destruct a'; cbn in Hb'; try discriminate;
      try (inversion Hb'; subst; right; exists d; split; [reflexivity|exact A]);
      match type of Hb' with Some (v_issuer _) = _ => apply (H2 AIssuer) | Some (v_pinned _) = _ => apply (H2 APinned)
        | Some (v_nonce _) = _ => apply (H2 ANonce) | Some (v_prior _) = _ => apply (H2 APrior) | Some (v_proximity _) = _ => apply (H2 AProximity) end;
      exact Hb'.
Qed.

Lemma ba_of_bytes : forall d, bytes_ok d -> ba_bytes (Some (ba_of d)).
Proof. intros d H. cbn. split; [exact H|lia]. Qed.
Lemma ba_null_bytes : ba_bytes (Some ba_null).
Proof. reflexivity. Qed.

Lemma arr_bytes : forall b, b = ba_null \/ (exists d, b = ba_of d /\ bytes_ok d) -> ba_bytes (Some b).
Proof. intros b [->|[d [-> H]]]; [apply ba_null_bytes|apply ba_of_bytes; exact H]. Qed.

Lemma vstr_safe : forall s, (forall t, s = Some t -> cstr_ok t) -> arg_safe ASerial (vstr s).
Proof. intros s H. split; [reflexivity|]. destruct s as [t|]; [right|left; reflexivity]. exists t. auto. Qed.

Ltac step_set w :=
  apply sof_safe; [try (split; [reflexivity|]; first [assumption | discriminate]) |
    let p := fresh "p" in let Hp := fresh "Hp" in intros p Hp;
    let W := fresh "W" in
    assert (W : writable (put_value _ _ p)) by (eapply put_writable; [exact w|exact Hp|]; intros ? E; inversion E; subst; assumption)].

(** The pledge request with a creation date never performs an invalid access. *)
Lemma pledge_request_safe : forall o t serial nonce rtls cert key extra,
  (forall s, serial = Some s -> cstr_ok s) -> ba_bytes nonce -> ba_bytes rtls -> ba_bytes cert -> ba_bytes key ->
  exists r, sign_pledge_voucher_request o (Some t) serial nonce rtls cert key extra = Ok r.
Proof.
  intros o t serial nonce rtls cert key extra Hs Hn Hr Hc Hk. unfold sign_pledge_voucher_request.
  step_set init_writable.
  assert (F : forall v, writable v -> exists r,
    set_or_fail v AAssertion (VInt 3) (fun v => set_or_fail v AProximity (VArr rtls) (fun v =>
    set_or_fail v ASerial (vstr serial) (fun v => sign_cms_voucher o (Some v) cert key extra))) = Ok r).
  { intros v Hv. step_set Hv; [left; reflexivity|]. step_set W0. step_set W1; [apply vstr_safe; exact Hs|]. apply sign_safe; assumption. }
  destruct nonce as [n|]; [|apply F; exact W]. step_set W. apply F. exact W0.
Qed.

(** C32: when the registrar crashes. *)
Lemma registrar_crash : forall o pcms t serial issuer rtls cert key vcerts vstore extra k,
  ossl_sane o -> (forall s, serial = Some s -> cstr_ok s) ->
  ba_bytes pcms -> ba_bytes issuer -> ba_bytes rtls -> ba_bytes cert -> ba_bytes key ->
  (sign_voucher_request o pcms (Some t) serial issuer rtls cert key vcerts vstore extra = UB k <->
   k = NullDeref /\ serial <> None /\ issuer <> None /\
   exists pc pvr, pcms = Some pc /\ says o pc vcerts vstore false pvr None /\ get_attr_str (Some pvr) ASerial = Some None).
Proof.
  intros o pcms t serial issuer rtls cert key vcerts vstore extra k HS Hs Hp Hi Hr Hc Hk. unfold sign_voucher_request.
  destruct serial as [s|]; [|split; [discriminate|intros [_ [H _]]; congruence]].
  destruct issuer as [is|]; [|split; [discriminate|intros [_ [_ [H _]]]; congruence]].
  destruct (verify_safe o pcms vcerts vstore false HS Hp) as [[[pvr l]|] Ev]; rewrite Ev; cbn [obind].
  2:{ split; [discriminate|]. intros [_ [_ [_ [pc [pvr [-> [H _]]]]]]]. apply verify_says in H. congruence. }
  destruct pcms as [pc|]; [|discriminate]. apply verify_says in Ev.
  assert (Hl : l = None) by (destruct Ev as [? [? [? [_ [_ Hl]]]]]; exact Hl). subst l.
  destruct (says_values _ _ _ _ _ _ _ HS Ev) as [VA VS]. pose proof (says_wf _ _ _ _ _ _ _ HS Ev) as Hwf.
  cbn [get_attr_str]. destruct (v_serial pvr) as [ps|] eqn:Es.
  2:{ cbn. split; [intros H; inversion H; subst|intros [-> _]; reflexivity]. split; [reflexivity|]. split; [congruence|]. split; [congruence|]. exists pc, pvr. split; [reflexivity|]. split; [exact Ev|]. cbn. congruence. }
  cbn [strcmp_eq obind].
  assert (G : exists r, (if negb (beqb ps s) then Ok None else
     obind (compare_binary_array (get_attr_array (Some pvr) AProximity) rtls) (fun c =>
     if (c <? 1)%Z then Ok None else
     match get_attr_enum (Some pvr) AAssertion with
     | None => UB NullDeref
     | Some a => if negb (a =? 3)%Z then Ok None else
        set_or_fail init_voucher ACreatedOn (VTime (Some t)) (fun v =>
        if is_attr_nonempty pvr ANonce then
          match get_attr_array (Some pvr) ANonce with
          | None => Ok None
          | Some n => set_or_fail v ANonce (VArr (Some n)) (fun v =>
             set_or_fail v ASerial (vstr (Some s)) (fun v =>
             set_or_fail v AIssuer (VArr (Some is)) (fun v =>
             set_or_fail v APrior (VArr (Some pc)) (fun v => sign_cms_voucher o (Some v) cert key extra))))
          end
        else set_or_fail v ASerial (vstr (Some s)) (fun v =>
             set_or_fail v AIssuer (VArr (Some is)) (fun v =>
             set_or_fail v APrior (VArr (Some pc)) (fun v => sign_cms_voucher o (Some v) cert key extra))))
     end)) = Ok r).
  { destruct (beqb ps s); cbn [negb]; [|eauto]. cbn [get_attr_array].
    assert (C : exists x, compare_binary_array (Some (v_proximity pvr)) rtls = Ok x).
    { destruct rtls as [rc|]; [|cbn; eauto]. apply compare_safe; [|exact Hr]. apply arr_bytes. apply (VA AProximity). reflexivity. }
    destruct C as [x ->]. cbn [obind]. destruct (x <? 1)%Z; [eauto|]. cbn [get_attr_enum]. destruct (_ =? 3)%Z; cbn [negb]; [|eauto].
    step_set init_writable.
    assert (F : forall v, writable v -> exists r, set_or_fail v ASerial (vstr (Some s)) (fun v =>
             set_or_fail v AIssuer (VArr (Some is)) (fun v =>
             set_or_fail v APrior (VArr (Some pc)) (fun v => sign_cms_voucher o (Some v) cert key extra))) = Ok r).
    { intros v Hv. step_set Hv; [apply vstr_safe; exact Hs|]. step_set W0. step_set W1. apply sign_safe; assumption. }
    destruct (is_attr_nonempty pvr ANonce); [|apply F; exact W].
    assert (Hn : ba_bytes (Some (v_nonce pvr))) by (apply arr_bytes; apply (VA ANonce); reflexivity).
    step_set W. apply F. exact W0. }
  destruct G as [r G]. split.
  - intros H. exfalso. cbn [get_attr_array] in *. rewrite G in H. discriminate.
  - intros [_ [_ [_ [pc' [pvr' [E [H1 H2]]]]]]]. inversion E; subst pc'. assert (pvr' = pvr) by (eapply says_fun; eauto). subst pvr'.
    cbn in H2. congruence.
Qed.

(** The MASA never performs an invalid access. *)
Lemma masa_safe : forall o rcms expires cb cert key rcerts rstore pcerts pstore extra,
  ossl_sane o -> ba_bytes rcms -> ba_bytes cert -> ba_bytes key ->
  (forall f s regs, cb = Some f -> ba_bytes (Some (snd (f s regs)))) ->
  exists r, sign_masa_pledge_voucher o rcms expires cb cert key rcerts rstore pcerts pstore extra = Ok r.
Proof.
  intros o rcms expires cb cert key rcerts rstore pcerts pstore extra HS Hr Hc Hk Hf. unfold sign_masa_pledge_voucher.
  destruct expires as [t|]; [|eauto]. destruct cb as [f|]; [|eauto].
  destruct (verify_safe o rcms rcerts rstore true HS Hr) as [[[vr regs]|] Ev]; rewrite Ev; cbn [obind]; [|eauto].
  destruct rcms as [rc|]; [|discriminate]. apply verify_says in Ev. destruct (says_values _ _ _ _ _ _ _ HS Ev) as [VA VS].
  cbn [is_attr_nonempty get_attr_str get_attr_array]. destruct (v_serial vr) as [s|] eqn:Es; cbn [negb]; [|eauto].
  destruct (_ && _); [eauto|]. destruct (is_attr_array_nonempty (Some (v_prior vr))); cbn [negb]; [|eauto].
  assert (Hpr : ba_bytes (Some (v_prior vr))) by (apply arr_bytes; apply (VA APrior); reflexivity).
  destruct (verify_safe o (Some (v_prior vr)) pcerts pstore false HS Hpr) as [[[pvr l]|] Ev2]; rewrite Ev2; cbn [obind]; [|eauto].
  apply verify_says in Ev2. destruct (says_values _ _ _ _ _ _ _ HS Ev2) as [VA2 VS2].
  destruct (v_serial pvr) as [ps|] eqn:Eps; cbn [negb]; [|eauto].
  cbn [strcmp_eq obind]. destruct (beqb s ps); cbn [negb]; [|eauto].
  destruct (f ps regs) as [rcode pinned] eqn:Ef.
  assert (Hpin : ba_bytes (Some pinned)) by (specialize (Hf f ps regs eq_refl); rewrite Ef in Hf; exact Hf).
  assert (F : forall v, writable v -> exists r, set_or_fail v AAssertion (VInt 3)
         (fun v => if (rcode <? 0)%Z then Ok None else
            set_or_fail v APinned (VArr (Some pinned)) (fun v =>
            set_or_fail v ASerial (vstr (Some ps)) (fun v =>
            set_or_fail v ARevocation (VInt 0) (fun v =>
            set_or_fail v AExpiresOn (VTime (Some t)) (fun v =>
            sign_cms_voucher o (Some v) cert key extra))))) = Ok r).
  { intros v Hv. step_set Hv; [left; reflexivity|]. destruct (rcode <? 0)%Z; [eauto|]. step_set W.
    step_set W0; [apply vstr_safe; intros u Hu; inversion Hu; subst u; apply (VS2 ps); cbn; congruence|].
    step_set W1; [right; reflexivity|]. step_set W2. apply sign_safe; assumption. }
  destruct (is_attr_array_nonempty (Some (v_nonce vr))).
  - assert (Hn : ba_bytes (Some (v_nonce vr))) by (apply arr_bytes; apply (VA ANonce); reflexivity).
    step_set init_writable. apply F. exact W.
  - apply F. exact init_writable.
Qed.

(** The pledge never performs an invalid access when it is given a registrar
    certificate. *)
Lemma pledge_verify_safe : forall o cms serial nonce rc dstore vcerts vstore want out,
  ossl_sane o -> ba_bytes cms -> ba_bytes nonce -> ba_bytes (Some rc) ->
  exists r, verify_masa_pledge_voucher o cms serial nonce (Some rc) dstore vcerts vstore want out = Ok r.
Proof.
  intros o cms serial nonce rc dstore vcerts vstore want out HS Hc Hn Hr. unfold verify_masa_pledge_voucher.
  destruct serial as [s|]; [|eauto].
  destruct (verify_safe o cms vcerts vstore want HS Hc) as [[[mv l]|] Ev]; rewrite Ev; cbn [obind]; [|eauto].
  destruct cms as [mcms|]; [|discriminate]. apply verify_says in Ev. destruct (says_values _ _ _ _ _ _ _ HS Ev) as [VA VS].
  cbn [is_attr_nonempty get_attr_str get_attr_array]. destruct (v_serial mv) as [vs|]; cbn [negb strcmp_eq obind]; [|eauto].
  destruct (beqb s vs); cbn [negb]; [|eauto].
  assert (N : exists b, match nonce with
                | None => Ok true
                | Some _ => if is_attr_array_nonempty (Some (v_nonce mv)) then
                    obind (compare_binary_array nonce (Some (v_nonce mv))) (fun c => Ok (negb (c <? 1)%Z)) else Ok false
                end = Ok b).
  { destruct nonce as [n|]; [|eauto]. destruct (is_attr_array_nonempty _); [|eauto].
    destruct (compare_safe n (v_nonce mv)) as [x ->]; [exact Hn|apply arr_bytes; apply (VA ANonce); reflexivity|]. cbn. eauto. }
  destruct N as [b ->]. cbn [obind]. destruct b; cbn [negb]; [|eauto].
  destruct (is_attr_array_nonempty (Some (v_pinned mv))) eqn:Ep; cbn [negb]; [|eauto].
  destruct (VA APinned (v_pinned mv) eq_refl) as [E|[d [E Hd]]]; rewrite E in *; [discriminate|].
  rewrite copy_of. cbn [obind fst snd Z.ltb Z.compare]. rewrite read_of. cbn [obind].
  destruct (verify_cert_values o rc d dstore Hr) as [-> | ->]; cbn [obind Z.ltb Z.compare]; [|eauto].
  destruct out; cbn [negb]; [|eauto]. eauto.
Qed.
