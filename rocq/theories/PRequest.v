(** Proofs about signed voucher messages. *)
From Coq Require Import ZifyBool ZifyNat ZifyN.
From Verif Require Import Base PBase MBase64 SBase64 PBase64 MSerialize SSerialize PSerialize MOs POs
  MJsmn PJsmn MVoucher SVoucher PVoucher SJson PVoucherText PJsonTok PVoucherJson PVoucherRound MCrypto MRequest SRequest.
Open Scope N_scope.

(** ** Reading arrays *)

Lemma ba_read_iff : forall b d, ba_read b = Ok d <-> holds_bytes b d.
Proof.
  intros b d. unfold ba_read, holds_bytes, ba_has. split.
  - destruct (ba_data b) as [m|] eqn:E.
    + intros H. right. apply take_mem_ok in H. destruct H as [rest [H1 H2]]. exists b, rest. subst. auto.
    + destruct (ba_len b =? 0) eqn:E0; [|discriminate]. intros H. inversion H; subst. left. repeat split; lia.
  - intros [[H1 [H2 H3]]|[b' [rest [H1 [H2 H3]]]]].
    + rewrite H1, H2. subst. reflexivity.
    + inversion H1; subst. rewrite H2, H3. apply take_mem_app.
Qed.

Lemma holds_bytes_fun : forall b d1 d2, holds_bytes b d1 -> holds_bytes b d2 -> d1 = d2.
Proof. intros b d1 d2 H1 H2. apply ba_read_iff in H1. apply ba_read_iff in H2. congruence. Qed.

Lemma ba_has_fun : forall b d1 d2, ba_has b d1 -> ba_has b d2 -> d1 = d2.
Proof.
  intros b d1 d2 H1 H2. destruct H1 as [b1 [r1 [-> H1]]]. eapply (holds_bytes_fun b1); right; [exists b1, r1; auto|exact H2].
Qed.

Lemma ba_of_has : forall d, ba_has (Some (ba_of d)) d.
Proof. intros d. exists (ba_of d), []. rewrite app_nil_r. repeat split. Qed.

Lemma ba_bytes_read : forall b, ba_bytes (Some b) -> exists d, ba_read b = Ok d /\ bytes_ok d.
Proof.
  intros b H. unfold ba_bytes, ba_read in *. destruct (ba_data b) as [m|].
  - destruct H as [H1 H2]. unfold take_mem. destruct (ba_len b <=? blen m) eqn:E; [|lia].
    eexists; split; [reflexivity|]. unfold bytes_ok in *. apply Forall_forall. intros x Hx. rewrite Forall_forall in H1. apply H1.
    rewrite <- (firstn_skipn (N.to_nat (ba_len b)) m). apply in_or_app. left. exact Hx.
  - rewrite H. exists []. split; [reflexivity|constructor].
Qed.

(** ** Setting attributes *)

Definition arg_val (a : attr) (x : avalue) (p : pval) : Prop :=
  match x with
  | VTime t => kind a = KTime /\ exists t', t = Some t' /\ p = PTime t'
  | VInt z => (a = AAssertion /\ (1 <= z <= 3)%Z /\ p = PEnum z) \/ (a = ARevocation /\ p = PBool (negb (z =? 0)%Z))
  | VStr s => a = ASerial /\ exists mem, s = Some mem /\ blen (upto_nul mem) < 128 /\ p = PStr (upto_nul mem)
  | VArr b => kind a = KArr /\ exists d, ba_has b d /\ p = PArr d
  end.

Lemma set_ok_put : forall v a x r v', set_attr true (Some v) a x = Ok (r, v') -> (0 <= r)%Z ->
  exists p, arg_val a x p /\ v' = Some (put_value v a p).
Proof.
  intros v a x r v' H Hr.
  assert (Time : kind a = KTime -> forall t, set_attr_time (Some v) a t = Ok (r, v') ->
     exists p, arg_val a (VTime t) p /\ v' = Some (put_value v a p)).
  { intros Hk t Ht. unfold set_attr_time in Ht. destruct a; try discriminate; destruct t as [t|]; try discriminate;
    inversion Ht; subst; exists (PTime t); (split; [split; [reflexivity|]; exists t; auto|reflexivity]). }
  assert (Arr : kind a = KArr -> forall b, set_attr_array true (Some v) a b = Ok (r, v') ->
     exists p, arg_val a (VArr b) p /\ v' = Some (put_value v a p)).
  { intros Hk b Hb. apply set_arr_inv in Hb. destruct Hb as [[-> _]|[w [y [-> [Hw Hc]]]]]; [lia|].
    destruct Hc as [[-> _]|[-> [b' [mem [d [rest [-> [E1 [-> [E2 ->]]]]]]]]]]; [lia|].
    exists (PArr d). split.
    - split; [exact Hk|]. exists d. split; [|reflexivity]. exists b', rest. auto.
    - destruct a; try contradiction; subst w; reflexivity. }
  unfold set_attr in H. destruct a; destruct x; try discriminate; try (apply Time; auto; fail); try (apply Arr; auto; fail);
    try (inversion H; subst; lia).
  - unfold set_attr_enum in H. destruct (_ || _) eqn:E; inversion H; subst; [lia|].
    exists (PEnum z). split; [left; repeat split; lia|reflexivity].
  - apply set_str_inv in H. destruct H as [[-> _]|[[-> _]|[-> [_ [mem [-> [H1 ->]]]]]]]; try lia.
    exists (PStr (upto_nul mem)). split; [|reflexivity]. split; [reflexivity|]. exists mem. auto.
  - inversion H; subst. exists (PBool (negb (z =? 0)%Z)). split; [right; auto|reflexivity].
Qed.

Lemma set_put : forall v a x p, arg_val a x p ->
  (forall s, x = VStr s -> exists t, s = Some (t ++ [0]) /\ cstr_ok t) ->
  set_attr true (Some v) a x = Ok (0%Z, Some (put_value v a p)).
Proof.
  intros v a x p H Hs. 
  assert (G : exists v', set_attr true (Some v) a x = Ok (0%Z, v')).
  { unfold arg_val in H. destruct (set_attr_accepts v) as [A1 [A2 [A3 [A4 A5]]]]. destruct x as [t|z|s|b].
    - destruct H as [Hk [t' [-> ->]]]. destruct (A1 a t' Hk) as [v' E]. eauto.
    - destruct H as [[-> [Hz ->]]|[-> ->]]; [destruct (A2 z Hz)|destruct (A3 z)]; eauto.
    - destruct H as [-> [mem [-> [Hl ->]]]]. destruct (Hs _ eq_refl) as [t [E Hc]]. inversion E; subst.
      rewrite upto_nul_end in Hl by assumption. destruct (A4 t [] Hc Hl) as [v' E']. eauto.
    - destruct H as [Hk [d [[b' [rest [-> [H1 H2]]]] ->]]].
      destruct a; try discriminate; unfold set_attr, set_attr_array; cbn [is_attr_array_nonempty]; rewrite H1;
      unfold copy_binary_array; rewrite H1, H2; cbn [negb sys_memdup]; rewrite take_mem_app; cbn [obind fst snd Z.ltb Z.compare];
      eauto. }
  destruct G as [v' E]. rewrite E. destruct (set_ok_put _ _ _ _ _ E (Z.le_refl 0)) as [q [Hq ->]].
  replace q with p; [reflexivity|]. unfold arg_val in *. destruct x as [t|z|s|b].
  - destruct H as [_ [t1 [-> ->]]]. destruct Hq as [_ [t2 [E2 ->]]]. congruence.
  - destruct H as [[-> [_ ->]]|[-> ->]]; destruct Hq as [[? [_ ->]]|[? ->]]; congruence.
  - destruct H as [_ [m1 [-> [_ ->]]]]. destruct Hq as [_ [m2 [E2 [_ ->]]]]. congruence.
  - destruct H as [_ [d1 [H1 ->]]]. destruct Hq as [_ [d2 [H2 ->]]]. f_equal. eapply ba_has_fun; eauto.
Qed.

(** A setter called with arguments of the right kind and readable memory. *)
Definition arg_safe (a : attr) (x : avalue) : Prop :=
  match x with
  | VTime t => kind a = KTime /\ t <> None
  | VInt _ => a = AAssertion \/ a = ARevocation
  | VStr s => a = ASerial /\ (s = None \/ exists t, s = Some (t ++ [0]) /\ cstr_ok t)
  | VArr b => kind a = KArr /\ ba_bytes b
  end.

Lemma set_safe : forall v a x, arg_safe a x ->
  (exists p, arg_val a x p /\ set_attr true (Some v) a x = Ok (0%Z, Some (put_value v a p))) \/
  (exists v', set_attr true (Some v) a x = Ok ((-1)%Z, v')).
Proof.
  intros v a x H. unfold arg_safe in H.
  assert (P : forall p, arg_val a x p -> (forall s, x = VStr s -> exists t, s = Some (t ++ [0]) /\ cstr_ok t) ->
     exists p, arg_val a x p /\ set_attr true (Some v) a x = Ok (0%Z, Some (put_value v a p))).
  { intros p Hp Hs. exists p. split; [exact Hp|]. apply set_put; assumption. }
  destruct x as [t|z|s|b].
  - left. destruct H as [Hk Ht]. destruct t as [t|]; [|congruence]. apply (P (PTime t)); [cbn; eauto|]. intros; discriminate.
  - destruct H as [->| ->].
    + destruct (Z.leb_spec 1 z); destruct (Z.leb_spec z 3).
      * left. apply (P (PEnum z)); [cbn; auto|]. intros; discriminate.
      * right. cbn. destruct (_ || _) eqn:E; [eauto|lia].
      * right. cbn. destruct (_ || _) eqn:E; [eauto|lia].
      * right. cbn. destruct (_ || _) eqn:E; [eauto|lia].
    + left. apply (P (PBool (negb (z =? 0)%Z))); [cbn; auto|]. intros; discriminate.
  - destruct H as [-> [->|[t [-> Hc]]]].
    + right. cbn. eauto.
    + destruct (N.ltb_spec (blen t) 128) as [Hl|Hl].
      * left. apply (P (PStr t)). 
        { cbn. split; [reflexivity|]. exists (t ++ [0]). rewrite upto_nul_end by assumption. auto. }
        intros s E. inversion E; subst. eauto.
      * right. cbn [set_attr set_attr_str]. rewrite strnlen_spec by assumption. cbn [obind].
        replace (N.min (blen t) 128) with 128 by lia. unfold set_attr_nstr. cbn. eauto.
  - destruct H as [Hk Hb]. destruct b as [b|].
    + destruct (ba_data b) as [m|] eqn:Em.
      * left. destruct (ba_bytes_read b Hb) as [d [Hd _]]. apply (P (PArr d)); [|intros; discriminate].
        split; [exact Hk|]. exists d. split; [|reflexivity]. apply ba_read_iff in Hd. destruct Hd as [[? _]|Hd]; [congruence|exact Hd].
      * right. unfold ba_bytes in Hb. rewrite Em in Hb. 
        destruct a; try discriminate; cbn; unfold is_attr_array_nonempty; rewrite Em, Hb; cbn; eauto.
    + right. destruct a; try discriminate; cbn; eauto.
Qed.

Lemma sof_inv : forall {A} v a x (k : voucher -> outcome (option A)) c, set_or_fail v a x k = Ok (Some c) ->
  exists p, arg_val a x p /\ k (put_value v a p) = Ok (Some c).
Proof.
  intros A v a x k c H. unfold set_or_fail in H. destruct (set_attr true (Some v) a x) as [[r v']|] eqn:E; cbn [obind fst snd] in H; [|discriminate].
  destruct (r <? 0)%Z eqn:Er; [discriminate|]. destruct (set_ok_put _ _ _ _ _ E) as [p [Hp ->]]; [lia|]. eauto.
Qed.

Lemma sof_put : forall {A} v a x p (k : voucher -> outcome (option A)), arg_val a x p ->
  (forall s, x = VStr s -> exists t, s = Some (t ++ [0]) /\ cstr_ok t) ->
  set_or_fail v a x k = k (put_value v a p).
Proof. intros A v a x p k H Hs. unfold set_or_fail. rewrite (set_put _ _ _ _ H Hs). reflexivity. Qed.

Lemma sof_safe : forall {A} v a x (k : voucher -> outcome (option A)), arg_safe a x ->
  (forall p, arg_val a x p -> exists r, k (put_value v a p) = Ok r) -> exists r, set_or_fail v a x k = Ok r.
Proof.
  intros A v a x k Hs Hk. unfold set_or_fail. destruct (set_safe v a x Hs) as [[p [Hp ->]]|[v' ->]]; cbn [obind fst snd Z.ltb Z.compare].
  - apply Hk. exact Hp.
  - eauto.
Qed.

(** ** Loading certificates *)

Lemma stack_iff : forall o l xs, get_certificate_stack o l = Some xs <-> Forall2 (fun e x => d2i_x509 o (fst e) = Some x) l xs.
Proof.
  intros o. induction l as [|[d f] l IH]; intros xs; cbn [get_certificate_stack].
  - split; intros H; [inversion H; constructor|inversion H; reflexivity].
  - destruct (d2i_x509 o d) as [x|] eqn:E.
    + destruct (get_certificate_stack o l) as [ys|] eqn:Es.
      * split; intros H.
        -- inversion H; subst. constructor; [exact E|]. apply IH. reflexivity.
        -- inversion H as [|? y ? zs H1 H2]; subst. apply IH in H2. cbn in H1. congruence.
      * split; intros H; [discriminate|]. inversion H as [|? y ? zs H1 H2]; subst. apply IH in H2. discriminate.
    + split; intros H; [discriminate|]. inversion H; subst. cbn in *. congruence.
Qed.

Lemma opt_stack_iff : forall o certs st, opt_stack o certs = Some st <-> loads_certs o certs st.
Proof.
  intros o [l|] st; cbn [opt_stack loads_certs].
  - destruct (get_certificate_stack o l) as [s|] eqn:E.
    + split; intros H; [inversion H; subst; apply stack_iff; exact E|]. destruct st as [xs|]; [|contradiction].
      apply stack_iff in H. congruence.
    + split; intros H; [discriminate|]. destruct st; [|contradiction]. apply stack_iff in H. congruence.
  - split; intros H; [inversion H; exact I|]. destruct st; [contradiction|reflexivity].
Qed.

Definition entry_rel (o : ossl) (e : bytes * Z) (y : X509 o + CRL o) : Prop :=
  match y with
  | inl x => snd e = 0%Z /\ d2i_x509 o (fst e) = Some x
  | inr r => snd e = 1%Z /\ d2i_crl o (fst e) = Some r
  end.

Lemma store_iff : forall o l acc ys, get_certificate_store o acc l = Some ys <->
  exists zs, ys = acc ++ zs /\ Forall2 (entry_rel o) l zs /\ added o acc zs.
Proof.
  intros o. induction l as [|[d f] l IH]; intros acc ys; cbn [get_certificate_store].
  - split.
    + intros H. inversion H; subst. exists []. rewrite app_nil_r. repeat split. constructor.
    + intros [zs [-> [H _]]]. inversion H. rewrite app_nil_r. reflexivity.
  - unfold CERTIFICATE_VALID, CERTIFICATE_CRL. split.
    + intros H. destruct (f =? 0)%Z eqn:E0.
      * destruct (d2i_x509 o d) as [x|] eqn:E; [|discriminate]. destruct (store_add o acc (inl x)) eqn:Ea; [|discriminate].
        apply IH in H. destruct H as [zs [-> [H1 H2]]]. exists (inl x :: zs). rewrite <- app_assoc. split; [reflexivity|].
        split; [constructor; [|exact H1]|]. { cbn. split; [lia|exact E]. } cbn. auto.
      * destruct (f =? 1)%Z eqn:E1; [|discriminate].
        destruct (d2i_crl o d) as [x|] eqn:E; [|discriminate]. destruct (store_add o acc (inr x)) eqn:Ea; [|discriminate].
        apply IH in H. destruct H as [zs [-> [H1 H2]]]. exists (inr x :: zs). rewrite <- app_assoc. split; [reflexivity|].
        split; [constructor; [|exact H1]|]. { cbn. split; [lia|exact E]. } cbn. auto.
    + intros [zs [-> [H1 H2]]]. inversion H1 as [|? y ? zs' Hy Hz]; subst. cbn [added] in H2. destruct H2 as [H2 H3].
      destruct y as [x|x]; cbn [entry_rel fst snd] in Hy; destruct Hy as [-> Hd]; cbn [Z.eqb]; rewrite Hd, H2; apply IH;
        (exists zs'; rewrite <- app_assoc; auto).
Qed.

Lemma opt_store_iff : forall o store st, opt_store o store = Some st <-> loads_store o store st.
Proof.
  intros o [l|] st; cbn [opt_store loads_store].
  - destruct (get_certificate_store o [] l) as [s|] eqn:E.
    + apply store_iff in E. destruct E as [zs [-> [H1 H2]]]. cbn [app] in *. split; intros H.
      * inversion H; subst. auto.
      * destruct st as [ys|]; [|contradiction]. destruct H as [H3 H4].
        assert (G : get_certificate_store o [] l = Some zs) by (apply store_iff; exists zs; auto).
        assert (G' : get_certificate_store o [] l = Some ys) by (apply store_iff; exists ys; auto). congruence.
    + split; intros H; [discriminate|]. destruct st as [ys|]; [|contradiction]. destruct H as [H3 H4].
      assert (G' : get_certificate_store o [] l = Some ys) by (apply store_iff; exists ys; auto). congruence.
  - split; intros H; [inversion H; exact I|]. destruct st; [contradiction|reflexivity].
Qed.

Lemma der_iff : forall o xs l, der_list o xs = Some l <->
  Forall2 (fun x e => i2d_x509 o x = Some (fst e) /\ snd e = 0%Z) xs l.
Proof.
  intros o. induction xs as [|x xs IH]; intros l; cbn [der_list].
  - split; intros H; inversion H; subst; constructor.
  - destruct (i2d_x509 o x) as [d|] eqn:E.
    + destruct (der_list o xs) as [m|] eqn:Em; split; intros H.
      * inversion H; subst. constructor; [auto|]. apply IH. reflexivity.
      * inversion H as [|? [d' f] ? m' [H1 H3] H2]; subst. apply IH in H2. cbn [fst snd] in *. subst. inversion H2; subst. assert (d = d') by congruence. subst. reflexivity.
      * discriminate.
      * inversion H as [|? y ? m' H1 H2]; subst. apply IH in H2. discriminate.
    + split; intros H; [discriminate|]. inversion H as [|? y ? m' [H1 _] H2]; subst. congruence.
Qed.

(** ** Verification *)

Lemma verify_says : forall o cms certs store want v l,
  verify_cms_voucher o (Some cms) certs store want = Ok (Some (v, l)) <-> says o cms certs store want v l.
Proof.
  intros o cms certs store want v l. unfold verify_cms_voucher, crypto_verify_cms, says, verified. split.
  - intros H. destruct (ba_read cms) as [d|] eqn:Ed; cbn [obind] in H; [|discriminate].
    destruct (d2i_cms o d) as [c|] eqn:Ec; cbn [obind] in H; [|discriminate].
    destruct (opt_stack o certs) as [stk|] eqn:Es; cbn [obind] in H; [|discriminate].
    destruct (opt_store o store) as [st|] eqn:Et; cbn [obind] in H; [|discriminate].
    destruct (cms_verify o c stk st _) as [json|] eqn:Ev; cbn [obind] in H; [|discriminate].
    assert (Ef : match st with None => true | Some _ => false end = match store with None => true | Some _ => false end).
    { apply opt_store_iff in Et. destruct store, st; cbn in Et; tauto. }
    rewrite Ef in Ev. apply ba_read_iff in Ed. apply opt_stack_iff in Es. apply opt_store_iff in Et.
    assert (J : forall l', obind (deserialize_voucher true match json with [] => None | _ :: _ => Some json end)
                 (fun v0 => match v0 with Some v1 => Ok (Some (v1, l')) | None => Ok None end) = Ok (Some (v, l)) ->
                 l' = l /\ deserialize_voucher true (Some json) = Ok (Some v)).
    { intros l' HJ. destruct json as [|b json]; [discriminate|]. cbv beta iota in HJ.
      match type of HJ with obind ?t _ = _ => destruct t as [[w|]|] eqn:Ew end; cbn [obind] in HJ; try discriminate.
      inversion HJ; subst. split; [reflexivity|first [reflexivity|exact Ew]]. }
    exists c, stk, json. destruct want.
    + unfold exatract_cms_certs in H. destruct (cms_signers o c stk) as [xs|] eqn:Ex.
      * destruct xs as [|x xs].
        -- apply J in H. destruct H as [<- H]. split; [exists d, st; auto|]. split; [exact H|]. cbn. rewrite Ex. reflexivity.
        -- destruct (der_list o (x :: xs)) as [m|] eqn:Em; cbn [obind] in H; [|discriminate].
           apply J in H. destruct H as [<- H]. split; [exists d, st; auto|]. split; [exact H|].
           cbn [signer_certs]. rewrite Ex. exists m. split; [apply der_iff; exact Em|reflexivity].
      * apply J in H. destruct H as [<- H]. split; [exists d, st; auto|]. split; [exact H|]. cbn. rewrite Ex. reflexivity.
    + apply J in H. destruct H as [<- H]. split; [exists d, st; auto|]. split; [exact H|]. reflexivity.
  - intros [c [stk [json [[d [st [H1 [H2 [H3 [H4 H5]]]]]] [H6 H7]]]]].
    assert (Ef : match st with None => true | Some _ => false end = match store with None => true | Some _ => false end).
    { destruct store, st; cbn in H4; tauto. }
    apply ba_read_iff in H1. apply opt_stack_iff in H3. apply opt_store_iff in H4.
    rewrite H1. cbn [obind]. rewrite H2, H3, H4, Ef, H5.
    assert (J : (match json with [] => None | _ :: _ => Some json end) = Some json) by (destruct json; [discriminate|reflexivity]).
    rewrite J. destruct want; cbn [signer_certs] in H7.
    + unfold exatract_cms_certs. destruct (cms_signers o c stk) as [[|x xs]|].
      * subst l. cbn [obind]. rewrite H6. reflexivity.
      * destruct H7 as [m [Hm ->]]. apply der_iff in Hm. rewrite Hm. cbn [obind]. rewrite H6. reflexivity.
      * subst l. cbn [obind]. rewrite H6. reflexivity.
    + subst l. cbn [obind]. rewrite H6. reflexivity.
Qed.

Lemma says_wf : forall o cms certs store want v l, ossl_sane o -> says o cms certs store want v l -> voucher_wf v.
Proof.
  intros o cms certs store want v l [HS _] [c [st [json [[d [s [_ [_ [_ [_ H]]]]]] [H2 _]]]]].
  apply HS in H. destruct H as [H3 H4]. eapply parsed_wf; eauto.
Qed.

Lemma says_fun : forall o cms certs store want want' v l v' l',
  says o cms certs store want v l -> says o cms certs store want' v' l' -> v = v'.
Proof.
  intros o cms certs store want want' v l v' l' H1 H2.
  destruct H1 as [c [st [json [[d [s [A1 [A2 [A3 [A4 A5]]]]]] [A6 _]]]]].
  destruct H2 as [c' [st' [json' [[d' [s' [B1 [B2 [B3 [B4 B5]]]]]] [B6 _]]]]].
  assert (d = d') by (eapply holds_bytes_fun; eauto). subst d'. assert (c = c') by congruence. subst c'.
  apply opt_stack_iff in A3. apply opt_stack_iff in B3. apply opt_store_iff in A4. apply opt_store_iff in B4. congruence.
Qed.

Lemma verify_safe : forall o cms certs store want, ossl_sane o -> ba_bytes cms ->
  exists r, verify_cms_voucher o cms certs store want = Ok r.
Proof.
  intros o [cms|] certs store want HS Hb; [|eexists; reflexivity].
  unfold verify_cms_voucher, crypto_verify_cms. destruct (ba_bytes_read cms Hb) as [d [-> Hd]]. cbn [obind].
  destruct (d2i_cms o d) as [c|]; [|eexists; reflexivity]. destruct (opt_stack o certs) as [stk|]; [|eexists; reflexivity].
  destruct (opt_store o store) as [st|]; [|eexists; reflexivity]. destruct (cms_verify o c stk st _) as [json|] eqn:Ev; [|eexists; reflexivity].
  destruct HS as [HS _]. apply HS in Ev. destruct Ev as [J1 J2].
  assert (D : exists r, deserialize_voucher true match json with [] => None | _ :: _ => Some json end = Ok r).
  { destruct json as [|b json]; [eexists; reflexivity|]. apply deserialize_safe; assumption. }
  destruct D as [w Hw]. 
  assert (F : forall l' : option certlist, exists r, obind (deserialize_voucher true match json with [] => None | _ :: _ => Some json end)
                 (fun v0 => match v0 with Some v1 => Ok (Some (v1, l')) | None => Ok None end) = Ok r).
  { intros l'. rewrite Hw. cbn [obind]. destruct w; eexists; reflexivity. }
  destruct want; [|apply F]. destruct (exatract_cms_certs o c stk); [apply F|eexists; reflexivity].
Qed.

(** ** Signing *)

Lemma crypto_sign_inv : forall o k text cert key certs cms,
  crypto_sign o k text cert key certs = Ok (Some cms) <-> signed o k (Some cert) (Some key) certs text cms.
Proof.
  intros o k text cert key certs cms. unfold crypto_sign, signed, sign_withkey_cms. split.
  - intros H. destruct (ba_data cert) as [cm|] eqn:Ec; [|discriminate]. destruct (ba_data key) as [km|] eqn:Ek; [|discriminate].
    destruct (ba_read key) as [kb|] eqn:Rk; cbn [obind] in H; [|discriminate].
    destruct (d2i_by o k kb) as [pk|] eqn:Dk; [|discriminate].
    destruct (ba_read cert) as [cb|] eqn:Rc; cbn [obind] in H; [|discriminate].
    destruct (d2i_x509 o cb) as [x|] eqn:Dx; [|discriminate]. destruct (opt_stack o certs) as [st|] eqn:Es; [|discriminate].
    destruct (cms_sign o x pk st text) as [c|] eqn:Cs; [|discriminate]. inversion H.
    apply ba_read_iff in Rk. destruct Rk as [[? _]|Rk]; [congruence|].
    apply ba_read_iff in Rc. destruct Rc as [[? _]|Rc]; [congruence|]. apply opt_stack_iff in Es.
    exists cb, kb, x, pk, st, c. auto 10.
  - intros [cb [kb [x [pk [st [c [H1 [H2 [H3 [H4 [H5 [H6 H7]]]]]]]]]]]].
    assert (R1 : ba_read cert = Ok cb) by (apply ba_read_iff; right; exact H1).
    assert (R2 : ba_read key = Ok kb) by (apply ba_read_iff; right; exact H2).
    destruct H1 as [b1 [r1 [E1 [F1 _]]]]. destruct H2 as [b2 [r2 [E2 [F2 _]]]]. inversion E1; inversion E2; subst b1 b2.
    rewrite F1, F2, R2. cbn [obind]. rewrite H4, R1. cbn [obind]. apply opt_stack_iff in H5. rewrite H3, H5, H6, H7. reflexivity.
Qed.

Lemma sign_inv : forall o k v cert key certs cms, sign_voucher o k (Some v) cert key certs = Ok (Some cms) <->
  exists text, serialize_voucher (Some v) = Ok (Some text) /\ signed o k cert key certs text cms.
Proof.
  intros o k v cert key certs cms. unfold sign_voucher. split.
  - intros H. destruct cert as [cert|]; [|discriminate]. destruct key as [key|]; [|discriminate].
    destruct (serialize_voucher (Some v)) as [[text|]|]; cbn [obind] in H; try discriminate.
    exists text. split; [reflexivity|]. apply crypto_sign_inv. exact H.
  - intros [text [H1 H2]]. rewrite H1. pose proof H2 as [cb [kb [x [pk [st [c [C1 [C2 _]]]]]]]].
    destruct C1 as [b1 [r1 [-> _]]]. destruct C2 as [b2 [r2 [-> _]]]. cbn [obind]. apply crypto_sign_inv. exact H2.
Qed.

(** The voucher can be written without a memory error. *)
Definition writable (v : voucher) : Prop :=
  (0 <= v_assertion v <= 3)%Z /\
  (forall a b, get_attr_array (Some v) a = Some b -> b = ba_null \/ exists d, b = ba_of d /\ bytes_ok d).

Lemma attr_writes : forall v a, writable v -> exists r, serialize_attr v a = Ok r.
Proof.
  intros v a [H1 H2].
  assert (T : forall t, exists r, escape_serialize_time t = Ok r).
  { intros t. unfold escape_serialize_time. destruct (serialize_time2str t); [rewrite escapestr_ok|]; eauto. }
  assert (A : forall b, get_attr_array (Some v) a = Some b -> exists r, escape_serialize_array b = Ok r).
  { intros b Hb. unfold escape_serialize_array.
    assert (E : exists s, match ba_data b with None => if ba_len b =? 0 then Ok [] else UB NullDeref | Some d => take_mem d (ba_len b) end = Ok s /\ bytes_ok s).
    { destruct (H2 a b Hb) as [->|[d [-> Hd]]]; cbn [ba_data ba_len ba_null ba_of].
      - exists []. split; [reflexivity|constructor].
      - exists d. split; [apply take_mem_all|exact Hd]. }
    destruct E as [s [-> Hs]]. cbn [obind]. rewrite encode_spec by exact Hs.
    destruct (blen s <? SIZE_MAX / 4); cbn [obind].
    - destruct (_ <? 0)%Z; [eauto|]. rewrite escapestr_ok. eauto.
    - cbn. eauto. }
  destruct a; cbn [serialize_attr]; try apply T; try (apply A; reflexivity); eauto.
  - assert (C : (v_assertion v = 0 \/ v_assertion v = 1 \/ v_assertion v = 2 \/ v_assertion v = 3)%Z) by lia.
    destruct C as [C|[C|[C|C]]]; rewrite C; cbn [assertion_name obind]; try rewrite escapestr_ok; eauto.
    cbn. eauto.
  - destruct (v_serial v); [rewrite escapestr_ok|cbn]; eauto.
  - destruct (v_revocation v); cbn; eauto.
Qed.

Lemma kv_writes : forall v, writable v -> forall attrs acc, exists r, voucher_to_keyvalue v attrs acc = Ok r /\
  (forall l, r = Some l -> (List.length l <= List.length acc + List.length attrs)%nat).
Proof.
  intros v Hw. induction attrs as [|a attrs IH]; intros acc; cbn [voucher_to_keyvalue].
  - eexists. split; [reflexivity|]. intros l E. inversion E; subst. lia.
  - destruct (is_attr_nonempty v a).
    + rewrite escapestr_ok. cbn [obind]. destruct (attr_writes v a Hw) as [[s|] ->]; cbn [obind].
      * destruct (IH (acc ++ [([34] ++ attr_name a ++ [34], s)])) as [r [E1 E2]]. exists r. split; [exact E1|].
        intros l El. specialize (E2 l El). rewrite app_length in E2. cbn [List.length] in *. lia.
      * eexists. split; [reflexivity|]. intros; discriminate.
    + destruct (IH acc) as [r [E1 E2]]. exists r. split; [exact E1|]. intros l El. specialize (E2 l El). cbn [List.length]. lia.
Qed.

Lemma json_writes : forall kvs, (List.length kvs < 100)%nat -> exists r, serialize_keyvalue2json (Some kvs) = Ok r.
Proof.
  intros kvs H. destruct kvs as [|kv kvs]; [vm_compute; eauto|]. eexists. apply keyvalue2json_ok; [discriminate|]. lia.
Qed.

Lemma voucher_writes : forall v, writable v -> exists r, serialize_voucher (Some v) = Ok r.
Proof.
  intros v Hw. unfold serialize_voucher, serialize_child_voucher. destruct (kv_writes v Hw all_attrs []) as [[l|] [-> Hl]]; cbn [obind].
  - specialize (Hl l eq_refl). destruct (json_writes l) as [[c|] ->]; cbn [obind].
    + cbn [List.length all_attrs] in Hl. cbn in Hl. lia.
    + rewrite escapestr_ok. cbn [obind]. apply json_writes. cbn. lia.
    + eauto.
  - eauto.
Qed.

Lemma sign_safe : forall o k v cert key certs, writable v -> ba_bytes cert -> ba_bytes key ->
  exists r, sign_voucher o k (Some v) cert key certs = Ok r.
Proof.
  intros o k v cert key certs Hw Hc Hk. unfold sign_voucher. destruct cert as [cert|]; [|eauto]. destruct key as [key|]; [|eauto].
  destruct (voucher_writes v Hw) as [[t|] ->]; cbn [obind]; [|eauto]. unfold crypto_sign.
  destruct (ba_data cert); [|eauto]. destruct (ba_data key); [|eauto].
  destruct (ba_bytes_read key Hk) as [kb [-> _]]. cbn [obind]. destruct (d2i_by o k kb); [|eauto].
  destruct (ba_bytes_read cert Hc) as [cb [-> _]]. cbn [obind]. eauto.
Qed.
