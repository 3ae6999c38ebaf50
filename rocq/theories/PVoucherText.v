(** Proofs: setting attributes from texts. *)
From Coq Require Import ZifyBool ZifyNat ZifyN.
From Verif Require Import Base PBase MBase64 SBase64 PBase64 MSerialize SSerialize PSerialize MOs POs
  MJsmn MVoucher SVoucher PVoucher SJson.
Open Scope N_scope.

Definition put_value (v : voucher) (a : attr) (p : pval) : voucher :=
  match a, p with
  | ACreatedOn, PTime t => with_created v t
  | AExpiresOn, PTime t => with_expires v t
  | ALastRenewal, PTime t => with_renewal v t
  | AAssertion, PEnum z => with_assertion v z
  | ASerial, PStr s => with_serial v (Some s)
  | ARevocation, PBool b => with_revocation v b
  | AIssuer, PArr d => with_issuer v (ba_of d)
  | APinned, PArr d => with_pinned v (ba_of d)
  | ANonce, PArr d => with_nonce v (ba_of d)
  | APrior, PArr d => with_prior v (ba_of d)
  | AProximity, PArr d => with_proximity v (ba_of d)
  | _, _ => v
  end.

Lemma strncmp_eq_spec : forall n src mem, ~ In 0 mem -> (n <= List.length mem)%nat ->
  strncmp_eq src mem n = Ok (beqb (firstn n mem) (firstn n src)).
Proof.
  induction n as [|n IH]; intros src mem H0 Hn; [reflexivity|].
  destruct mem as [|c r]; [cbn in Hn; lia|]. cbn [strncmp_eq]. destruct src as [|x src].
  - cbn [firstn beqb]. f_equal. destruct (c =? 0) eqn:E; [|reflexivity].
    exfalso. apply H0. left. lia.
  - cbn [firstn beqb]. destruct (x =? c) eqn:E.
    + assert (x = c) by lia. subst. rewrite N.eqb_refl. cbn [andb].
      apply IH; [intros Hc; apply H0; right; exact Hc|cbn in Hn; lia].
    + assert (E2 : (c =? x) = false) by lia. rewrite E2. reflexivity.
Qed.

Lemma strncmp_local : forall n src a b, (n <= List.length a)%nat ->
  strncmp_eq src (a ++ b) n = strncmp_eq src a n.
Proof.
  induction n as [|n IH]; intros src a b H; [reflexivity|]. destruct a as [|c a]; [cbn in H; lia|].
  cbn [app strncmp_eq]. destruct src; [reflexivity|]. destruct (n0 =? c); [|reflexivity].
  apply IH. cbn in H. lia.
Qed.

Lemma cstr_no0 : forall s, cstr_ok s -> ~ In 0 s.
Proof. intros s H Hi. unfold cstr_ok in H. rewrite Forall_forall in H. apply H in Hi. lia. Qed.

Lemma check_size_spec : forall src k rest, cstr_ok k ->
  check_size_str_equal src (k ++ rest) (blen k) = Ok (beqb src k).
Proof.
  intros src k rest Hk. unfold check_size_str_equal, blen. rewrite Nat2N.id.
  rewrite strncmp_local by lia. rewrite strncmp_eq_spec by (lia || apply cstr_no0; assumption).
  cbn [obind]. f_equal. rewrite firstn_all.
  destruct (beqb src k) eqn:E.
  - apply beqb_eq in E. subst. rewrite firstn_all, beqb_refl. lia.
  - apply beqb_neq in E. destruct (N.of_nat (List.length src) =? N.of_nat (List.length k)) eqn:El.
    + assert (List.length src = List.length k) as Hl by lia. rewrite <- Hl, firstn_all.
      destruct (beqb k src) eqn:E2; [apply beqb_eq in E2; congruence|reflexivity].
    + apply andb_false_r.
Qed.

Lemma str_upto_cstr : forall x rest, cstr_ok x -> str_upto (x ++ rest) (List.length x) = Ok x.
Proof.
  induction x as [|c x IH]; intros rest H; [reflexivity|]. inversion H; subst. cbn [app List.length str_upto].
  destruct (c =? 0) eqn:E; [lia|]. rewrite IH by assumption. reflexivity.
Qed.

Lemma strncpy_local : forall n dest a b, (n <= List.length a)%nat ->
  strncpy n dest (a ++ b) = strncpy n dest a.
Proof.
  induction n as [|n IH]; intros dest a b H; [reflexivity|]. destruct a as [|c a]; [cbn in H; lia|].
  cbn [app strncpy]. destruct dest; [reflexivity|]. destruct (c =? 0); [reflexivity|].
  rewrite IH; [reflexivity|cbn in H; lia].
Qed.

Lemma strndup_exact : forall x rest : bytes, cstr_ok x -> blen x < 128 ->
  exists block, sys_strndup true (Some (x ++ rest)) (blen x) = Ok (Some block) /\ upto_nul block = x.
Proof.
  intros x rest H Hl.
  destruct (strndup_spec x [] (blen x) H) as [b [Hb [_ Hu]]]; [unfold SIZE_MAX; lia|].
  exists b. unfold blen in *. rewrite Nat2N.id, firstn_all in Hu. split; [|exact Hu].
  revert Hb. unfold sys_strndup. cbn [negb]. rewrite !Nat2N.id.
  rewrite (strncpy_local _ _ x rest) by lia. rewrite (strncpy_local _ _ x [0]) by lia. auto.
Qed.

Lemma set_by_text_spec : forall v a x rest, In a all_attrs -> cstr_ok x ->
  (exists p, value_ok a x p /\ set_by_text (Some v) a (x ++ rest) (blen x) = Ok (0%Z, Some (put_value v a p))) \/
  ((forall p, ~ value_ok a x p) /\
   set_by_text (Some v) a (x ++ rest) (blen x) = Ok ((-1)%Z, Some v)).
Proof.
  intros v a x rest Ha Hx.
  assert (Time : forall a, kind a = KTime -> 
     (exists p, value_ok a x p /\ set_attr_strtime (Some v) a (x ++ rest) (blen x) = Ok (0%Z, Some (put_value v a p))) \/
     ((forall p, ~ value_ok a x p) /\ set_attr_strtime (Some v) a (x ++ rest) (blen x) = Ok ((-1)%Z, Some v))).
  { intros b Hb. unfold set_attr_strtime. unfold blen. rewrite Nat2N.id, str_upto_cstr by assumption. cbn [obind].
    unfold value_ok. rewrite Hb. destruct (serialize_str2time (Some (firstn 63 x))) as [t|] eqn:E.
    - left. exists (PTime t). split; [eauto|]. destruct b; try discriminate; reflexivity.
    - right. split; [intros p [t [H _]]; discriminate|]. reflexivity. }
  assert (Arr : forall a, kind a = KArr ->
     (exists p, value_ok a x p /\ set_attr_base64 true (Some v) a (x ++ rest) (blen x) = Ok (0%Z, Some (put_value v a p))) \/
     ((forall p, ~ value_ok a x p) /\ set_attr_base64 true (Some v) a (x ++ rest) (blen x) = Ok ((-1)%Z, Some v))).
  { intros b Hb. unfold set_attr_base64. rewrite take_mem_app. cbn [obind].
    rewrite decode_spec by (apply cstr_bytes; assumption). unfold value_ok. rewrite Hb.
    destruct (rfc_decode x) as [d|] eqn:E; cbn [obind].
    - left. exists (PArr d). split; [eauto|].
      destruct (Z.of_N (blen d) <? 0)%Z eqn:En; [lia|]. rewrite N2Z.id.
      destruct b; try discriminate; unfold set_attr_array;
      cbn [is_attr_array_nonempty ba_data negb copy_binary_array ba_len sys_memdup];
      rewrite take_mem_all; cbn [obind fst snd Z.ltb Z.compare]; reflexivity.
    - right. split; [intros p [d [H _]]; discriminate|]. reflexivity. }
  destruct a; cbn [set_by_text]; try (apply Time; reflexivity); try (apply Arr; reflexivity).
  - unfold set_attr_strenum. rewrite !check_size_spec by assumption. cbn [obind].
    cbn [value_ok kind]. destruct (beqb (s2b "verified") x) eqn:E1.
    { apply beqb_eq in E1. subst. left. exists (PEnum 1). split; [left; split; reflexivity|reflexivity]. }
    destruct (beqb (s2b "logged") x) eqn:E2.
    { apply beqb_eq in E2. subst. left. exists (PEnum 2). split; [right; left; split; reflexivity|reflexivity]. }
    destruct (beqb (s2b "proximity") x) eqn:E3.
    { apply beqb_eq in E3. subst. left. exists (PEnum 3). split; [right; right; split; reflexivity|reflexivity]. }
    right. apply beqb_neq in E1. apply beqb_neq in E2. apply beqb_neq in E3. split; [|reflexivity].
    intros p [[H _]|[[H _]|[H _]]]; congruence.
  - unfold set_attr_nstr. cbn [value_ok kind]. destruct (blen x <? 128) eqn:E.
    + destruct (strndup_exact x rest Hx) as [b [Hb Hu]]; [lia|]. unfold bytes in Hb |- *. rewrite Hb. cbn [obind]. rewrite Hu.
      left. exists (PStr x). split; [split; [lia|reflexivity]|reflexivity].
    + right. split; [intros p [H _]; lia|reflexivity].
  - unfold set_attr_strbool. destruct (str2bool_spec x rest Hx) as [r [Hr [H1 [H0 Hc]]]]. unfold bytes in Hr |- *. rewrite Hr. cbn [obind].
    cbn [value_ok kind]. destruct Hc as [->|[->| ->]].
    + left. exists (PBool true). split; [left; split; [apply H1; reflexivity|reflexivity]|reflexivity].
    + left. exists (PBool false). split; [right; split; [apply H0; reflexivity|reflexivity]|reflexivity].
    + right. split; [|reflexivity]. intros p [[H _]|[H _]]; [apply H1 in H|apply H0 in H]; lia.
  - cbn in Ha. decompose [or] Ha; try discriminate. contradiction.
Qed.

Lemma attr_name_inj : forall a b, In a all_attrs -> In b all_attrs -> attr_name a = attr_name b -> a = b.
Proof.
  intros a b Ha Hb H. destruct a; destruct b; try reflexivity; try (vm_compute in H; discriminate);
    cbn in Ha, Hb; exfalso; intuition discriminate.
Qed.

Lemma set_keyvalue_spec : forall attrs v k rk x rx, (forall a, In a attrs -> In a all_attrs) -> NoDup attrs ->
  cstr_ok k -> cstr_ok x ->
  (exists a p, In a attrs /\ k = attr_name a /\ value_ok a x p /\
     set_keyvalue attrs (Some v) (k ++ rk) (blen k) (x ++ rx) (blen x) = Ok (0%Z, Some (put_value v a p))) \/
  ((forall a p, In a attrs -> k = attr_name a -> ~ value_ok a x p) /\
   set_keyvalue attrs (Some v) (k ++ rk) (blen k) (x ++ rx) (blen x) = Ok ((-1)%Z, Some v)).
Proof.
  induction attrs as [|a attrs IH]; intros v k rk x rx Hall Hnd Hk Hx; cbn [set_keyvalue].
  - right. split; [intros a p []|reflexivity].
  - rewrite check_size_spec by assumption. cbn [obind]. inversion Hnd as [|? ? Hni Hnd']; subst.
    destruct (beqb (attr_name a) k) eqn:E.
    + apply beqb_eq in E. subst k.
      destruct (set_by_text_spec v a x rx) as [[p [Hp Hs]]|[Hp Hs]]; [apply Hall; left; reflexivity|assumption| |].
      * left. exists a, p. rewrite Hs. repeat split; auto. left; reflexivity.
      * right. rewrite Hs. split; [|reflexivity]. intros b p Hb Hn.
        assert (b = a) by (apply attr_name_inj; auto; apply Hall; left; reflexivity). subst. apply Hp.
    + apply beqb_neq in E. destruct (IH v k rk x rx) as [[b [p [Hb [Hn [Hv Hs]]]]]|[Hp Hs]]; auto.
      { intros b Hb. apply Hall. right. exact Hb. }
      * left. exists b, p. repeat split; auto. right; exact Hb.
      * right. split; [|exact Hs]. intros b p [->|Hb] Hn; [congruence|eauto].
Qed.

Lemma all_attrs_nodup : NoDup all_attrs.
Proof. unfold all_attrs. repeat constructor; cbn; intuition discriminate. Qed.

(** What a sequence of texts leaves behind. *)
Definition put_all (v : voucher) (kvs : list (attr * pval)) : voucher :=
  fold_left (fun v kv => put_value v (fst kv) (snd kv)) kvs v.

Lemma put_value_has : forall v a x p, In a all_attrs -> value_ok a x p -> has_value (put_value v a p) a p.
Proof.
  intros v a x p Ha H. unfold value_ok in H. destruct a; cbn [kind] in H;
    try (destruct H as [t [_ ->]]; reflexivity);
    try (destruct H as [[_ ->]|[[_ ->]|[_ ->]]]; reflexivity);
    try (destruct H as [_ ->]; reflexivity);
    try (destruct H as [[_ ->]|[_ ->]]; reflexivity). contradiction.
Qed.

Lemma put_value_frame : forall v a p b, a <> b -> observe (put_value v a p) b = observe v b.
Proof.
  intros v a p b H. destruct a; destruct p; cbn [put_value]; try reflexivity;
    destruct b; try reflexivity; congruence.
Qed.

Lemma has_value_observe : forall v w a p, observe v a = observe w a -> has_value v a p -> has_value w a p.
Proof.
  intros v w a p H. unfold observe in H. inversion H. unfold has_value.
  destruct p; congruence.
Qed.

Lemma put_all_holds : forall kvs v, Forall (fun kv => In (fst kv) all_attrs /\ exists x, value_ok (fst kv) x (snd kv)) kvs ->
  forall a, match last_of a kvs with
            | Some p => has_value (put_all v kvs) a p
            | None => observe (put_all v kvs) a = observe v a
            end.
Proof.
  induction kvs as [|[b q] kvs IH]; intros v H a; [reflexivity|].
  inversion H as [|? ? [Hb [x Hx]] Hr]; subst. cbn [fst snd] in *.
  specialize (IH (put_value v b q) Hr a). cbn [last_of].
  change (put_all v ((b, q) :: kvs)) with (put_all (put_value v b q) kvs).
  destruct (last_of a kvs) as [p|]; [exact IH|].
  destruct (attr_eq_dec a b) as [->|Hab].
  - eapply has_value_observe; [symmetry; exact IH|]. eapply put_value_has; eauto.
  - rewrite IH. apply put_value_frame. congruence.
Qed.
