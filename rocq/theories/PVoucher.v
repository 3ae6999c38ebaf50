(** Proofs about voucher attributes. *)
From Coq Require Import ZifyBool ZifyNat ZifyN.
From Verif Require Import Base PBase MBase64 SBase64 PBase64 MSerialize PSerialize MOs POs MJsmn MVoucher SVoucher.
Open Scope N_scope.

Ltac dm :=
  repeat match goal with
  | H : context [match ?x with _ => _ end] |- _ => destruct x eqn:?
  | |- context [match ?x with _ => _ end] => destruct x eqn:?
  end.

Lemma take_mem_ok : forall mem n d, take_mem mem n = Ok d ->
  exists rest, mem = d ++ rest /\ blen d = n.
Proof.
  intros mem n d H. unfold take_mem in H. destruct (n <=? blen mem) eqn:E; [|discriminate].
  inversion H; subst d. exists (skipn (N.to_nat n) mem). split.
  - symmetry. apply firstn_skipn.
  - unfold blen in *. rewrite firstn_length. lia.
Qed.

Lemma take_mem_app : forall d rest, take_mem (d ++ rest) (blen d) = Ok d.
Proof.
  intros. unfold take_mem. rewrite blen_app. destruct (blen d <=? blen d + blen rest) eqn:E; [|lia].
  f_equal. unfold blen. rewrite Nat2N.id, firstn_app, firstn_all, Nat.sub_diag. cbn. apply app_nil_r.
Qed.

Lemma take_mem_all : forall d, take_mem d (blen d) = Ok d.
Proof. intros d. rewrite <- (app_nil_r d) at 1. apply take_mem_app. Qed.

(** ** Copy and compare *)

Lemma copy_inv : forall mok dst src r b, copy_binary_array mok dst src = Ok (r, b) ->
  (src = None /\ r = (-1)%Z /\ b = dst) \/
  (src <> None /\ r = (-1)%Z /\ b = ba_null) \/
  (exists s mem d rest, src = Some s /\ ba_data s = Some mem /\ mem = d ++ rest /\
     blen d = ba_len s /\ r = 0%Z /\ b = mk_ba (Some d) (blen d)).
Proof.
  intros mok dst [s|] r b H; cbn [copy_binary_array] in H.
  - right. destruct (sys_memdup mok (ba_data s) (ba_len s)) as [o|k] eqn:E; cbn [obind] in H; [|discriminate].
    destruct o as [d|].
    + right. unfold sys_memdup in E. destruct (ba_data s) as [mem|] eqn:Em; [|discriminate].
      destruct (negb mok); [discriminate|].
      destruct (take_mem mem (ba_len s)) as [d'|] eqn:Et; cbn [obind] in E; [|discriminate].
      inversion E; subst d'. apply take_mem_ok in Et. destruct Et as [rest [H1 H2]].
      exists s, mem, d, rest. inversion H; subst. rewrite H2. repeat split; congruence.
    + left. inversion H. repeat split; congruence.
  - left. inversion H; auto.
Qed.

Lemma compare_spec : forall x y d1 d2, ba_is x d1 -> ba_is y d2 ->
  compare_binary_array (Some x) (Some y) = Ok (if beqb d1 d2 then 1%Z else 0%Z).
Proof.
  intros x y d1 d2 [H1 H2] [H3 H4]. unfold compare_binary_array. rewrite H2, H4.
  destruct (blen d2 =? blen d1) eqn:E; cbn [negb].
  - rewrite H1, H3. unfold memcmp_eq. destruct (blen d1 =? 0) eqn:E0.
    + cbn [obind]. assert (d1 = []) by (destruct d1; [reflexivity|rewrite blen_cons in E0; lia]).
      assert (d2 = []) by (destruct d2; [reflexivity|rewrite blen_cons in E; lia]). subst. reflexivity.
    + apply N.eqb_eq in E. rewrite <- E at 1. rewrite !take_mem_all. cbn [obind].
      destruct (beqb d2 d1) eqn:B.
      * apply beqb_eq in B. subst. rewrite beqb_refl. reflexivity.
      * destruct (beqb d1 d2) eqn:B2; [|reflexivity]. apply beqb_eq in B2. subst.
        rewrite beqb_refl in B. discriminate.
  - destruct (beqb d1 d2) eqn:B; [|reflexivity]. apply beqb_eq in B. subst. lia.
Qed.

Lemma compare_null : forall x y, (x = None \/ y = None) -> compare_binary_array x y = Ok (-1)%Z.
Proof. intros [x|] [y|] [H|H]; try discriminate; reflexivity. Qed.

Lemma compare_spec_iff : forall x y d1 d2, ba_is x d1 -> ba_is y d2 -> exists r,
  compare_binary_array (Some x) (Some y) = Ok r /\ (r = 1%Z <-> d1 = d2) /\ (r = 0%Z <-> d1 <> d2).
Proof.
  intros x y d1 d2 H1 H2. rewrite (compare_spec x y d1 d2 H1 H2). eexists. split; [reflexivity|].
  destruct (beqb d1 d2) eqn:E.
  - apply beqb_eq in E. split; split; intros; try lia; try congruence; contradiction.
  - apply beqb_neq in E. split; split; intros; try lia; try congruence; contradiction.
Qed.

Lemma copy_compare : forall dst src d, ba_is src d -> exists b,
  copy_binary_array true dst (Some src) = Ok (0%Z, b) /\ ba_is b d /\
  compare_binary_array (Some src) (Some b) = Ok 1%Z.
Proof.
  intros dst src d [H1 H2]. cbn [copy_binary_array]. unfold sys_memdup. rewrite H1, H2. cbn [negb].
  rewrite take_mem_all. cbn [obind]. eexists. split; [reflexivity|].
  assert (Hb : ba_is (mk_ba (Some d) (blen d)) d) by (split; reflexivity).
  split; [exact Hb|]. rewrite (compare_spec src _ d d) by (split; auto). rewrite beqb_refl. reflexivity.
Qed.

(** ** strndup of arbitrary readable memory *)

Lemma strncpy_upto : forall n dest mem d, strncpy n dest mem = Ok d -> 
  Forall (fun b => b = 0) dest ->
  upto_nul d = upto_nul (firstn n mem) /\ List.length d = List.length dest.
Proof.
  assert (Z0 : forall l, Forall (fun b => b = 0) l -> upto_nul l = []).
  { intros [|x l] H; [reflexivity|]. inversion H; subst. reflexivity. }
  induction n as [|n IH]; intros dest mem d H Hz.
  - cbn in H. inversion H; subst. split; [|reflexivity]. cbn. apply Z0; assumption.
  - destruct mem as [|c r]; [discriminate|]. destruct dest as [|x dest]; [discriminate|].
    cbn [strncpy] in H. cbn [firstn upto_nul]. destruct (c =? 0) eqn:E.
    + destruct (N.of_nat n <=? blen dest) eqn:E2; [|discriminate]. inversion H; subst.
      split; [reflexivity|]. cbn [List.length]. rewrite app_length, repeat_length, skipn_length.
      unfold blen in E2. lia.
    + destruct (strncpy n dest r) as [d'|] eqn:E2; [|discriminate]. cbn [obind] in H. inversion H; subst.
      inversion Hz; subst. destruct (IH _ _ _ E2) as [H1 H2]; [assumption|].
      cbn [upto_nul]. rewrite E, H1. split; [reflexivity|]. cbn. congruence.
Qed.

Lemma strndup_upto : forall mok mem n b, sys_strndup mok (Some mem) n = Ok (Some b) ->
  upto_nul b = upto_nul (firstn (N.to_nat n) mem).
Proof.
  intros mok mem n b H. unfold sys_strndup in H. destruct (negb mok); [discriminate|].
  destruct (strncpy _ _ _) as [d|] eqn:E; cbn [obind] in H; [|discriminate]. inversion H; subst.
  eapply strncpy_upto in E; [tauto|]. apply Forall_forall. intros x Hx. apply repeat_spec in Hx. exact Hx.
Qed.

Lemma upto_nul_le : forall l, blen (upto_nul l) <= blen l.
Proof.
  induction l as [|c l IH]; cbn [upto_nul]; [lia|].
  destruct (c =? 0); rewrite ?blen_cons; [|lia]. unfold blen at 1. cbn. lia.
Qed.
Lemma upto_nul_no0 : forall l, ~ In 0 (upto_nul l).
Proof.
  induction l as [|c l IH]; cbn [upto_nul]; [intros []|].
  destruct (c =? 0) eqn:E; [intros []|]. intros [H|H]; [lia|contradiction].
Qed.

(** ** Setting *)

Lemma memchr0_lt : forall n mem i e, memchr0 mem n i = Ok e ->
  match e with
  | None => True
  | Some k => i <= k /\ k < i + N.of_nat n /\ firstn (N.to_nat (k - i)) mem = upto_nul mem
  end.
Proof.
  induction n as [|n IH]; intros mem i e H; cbn [memchr0] in H; [inversion H; exact I|].
  destruct mem as [|c r]; [discriminate|]. cbn [upto_nul]. destruct (c =? 0) eqn:E.
  - inversion H; subst. rewrite N.sub_diag. repeat split; lia || reflexivity.
  - specialize (IH _ _ _ H). destruct e as [k|]; [|exact I]. destruct IH as [H1 [H2 H3]].
    repeat split; try lia. replace (N.to_nat (k - i)) with (S (N.to_nat (k - (i + 1)))) by lia.
    cbn [firstn]. f_equal. exact H3.
Qed.

Lemma set_str_inv : forall mok v a s r v', set_attr_str mok (Some v) a s = Ok (r, v') ->
  (r = (-1)%Z /\ v' = Some v) \/
  (r = (-1)%Z /\ a = ASerial /\ mok = false /\ v' = Some (with_serial v None)) \/
  (r = 0%Z /\ a = ASerial /\ exists mem, s = Some mem /\ blen (upto_nul mem) < 128 /\
     v' = Some (with_serial v (Some (upto_nul mem)))).
Proof.
  intros mok v a s r v' H. unfold set_attr_str in H. destruct a; try (inversion H; auto; fail).
  destruct s as [mem|]; [|inversion H; auto].
  destruct (sys_strnlen_s mem 128) as [n|] eqn:En; cbn [obind] in H; [|discriminate].
  unfold set_attr_nstr in H. destruct (n <? 128) eqn:E; [|inversion H; auto].
  destruct (sys_strndup mok (Some mem) n) as [o|] eqn:Ed; cbn [obind] in H; [|discriminate].
  destruct o as [b|]; inversion H; subst; clear H.
  - right; right. split; [reflexivity|]. split; [reflexivity|]. exists mem. split; [reflexivity|].
    pose proof (strndup_upto _ _ _ _ Ed) as Hu.
    unfold sys_strnlen_s in En.
    destruct (memchr0 mem (N.to_nat 128) 0) as [e|] eqn:Em; cbn [obind] in En; [|discriminate].
    apply memchr0_lt in Em. destruct e as [k|]; inversion En; subst; [|lia].
    destruct Em as [_ [_ Hf]]. rewrite N.sub_0_r in Hf. rewrite Hu, Hf.
    assert (Hid : upto_nul (upto_nul mem) = upto_nul mem).
    { clear. induction mem as [|c m IH]; cbn [upto_nul]; [reflexivity|]. destruct (c =? 0) eqn:E; [reflexivity|].
      cbn [upto_nul]. rewrite E, IH. reflexivity. }
    rewrite Hid. split; [|reflexivity]. rewrite <- Hf. unfold blen. rewrite firstn_length. lia.
  - right; left. unfold sys_strndup in Ed. destruct mok; cbn [negb] in Ed.
    + destruct (strncpy _ _ _) in Ed; cbn [obind] in Ed; discriminate.
    + auto.
Qed.

Lemma set_arr_inv : forall mok v a b r v', set_attr_array mok (Some v) a b = Ok (r, v') ->
  (r = (-1)%Z /\ v' = Some v) \/
  (exists w x, v' = Some (w x) /\
     match a with
     | AIssuer => w = with_issuer v | APinned => w = with_pinned v | ANonce => w = with_nonce v
     | APrior => w = with_prior v | AProximity => w = with_proximity v | _ => False
     end /\
     ((r = (-1)%Z /\ x = ba_null) \/
      (r = 0%Z /\ exists b' mem d rest, b = Some b' /\ ba_data b' = Some mem /\ mem = d ++ rest /\
         blen d = ba_len b' /\ x = mk_ba (Some d) (blen d)))).
Proof.
  intros mok v a b r v' H. unfold set_attr_array in H.
  destruct (is_attr_array_nonempty b) eqn:En; cbn [negb] in H; [|inversion H; auto].
  assert (Hb : b <> None) by (intros ->; discriminate).
  destruct a; try (inversion H; auto; fail);
  match type of H with context [copy_binary_array ?m ?d ?s] =>
    destruct (copy_binary_array m d s) as [[r0 b0]|] eqn:Ec; cbn [obind fst snd] in H; [|discriminate] end;
  apply copy_inv in Ec;
  (destruct Ec as [[? _]|[[_ [-> ->]]|[s [mem [d [rest [-> [Hm [-> [Hd [-> ->]]]]]]]]]]]; [contradiction| |]);
  inversion H; subst; right;
  (eexists; eexists; split; [reflexivity|]; split; [reflexivity|]);
  [left; split; reflexivity | right; split; [reflexivity|]; repeat eexists; eauto
  |left; split; reflexivity | right; split; [reflexivity|]; repeat eexists; eauto
  |left; split; reflexivity | right; split; [reflexivity|]; repeat eexists; eauto
  |left; split; reflexivity | right; split; [reflexivity|]; repeat eexists; eauto
  |left; split; reflexivity | right; split; [reflexivity|]; repeat eexists; eauto].
Qed.

Lemma set_attr_reads_back : forall mok v a x v',
  set_attr mok (Some v) a x = Ok (0%Z, Some v') ->
  reads_back v' a x /\ (value_present x -> is_attr_nonempty v' a = true).
Proof.
  intros mok v a x v' H. unfold set_attr in H.
  destruct a; destruct x as [t|z|s|b]; try discriminate H.
  - cbn in H. destruct t as [t|]; [|discriminate]. inversion H; subst. split; [exists t; split; reflexivity|].
    cbn [value_present is_attr_nonempty with_created v_created]. unfold is_attr_time_nonempty. lia.
  - cbn in H. destruct t as [t|]; [|discriminate]. inversion H; subst. split; [exists t; split; reflexivity|].
    cbn [value_present is_attr_nonempty with_expires v_expires]. unfold is_attr_time_nonempty. lia.
  - cbn in H. destruct ((z <? 1) || (3 <? z))%Z eqn:E; [discriminate|]. inversion H; subst.
    split; [left; split; reflexivity|]. intros _. cbn. lia.
  - apply set_str_inv in H. destruct H as [[? _]|[[? _]|[_ [_ [mem [-> [_ Hv]]]]]]]; try discriminate.
    inversion Hv; subst. split; [exists mem; split; reflexivity|reflexivity].
  - apply set_arr_inv in H. destruct H as [[? _]|[w [y [Hv [-> [[? _]|[_ [b' [mem [d [rest [-> [Hm [-> [Hd ->]]]]]]]]]]]]]]]; try discriminate.
    inversion Hv; subst. split; [exists b', (d ++ rest), d, rest; repeat split; auto|reflexivity].
  - apply set_arr_inv in H. destruct H as [[? _]|[w [y [Hv [-> [[? _]|[_ [b' [mem [d [rest [-> [Hm [-> [Hd ->]]]]]]]]]]]]]]]; try discriminate.
    inversion Hv; subst. split; [exists b', (d ++ rest), d, rest; repeat split; auto|reflexivity].
  - cbn in H. inversion H; subst. split; [right; split; reflexivity|reflexivity].
  - apply set_arr_inv in H. destruct H as [[? _]|[w [y [Hv [-> [[? _]|[_ [b' [mem [d [rest [-> [Hm [-> [Hd ->]]]]]]]]]]]]]]]; try discriminate.
    inversion Hv; subst. split; [exists b', (d ++ rest), d, rest; repeat split; auto|reflexivity].
  - cbn in H. destruct t as [t|]; [|discriminate]. inversion H; subst. split; [exists t; split; reflexivity|].
    cbn [value_present is_attr_nonempty with_renewal v_renewal]. unfold is_attr_time_nonempty. lia.
  - apply set_arr_inv in H. destruct H as [[? _]|[w [y [Hv [-> [[? _]|[_ [b' [mem [d [rest [-> [Hm [-> [Hd ->]]]]]]]]]]]]]]]; try discriminate.
    inversion Hv; subst. split; [exists b', (d ++ rest), d, rest; repeat split; auto|reflexivity].
  - apply set_arr_inv in H. destruct H as [[? _]|[w [y [Hv [-> [[? _]|[_ [b' [mem [d [rest [-> [Hm [-> [Hd ->]]]]]]]]]]]]]]]; try discriminate.
    inversion Hv; subst. split; [exists b', (d ++ rest), d, rest; repeat split; auto|reflexivity].
Qed.

(** Valid values are accepted. *)
Lemma set_attr_accepts : forall v,
  (forall a t, kind a = KTime -> exists v', set_attr true (Some v) a (VTime (Some t)) = Ok (0%Z, Some v')) /\
  (forall z, (1 <= z <= 3)%Z -> exists v', set_attr true (Some v) AAssertion (VInt z) = Ok (0%Z, Some v')) /\
  (forall z, exists v', set_attr true (Some v) ARevocation (VInt z) = Ok (0%Z, Some v')) /\
  (forall s rest, cstr_ok s -> blen s < 128 ->
     exists v', set_attr true (Some v) ASerial (VStr (Some (s ++ 0 :: rest))) = Ok (0%Z, Some v')) /\
  (forall a d, kind a = KArr -> exists v', set_attr true (Some v) a (VArr (Some (ba_of d))) = Ok (0%Z, Some v')).
Proof.
  intros v. repeat split.
  - intros a t H. destruct a; try discriminate; eexists; reflexivity.
  - intros z H. cbn. destruct ((z <? 1) || (3 <? z))%Z eqn:E; [lia|]. eexists; reflexivity.
  - intros z. eexists; reflexivity.
  - intros s rest H Hl. cbn [set_attr set_attr_str]. rewrite strnlen_spec by assumption. cbn [obind].
    replace (N.min (blen s) 128) with (blen s) by lia. unfold set_attr_nstr.
    destruct (blen s <? 128) eqn:E; [|lia].
    destruct (strndup_spec s rest (blen s)) as [b [Hb _]]; [assumption|unfold SIZE_MAX; lia|].
    rewrite Hb. cbn [obind]. eexists; reflexivity.
  - intros a d H. destruct a; try discriminate; unfold set_attr, set_attr_array, ba_of;
      cbn [is_attr_array_nonempty ba_data negb copy_binary_array ba_len sys_memdup];
      rewrite take_mem_all; cbn [obind fst snd Z.ltb Z.compare]; eexists; reflexivity.
Qed.

Lemma base64_decoded : forall mok src n out, bytes_ok src ->
  serialize_base64str2array mok src = Ok (n, out) -> (0 <= n)%Z ->
  exists cap d, out = PBuf cap d /\ n = Z.of_N (blen d) /\ rfc_decode src = Some d.
Proof.
  intros [|] src n out Hok H Hn.
  - rewrite decode_spec in H by assumption. destruct (rfc_decode src) as [d|]; inversion H; subst; [|lia].
    do 2 eexists. repeat split.
  - rewrite decode_no_mem in H by assumption. inversion H; subst. lia.
Qed.

Lemma set_base64_inv : forall mok v a mem len r v', bytes_ok mem ->
  set_attr_base64 mok (Some v) a mem len = Ok (r, v') ->
  (r = (-1)%Z /\ v' = Some v) \/
  (exists w x, v' = Some (w x) /\
     match a with
     | AIssuer => w = with_issuer v | APinned => w = with_pinned v | ANonce => w = with_nonce v
     | APrior => w = with_prior v | AProximity => w = with_proximity v | _ => False
     end /\
     ((r = (-1)%Z /\ x = ba_null) \/
      (r = 0%Z /\ exists t rest d, mem = t ++ rest /\ blen t = len /\ rfc_decode t = Some d /\
         x = ba_of d))).
Proof.
  intros mok v a mem len r v' Hok H. unfold set_attr_base64 in H.
  destruct (take_mem mem len) as [t|] eqn:Et; cbn [obind] in H; [|discriminate].
  apply take_mem_ok in Et. destruct Et as [rest [-> Hl]].
  apply bytes_ok_app in Hok. destruct Hok as [Ht _].
  destruct (serialize_base64str2array mok t) as [[n out]|] eqn:Eb; cbn [obind] in H; [|discriminate].
  destruct (n <? 0)%Z eqn:En; [inversion H; auto|].
  destruct (base64_decoded _ _ _ _ Ht Eb) as [cap [d [-> [-> Hd]]]]; [lia|].
  rewrite N2Z.id in H.
  destruct (set_attr_array mok (Some v) a _) as [[r0 v0]|] eqn:Es; cbn [obind fst snd] in H; [|discriminate].
  apply set_arr_inv in Es. destruct Es as [[-> ->]|[w [x [-> [Hw Hx]]]]]; [inversion H; auto|].
  right. exists w, x. destruct Hx as [[-> ->]|[-> [b' [mem' [d' [rest' [Hb [Hm [Hm2 [Hd' ->]]]]]]]]]]; inversion H; subst; clear H.
  - split; [reflexivity|]. split; [exact Hw|]. left; split; reflexivity.
  - split; [reflexivity|]. split; [exact Hw|]. right. split; [reflexivity|].
    inversion Hb; subst b'. cbn [ba_data ba_len] in *. inversion Hm; subst d.
    assert (rest' = []) by (destruct rest'; [reflexivity|]; rewrite blen_app, blen_cons in Hd'; lia).
    subst. rewrite app_nil_r in Hd. exists t, rest, d'. repeat split; auto.
Qed.

Lemma set_base64_reads_back : forall mok v a mem len v', bytes_ok mem ->
  set_attr_base64 mok (Some v) a mem len = Ok (0%Z, Some v') ->
  exists t rest d, mem = t ++ rest /\ blen t = len /\ rfc_decode t = Some d /\
    get_attr_array (Some v') a = Some (ba_of d) /\ is_attr_nonempty v' a = true.
Proof.
  intros mok v a mem len v' Hok H. apply set_base64_inv in H; [|assumption].
  destruct H as [[? _]|[w [x [Hv [Hw [[? _]|[_ [t [rest [d [H1 [H2 [H3 ->]]]]]]]]]]]]]; try discriminate.
  exists t, rest, d. destruct a; try contradiction; subst w; inversion Hv; subst; repeat split; auto.
Qed.

(** ** Frame *)

Lemma op_frame_cases : forall v o r v', (forall mok a mem len, o = OpBase64 mok a mem len -> bytes_ok mem) ->
  run_op (Some v) o = Ok (r, v') ->
  v' = Some v \/
  (exists t, kind (op_attr o) = KTime /\ v' = Some match op_attr o with ACreatedOn => with_created v t | AExpiresOn => with_expires v t | _ => with_renewal v t end) \/
  (exists z, (0 <= z <= 3)%Z /\ op_attr o = AAssertion /\ v' = Some (with_assertion v z)) \/
  (exists s, op_attr o = ASerial /\ v' = Some (with_serial v s) /\ (forall t, s = Some t -> blen t < 128 /\ ~ In 0 t)) \/
  (exists b, op_attr o = ARevocation /\ v' = Some (with_revocation v b)) \/
  (exists b, kind (op_attr o) = KArr /\ ba_wf b /\
     v' = Some match op_attr o with AIssuer => with_issuer v b | APinned => with_pinned v b
                 | ANonce => with_nonce v b | APrior => with_prior v b | _ => with_proximity v b end).
Proof.
  assert (Bool : forall v a b r v', set_attr_bool (Some v) a b = Ok (r, v') ->
    v' = Some v \/ (exists b, a = ARevocation /\ v' = Some (with_revocation v b))).
  { intros v a b r v' H. destruct a; cbn in H; inversion H; subst; auto. right. eauto. }
  assert (Time : forall v a b r v', set_attr_time (Some v) a b = Ok (r, v') ->
    v' = Some v \/ (exists t, kind a = KTime /\ v' = Some match a with ACreatedOn => with_created v t | AExpiresOn => with_expires v t | _ => with_renewal v t end)).
  { intros v a b r v' H. destruct a; cbn in H; try (inversion H; subst; auto; fail);
      destruct b as [t|]; try discriminate; inversion H; subst; right; exists t; auto. }
  assert (Enum : forall v a b r v', set_attr_enum (Some v) a b = Ok (r, v') ->
    v' = Some v \/ (exists z, (0 <= z <= 3)%Z /\ a = AAssertion /\ v' = Some (with_assertion v z))).
  { intros v a b r v' H. destruct a; cbn in H; try (inversion H; subst; auto; fail).
    destruct ((b <? 1) || (3 <? b))%Z eqn:E; inversion H; subst; auto. right. exists b. repeat split; lia. }
  assert (Str : forall mok v a b r v', set_attr_str mok (Some v) a b = Ok (r, v') ->
    v' = Some v \/ (exists s, a = ASerial /\ v' = Some (with_serial v s) /\ (forall t, s = Some t -> blen t < 128 /\ ~ In 0 t))).
  { intros mok v a b r v' H. apply set_str_inv in H.
    destruct H as [[_ ->]|[[_ [-> [_ ->]]]|[_ [-> [mem [_ [Hl ->]]]]]]]; auto; right.
    - exists None. repeat split; discriminate.
    - exists (Some (upto_nul mem)). repeat split; inversion H; subst; [assumption|apply upto_nul_no0]. }
  assert (Arr : forall mok v a b r v', set_attr_array mok (Some v) a b = Ok (r, v') ->
    v' = Some v \/ (exists b, kind a = KArr /\ ba_wf b /\
     v' = Some match a with AIssuer => with_issuer v b | APinned => with_pinned v b
                 | ANonce => with_nonce v b | APrior => with_prior v b | _ => with_proximity v b end)).
  { intros mok v a b r v' H. apply set_arr_inv in H. destruct H as [[_ ->]|[w [x [-> [Hw Hx]]]]]; auto. right.
    exists x. assert (Hwf : ba_wf x).
    { destruct Hx as [[_ ->]|[_ [b' [mem [d [rest [_ [_ [_ [_ ->]]]]]]]]]]; [left; auto|right; exists d; split; reflexivity]. }
    destruct a; try contradiction; subst w; auto. }
  intros v o r v' Hmem H. destruct o as [mok a x|a b|a t|a z|mok a s|mok a b|mok a mem len|a]; cbn [run_op op_attr] in *.
  - unfold set_attr in H. destruct a; destruct x; try discriminate;
      try (apply Time in H; tauto); try (apply Enum in H; tauto); try (apply Str in H; tauto);
      try (apply Arr in H; tauto); try (apply Bool in H; tauto); inversion H; auto.
  - apply Bool in H. tauto.
  - apply Time in H. tauto.
  - apply Enum in H. tauto.
  - apply Str in H. tauto.
  - apply Arr in H. tauto.
  - apply set_base64_inv in H; [|eapply Hmem; reflexivity]. destruct H as [[_ ->]|[w [x [-> [Hw Hx]]]]]; auto.
    do 5 right. exists x. assert (Hwf : ba_wf x).
    { destruct Hx as [[_ ->]|[_ [t [rest [d [_ [_ [_ ->]]]]]]]]; [left; auto|right; exists d; split; reflexivity]. }
    destruct a; try contradiction; subst w; auto.
  - inversion H; subst. destruct a; auto.
    + right; left. exists tm_zero. auto.
    + right; left. exists tm_zero. auto.
    + do 2 right; left. exists 0%Z. repeat split; lia.
    + do 3 right; left. exists None. repeat split; discriminate.
    + do 5 right. exists ba_null. repeat split. left; auto.
    + do 5 right. exists ba_null. repeat split. left; auto.
    + do 4 right; left. eauto.
    + do 5 right. exists ba_null. repeat split. left; auto.
    + right; left. exists tm_zero. auto.
    + do 5 right. exists ba_null. repeat split. left; auto.
    + do 5 right. exists ba_null. repeat split. left; auto.
Qed.

Lemma op_frame : forall v o r v' b, (forall mok a mem len, o = OpBase64 mok a mem len -> bytes_ok mem) ->
  run_op (Some v) o = Ok (r, v') -> b <> op_attr o ->
  exists v'', v' = Some v'' /\ observe v'' b = observe v b.
Proof.
  intros v o r v' b Hm H Hb. apply op_frame_cases in H; [|assumption].
  destruct H as [->|[[t [Hk ->]]|[[z [_ [Ha ->]]]|[[s [Ha [-> _]]]|[[x [Ha ->]]|[x [Hk [_ ->]]]]]]]];
    (eexists; split; [reflexivity|]); try reflexivity.
  - destruct (op_attr o); try discriminate; destruct b; try reflexivity; congruence.
  - rewrite Ha in Hb. destruct b; try reflexivity; congruence.
  - rewrite Ha in Hb. destruct b; try reflexivity; congruence.
  - rewrite Ha in Hb. destruct b; try reflexivity; congruence.
  - destruct (op_attr o); try discriminate; destruct b; try reflexivity; congruence.
Qed.

(** ** Well-formedness *)

Lemma init_wf : voucher_wf init_voucher.
Proof.
  split; [cbn; lia|]. split; [discriminate|]. intros a b H.
  destruct a; cbn in H; inversion H; subst; left; auto.
Qed.

Lemma op_wf : forall v o r v', (forall mok a mem len, o = OpBase64 mok a mem len -> bytes_ok mem) ->
  run_op (Some v) o = Ok (r, v') -> voucher_wf v ->
  exists v'', v' = Some v'' /\ voucher_wf v''.
Proof.
  intros v o r v' Hm H [H1 [H2 H3]]. apply op_frame_cases in H; [|assumption].
  assert (G : forall a, ba_wf (v_issuer v) /\ ba_wf (v_pinned v) /\ ba_wf (v_nonce v) /\ ba_wf (v_prior v) /\ ba_wf (v_proximity v)
     -> match get_attr_array (Some v) a with Some b => ba_wf b | None => True end).
  { intros a Ha. destruct a; cbn; tauto. }
  assert (A1 := H3 AIssuer _ eq_refl). assert (A2 := H3 APinned _ eq_refl). assert (A3 := H3 ANonce _ eq_refl).
  assert (A4 := H3 APrior _ eq_refl). assert (A5 := H3 AProximity _ eq_refl).
  destruct H as [->|[[t [Hk ->]]|[[z [Hz [Ha ->]]]|[[s [Ha [-> Hs]]]|[[x [Ha ->]]|[x [Hk [Hx ->]]]]]]]];
    (eexists; split; [reflexivity|]).
  - repeat split; auto; try apply H1; try (apply H2 in H; tauto).
  - destruct (op_attr o); try discriminate; (split; [exact H1|]; split; [exact H2|]; intros a b Hg; destruct a; cbn in Hg; inversion Hg; subst; assumption).
  - split; [exact Hz|]; split; [exact H2|]. intros a b Hg; destruct a; cbn in Hg; inversion Hg; subst; assumption.
  - split; [exact H1|]; split; [exact Hs|]. intros a b Hg; destruct a; cbn in Hg; inversion Hg; subst; assumption.
  - split; [exact H1|]; split; [exact H2|]. intros a b Hg; destruct a; cbn in Hg; inversion Hg; subst; assumption.
  - destruct (op_attr o); try discriminate; (split; [exact H1|]; split; [exact H2|]; intros a b Hg; destruct a; cbn in Hg; inversion Hg; subst; assumption).
Qed.

Lemma ops_wf : forall ops v v', Forall op_mem_ok ops -> voucher_wf v ->
  run_ops (Some v) ops = Ok v' -> exists v'', v' = Some v'' /\ voucher_wf v''.
Proof.
  induction ops as [|o ops IH]; intros v v' Hm Hv H; cbn [run_ops] in H.
  - inversion H; subst. eauto.
  - inversion Hm as [|? ? Ho Hops]; subst.
    destruct (run_op (Some v) o) as [[r v1]|] eqn:E; cbn [obind snd] in H; [|discriminate].
    apply op_wf in E; [|intros; subst; exact Ho|assumption]. destruct E as [v2 [-> Hv2]].
    eapply IH; eauto.
Qed.

(** ** Rejection *)

Lemma no0_cstr_strnlen : forall t rest, ~ In 0 t -> 128 <= blen t ->
  sys_strnlen_s (t ++ 0 :: rest) 128 = Ok 128.
Proof.
  intros t rest H Hl. unfold sys_strnlen_s.
  assert (M : forall n l i, ~ In 0 l -> N.of_nat n <= blen l -> forall r, memchr0 (l ++ r) n i = Ok None).
  { induction n as [|n IH]; intros l i Hi Hn r; [reflexivity|]. destruct l as [|c l]; [unfold blen in Hn; cbn in Hn; lia|].
    cbn [app memchr0]. destruct (c =? 0) eqn:E; [exfalso; apply Hi; left; lia|].
    apply IH; [intros Hc; apply Hi; right; exact Hc|rewrite blen_cons in Hn; lia]. }
  rewrite M by (assumption || lia). reflexivity.
Qed.

Lemma set_str_reject : forall mok v a s, kind a <> KStr \/ s = None \/
      (exists t rest, s = Some (t ++ 0 :: rest) /\ ~ In 0 t /\ 128 <= blen t) ->
  set_attr_str mok (Some v) a s = Ok ((-1)%Z, Some v).
Proof.
  intros mok v a s H. destruct a; try reflexivity. cbn [kind] in H.
  destruct H as [H|[->|[t [rest [-> [H1 H2]]]]]]; [contradiction|reflexivity|].
  cbn [set_attr_str]. rewrite no0_cstr_strnlen by assumption. reflexivity.
Qed.

Lemma reject_spec : forall v o, must_reject o -> run_op (Some v) o = Ok ((-1)%Z, Some v).
Proof.
  intros v o H. destruct o as [mok a x|a b|a t|a z|mok a s|mok a b|mok a mem len|a]; cbn [run_op must_reject] in *.
  - destruct a; try contradiction; try (destruct x; contradiction).
    + destruct x as [|z| |]; try contradiction. cbn. destruct ((z <? 1) || (3 <? z))%Z eqn:E; [reflexivity|lia].
    + destruct x as [| |s|]; try contradiction. cbn [set_attr]. apply set_str_reject. tauto.
    + reflexivity.
  - destruct a; try reflexivity. cbn in H; contradiction.
  - destruct a; try reflexivity; cbn in H; contradiction.
  - destruct a; try reflexivity. cbn [kind] in H. destruct H as [H|H]; [contradiction|].
    cbn. destruct ((z <? 1) || (3 <? z))%Z eqn:E; [reflexivity|lia].
  - apply set_str_reject; assumption.
  - destruct H as [H|[->| ->]]; try reflexivity. unfold set_attr_array.
    destruct (is_attr_array_nonempty b); [|reflexivity]. cbn [negb].
    destruct a; try reflexivity; cbn in H; contradiction.
  - destruct H as [t [rest [-> [-> [Hok H]]]]]. unfold set_attr_base64. rewrite take_mem_app. cbn [obind].
    destruct (serialize_base64str2array mok t) as [[n out]|k] eqn:E.
    2:{ exfalso. destruct mok; [rewrite decode_spec in E by assumption; destruct (rfc_decode t); discriminate
                               |rewrite decode_no_mem in E by assumption; discriminate]. }
    cbn [obind]. destruct (n <? 0)%Z eqn:En; [reflexivity|].
    destruct H as [H|H].
    + unfold set_attr_array. destruct (is_attr_array_nonempty _); cbn [negb].
      * destruct a; try reflexivity; cbn in H; contradiction.
      * reflexivity.
    + exfalso. destruct (base64_decoded _ _ _ _ Hok E) as [? [d [_ [_ Hd]]]]; [lia|congruence].
  - contradiction.
Qed.

(** Two values that are refused although the attribute is changed or the
    program's behaviour is undefined. *)
Lemma reject_null_array_erases : exists v v',
  get_attr_array (Some v) ANonce = Some (ba_of [1; 2; 3]) /\
  set_attr_array true (Some v) ANonce (Some (mk_ba None 5)) = Ok ((-1)%Z, Some v') /\
  get_attr_array (Some v') ANonce = Some ba_null.
Proof. exists (with_nonce init_voucher (ba_of [1; 2; 3])), init_voucher. vm_compute. repeat split. Qed.

Lemma null_time_ub : exists v, set_attr_time (Some v) ACreatedOn None = UB NullDeref.
Proof. exists init_voucher. reflexivity. Qed.

Lemma oom_erases : exists v v',
  get_attr_str (Some v) ASerial = Some (Some (s2b "12345")) /\
  set_attr_str false (Some v) ASerial (Some (s2b "678" ++ [0])) = Ok ((-1)%Z, Some v') /\
  get_attr_str (Some v') ASerial = Some None.
Proof. exists (with_serial init_voucher (Some (s2b "12345"))), init_voucher. vm_compute. repeat split. Qed.

(** ** Clearing *)

Lemma clear_spec : forall v a, exists v', clear_attr (Some v) a = (0%Z, Some v') /\
  attr_blank v' a /\ clear_attr (Some v') a = (0%Z, Some v') /\
  (forall b, b <> a -> observe v' b = observe v b).
Proof.
  intros v a. destruct a; cbn [clear_attr]; eexists; (split; [reflexivity|]; split; [reflexivity|]; split; [reflexivity|]);
    intros b Hb; destruct b; try reflexivity; congruence.
Qed.

Lemma op_frame_ok : forall v o r v' b, op_mem_ok o ->
  run_op (Some v) o = Ok (r, v') -> b <> op_attr o ->
  exists v'', v' = Some v'' /\ observe v'' b = observe v b.
Proof.
  intros v o r v' b Hm. apply op_frame. intros mok a mem len ->. exact Hm.
Qed.

Lemma history_wf : forall ops v', Forall op_mem_ok ops ->
  run_ops (Some init_voucher) ops = Ok v' -> exists v'', v' = Some v'' /\ voucher_wf v''.
Proof. intros ops v' H. apply ops_wf; [exact H|exact init_wf]. Qed.
