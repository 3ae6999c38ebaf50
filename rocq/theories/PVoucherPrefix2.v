(** Proofs for C57-C59: parsing without memory for the voucher, the text behind
    the voucher object, nested values. *)
From Coq Require Import ZifyBool ZifyNat ZifyN.
From Verif Require Import Base PBase MBase64 SBase64 PBase64 MSerialize SSerialize PSerialize MOs POs
  MJsmn PJsmn MVoucher SVoucher PVoucher SJson SJsonMore PVoucherText PJsonTok PJsonPrefix PVoucherJson PVoucherPrefix PVoucherHeap.
Open Scope N_scope.

(** ** No memory for the voucher (C57) *)

Lemma none_text : forall a x B, In a all_attrs -> cstr_ok x ->
  set_by_text None a (x ++ B) (blen x) = (if attr_eq_dec a ASerial then (if blen x <? 128 then UB NullDeref else Ok ((-1)%Z, None)) else Ok ((-1)%Z, None)).
Proof.
  intros a x B Ha Hx. pose proof (set_by_text_spec init_voucher a x B Ha Hx) as Sp.
  destruct (attr_eq_dec a ASerial) as [->|Hn].
  - cbn [set_by_text] in *. unfold set_attr_nstr in *. destruct (blen x <? 128) eqn:E; [|reflexivity].
    destruct (strndup_readable (x ++ B) (blen x)) as [b [Eb _]]; [rewrite blen_app; lia|unfold SIZE_MAX; lia|]. rewrite Eb. reflexivity.
  - assert (Arr : forall b, set_attr_base64 true None b (x ++ B) (blen x) = Ok ((-1)%Z, None)).
    { intros b. unfold set_attr_base64. rewrite take_mem_app. cbn [obind]. rewrite decode_spec by (apply cstr_bytes; exact Hx). destruct (rfc_decode x) as [d|]; cbn [obind].
      - destruct (Z.of_N (blen d) <? 0)%Z; reflexivity.
      - destruct (filter b64_relevant x); reflexivity. }
    destruct a; try congruence; cbn [set_by_text] in *; try apply Arr.
    all: try (unfold set_attr_strtime in *; destruct (str_upto (x ++ B) (N.to_nat (blen x))) as [y|]; cbn [obind] in *; [|exfalso; destruct Sp as [(? & _ & Sp)|(_ & Sp)]; discriminate Sp];
      destruct (serialize_str2time (Some (firstn 63 y))) as [t|]; reflexivity).
    + unfold set_attr_strenum in *. rewrite !check_size_spec in * by assumption. cbn [obind] in *. repeat match goal with |- context [if beqb ?p ?q then _ else _] => destruct (beqb p q) end; reflexivity.
    + unfold set_attr_strbool in *. revert Sp. match goal with |- context [serialize_str2bool ?m ?n] => destruct (serialize_str2bool m n) as [z|k] end; cbn [obind]; intros Sp; [|exfalso; destruct Sp as [(? & _ & Sp)|(_ & Sp)]; discriminate Sp].
      destruct (z <? 0)%Z; reflexivity.
    + reflexivity.
Qed.

Lemma none_keyvalue : forall k rk x rx, cstr_ok k -> cstr_ok x -> forall l, (forall a, In a l -> In a all_attrs) ->
  set_keyvalue l None (k ++ rk) (blen k) (x ++ rx) (blen x) = Ok ((-1)%Z, None) /\ ~ (In ASerial l /\ k = attr_name ASerial /\ blen x < 128) \/
  set_keyvalue l None (k ++ rk) (blen k) (x ++ rx) (blen x) = UB NullDeref /\ In ASerial l /\ k = attr_name ASerial /\ blen x < 128.
Proof.
  intros k rk x rx Hk Hx. induction l as [|a l IH]; intros Hall; cbn [set_keyvalue]; [left; split; [reflexivity|intros [[] _]]|].
  rewrite check_size_spec by assumption. cbn [obind]. destruct (beqb (attr_name a) k) eqn:E.
  - apply beqb_eq in E. rewrite none_text by (auto || (apply Hall; left; reflexivity)). destruct (attr_eq_dec a ASerial) as [->|Hn].
    + destruct (blen x <? 128) eqn:L; cbn [obind]; [right; repeat split; [left; reflexivity|congruence|lia]|left; split; [reflexivity|lia]].
    + left. split; [reflexivity|]. intros (_ & Ek & _). apply Hn. apply attr_name_inj; [apply Hall; left; reflexivity|cbn; tauto|congruence].
  - destruct (IH (fun b Hb => Hall b (or_intror Hb))) as [[-> H]|[-> (H1 & H2 & H3)]]; [left|right].
    + split; [reflexivity|]. intros (I1 & I2 & I3). apply H. split; [|split; assumption]. destruct I1 as [->|I1]; [|exact I1]. rewrite I2, (proj2 (beqb_eq _ _) eq_refl) in E. discriminate.
    + repeat split; [right; exact H1|exact H2|exact H3].
Qed.

Lemma none_pairs : forall J toks idx n j, toks_ok J toks -> blen J < 2147483648 ->
  (exists r, read_pairs J toks idx n j None = Ok (r, None)) \/
  read_pairs J toks idx n j None = UB NullDeref /\ occurs (attr_name ASerial) J.
Proof.
  intros J toks idx n j Ht HJ. destruct n as [|n]; cbn [read_pairs]; [eauto|].
  destruct (nth_error toks (idx + j * 2 + 1)) as [k|] eqn:Ek; [|eauto].
  destruct (nth_error toks (idx + (j * 2 + 1) + 1)) as [x|] eqn:Ex; [|eauto].
  destruct (nth_toks_ok _ _ _ _ Ht Ek) as [kt [kB [K1 [K2 [K3 K4]]]]]. destruct (nth_toks_ok _ _ _ _ Ht Ex) as [xt [xB [X1 [X2 [X3 X4]]]]].
  rewrite K3, X3. cbn [obind]. rewrite (K4 HJ), (X4 HJ).
  destruct (none_keyvalue kt kB xt xB K2 X2 all_attrs (fun a Ha => Ha)) as [[-> _]|[-> (_ & -> & _)]]; cbn [obind].
  - left. exists false. reflexivity.
  - right. split; [reflexivity|]. eapply tok_at_occurs. exact K1.
Qed.

Lemma none_root : forall J toks, toks_ok J toks -> blen J < 2147483648 -> forall rest idx, (forall t, In t rest -> In t toks) ->
  (exists r, find_root J toks rest idx None = Ok (r, None)) \/
  find_root J toks rest idx None = UB NullDeref /\ occurs (attr_name ASerial) J.
Proof.
  intros J toks Ht HJ. induction rest as [|t rest IH]; intros idx Hin; cbn [find_root]; [eauto|].
  assert (Hi : In t toks) by (apply Hin; left; reflexivity). apply In_nth_error in Hi. destruct Hi as [i Hi].
  destruct (nth_toks_ok _ _ _ _ Ht Hi) as [x [B [X1 [X2 [X3 X4]]]]]. rewrite X3. cbn [obind]. rewrite (X4 HJ), root_prefix by assumption. cbn [obind].
  destruct (beqb x (firstn (List.length x) root_name)).
  - destruct (nth_error toks (S idx)) as [o|]; [|eauto]. destruct (tk_type o); eauto. apply none_pairs; assumption.
  - apply IH. intros u Hu. apply Hin. right. exact Hu.
Qed.

Lemma none_any : forall js, bytes_ok js -> blen js < 2147483648 ->
  deserialize_voucher false (Some js) = Ok None \/
  deserialize_voucher false (Some js) = UB NullDeref /\ occurs (s2b "serial-number") js.
Proof.
  intros js Hb HJ. unfold deserialize_voucher. destruct (jsmn_parse js 32) as [toks|] eqn:E; [|left; reflexivity].
  pose proof (tokens_text _ _ _ Hb E) as Ht. destruct toks as [|t0 rest]; [left; reflexivity|]. destruct (tk_type t0); try (left; reflexivity).
  destruct (none_root js (t0 :: rest) Ht HJ rest 1) as [[r ->]|[-> H]]; [intros t Hi; right; exact Hi| |].
  - left. cbn [obind fst snd]. destruct r; reflexivity.
  - right. split; [reflexivity|exact H].
Qed.

Lemma none_document : forall w key ms, layout_ok w -> Forall plain_char key -> prefix_of_root key ->
  Forall member_ok ms -> (List.length ms <= 14)%nat -> blen (document w key ms) < 2147483648 ->
  (starts_with_serial ms -> deserialize_voucher false (Some (document w key ms)) = UB NullDeref) /\
  (~ starts_with_serial ms -> deserialize_voucher false (Some (document w key ms)) = Ok None).
Proof.
  intros w key ms Hw Hk Hpre Hms Hn HJ.
  destruct (document_tokens w key ms Hw Hk Hms) as [o0 [k0 [o2 [toks [Hp [T0 [Tk [Tks [T2 [Ts [_ [Hpa _]]]]]]]]]]]]; [lia|].
  unfold deserialize_voucher. rewrite Hp, T0. cbn [find_root].
  destruct (tok_mem_at _ _ _ Tk) as [B [K1 K2]]. rewrite K1. cbn [obind]. rewrite (K2 HJ).
  rewrite root_prefix by (apply plain_cstr; assumption). cbn [obind].
  apply prefix_beqb in Hpre. rewrite Hpre. cbn [nth_error]. rewrite T2, Ts, Nat2Z.id.
  destruct ms as [|m ms]; cbn [List.length read_pairs].
  - split; [intros (m & r & X & _); discriminate X|reflexivity].
  - destruct toks as [|kt [|vt pairs]]; try contradiction. destruct Hpa as [Ka [Va _]]. inversion Hms as [|? ? Hm _]; subst.
    cbn [Nat.mul Nat.add nth_error]. destruct (tok_mem_at _ _ _ Ka) as [kB [A1 A2]]. destruct (tok_mem_at _ _ _ Va) as [vB [V1 V2]].
    rewrite A1, V1. cbn [obind]. rewrite (A2 HJ), (V2 HJ). destruct Hm as (_ & _ & _ & _ & HK & HV).
    destruct (none_keyvalue (m_key m) kB (jtext (m_val m)) vB (plain_cstr _ HK) (jval_cstr _ HV) all_attrs (fun a Ha => Ha)) as [[-> H]|[-> (_ & H2 & H3)]]; cbn [obind].
    + split; [|reflexivity]. intros (m' & r & X & X1 & X2). exfalso. apply H. injection X as -> _. split; [cbn; tauto|]. split; [exact X1|exact X2].
    + split; [reflexivity|]. intros X. exfalso. apply X. exists m, ms. split; [reflexivity|]. split; [exact H2|exact H3].
Qed.

(** ** Behind the voucher object (C58) *)

Lemma behind_holds : forall w key ms s v, layout_ok w -> Forall plain_char key -> prefix_of_root key ->
  Forall member_ok ms -> ms <> [] -> (List.length ms <= 14)%nat -> blen (voucher_part w key ms ++ s) < 2147483648 ->
  deserialize_voucher true (Some (voucher_part w key ms ++ s)) = Ok (Some v) -> exists kvs, meaning ms kvs /\ holds_exactly v kvs.
Proof.
  intros w key ms s v Hw Hk Hp Hms Hne Hn HJ E. destruct (behind w key ms s Hw Hk Hp Hms Hne Hn HJ) as [X|(kvs & M & X)]; rewrite X in E.
  - exfalso. inversion E.
  - exists kvs. split; [exact M|]. assert (v = put_all init_voucher kvs) as -> by (remember (put_all init_voucher kvs) as q; inversion E; reflexivity). eapply meaning_holds. exact M.
Qed.

Lemma behind_same : forall w key ms s1 s2 v1 v2, layout_ok w -> Forall plain_char key -> prefix_of_root key ->
  Forall member_ok ms -> ms <> [] -> (List.length ms <= 14)%nat ->
  blen (voucher_part w key ms ++ s1) < 2147483648 -> blen (voucher_part w key ms ++ s2) < 2147483648 ->
  deserialize_voucher true (Some (voucher_part w key ms ++ s1)) = Ok (Some v1) ->
  deserialize_voucher true (Some (voucher_part w key ms ++ s2)) = Ok (Some v2) ->
  v1 = v2 /\ exists kvs, meaning ms kvs /\ holds_exactly v1 kvs.
Proof.
  intros w key ms s1 s2 v1 v2 Hw Hk Hp Hms Hne Hn J1 J2 E1 E2. split; [|exact (behind_holds w key ms s1 v1 Hw Hk Hp Hms Hne Hn J1 E1)].
  destruct (behind w key ms s1 Hw Hk Hp Hms Hne Hn J1) as [X|(k1 & M1 & X)]; rewrite X in E1; [exfalso; inversion E1|].
  destruct (behind w key ms s2 Hw Hk Hp Hms Hne Hn J2) as [Y|(k2 & M2 & Y)]; rewrite Y in E2; [exfalso; inversion E2|].
  rewrite (meaning_fun _ _ _ M1 M2) in E1. remember (put_all init_voucher k2) as q. inversion E1. inversion E2. congruence.
Qed.

Lemma behind_empty : exists w s1 s2 v1 v2, layout_ok w /\
  deserialize_voucher true (Some (voucher_part w root_name [] ++ s1)) = Ok (Some v1) /\
  deserialize_voucher true (Some (voucher_part w root_name [] ++ s2)) = Ok (Some v2) /\
  get_attr_array (Some v1) ANonce = Some (mk_ba None 0) /\ get_attr_array (Some v2) ANonce = Some (ba_of [0; 0; 0]).
Proof.
  exists (mk_lay [] [] [] [] [] [] []), (s2b "}"), (s2b ":""nonce"":""AAAA""}"). eexists. eexists.
  split; [repeat split; constructor|]. split; [vm_compute; reflexivity|]. split; [vm_compute; reflexivity|]. split; vm_compute; reflexivity.
Qed.

(** ** Nested values (C59) *)

Lemma array_taken : exists json v, bytes_ok json /\ json = s2b "{""ietf-voucher:voucher"":{""nonce"":[""AAAA""]}}" /\
  deserialize_voucher true (Some json) = Ok (Some v) /\ get_attr_array (Some v) ANonce = Some (ba_of [0; 0; 0]).
Proof.
  eexists. eexists. split; [|split; [reflexivity|split; [vm_compute; reflexivity|vm_compute; reflexivity]]]. apply bytes_okb_ok; vm_compute; reflexivity.
Qed.
