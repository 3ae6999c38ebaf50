(** Proofs: JSON round trip of vouchers and the findings about the JSON form. *)
From Coq Require Import ZifyBool ZifyNat ZifyN.
From Verif Require Import Base PBase MBase64 SBase64 PBase64 MSerialize SSerialize PSerialize MOs POs
  MJsmn PJsmn MVoucher SVoucher PVoucher SJson PVoucherText PJsonTok PVoucherJson.
Open Scope N_scope.

Ltac chars :=
  cbn [jval_ok jtext];
  match goal with |- Forall ?P ?l => let l' := eval vm_compute in l in change (Forall P l') end;
  repeat first [apply Forall_nil | apply Forall_cons; [unfold bare_char, plain_char; lia|]].

Definition same_value (v : voucher) (a : attr) (p : pval) : Prop :=
  match p with
  | PTime t => exists s, get_attr_time (Some v) a = Some s /\ same_datetime s t
  | _ => has_value v a p
  end.

Lemma filter_all : forall (f : N -> bool) l, filter f l = l -> Forall (fun c => f c = true) l.
Proof.
  intros f l H. apply Forall_forall. intros x Hx. rewrite <- H in Hx. apply filter_In in Hx. apply Hx.
Qed.

Lemma relevant_plain : forall c, b64_relevant c = true -> plain_char c.
Proof.
  intros c H. unfold b64_relevant, b64_val in H. unfold plain_char.
  destruct ((65 <=? c) && (c <=? 90)) eqn:E1; [lia|]. destruct ((97 <=? c) && (c <=? 122)) eqn:E2; [lia|].
  destruct ((48 <=? c) && (c <=? 57)) eqn:E3; [lia|]. destruct (c =? 43) eqn:E4; [lia|].
  destruct (c =? 47) eqn:E5; lia.
Qed.

Lemma rfc_plain : forall d, bytes_ok d -> Forall plain_char (rfc_encode d).
Proof.
  intros d H. eapply Forall_impl; [apply relevant_plain|]. apply filter_all. apply rfc_encode_relevant. exact H.
Qed.

Lemma upto_nul_end : forall s, cstr_ok s -> upto_nul (s ++ [0]) = s.
Proof. intros s H. apply upto_nul_cstr. eapply Forall_impl; [|exact H]. cbv beta. lia. Qed.

Lemma array_text : forall d, bytes_ok d -> d <> [] -> blen d < SIZE_MAX / 4 ->
  escape_serialize_array (ba_of d) = Ok (Some (jrender (JQuoted (rfc_encode d)))).
Proof.
  intros d H1 H2 H3. unfold escape_serialize_array, ba_of. cbn [ba_data ba_len]. rewrite take_mem_all. cbn [obind].
  rewrite encode_spec by assumption. destruct (blen d <? SIZE_MAX / 4) eqn:E1; [|lia]. cbn [obind].
  destruct (Z.of_N (rfc_len (blen d)) <? 0)%Z eqn:E; [lia|].
  rewrite upto_nul_end by (apply rfc_encode_cstr; assumption). rewrite escapestr_ok. reflexivity.
Qed.

Lemma iso_plain : forall y mo d h mi s, Forall plain_char (iso_text y mo d h mi s).
Proof.
  intros. unfold iso_text, four, two.
  assert (D : forall k v, plain_char (digit_at k v)) by (intros k v; pose proof (digit_dec k v); unfold plain_char; lia).
  change (s2b "-") with [45]. change (s2b "T") with [84]. change (s2b ":") with [58]. change (s2b "Z") with [90].
  cbn [app]. repeat first [apply Forall_nil | apply Forall_cons; [first [apply D | unfold plain_char; lia]|]].
Qed.

Lemma time_text : forall t, date_ready t -> is_attr_time_nonempty t = true ->
  exists s t', escape_serialize_time t = Ok (Some (jrender (JQuoted s))) /\ Forall plain_char s /\
    serialize_str2time (Some (firstn 63 s)) = Some t' /\ same_datetime t t'.
Proof.
  intros t [->|H] Hn; [discriminate|]. destruct H as [H1 [H2 [H3 [H4 [H5 H6]]]]].
  destruct (time_roundtrip_tm t H1 H2 H3 H4 H5 H6) as [s [S1 [S2 [S3 [t' [S4 S5]]]]]].
  exists s, t'. unfold escape_serialize_time. rewrite S1, escapestr_ok. split; [reflexivity|].
  split; [rewrite S3; apply iso_plain|]. split.
  - rewrite firstn_all2 by (unfold blen in S2; lia). exact S4.
  - unfold same_datetime. intuition congruence.
Qed.

Lemma serialize_attr_ok : forall v a, json_ready v -> In a all_attrs -> is_attr_nonempty v a = true ->
  exists x p, serialize_attr v a = Ok (Some (jrender x)) /\ jval_ok x /\ value_ok a (jtext x) p /\ same_value v a p.
Proof.
  intros v a [RT [RA [RE RS]]] Ha Hn.
  assert (Time : forall t, get_attr_time (Some v) a = Some t -> is_attr_time_nonempty t = true -> kind a = KTime ->
     exists x p, escape_serialize_time t = Ok (Some (jrender x)) /\ jval_ok x /\ value_ok a (jtext x) p /\ same_value v a p).
  { intros t Hg Ht Hk. destruct (time_text t (RT a t Hg) Ht) as [s [t' [H1 [H2 [H3 H4]]]]].
    exists (JQuoted s), (PTime t'). split; [exact H1|]. split; [exact H2|]. split.
    - unfold value_ok. rewrite Hk. cbn [jtext]. eauto.
    - cbn. eauto. }
  assert (Arr : forall b, get_attr_array (Some v) a = Some b -> is_attr_array_nonempty (Some b) = true -> kind a = KArr ->
     exists x p, escape_serialize_array b = Ok (Some (jrender x)) /\ jval_ok x /\ value_ok a (jtext x) p /\ same_value v a p).
  { intros b Hg Hb Hk. destruct (RA a b Hg) as [->|[d [-> [D1 [D2 D3]]]]]; [discriminate|].
    exists (JQuoted (rfc_encode d)), (PArr d). split; [apply array_text; assumption|].
    split; [apply rfc_plain; assumption|]. split.
    - unfold value_ok. rewrite Hk. exists d. split; [apply rfc_roundtrip; assumption|reflexivity].
    - exact Hg. }
  destruct a; cbn [serialize_attr is_attr_nonempty] in *;
    try (apply Time; [reflexivity|assumption|reflexivity]); try (apply Arr; [reflexivity|assumption|reflexivity]).
  - assert (C : (v_assertion v = 1 \/ v_assertion v = 2 \/ v_assertion v = 3)%Z) by lia.
    destruct C as [C|[C|C]]; rewrite C; cbn [assertion_name obind]; rewrite escapestr_ok.
    + exists (JQuoted (s2b "verified")), (PEnum 1). split; [reflexivity|]. split.
      * chars.
      * split; [left; split; reflexivity|cbn; congruence].
    + exists (JQuoted (s2b "logged")), (PEnum 2). split; [reflexivity|]. split.
      * chars.
      * split; [right; left; split; reflexivity|cbn; congruence].
    + exists (JQuoted (s2b "proximity")), (PEnum 3). split; [reflexivity|]. split.
      * chars.
      * split; [right; right; split; reflexivity|cbn; congruence].
  - destruct (v_serial v) as [s|] eqn:Es; [|discriminate]. rewrite escapestr_ok.
    destruct (RS s eq_refl) as [S1 S2]. exists (JQuoted s), (PStr s). split; [reflexivity|]. split; [exact S1|].
    split; [split; [exact S2|reflexivity]|cbn; congruence].
  - destruct (v_revocation v) eqn:Er; cbn [serialize_bool2str].
    + exists (JBare (s2b "true")), (PBool true). split; [reflexivity|]. split.
      * split; [discriminate|]. chars.
      * split; [|cbn; congruence]. left. split; [|reflexivity]. right. repeat constructor.
    + exists (JBare (s2b "false")), (PBool false). split; [reflexivity|]. split.
      * split; [discriminate|]. chars.
      * split; [|cbn; congruence]. right. split; [|reflexivity]. right. repeat constructor.
  - discriminate.
Qed.

(** ** The text of a voucher *)

Definition enc (e : attr * jval * pval) : bytes * bytes :=
  let '(a, x, p) := e in ([34] ++ attr_name a ++ [34], jrender x).
Definition mem_of (e : attr * jval * pval) : member :=
  let '(a, x, p) := e in mk_mem [] (attr_name a) [] [] x [].
Definition kv_of (e : attr * jval * pval) : attr * pval := let '(a, x, p) := e in (a, p).
Definition att_of (e : attr * jval * pval) : attr := let '(a, x, p) := e in a.
Definition good (v : voucher) (e : attr * jval * pval) : Prop :=
  let '(a, x, p) := e in In a all_attrs /\ is_attr_nonempty v a = true /\
    jval_ok x /\ value_ok a (jtext x) p /\ same_value v a p.

Lemma vkv_ok : forall v, json_ready v -> forall attrs acc, (forall a, In a attrs -> In a all_attrs) ->
  exists l, voucher_to_keyvalue v attrs acc = Ok (Some (acc ++ map enc l)) /\ Forall (good v) l /\
    map att_of l = filter (is_attr_nonempty v) attrs.
Proof.
  intros v Hr. induction attrs as [|a attrs IH]; intros acc Hin; cbn [voucher_to_keyvalue filter].
  - exists []. cbn. rewrite app_nil_r. repeat split. constructor.
  - destruct (is_attr_nonempty v a) eqn:En.
    + rewrite escapestr_ok. cbn [obind].
      destruct (serialize_attr_ok v a Hr (Hin a (or_introl eq_refl)) En) as [x [p [H1 [H2 [H3 H4]]]]].
      rewrite H1. cbn [obind].
      destruct (IH (acc ++ [([34] ++ attr_name a ++ [34], jrender x)])) as [l [L1 [L2 L3]]].
      { intros b Hb. apply Hin. right. exact Hb. }
      exists ((a, x, p) :: l). split; [|split].
      * etransitivity; [exact L1|]. rewrite <- app_assoc. reflexivity.
      * constructor; [|exact L2]. cbn. repeat split; auto. apply Hin. left. reflexivity.
      * cbn [map att_of]. f_equal. exact L3.
    + apply IH. intros b Hb. apply Hin. right. exact Hb.
Qed.

Definition no_ws : layout := mk_lay [] [] [] [] [] [] [].

Lemma enc_piece : forall l, map (fun kv : bytes * bytes => fst kv ++ s2b ":" ++ snd kv) (map enc l) = map member_text (map mem_of l).
Proof.
  intros l. rewrite !map_map. apply map_ext. intros [[a x] p]. cbn [enc mem_of fst snd]. unfold member_text.
  cbn [m_w1 m_key m_w2 m_w3 m_val m_w4]. change (s2b """") with [34]. rewrite app_nil_r, <- !app_assoc. reflexivity.
Qed.

Lemma serialize_text : forall v, json_ready v -> exists l, Forall (good v) l /\
  map att_of l = filter (is_attr_nonempty v) all_attrs /\
  serialize_voucher (Some v) = Ok (Some (document no_ws root_name (map mem_of l))).
Proof.
  intros v Hr. destruct (vkv_ok v Hr all_attrs [] (fun a H => H)) as [l [L1 [L2 L3]]].
  exists l. split; [exact L2|]. split; [exact L3|].
  assert (Hll : (List.length l <= 11)%nat).
  { rewrite <- (map_length att_of), L3. clear. 
    assert (G : forall (f : attr -> bool) m, (List.length (filter f m) <= List.length m)%nat).
    { intros f. induction m as [|x m IH]; cbn; [lia|]. destruct (f x); cbn; lia. }
    exact (G (is_attr_nonempty v) all_attrs). }
  assert (Hne : l <> []).
  { intros ->. cbn [map] in L3.
    assert (In ARevocation (filter (is_attr_nonempty v) all_attrs)) as Hi by (apply filter_In; split; [cbn; tauto|reflexivity]).
    rewrite <- L3 in Hi. contradiction. }
  unfold serialize_voucher, serialize_child_voucher. rewrite L1. cbn [obind app].
  rewrite keyvalue2json_ok; [|destruct l; [congruence|discriminate]|rewrite map_length; lia]. cbn [obind].
  rewrite escapestr_ok. cbn [obind]. rewrite keyvalue2json_ok; [|discriminate|cbn; lia].
  do 2 f_equal. unfold kv_json. cbn [map fst snd join]. rewrite enc_piece. unfold document. cbn [no_ws w_a w_b w_c w_d w_e w_f w_g app].
  change (s2b """") with [34]. rewrite <- !app_assoc. reflexivity.
Qed.

Lemma good_meaning : forall v l, Forall (good v) l -> meaning (map mem_of l) (map kv_of l) /\ Forall member_ok (map mem_of l).
Proof.
  intros v l H. induction H as [|[[a x] p] l Hg Hl [IH1 IH2]]; [split; constructor|].
  cbn in Hg. destruct Hg as [G1 [G2 [G3 [G4 G5]]]]. cbn [map mem_of kv_of]. split.
  - constructor; [|exact IH1]. cbn. auto.
  - constructor; [|exact IH2]. unfold member_ok. cbn [m_w1 m_w2 m_w3 m_w4 m_key m_val].
    repeat split; try constructor; auto.
    destruct a; try chars.
Qed.

Lemma root_plain : Forall plain_char root_name.
Proof. chars. Qed.
Lemma root_self : prefix_of_root root_name.
Proof. exists []. symmetry. apply app_nil_r. Qed.
Lemma no_ws_ok : layout_ok no_ws.
Proof. repeat split; constructor. Qed.

Lemma last_of_some : forall a kvs p, last_of a kvs = Some p -> In (a, p) kvs.
Proof.
  intros a kvs p. induction kvs as [|[b q] kvs IH]; cbn [last_of]; [discriminate|].
  destruct (last_of a kvs) as [r|].
  - intros H. inversion H; subst. right. apply IH. reflexivity.
  - destruct (attr_eq_dec a b) as [->|]; [|discriminate]. intros H. inversion H; subst. left. reflexivity.
Qed.
Lemma last_of_none : forall a kvs, last_of a kvs = None -> ~ In a (map fst kvs).
Proof.
  intros a kvs. induction kvs as [|[b q] kvs IH]; cbn [last_of map fst]; [auto|].
  destruct (last_of a kvs) as [r|]; [discriminate|].
  destruct (attr_eq_dec a b) as [|Hn]; [discriminate|]. intros _ [->|Hi]; [congruence|]. apply IH; auto.
Qed.

Lemma blank_of_empty : forall v a, json_ready v -> is_attr_nonempty v a = false -> attr_blank v a.
Proof.
  intros v a [RT [RA [RE RS]]] Hn. unfold attr_blank, observe.
  assert (Time : forall t, get_attr_time (Some v) a = Some t -> is_attr_time_nonempty t = false -> t = tm_zero).
  { intros t Hg Ht. destruct (RT a t Hg) as [->|H]; [reflexivity|]. unfold is_attr_time_nonempty in Ht. lia. }
  assert (Arr : forall x, get_attr_array (Some v) a = Some x -> is_attr_array_nonempty (Some x) = false -> x = ba_null).
  { intros x Hg Hx. destruct (RA a x Hg) as [->|[d [-> _]]]; [reflexivity|discriminate]. }
  rewrite Hn. destruct a; cbn [is_attr_nonempty] in Hn; cbn [get_attr_bool get_attr_time get_attr_enum get_attr_str get_attr_array];
    try discriminate;
    try (rewrite (Time _ eq_refl Hn); reflexivity); try (rewrite (Arr _ eq_refl Hn); reflexivity); try reflexivity.
  - assert (E : v_assertion v = 0%Z) by lia. rewrite E. reflexivity.
  - destruct (v_serial v); [discriminate|reflexivity].
Qed.

Lemma str2time_nonempty : forall s t, serialize_str2time (Some s) = Some t -> is_attr_time_nonempty t = true.
Proof. intros s t H. apply str2time_ranges in H. unfold is_attr_time_nonempty. lia. Qed.

Lemma same_of_cases : forall v w,
  (forall a, (exists x p, value_ok a x p /\ same_value v a p /\ has_value w a p /\ is_attr_nonempty v a = true) \/
             (attr_blank v a /\ attr_blank w a)) -> same_voucher v w.
Proof.
  intros v w H.
  assert (NT : forall a, kind a <> KTime -> observe v a = observe w a).
  { intros a Hk. destruct (H a) as [[x [p [H1 [H2 [H3 H4]]]]]|[H1 H2]].
    - unfold value_ok in H1. destruct a; cbn [kind] in *; try congruence; try contradiction;
      try (destruct H1 as [d [_ ->]]; cbn in H2, H3; unfold observe;
           cbn [get_attr_bool get_attr_time get_attr_enum get_attr_str get_attr_array is_attr_nonempty];
           inversion H2 as [E2]; inversion H3 as [E3]; rewrite E2, E3; reflexivity).
      + destruct H1 as [[_ ->]|[[_ ->]|[_ ->]]]; cbn in H2, H3; unfold observe;
           cbn [get_attr_bool get_attr_time get_attr_enum get_attr_str get_attr_array is_attr_nonempty];
           inversion H2 as [E2]; inversion H3 as [E3]; rewrite E2, E3; reflexivity.
      + destruct H1 as [_ ->]; cbn in H2, H3; unfold observe;
           cbn [get_attr_bool get_attr_time get_attr_enum get_attr_str get_attr_array is_attr_nonempty];
           inversion H2 as [E2]; inversion H3 as [E3]; rewrite E2, E3; reflexivity.
      + destruct H1 as [[_ ->]|[_ ->]]; cbn in H2, H3; unfold observe;
           cbn [get_attr_bool get_attr_time get_attr_enum get_attr_str get_attr_array is_attr_nonempty];
           inversion H2 as [E2]; inversion H3 as [E3]; rewrite E2, E3; reflexivity.
    - unfold attr_blank in *. congruence. }
  split; [|split; [exact NT|]].
  - intros a s t Hs Ht. destruct (H a) as [[x [p [H1 [H2 [H3 H4]]]]]|[H1 H2]].
    + unfold value_ok in H1. destruct a; try discriminate; cbn [kind] in H1; destruct H1 as [t' [_ ->]];
      destruct H2 as [s' [E2 D]]; rewrite Hs in E2; unfold has_value in H3; rewrite H3 in Ht; inversion E2; inversion Ht; subst; exact D.
    + unfold attr_blank, observe in *. inversion H1 as [[B1 B2 B3 B4 B5 B6]]. inversion H2 as [[C1 C2 C3 C4 C5 C6]].
      assert (s = t) by congruence. subst. repeat split.
  - intros a. destruct (kind a) eqn:Hk.
    2-6: assert (Hq : kind a <> KTime) by congruence; specialize (NT a Hq); unfold observe in NT; inversion NT; congruence.
    destruct (H a) as [[x [p [H1 [H2 [H3 H4]]]]]|[H1 H2]].
    + rewrite H4. unfold value_ok in H1. rewrite Hk in H1. destruct H1 as [t [E ->]]. apply str2time_nonempty in E.
      cbn in H3. destruct a; try discriminate; cbn in H3; inversion H3; subst; cbn [is_attr_nonempty]; congruence.
    + unfold attr_blank, observe in *. inversion H1. inversion H2. congruence.
Qed.

(** C21. *)
Lemma json_roundtrip : forall v, json_ready v -> exists text,
  serialize_voucher (Some v) = Ok (Some text) /\
  (blen text < 2147483648 -> exists w, deserialize_voucher true (Some text) = Ok (Some w) /\ same_voucher v w).
Proof.
  intros v Hr. destruct (serialize_text v Hr) as [l [G [L S]]]. eexists. split; [exact S|]. intros HJ.
  destruct (good_meaning v l G) as [M1 M2].
  destruct (document_accepts no_ws root_name (map mem_of l) (map kv_of l)) as [w [D Hh]];
    [exact no_ws_ok|exact root_plain|exact root_self|exact M2| |exact HJ|exact M1|].
  - rewrite map_length, <- (map_length att_of), L. 
    assert (Gf : forall (f : attr -> bool) m, (List.length (filter f m) <= List.length m)%nat).
    { intros f. induction m as [|x m IH]; cbn; [lia|]. destruct (f x); cbn; lia. }
    specialize (Gf (is_attr_nonempty v) all_attrs). cbn [all_attrs List.length] in Gf. unfold all_attrs in *. lia.
  - exists w. split; [exact D|]. apply same_of_cases. intros a. specialize (Hh a).
    destruct (last_of a (map kv_of l)) as [p|] eqn:El.
    + left. apply last_of_some in El. apply in_map_iff in El. destruct El as [[[b x] q] [E Hi]]. cbn in E. inversion E; subst.
      rewrite Forall_forall in G. apply G in Hi. cbn in Hi. destruct Hi as [G1 [G2 [G3 [G4 G5]]]]. eauto 8.
    + right. split; [|exact Hh]. apply blank_of_empty; [exact Hr|]. destruct (is_attr_nonempty v a) eqn:En; [|reflexivity].
      exfalso. apply last_of_none in El. apply El.
      assert (Ha : In a all_attrs) by (destruct a; cbn; try tauto; discriminate).
      assert (Hf : In a (map att_of l)) by (rewrite L; apply filter_In; auto).
      apply in_map_iff in Hf. destruct Hf as [[[b x] q] [E Hi]]. cbn in E. subst. apply in_map_iff. exists (a, q).
      split; [reflexivity|]. apply in_map_iff. exists (a, x, q). auto.
Qed.

Lemma same_voucher_sym_trans : forall u v w, same_voucher v u -> same_voucher w u -> same_voucher v w.
Proof.
  intros u v w [A1 [A2 A3]] [B1 [B2 B3]]. split; [|split].
  - intros a s t Hs Ht.
    assert (E : exists r, get_attr_time (Some u) a = Some r) by (destruct a; try discriminate; cbn; eauto).
    destruct E as [r Hr]. specialize (A1 a s r Hs Hr). specialize (B1 a t r Ht Hr).
    unfold same_datetime in *. intuition congruence.
  - intros a Hk. rewrite (A2 a Hk), (B2 a Hk). reflexivity.
  - intros a. rewrite (A3 a), (B3 a). reflexivity.
Qed.

(** C27. *)
Lemma serialize_injective : forall v w text, json_ready v -> json_ready w -> blen text < 2147483648 ->
  serialize_voucher (Some v) = Ok (Some text) -> serialize_voucher (Some w) = Ok (Some text) -> same_voucher v w.
Proof.
  intros v w text Hv Hw Hl Sv Sw.
  destruct (json_roundtrip v Hv) as [t1 [E1 D1]]. destruct (json_roundtrip w Hw) as [t2 [E2 D2]].
  assert (t1 = text) by congruence. assert (t2 = text) by congruence. subst.
  destruct (D1 Hl) as [u1 [U1 S1]]. destruct (D2 Hl) as [u2 [U2 S2]].
  assert (u1 = u2) by congruence. subst. eapply same_voucher_sym_trans; eassumption.
Qed.

(** ** Rejected roots *)

Lemma pairs_texts : forall J ms toks, Forall member_ok ms -> pairs_at J ms toks ->
  Forall (fun t => exists x, tok_at J t x /\ cstr_ok x) toks.
Proof.
  intros J ms. induction ms as [|m ms IH]; intros toks Hok Hp; destruct toks as [|k [|x toks]]; cbn in Hp; try contradiction; [constructor|].
  inversion Hok as [|? ? Hm Hms]; subst. destruct Hp as [P1 [P2 P3]]. destruct Hm as [_ [_ [_ [_ [HK HV]]]]].
  constructor; [exists (m_key m); split; [exact P1|apply plain_cstr; exact HK]|].
  constructor; [exists (jtext (m_val m)); split; [exact P2|apply jval_cstr; exact HV]|]. apply IH; assumption.
Qed.

Lemma find_root_leaves : forall J rest hd v, blen J < 2147483648 ->
  Forall (fun t => exists x, tok_at J t x /\ cstr_ok x) rest -> Forall leaf_tok rest ->
  find_root J (hd ++ rest) rest (List.length hd) v = Ok (false, v).
Proof.
  intros J. induction rest as [|t rest IH]; intros hd v HJ Ht Hl; cbn [find_root]; [reflexivity|].
  inversion Ht as [|? ? [x [Hx Hc]] Ht']; subst. inversion Hl as [|? ? H1 Hl']; subst.
  destruct (tok_mem_at _ _ _ Hx) as [B [K1 K2]]. rewrite K1. cbn [obind]. rewrite (K2 HJ), root_prefix by assumption. cbn [obind].
  destruct (beqb x _).
  - replace (hd ++ t :: rest) with ((hd ++ [t]) ++ rest) by (rewrite <- app_assoc; reflexivity).
    replace (S (List.length hd)) with (List.length (hd ++ [t])) by (rewrite app_length; cbn; lia).
    destruct rest as [|u rest].
    + rewrite app_nil_r. assert (N : nth_error (hd ++ [t]) (List.length (hd ++ [t])) = None) by (apply nth_error_None; lia).
      rewrite N. reflexivity.
    + rewrite nth_mid. inversion Hl' as [|? ? [_ Hu] ?]; subst. unfold is_container in Hu. destruct (tk_type u); try discriminate; reflexivity.
  - replace (hd ++ t :: rest) with ((hd ++ [t]) ++ rest) by (rewrite <- app_assoc; reflexivity).
    replace (S (List.length hd)) with (List.length (hd ++ [t])) by (rewrite app_length; cbn; lia). apply IH; assumption.
Qed.

Lemma document_wrong_root : forall w key ms, layout_ok w -> Forall plain_char key -> ~ prefix_of_root key ->
  Forall member_ok ms -> (List.length ms <= 14)%nat -> blen (document w key ms) < 2147483648 ->
  deserialize_voucher true (Some (document w key ms)) = Ok None.
Proof.
  intros w key ms Hw Hk Hpre Hms Hn HJ.
  destruct (document_tokens w key ms Hw Hk Hms) as [o0 [k0 [o2 [toks [Hp [T0 [Tk [Tks [T2 [Ts [[x To] [Hpa Hlf]]]]]]]]]]]]; [lia|].
  unfold deserialize_voucher. rewrite Hp, T0. cbn [find_root].
  destruct (tok_mem_at _ _ _ Tk) as [B [K1 K2]]. rewrite K1. cbn [obind]. rewrite (K2 HJ).
  rewrite root_prefix by (apply plain_cstr; assumption). cbn [obind].
  rewrite prefix_beqb in Hpre. destruct (beqb key (firstn (List.length key) root_name)); [congruence|].
  destruct (tok_mem_at _ _ _ To) as [B2 [O1 O2]]. rewrite O1. cbn [obind]. rewrite (O2 HJ).
  replace (N.to_nat (blen (s2b "{" ++ x))) with (S (List.length x)) by (unfold blen; cbn; lia).
  cbn [s2b map list_ascii_of_string app].
  change (strncmp_eq root_name (N_of_ascii "{" :: x ++ B2) (S (List.length x))) with (@Ok bool false). cbn [obind].
  pose proof (find_root_leaves (document w key ms) toks [o0; k0; o2] (Some init_voucher) HJ (pairs_texts _ _ _ Hms Hpa) Hlf) as F.
  cbn [app List.length] in F. rewrite F. reflexivity.
Qed.

(** ** Findings *)

Lemma injection_refuted : exists s v w text, cstr_ok s /\
  set_attr_str true (Some init_voucher) ASerial (Some (s ++ [0])) = Ok (0%Z, Some v) /\
  serialize_voucher (Some v) = Ok (Some text) /\ deserialize_voucher true (Some text) = Ok (Some w) /\
  get_attr_str (Some w) ASerial = Some (Some (s2b "x")) /\ get_attr_str (Some v) ASerial = Some (Some s) /\ s <> s2b "x" /\
  get_attr_array (Some v) ANonce = Some ba_null /\ get_attr_array (Some w) ANonce = Some (ba_of [0; 0; 0]).
Proof.
  exists (s2b "x"",""nonce"":""AAAA"), (with_serial init_voucher (Some (s2b "x"",""nonce"":""AAAA"))),
    (with_nonce (with_serial init_voucher (Some (s2b "x"))) (ba_of [0;0;0])),
    (s2b "{""ietf-voucher:voucher"":{""serial-number"":""x"",""nonce"":""AAAA"",""domain-cert-revocation-checks"":false}}").
  split; [apply cstr_okb_ok; vm_compute; reflexivity|]. repeat split; try (vm_compute; reflexivity). discriminate.
Qed.

Lemma empty_root_refuted : exists json v, bytes_ok json /\ ~ occurs root_name json /\
  deserialize_voucher true (Some json) = Ok (Some v) /\ get_attr_str (Some v) ASerial = Some (Some (s2b "12")).
Proof.
  exists (s2b "{"""":{""serial-number"":""12""}}"), (with_serial init_voucher (Some (s2b "12"))).
  split; [apply bytes_okb_ok; vm_compute; reflexivity|]. split; [|split; vm_compute; reflexivity].
  intros [A [B E]]. assert (Hi : In 102 (s2b "{"""":{""serial-number"":""12""}}")).
  { rewrite E. apply in_or_app. right. apply in_or_app. left. vm_compute. tauto. }
  vm_compute in Hi. intuition discriminate.
Qed.

Lemma parse_oom_refuted : exists json, bytes_ok json /\ deserialize_voucher false (Some json) = UB NullDeref.
Proof.
  exists (s2b "{""ietf-voucher:voucher"":{""serial-number"":""12""}}").
  split; [apply bytes_okb_ok; vm_compute; reflexivity|]. vm_compute. reflexivity.
Qed.

(** The text behind the end of the voucher object decides the nonce. *)
Lemma outside_refuted : exists text s1 s2 v1 v2,
  text = s2b "{""ietf-voucher:voucher"":{""nonce"" ""AAAA""}" /\
  deserialize_voucher true (Some (text ++ s1)) = Ok (Some v1) /\
  deserialize_voucher true (Some (text ++ s2)) = Ok (Some v2) /\
  get_attr_array (Some v1) ANonce = Some (ba_of [4; 16; 65]) /\
  get_attr_array (Some v2) ANonce = Some (ba_of [8; 32; 130]).
Proof.
  exists (s2b "{""ietf-voucher:voucher"":{""nonce"" ""AAAA""}"), (s2b ",""nonce"":""BBBB""}"), (s2b ",""nonce"":""CCCC""}"),
    (with_nonce init_voucher (ba_of [4;16;65])), (with_nonce init_voucher (ba_of [8;32;130])).
  repeat split; vm_compute; reflexivity.
Qed.

Lemma object_value_refuted : exists json v, bytes_ok json /\
  json = s2b "{""ietf-voucher:voucher"":{""serial-number"":{""a"":[1,2]}}}" /\
  deserialize_voucher true (Some json) = Ok (Some v) /\
  get_attr_str (Some v) ASerial = Some (Some (s2b "{""a"":[1,2]}")).
Proof.
  exists (s2b "{""ietf-voucher:voucher"":{""serial-number"":{""a"":[1,2]}}}"),
    (with_serial init_voucher (Some (s2b "{""a"":[1,2]}"))).
  split; [apply bytes_okb_ok; vm_compute; reflexivity|]. repeat split; vm_compute; reflexivity.
Qed.

(** Valid JSON whose voucher object has the unknown member "foo" is accepted,
    and a member of a nested object becomes the nonce. *)
Lemma unknown_key_refuted : exists json v,
  json = s2b "{""ietf-voucher:voucher"":{""serial-number"":{""nonce"":""AAAA""},""foo"":""x""}}" /\
  deserialize_voucher true (Some json) = Ok (Some v) /\
  get_attr_str (Some v) ASerial = Some (Some (s2b "{""nonce"":""AAAA""}")) /\
  get_attr_array (Some v) ANonce = Some (ba_of [0; 0; 0]) /\
  (forall a, In a all_attrs -> attr_name a <> s2b "foo").
Proof.
  exists (s2b "{""ietf-voucher:voucher"":{""serial-number"":{""nonce"":""AAAA""},""foo"":""x""}}"),
    (with_nonce (with_serial init_voucher (Some (s2b "{""nonce"":""AAAA""}"))) (ba_of [0;0;0])).
  split; [reflexivity|]. split; [vm_compute; reflexivity|]. split; [vm_compute; reflexivity|].
  split; [vm_compute; reflexivity|]. intros a _ H. destruct a; discriminate H.
Qed.

(** A voucher with every attribute meets the precondition of the round trip. *)
Definition full_voucher : voucher :=
  let t := mk_tm 1 2 3 4 5 120 0 0 0 in
  mk_v t t 3 (Some (s2b "pledge-1")) (ba_of [1]) (ba_of [2;3]) true (ba_of [4;5;6]) t (ba_of [7;8;9;10]) (ba_of [255]).

Lemma full_ready : json_ready full_voucher.
Proof.
  split; [|split; [|split; [cbn; lia|]]].
  - intros a t H. right. destruct a; cbn in H; inversion H; subst; cbn; lia.
  - intros a b H. right. destruct a; cbn in H; inversion H; subst; eexists; (split; [reflexivity|]); (split; [discriminate|]);
      (split; [apply bytes_okb_ok; reflexivity|reflexivity]).
  - intros s H. cbn in H. inversion H; subst. split; [chars|reflexivity].
Qed.
