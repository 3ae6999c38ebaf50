(** Proofs: the text of a voucher. *)
From Coq Require Import ZifyBool ZifyNat ZifyN.
From Verif Require Import Base PBase MBase64 SBase64 MSerialize SSerialize PSerialize MVoucher SVoucher SJson PVoucherRound MCrypto MRequest SRequest PRequest6 SVoucherRfc.
Open Scope N_scope.

Definition said (v : voucher) (a : attr) : list bytes :=
  match a with
  | ACreatedOn => date_member (s2b "created-on") (v_created v)
  | AExpiresOn => date_member (s2b "expires-on") (v_expires v)
  | AAssertion => assertion_member (v_assertion v)
  | ASerial => match v_serial v with None => [] | Some s => [named_value (s2b "serial-number") (in_quotes s)] end
  | AIssuer => binary_member (s2b "idevid-issuer") (v_issuer v)
  | APinned => binary_member (s2b "pinned-domain-cert") (v_pinned v)
  | ARevocation => [if v_revocation v then s2b """domain-cert-revocation-checks"":true" else s2b """domain-cert-revocation-checks"":false"]
  | ANonce => binary_member (s2b "nonce") (v_nonce v)
  | ALastRenewal => date_member (s2b "last-renewal-date") (v_renewal v)
  | APrior => binary_member (s2b "prior-signed-voucher-request") (v_prior v)
  | AProximity => binary_member (s2b "proximity-registrar-cert") (v_proximity v)
  | ABad _ => []
  end.
Definition piece (kv : bytes * bytes) : bytes := fst kv ++ s2b ":" ++ snd kv.

Lemma date_said name t : date_ready t -> if is_attr_time_nonempty t then exists x, escape_serialize_time t = Ok (Some x) /\ date_member name t = [piece ([34] ++ name ++ [34], x)] else date_member name t = [].
Proof.
  intros [->|(H1 & H2 & H3 & H4 & H5 & H6)]; [reflexivity|]. assert (N0 : is_attr_time_nonempty t = true) by (unfold is_attr_time_nonempty; lia). rewrite N0.
  destruct (time_roundtrip_tm t H1 H2 H3 H4 H5 H6) as (s & S1 & _ & S3 & _). exists ([34] ++ s ++ [34]). unfold escape_serialize_time. rewrite S1, escapestr_ok. split; [reflexivity|].
  unfold date_member. destruct (tm_mday t =? 0)%Z eqn:E; [lia|]. rewrite <- S3. reflexivity.
Qed.
Lemma binary_said name b : array_ready b -> if is_attr_array_nonempty (Some b) then exists x, escape_serialize_array b = Ok (Some x) /\ binary_member name b = [piece ([34] ++ name ++ [34], x)] else binary_member name b = [].
Proof.
  intros [->|(d & -> & D0 & D1 & D2)]; [reflexivity|]. cbn [is_attr_array_nonempty ba_of ba_data]. exists (jrender (JQuoted (rfc_encode d))). split; [apply array_text; assumption|]. reflexivity.
Qed.
Lemma attr_said v a : json_ready v -> if is_attr_nonempty v a then exists x, serialize_attr v a = Ok (Some x) /\ said v a = [piece ([34] ++ attr_name a ++ [34], x)] else said v a = [].
Proof.
  intros (RT & RA & RE & RS). destruct a; cbn [is_attr_nonempty serialize_attr said attr_name];
    try (apply date_said; apply (RT ACreatedOn); reflexivity); try (apply date_said; apply (RT AExpiresOn); reflexivity); try (apply date_said; apply (RT ALastRenewal); reflexivity);
    try (apply binary_said; apply (RA AIssuer); reflexivity); try (apply binary_said; apply (RA APinned); reflexivity); try (apply binary_said; apply (RA ANonce); reflexivity); try (apply binary_said; apply (RA APrior); reflexivity); try (apply binary_said; apply (RA AProximity); reflexivity).
  - assert (C : (v_assertion v = 0 \/ v_assertion v = 1 \/ v_assertion v = 2 \/ v_assertion v = 3)%Z) by lia.
    destruct C as [C|[C|[C|C]]]; rewrite C; cbn [assertion_name obind Z.eqb Pos.eqb negb]; try reflexivity; rewrite escapestr_ok; eexists; split; reflexivity.
  - destruct (v_serial v) as [s|]; [|reflexivity]. rewrite escapestr_ok. eexists. split; reflexivity.
  - destruct (v_revocation v); cbn [serialize_bool2str obind]; eexists; split; reflexivity.
  - reflexivity.
Qed.
Lemma keyvalue_said v : json_ready v -> forall attrs acc, exists l, voucher_to_keyvalue v attrs acc = Ok (Some (acc ++ l)) /\ map piece l = flat_map (said v) attrs /\ (List.length l <= List.length attrs)%nat.
Proof.
  intro R. induction attrs as [|a attrs IH]; intro acc; cbn [voucher_to_keyvalue flat_map].
  - exists []. rewrite app_nil_r. repeat split. cbn. lia.
  - pose proof (attr_said v a R) as A. destruct (is_attr_nonempty v a).
    + destruct A as (x & E & S1). rewrite escapestr_ok. cbn [obind]. rewrite E. cbn [obind]. destruct (IH (acc ++ [([34] ++ attr_name a ++ [34], x)])) as (l & L1 & L2 & L3).
      exists (([34] ++ attr_name a ++ [34], x) :: l). split; [etransitivity; [exact L1|]; rewrite <- app_assoc; reflexivity|]. split; [|cbn [List.length]; lia]. rewrite S1. cbn [map app]. f_equal. exact L2.
    + rewrite A. destruct (IH acc) as (l & L1 & L2 & L3). exists l. split; [exact L1|]. split; [exact L2|cbn [List.length]; lia].
Qed.
Lemma text_written v : json_ready v -> serialize_voucher (Some v) = Ok (Some (rfc8366_text v)).
Proof.
  intro R. unfold serialize_voucher, serialize_child_voucher. destruct (keyvalue_said v R all_attrs []) as (l & L1 & L2 & L3). rewrite L1. cbn [obind app].
  assert (EM : flat_map (said v) all_attrs = voucher_members v) by (unfold voucher_members; cbn [flat_map all_attrs said]; rewrite app_nil_r; reflexivity). rewrite EM in L2.
  assert (NE : l <> []).
  { intros ->. cbn [map] in L2. assert (I : In (if v_revocation v then s2b """domain-cert-revocation-checks"":true" else s2b """domain-cert-revocation-checks"":false") (flat_map (said v) all_attrs)).
    { apply in_flat_map. exists ARevocation. split; [cbn; tauto|left; reflexivity]. }
    rewrite EM, <- L2 in I. destruct I. }
  rewrite keyvalue2json_ok; [|exact NE|cbn [List.length all_attrs] in L3; lia]. cbn [obind]. rewrite escapestr_ok. cbn [obind]. rewrite keyvalue2json_ok; [|discriminate|cbn; lia].
  unfold rfc8366_text. rewrite <- L2. unfold kv_json at 1. cbn [map fst snd join]. unfold kv_json. do 2 f_equal. unfold root_name. change (fun kv : bytes * bytes => fst kv ++ s2b ":" ++ snd kv) with piece. rewrite <- !app_assoc. reflexivity.
Qed.
Lemma text_both v : json_ready v -> serialize_voucher (Some v) = Ok (Some (rfc8366_text v)) /\
  (blen (rfc8366_text v) < 2147483648 -> exists w, deserialize_voucher true (Some (rfc8366_text v)) = Ok (Some w) /\ same_voucher v w).
Proof.
  intro R. pose proof (text_written v R) as W. split; [exact W|]. destruct (json_roundtrip v R) as (t & T1 & T2). rewrite W in T1. injection T1 as <-. exact T2.
Qed.

Lemma not_request t : ~ request_text (s2b "{""ietf-voucher:voucher"":{" ++ t).
Proof. intros (r & E). discriminate E. Qed.
Lemma made_refuted : exists created serial nonce rtls cert key t, sign_pledge_voucher_request toy created serial nonce rtls cert key None = Ok (Some (1 :: t)) /\ ~ request_text t.
Proof.
  exists (Some tm_case), (Some (s2b "A")), (Some (ba_of [1; 2; 3])), (Some (ba_of [2; 7])), (id_cert 1), (id_key 1). eexists. split; [vm_compute; reflexivity|]. intros (r & E). discriminate E.
Qed.
Lemma never_request v : json_ready v -> exists t, serialize_voucher (Some v) = Ok (Some t) /\ ~ request_text t.
Proof. intro R. exists (rfc8366_text v). split; [apply text_written, R|]. apply not_request. Qed.
Lemma requests_refused w ms : layout_ok w -> Forall member_ok ms -> (List.length ms <= 14)%nat -> blen (document w request_name ms) < 2147483648 -> deserialize_voucher true (Some (document w request_name ms)) = Ok None.
Proof.
  intros L M N0 B. apply document_wrong_root; try assumption.
  - unfold request_name. match goal with |- Forall ?P ?l => let l' := eval vm_compute in l in change (Forall P l') end. repeat first [apply Forall_nil | apply Forall_cons; [unfold plain_char; lia|]].
  - unfold prefix_of_root. intros (r & E). discriminate E.
Qed.
