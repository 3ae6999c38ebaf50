(** Proofs about the scalar and key/value text forms. *)
From Coq Require Import ZifyBool ZifyNat ZifyN.
From Verif Require Import Base PBase MBase64 PBase64 MSerialize SSerialize.
Open Scope N_scope.
Ltac Zify.zify_post_hook ::= Z.div_mod_to_equations.

(** ** Key/value JSON *)

Lemma sprintf_ok : forall cap t, blen t + 1 <= cap -> sprintf_chk cap t = Ok t.
Proof. intros cap t H. unfold sprintf_chk. destruct (blen t + 1 <=? cap) eqn:E; [reflexivity|lia]. Qed.

Lemma strcat_ok : forall cap d s, blen d + blen s + 1 <= cap -> strcat_chk cap d s = Ok (d ++ s).
Proof. intros cap d s H. unfold strcat_chk. destruct (blen d + blen s + 1 <=? cap) eqn:E; [reflexivity|lia]. Qed.

Definition piece (kv : bytes * bytes) : bytes := fst kv ++ s2b ":" ++ snd kv.

Lemma concat_ok : forall k v sep,
  concatenate_keyvalue k v sep = Ok (piece (k, v) ++ if sep then [44] else []).
Proof.
  intros k v [|]; unfold concatenate_keyvalue, piece; cbn [fst snd];
    rewrite sprintf_ok by (rewrite !blen_app; cbn [blen List.length]; unfold blen; cbn [List.length]; lia).
  - change (s2b ":") with [58]. rewrite <- !app_assoc. reflexivity.
  - change (s2b ":") with [58]. rewrite app_nil_r. reflexivity.
Qed.

Lemma kv_loop_ok : forall kvs count idx json,
  kvs <> [] -> count = idx + N.of_nat (List.length kvs) ->
  kv_loop count idx json (blen json + 1) kvs =
  Ok (json ++ join (s2b ",") (map piece kvs),
      blen (json ++ join (s2b ",") (map piece kvs)) + 1).
Proof.
  induction kvs as [|[k v] rest IH]; intros count idx json Hne Hcount; [contradiction|].
  cbn [kv_loop]. rewrite concat_ok. cbn [obind].
  destruct rest as [|kv2 rest].
  - cbn [List.length] in Hcount.
    assert (E : (idx <? count - 1) = false) by lia. rewrite E, app_nil_r.
    rewrite strcat_ok by lia. cbn [obind kv_loop map join].
    rewrite blen_app. f_equal. f_equal. lia.
  - cbn [List.length] in Hcount.
    assert (E : (idx <? count - 1) = true) by lia. rewrite E.
    rewrite strcat_ok by lia. cbn [obind].
    replace (blen json + 1 + blen (piece (k, v) ++ [44]))
      with (blen (json ++ piece (k, v) ++ [44]) + 1) by (rewrite !blen_app; lia).
    rewrite IH; [|discriminate|cbn [List.length]; lia].
    change (map piece ((k, v) :: kv2 :: rest)) with (piece (k, v) :: map piece (kv2 :: rest)).
    assert (Hj : join (s2b ",") (piece (k, v) :: map piece (kv2 :: rest))
                 = piece (k, v) ++ [44] ++ join (s2b ",") (map piece (kv2 :: rest))) by reflexivity.
    rewrite Hj, <- !app_assoc. reflexivity.
Qed.

Lemma keyvalue2json_ok : forall kvs, kvs <> [] -> N.of_nat (List.length kvs) < 4294967296 ->
  serialize_keyvalue2json (Some kvs) = Ok (Some (kv_json kvs)).
Proof.
  intros kvs Hne Hlen. unfold serialize_keyvalue2json.
  rewrite N.mod_small by exact Hlen.
  destruct (N.of_nat (List.length kvs) =? 0) eqn:E.
  - destruct kvs; [contradiction|]. cbn [List.length] in E. lia.
  - rewrite strcat_ok by (unfold blen; cbn [List.length]; lia). cbn [obind app].
    rewrite kv_loop_ok; [|exact Hne|lia]. cbn [obind].
    rewrite strcat_ok by (unfold blen; cbn [List.length]; lia). cbn [obind].
    unfold kv_json. rewrite <- app_assoc. reflexivity.
Qed.

Lemma keyvalue2json_empty : serialize_keyvalue2json (Some []) = Ok None
  /\ serialize_keyvalue2json None = Ok None.
Proof. split; reflexivity. Qed.

(** ** Booleans *)

Lemma lower_copy_ok : forall s rest acc,
  (List.length acc + List.length s < 6)%nat ->
  lower_copy (s ++ rest) (List.length s) acc = Ok (rev acc ++ map tolower s ++ [0]).
Proof.
  induction s as [|c s IH]; intros rest acc H; cbn [List.length lower_copy app map].
  - rewrite put_ok by (unfold blen; cbn in H; lia). reflexivity.
  - cbn [List.length] in H. rewrite put_ok by (unfold blen; lia). cbn [obind].
    rewrite IH by (cbn [List.length]; lia). cbn [rev]. rewrite <- app_assoc. reflexivity.
Qed.

Lemma upto_nul_cstr : forall s rest, Forall (fun c => 0 < c) s -> upto_nul (s ++ 0 :: rest) = s.
Proof.
  induction s as [|c s IH]; intros rest H; [reflexivity|].
  inversion H; subst. cbn [app upto_nul]. destruct (c =? 0) eqn:E; [lia|].
  rewrite IH by assumption. reflexivity.
Qed.

Lemma lower_pos : forall s, cstr_ok s -> Forall (fun c => 0 < c) (map tolower s).
Proof.
  intros s H. apply Forall_map. eapply Forall_impl; [|exact H]. cbn. intros c Hc.
  unfold tolower. destruct ((65 <=? c) && (c <=? 90)); lia.
Qed.

Lemma lower_ci : forall w s, Forall (fun l => 97 <= l <= 122) w ->
  (map tolower s = w <-> ci_eq s w).
Proof.
  induction w as [|l w IH]; intros s Hw; split; intros H.
  - destruct s; [constructor|discriminate].
  - inversion H; subst. reflexivity.
  - destruct s as [|c s]; [discriminate|]. cbn [map] in H. inversion Hw; subst.
    injection H as Hc Hs. constructor.
    + unfold tolower in Hc. destruct ((65 <=? c) && (c <=? 90)); lia.
    + apply IH; assumption.
  - inversion H as [|c ? s' ? Hc Hs]; subst. inversion Hw; subst. cbn [map]. f_equal.
    + unfold tolower. destruct ((65 <=? c) && (c <=? 90)) eqn:E; lia.
    + apply IH; assumption.
Qed.

Lemma word_true : Forall (fun l => 97 <= l <= 122) (s2b "true").
Proof. cbn. repeat (constructor; [lia|]). constructor. Qed.
Lemma word_false : Forall (fun l => 97 <= l <= 122) (s2b "false").
Proof. cbn. repeat (constructor; [lia|]). constructor. Qed.

Lemma ci_len : forall s w, ci_eq s w -> List.length s = List.length w.
Proof. intros s w H. induction H; cbn; congruence. Qed.

Lemma ci_one : ~ ci_eq [49] (s2b "true") /\ ~ ci_eq [48] (s2b "true") /\
               ~ ci_eq [49] (s2b "false") /\ ~ ci_eq [48] (s2b "false").
Proof. repeat split; intros H; apply ci_len in H; discriminate. Qed.

Lemma str2bool_spec : forall s rest, cstr_ok s ->
  exists r, serialize_str2bool (Some (s ++ rest)) (blen s) = Ok r /\
    (r = 1%Z <-> means_true s) /\ (r = 0%Z <-> means_false s) /\
    (r = 1%Z \/ r = 0%Z \/ r = (-1)%Z).
Proof.
  intros s rest Hs.
  assert (Hdis : ~ (ci_eq s (s2b "true") /\ ci_eq s (s2b "false"))).
  { intros [H1 H2]. apply ci_len in H1. apply ci_len in H2. rewrite H1 in H2. discriminate. }
  unfold serialize_str2bool.
  destruct (blen s =? 0) eqn:E0.
  { destruct s; [|rewrite blen_cons in E0; lia].
    exists (-1)%Z. split; [reflexivity|]. unfold means_true, means_false.
    repeat split; try tauto; try lia;
      (intros [H|H]; [discriminate|apply ci_len in H; discriminate]). }
  destruct (5 <? blen s) eqn:E5.
  { exists (-1)%Z. split; [reflexivity|]. unfold blen in E5.
    repeat split; try tauto; try lia;
      (intros [H|H]; [subst s; cbn in E5; lia|apply ci_len in H; cbn in H; lia]). }
  destruct s as [|c s']; [cbn in E0; discriminate|].
  cbn [app]. destruct ((c =? 48) && (blen (c :: s') =? 1)) eqn:E48.
  { assert (s' = []) by (rewrite blen_cons in E48; destruct s'; [reflexivity|rewrite blen_cons in E48; lia]).
    subst s'. assert (c = 48) by lia. subst c.
    exists 0%Z. split; [reflexivity|]. pose proof ci_one as C. unfold means_true, means_false.
    repeat split; try tauto; try lia; intros [H|H]; try discriminate; exfalso; tauto. }
  destruct ((c =? 49) && (blen (c :: s') =? 1)) eqn:E49.
  { assert (s' = []) by (rewrite blen_cons in E49; destruct s'; [reflexivity|rewrite blen_cons in E49; lia]).
    subst s'. assert (c = 49) by lia. subst c.
    exists 1%Z. split; [reflexivity|]. pose proof ci_one as C. unfold means_true, means_false.
    repeat split; try tauto; try lia; intros [H|H]; try discriminate; exfalso; tauto. }
  replace (N.to_nat (blen (c :: s'))) with (List.length (c :: s')) by (unfold blen; lia).
  change (c :: s' ++ rest) with ((c :: s') ++ rest).
  rewrite lower_copy_ok by (unfold blen in *; cbn [List.length] in *; lia).
  cbn [obind]. change (rev [] ++ ?x) with x.
  rewrite upto_nul_cstr by (apply lower_pos; assumption).
  set (s := c :: s') in *.
  assert (N1 : s <> s2b "1") by (intros H; unfold s in H; injection H as -> ->; cbn in E49; discriminate).
  assert (N0 : s <> s2b "0") by (intros H; unfold s in H; injection H as -> ->; cbn in E48; discriminate).
  pose proof (lower_ci _ s word_false) as LF. pose proof (lower_ci _ s word_true) as LT.
  unfold means_true, means_false.
  destruct (beqb (map tolower s) (s2b "false")) eqn:EF.
  { apply beqb_eq in EF. apply LF in EF. exists 0%Z. split; [reflexivity|].
    repeat split; try tauto; try lia. }
  destruct (beqb (map tolower s) (s2b "true")) eqn:ET.
  { apply beqb_eq in ET. apply LT in ET. exists 1%Z. split; [reflexivity|].
    repeat split; try tauto; try lia. }
  apply beqb_neq in EF. apply beqb_neq in ET.
  exists (-1)%Z. split; [reflexivity|]. repeat split; try tauto; try lia.
Qed.

Lemma bool_roundtrip : forall b rest, exists s,
  serialize_bool2str b = Ok s /\ cstr_ok s /\
  serialize_str2bool (Some (s ++ rest)) (blen s) = Ok (if b then 1%Z else 0%Z).
Proof.
  intros [|] rest.
  - exists (s2b "true"). split; [reflexivity|]. split; [apply cstr_okb_ok; reflexivity|]. reflexivity.
  - exists (s2b "false"). split; [reflexivity|]. split; [apply cstr_okb_ok; reflexivity|]. reflexivity.
Qed.

(** ** Date and time *)

Lemma strf_two : forall v, v < 100 -> strf_num 2 (Z.of_N v) = two v.
Proof.
  intros v Hv. apply beqb_eq. revert v Hv. apply (all_range 100). vm_compute. reflexivity.
Qed.

Lemma strf_four : forall y, 1000 <= y <= 9999 -> strf_num 1 (Z.of_N y) = four y.
Proof.
  intros y Hy. apply beqb_eq.
  enough (H : (fun z => (z <? 1000) || beqb (strf_num 1 (Z.of_N z)) (four z)) y = true).
  { cbv beta in H. destruct (y <? 1000) eqn:E; [lia|]. exact H. }
  apply (all_range (N.to_nat 10000) (fun z => (z <? 1000) || beqb (strf_num 1 (Z.of_N z)) (four z)));
    [vm_compute; reflexivity|lia].
Qed.

Lemma digit_dec : forall k v, 48 <= digit_at k v <= 57.
Proof. intros k v. unfold digit_at. generalize (v / 10 ^ k). intros x. lia. Qed.

Lemma isdigit_at : forall k v, isdigit (digit_at k v) = true.
Proof. intros k v. pose proof (digit_dec k v). unfold isdigit. lia. Qed.

Lemma isspace_at : forall k v, isspace (digit_at k v) = false.
Proof. intros k v. pose proof (digit_dec k v). unfold isspace. lia. Qed.

Lemma get_two : forall lo hi v rest, v < 100 -> (lo <= Z.of_N v <= hi)%Z ->
  get_number lo hi 2 (two v ++ rest) = Some (Z.of_N v, rest).
Proof.
  intros lo hi v rest Hv Hr. unfold get_number, two. cbn [app skip_space].
  rewrite isspace_at, isdigit_at. cbn [Nat.sub get_digits]. rewrite isdigit_at. cbn [andb].
  assert (D1 : digit_at 1 v = 48 + v / 10) by (unfold digit_at; change (10 ^ 1) with 10; lia).
  assert (D0 : digit_at 0 v = 48 + v mod 10) by (unfold digit_at; change (10 ^ 0) with 1; lia).
  rewrite D1, D0.
  destruct ((Z.of_N (48 + v / 10) - 48) * 10 <=? hi)%Z eqn:E; [|lia].
  replace ((Z.of_N (48 + v / 10) - 48) * 10 + (Z.of_N (48 + v mod 10) - 48))%Z with (Z.of_N v) by lia.
  destruct ((Z.of_N v <? lo)%Z || (hi <? Z.of_N v)%Z) eqn:E2; [lia|reflexivity].
Qed.

Lemma get_four : forall v rest, v <= 9999 ->
  get_number 0 9999 4 (four v ++ rest) = Some (Z.of_N v, rest).
Proof.
  intros v rest Hv. unfold get_number, four. cbn [app skip_space].
  rewrite isspace_at, isdigit_at. cbn [Nat.sub get_digits]. rewrite !isdigit_at. cbn [andb].
  assert (D3 : digit_at 3 v = 48 + v / 1000) by (unfold digit_at; change (10 ^ 3) with 1000; lia).
  assert (D2 : digit_at 2 v = 48 + v / 100 mod 10) by (unfold digit_at; change (10 ^ 2) with 100; lia).
  assert (D1 : digit_at 1 v = 48 + v / 10 mod 10) by (unfold digit_at; change (10 ^ 1) with 10; lia).
  assert (D0 : digit_at 0 v = 48 + v mod 10) by (unfold digit_at; change (10 ^ 0) with 1; lia).
  rewrite D3, D2, D1, D0.
  assert (A : (Z.of_N (48 + v / 1000) - 48 = Z.of_N (v / 1000))%Z) by lia. rewrite A.
  assert (B : (Z.of_N (v / 1000) * 10 + (Z.of_N (48 + v / 100 mod 10) - 48) = Z.of_N (v / 100))%Z) by lia.
  rewrite B.
  assert (C : (Z.of_N (v / 100) * 10 + (Z.of_N (48 + v / 10 mod 10) - 48) = Z.of_N (v / 10))%Z) by lia.
  rewrite C.
  assert (D : (Z.of_N (v / 10) * 10 + (Z.of_N (48 + v mod 10) - 48) = Z.of_N v)%Z) by lia.
  rewrite D.
  destruct (Z.of_N (v / 1000) * 10 <=? 9999)%Z eqn:E1; [|lia].
  destruct (Z.of_N (v / 100) * 10 <=? 9999)%Z eqn:E2; [|lia].
  destruct (Z.of_N (v / 10) * 10 <=? 9999)%Z eqn:E3; [|lia].
  destruct ((Z.of_N v <? 0)%Z || (9999 <? Z.of_N v)%Z) eqn:E4; [lia|reflexivity].
Qed.

Definition tm_of (y mo d h mi s : N) (wday yday isdst : Z) : tm :=
  mk_tm (Z.of_N s) (Z.of_N mi) (Z.of_N h) (Z.of_N d) (Z.of_N mo - 1) (Z.of_N y - 1900) wday yday isdst.

Lemma iso_len : forall y mo d h mi s, blen (iso_text y mo d h mi s) = 20.
Proof. reflexivity. Qed.

Lemma time2str_ok : forall y mo d h mi s w yd dst,
  1000 <= y <= 9999 -> mo < 100 -> d < 100 -> h < 100 -> mi < 100 -> s < 100 ->
  serialize_time2str (tm_of y mo d h mi s w yd dst) = Some (iso_text y mo d h mi s).
Proof.
  intros y mo d h mi s w yd dst Hy Hmo Hd Hh Hmi Hs.
  unfold serialize_time2str, strftime_iso, tm_of. cbn [tm_sec tm_min tm_hour tm_mday tm_mon tm_year].
  replace (Z.of_N y - 1900 + 1900)%Z with (Z.of_N y) by lia.
  replace (Z.of_N mo - 1 + 1)%Z with (Z.of_N mo) by lia.
  rewrite strf_four by assumption. rewrite !strf_two by assumption. reflexivity.
Qed.

Lemma str2time_iso : forall y mo d h mi s rest,
  y <= 9999 -> 1 <= mo <= 12 -> 1 <= d <= 31 -> h <= 23 -> mi <= 59 -> s <= 61 ->
  exists w yd, strptime_iso (iso_text y mo d h mi s ++ rest) =
    Some (tm_of y mo d h mi s w yd 0, rest).
Proof.
  intros y mo d h mi s rest Hy Hmo Hd Hh Hmi Hs.
  unfold strptime_iso, iso_text.
  change (s2b "-") with [45]. change (s2b "T") with [84]. change (s2b ":") with [58].
  change (s2b "Z") with [90]. rewrite <- !app_assoc.
  rewrite get_four by assumption. cbn [obnd app get_lit]. rewrite N.eqb_refl. cbn [obnd].
  rewrite get_two by lia. cbn [obnd app get_lit]. rewrite N.eqb_refl. cbn [obnd].
  rewrite get_two by lia. cbn [obnd app get_lit]. rewrite N.eqb_refl. cbn [obnd].
  rewrite get_two by lia. cbn [obnd app get_lit]. rewrite N.eqb_refl. cbn [obnd].
  rewrite get_two by lia. cbn [obnd app get_lit]. rewrite N.eqb_refl. cbn [obnd].
  rewrite get_two by lia. cbn [obnd app get_lit]. rewrite N.eqb_refl. cbn [obnd].
  do 2 eexists. reflexivity.
Qed.

Lemma time_roundtrip : forall y mo d h mi s w yd dst,
  1000 <= y <= 9999 -> 1 <= mo <= 12 -> 1 <= d <= 31 -> h <= 23 -> mi <= 59 -> s <= 61 ->
  serialize_time2str (tm_of y mo d h mi s w yd dst) = Some (iso_text y mo d h mi s) /\
  exists w' yd', serialize_str2time (Some (iso_text y mo d h mi s))
    = Some (tm_of y mo d h mi s w' yd' 0).
Proof.
  intros y mo d h mi s w yd dst Hy Hmo Hd Hh Hmi Hs. split.
  - apply time2str_ok; lia.
  - destruct (str2time_iso y mo d h mi s []) as [w' [yd' H]]; try lia.
    rewrite app_nil_r in H. exists w', yd'. unfold serialize_str2time. rewrite H. reflexivity.
Qed.

(** Shape of accepted texts. *)

Lemma skip_space_split : forall s, exists sp, s = sp ++ skip_space s /\ Forall is_blank sp.
Proof.
  induction s as [|c s [sp [H1 H2]]].
  - exists []. split; [reflexivity|constructor].
  - cbn [skip_space]. destruct (isspace c) eqn:E.
    + exists (c :: sp). split; [cbn; congruence|]. constructor; [|exact H2].
      unfold isspace in E. unfold is_blank. lia.
    + exists []. split; [reflexivity|constructor].
Qed.

Lemma get_digits_split : forall n hi val s v rest,
  get_digits n hi val s = (v, rest) ->
  exists ds, s = ds ++ rest /\ Forall is_dec ds /\ (List.length ds <= n)%nat /\
    v = fold_left (fun a c => (a * 10 + (Z.of_N c - 48))%Z) ds val.
Proof.
  induction n as [|n IH]; intros hi val s v rest H; cbn [get_digits] in H.
  - inversion H; subst. exists []. repeat split; constructor.
  - destruct s as [|c r].
    + inversion H; subst. exists []. repeat split; try constructor. cbn; lia.
    + destruct (isdigit c && (val * 10 <=? hi)%Z) eqn:E.
      * apply IH in H. destruct H as [ds [H1 [H2 [H3 H4]]]].
        exists (c :: ds). repeat split.
        -- cbn. congruence.
        -- constructor; [|exact H2]. unfold isdigit in E. unfold is_dec. lia.
        -- cbn. lia.
        -- exact H4.
      * inversion H; subst. exists []. repeat split; try constructor. cbn; lia.
Qed.

Lemma get_number_split : forall lo hi n s v rest, (1 <= n)%nat ->
  get_number lo hi n s = Some (v, rest) ->
  exists f, s = f ++ rest /\ field_text lo hi n v f.
Proof.
  intros lo hi n s v rest Hn H. unfold get_number in H.
  destruct (skip_space_split s) as [sp [Hs Hsp]].
  destruct (skip_space s) as [|c r]; [discriminate|].
  destruct (isdigit c) eqn:E; [|discriminate].
  destruct (get_digits (n - 1) hi (Z.of_N c - 48) r) as [v' rest'] eqn:G.
  destruct ((v' <? lo)%Z || (hi <? v')%Z) eqn:R; [discriminate|].
  inversion H; subst v' rest'. apply get_digits_split in G.
  destruct G as [ds [G1 [G2 [G3 G4]]]].
  exists (sp ++ c :: ds). split; [rewrite Hs, G1, <- app_assoc; reflexivity|].
  exists sp, (c :: ds). repeat split; try assumption.
  - constructor; [|assumption]. unfold isdigit in E. unfold is_dec. lia.
  - cbn. lia.
  - cbn. lia.
  - lia.
  - lia.
Qed.

Lemma get_lit_split : forall c s rest, get_lit c s = Some rest -> s = [c] ++ rest.
Proof.
  intros c [|x s] rest H; [discriminate|]. cbn in H.
  destruct (x =? c) eqn:E; [|discriminate]. inversion H; subst. cbn. f_equal. lia.
Qed.

Lemma strptime_shape : forall s t rest, strptime_iso s = Some (t, rest) ->
  exists fy fmo fd fh fmi fs,
    s = fy ++ s2b "-" ++ fmo ++ s2b "-" ++ fd ++ s2b "T" ++ fh ++ s2b ":" ++ fmi
        ++ s2b ":" ++ fs ++ s2b "Z" ++ rest /\
    field_text 0 9999 4 (tm_year t + 1900) fy /\ field_text 1 12 2 (tm_mon t + 1) fmo /\
    field_text 1 31 2 (tm_mday t) fd /\ field_text 0 23 2 (tm_hour t) fh /\
    field_text 0 59 2 (tm_min t) fmi /\ field_text 0 61 2 (tm_sec t) fs.
Proof.
  intros s t rest H. unfold strptime_iso in H.
  destruct (get_number 0 9999 4 s) as [[y s1]|] eqn:E1; [|discriminate]. cbn [obnd] in H.
  destruct (get_lit 45 s1) as [s2|] eqn:L1; [|discriminate]. cbn [obnd] in H.
  destruct (get_number 1 12 2 s2) as [[mo s3]|] eqn:E2; [|discriminate]. cbn [obnd] in H.
  destruct (get_lit 45 s3) as [s4|] eqn:L2; [|discriminate]. cbn [obnd] in H.
  destruct (get_number 1 31 2 s4) as [[d s5]|] eqn:E3; [|discriminate]. cbn [obnd] in H.
  destruct (get_lit 84 s5) as [s6|] eqn:L3; [|discriminate]. cbn [obnd] in H.
  destruct (get_number 0 23 2 s6) as [[h s7]|] eqn:E4; [|discriminate]. cbn [obnd] in H.
  destruct (get_lit 58 s7) as [s8|] eqn:L4; [|discriminate]. cbn [obnd] in H.
  destruct (get_number 0 59 2 s8) as [[mi s9]|] eqn:E5; [|discriminate]. cbn [obnd] in H.
  destruct (get_lit 58 s9) as [s10|] eqn:L5; [|discriminate]. cbn [obnd] in H.
  destruct (get_number 0 61 2 s10) as [[se s11]|] eqn:E6; [|discriminate]. cbn [obnd] in H.
  destruct (get_lit 90 s11) as [s12|] eqn:L6; [|discriminate]. cbn [obnd] in H.
  apply get_number_split in E1; [|lia]. destruct E1 as [f1 [-> F1]].
  apply get_number_split in E2; [|lia]. destruct E2 as [f2 [-> F2]].
  apply get_number_split in E3; [|lia]. destruct E3 as [f3 [-> F3]].
  apply get_number_split in E4; [|lia]. destruct E4 as [f4 [-> F4]].
  apply get_number_split in E5; [|lia]. destruct E5 as [f5 [-> F5]].
  apply get_number_split in E6; [|lia]. destruct E6 as [f6 [-> F6]].
  apply get_lit_split in L1, L2, L3, L4, L5, L6. subst.
  inversion H; subst. cbn [tm_year tm_mon tm_mday tm_hour tm_min tm_sec].
  exists f1, f2, f3, f4, f5, f6.
  replace (y - 1900 + 1900)%Z with y by lia. replace (mo - 1 + 1)%Z with mo by lia.
  repeat split; assumption.
Qed.

Lemma time_trailing_refuted : exists s t, cstr_ok s /\
  serialize_str2time (Some s) = Some t /\
  (forall y mo d h mi se, s <> iso_text y mo d h mi se).
Proof.
  exists (s2b "2023-11-16T10:20:30Zjunk").
  eexists. split; [apply cstr_okb_ok; vm_compute; reflexivity|].
  split; [vm_compute; reflexivity|].
  intros y mo d h mi se H. apply (f_equal blen) in H. rewrite iso_len in H.
  vm_compute in H. discriminate.
Qed.

Lemma time_unreal_refuted : exists y mo d h mi s t,
  serialize_str2time (Some (iso_text y mo d h mi s)) = Some t /\
  ~ real_datetime y mo d h mi s.
Proof.
  exists 2023, 2, 31, 0, 0, 0. eexists. split; [vm_compute; reflexivity|].
  unfold real_datetime. intros [_ [H _]]. vm_compute in H. destruct H as [_ H]. apply H. reflexivity.
Qed.

Lemma time_year10000_refuted : exists t s, serialize_time2str t = Some s /\
  serialize_str2time (Some s) = None.
Proof.
  exists (mk_tm 0 0 0 1 0 8100 0 0 0), (s2b "10000-01-01T00:00:00Z").
  split; vm_compute; reflexivity.
Qed.

Lemma escapestr_ok : forall s, serialize_escapestr (Some s) = Ok (Some ([34] ++ s ++ [34])).
Proof.
  intros s. unfold serialize_escapestr.
  rewrite sprintf_ok by (rewrite !blen_app; unfold blen; cbn [List.length]; lia). reflexivity.
Qed.

Lemma time_roundtrip_tm : forall t,
  (1000 <= tm_year t + 1900 <= 9999)%Z -> (0 <= tm_mon t <= 11)%Z -> (1 <= tm_mday t <= 31)%Z ->
  (0 <= tm_hour t <= 23)%Z -> (0 <= tm_min t <= 59)%Z -> (0 <= tm_sec t <= 61)%Z ->
  exists s, serialize_time2str t = Some s /\ blen s = 20 /\
    s = iso_text (Z.to_N (tm_year t + 1900)) (Z.to_N (tm_mon t + 1)) (Z.to_N (tm_mday t))
                 (Z.to_N (tm_hour t)) (Z.to_N (tm_min t)) (Z.to_N (tm_sec t)) /\
    exists t', serialize_str2time (Some s) = Some t' /\
      tm_year t' = tm_year t /\ tm_mon t' = tm_mon t /\ tm_mday t' = tm_mday t /\
      tm_hour t' = tm_hour t /\ tm_min t' = tm_min t /\ tm_sec t' = tm_sec t.
Proof.
  intros t Hy Hmo Hd Hh Hmi Hs.
  set (y := Z.to_N (tm_year t + 1900)). set (mo := Z.to_N (tm_mon t + 1)).
  set (d := Z.to_N (tm_mday t)). set (h := Z.to_N (tm_hour t)).
  set (mi := Z.to_N (tm_min t)). set (se := Z.to_N (tm_sec t)).
  assert (Ht : t = tm_of y mo d h mi se (tm_wday t) (tm_yday t) (tm_isdst t)).
  { unfold tm_of, y, mo, d, h, mi, se. destruct t; cbn in *. f_equal; lia. }
  destruct (time_roundtrip y mo d h mi se (tm_wday t) (tm_yday t) (tm_isdst t))
    as [H1 [w' [yd' H2]]]; try (unfold y, mo, d, h, mi, se; lia).
  rewrite <- Ht in H1. exists (iso_text y mo d h mi se).
  split; [exact H1|]. split; [apply iso_len|]. split; [reflexivity|].
  eexists. split; [exact H2|].
  unfold tm_of. cbn [tm_year tm_mon tm_mday tm_hour tm_min tm_sec].
  unfold y, mo, d, h, mi, se. repeat split; lia.
Qed.

Lemma str2time_ranges : forall s t, serialize_str2time (Some s) = Some t ->
  (0 <= tm_year t + 1900 <= 9999)%Z /\ (0 <= tm_mon t <= 11)%Z /\ (1 <= tm_mday t <= 31)%Z /\
  (0 <= tm_hour t <= 23)%Z /\ (0 <= tm_min t <= 59)%Z /\ (0 <= tm_sec t <= 61)%Z.
Proof.
  intros s t H. unfold serialize_str2time in H.
  destruct (strptime_iso s) as [[t' rest]|] eqn:E; [|discriminate]. inversion H; subst t'.
  apply strptime_shape in E.
  destruct E as [fy [fmo [fd [fh [fmi [fs [_ [H1 [H2 [H3 [H4 [H5 H6]]]]]]]]]]]].
  destruct H1 as [? [? [_ [_ [_ [_ [_ H1]]]]]]]. destruct H2 as [? [? [_ [_ [_ [_ [_ H2]]]]]]].
  destruct H3 as [? [? [_ [_ [_ [_ [_ H3]]]]]]]. destruct H4 as [? [? [_ [_ [_ [_ [_ H4]]]]]]].
  destruct H5 as [? [? [_ [_ [_ [_ [_ H5]]]]]]]. destruct H6 as [? [? [_ [_ [_ [_ [_ H6]]]]]]].
  repeat split; lia.
Qed.

Lemma str2time_shape : forall s t, serialize_str2time (Some s) = Some t ->
  exists fy fmo fd fh fmi fs rest,
    s = fy ++ s2b "-" ++ fmo ++ s2b "-" ++ fd ++ s2b "T" ++ fh ++ s2b ":" ++ fmi
        ++ s2b ":" ++ fs ++ s2b "Z" ++ rest /\
    field_text 0 9999 4 (tm_year t + 1900) fy /\ field_text 1 12 2 (tm_mon t + 1) fmo /\
    field_text 1 31 2 (tm_mday t) fd /\ field_text 0 23 2 (tm_hour t) fh /\
    field_text 0 59 2 (tm_min t) fmi /\ field_text 0 61 2 (tm_sec t) fs.
Proof.
  intros s t H. unfold serialize_str2time in H.
  destruct (strptime_iso s) as [[t' rest]|] eqn:E; [|discriminate]. inversion H; subst t'.
  apply strptime_shape in E. destruct E as [a [b [c [d [e [f E]]]]]].
  exists a, b, c, d, e, f, rest. exact E.
Qed.
