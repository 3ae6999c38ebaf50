(** Proofs: the tokenizer on NUL-free prefixes and on one-object documents. *)
From Coq Require Import ZifyBool ZifyNat ZifyN.
From Verif Require Import Base PBase MSerialize SSerialize MJsmn PJsmn SVoucher SJson.
Open Scope N_scope.

(** ** Only the text before the first NUL matters *)

Lemma parse_string_upto : forall l st n m, parse_string l st n = inl m ->
  parse_string (upto_nul l) st n = inl m /\ n <= m /\ m - n < blen (upto_nul l).
Proof.
  induction l as [|c r IH]; intros st n m H; [discriminate|].
  cbn [parse_string] in H. cbn [upto_nul]. destruct (c =? 0) eqn:E0.
  { assert (c = 0) by lia. subst. destruct st; discriminate. }
  rewrite blen_cons. destruct st.
  - cbn [parse_string]. rewrite E0. destruct (c =? 34) eqn:E34.
    + inversion H; subst. repeat split; lia.
    + destruct (c =? 92) eqn:E92; cbn [andb] in *.
      * destruct r as [|d r]; cbn [negb] in H.
        { discriminate. }
        specialize (IH _ _ _ H). destruct IH as [H1 [H2 H3]].
        destruct (upto_nul (d :: r)) as [|x l] eqn:El; [discriminate|]. cbn [negb]. repeat split; [assumption|lia|lia].
      * specialize (IH _ _ _ H). destruct IH as [H1 [H2 H3]]. repeat split; [assumption|lia|lia].
  - cbn [parse_string]. destruct (esc_ok c).
    + specialize (IH _ _ _ H). destruct IH as [H1 [H2 H3]]. repeat split; [assumption|lia|lia].
    + destruct (c =? 117); [|discriminate].
      specialize (IH _ _ _ H). destruct IH as [H1 [H2 H3]]. repeat split; [assumption|lia|lia].
  - cbn [parse_string]. rewrite E0. destruct (is_hex c); [|discriminate].
    specialize (IH _ _ _ H). destruct IH as [H1 [H2 H3]]. repeat split; [assumption|lia|lia].
Qed.

Lemma parse_primitive_upto : forall l n m, parse_primitive l n = inl m ->
  parse_primitive (upto_nul l) n = inl m /\ n <= m /\ m - n <= blen (upto_nul l).
Proof.
  induction l as [|c r IH]; intros n m H; cbn [parse_primitive upto_nul] in *.
  - inversion H; subst. repeat split; lia.
  - destruct (c =? 0) eqn:E0; cbn [orb] in H.
    + inversion H; subst. repeat split; lia.
    + cbn [parse_primitive]. rewrite E0, blen_cons. cbn [orb]. destruct (prim_end c).
      * inversion H; subst. repeat split; lia.
      * destruct ((c <? 32) || (127 <=? c)); [discriminate|]. apply IH in H. destruct H as [H1 [H2 H3]].
        repeat split; [assumption|lia|lia].
Qed.

Lemma loop_upto : forall l num pos skip st toks,
  (skip <= List.length (upto_nul l))%nat -> jsmn_loop num l pos skip st = inl toks ->
  jsmn_loop num (upto_nul l) pos skip st = inl toks.
Proof.
  induction l as [|c r IH]; intros num pos skip st toks Hs H; [exact H|].
  cbn [upto_nul] in *. cbn [jsmn_loop] in H. destruct skip as [|k].
  - destruct (c =? 0) eqn:E0; [exact H|]. cbn [jsmn_loop]. rewrite E0.
    assert (G : forall k st', (k <= List.length (upto_nul r))%nat -> jsmn_loop num r (pos + 1) k st' = inl toks ->
               jsmn_loop num (upto_nul r) (pos + 1) k st' = inl toks) by (intros; apply IH; assumption).
    destruct (c =? 123).
    { destruct (open_step num st TObject pos); [|discriminate]. apply G; [lia|exact H]. }
    destruct (c =? 91).
    { destruct (open_step num st TArray pos); [|discriminate]. apply G; [lia|exact H]. }
    destruct (c =? 125).
    { destruct (close_step st TObject pos); [|discriminate]. apply G; [lia|exact H]. }
    destruct (c =? 93).
    { destruct (close_step st TArray pos); [|discriminate]. apply G; [lia|exact H]. }
    destruct (c =? 34).
    { destruct (parse_string r SPlain 0) as [n|] eqn:Ep; [|discriminate].
      apply parse_string_upto in Ep. destruct Ep as [Ep [_ Hn]]. rewrite Ep.
      destruct (leaf_step _ _ _ _ _); [|discriminate]. apply G; [unfold blen in Hn; lia|exact H]. }
    destruct ((c =? 9) || (c =? 13) || (c =? 10) || (c =? 32)); [apply G; [lia|exact H]|].
    destruct (c =? 58); [apply G; [lia|exact H]|].
    destruct (c =? 44); [apply G; [lia|exact H]|].
    destruct (parse_primitive (c :: r) 0) as [n|] eqn:Ep; [|discriminate].
    apply parse_primitive_upto in Ep. cbn [upto_nul] in Ep. rewrite E0 in Ep. destruct Ep as [Ep [_ Hn]]. rewrite Ep.
    destruct (leaf_step _ _ _ _ _); [|discriminate]. apply G; [rewrite blen_cons in Hn; unfold blen in Hn; lia|exact H].
  - destruct (c =? 0) eqn:E0; [cbn in Hs; lia|]. cbn [jsmn_loop]. apply IH; [cbn in Hs; lia|exact H].
Qed.

Lemma jsmn_upto : forall js num toks, jsmn_parse js num = inl toks ->
  jsmn_parse (upto_nul js) num = inl toks.
Proof. intros js num toks H. apply loop_upto; [lia|exact H]. Qed.

(** ** Tokens and their texts *)

Definition tok_at (json : bytes) (t : token) (x : bytes) : Prop :=
  exists A B, json = A ++ x ++ B /\ tk_start t = Z.of_N (blen A) /\
    tk_end t = Z.of_N (blen A + blen x).

Lemma tok_in_at : forall js t, tok_in (blen js) t -> exists x, tok_at js t x /\ occurs x js.
Proof.
  intros js t [H0 [H1 [H2 _]]].
  set (s := Z.to_nat (tk_start t)). set (n := Z.to_nat (tk_end t - tk_start t)).
  assert (Hj : js = firstn s js ++ firstn n (skipn s js) ++ skipn n (skipn s js)).
  { rewrite (firstn_skipn n), firstn_skipn. reflexivity. }
  exists (firstn n (skipn s js)). split.
  - exists (firstn s js), (skipn n (skipn s js)). split; [exact Hj|].
    unfold blen in *. rewrite !firstn_length, skipn_length. lia.
  - exists (firstn s js), (skipn n (skipn s js)). exact Hj.
Qed.

Lemma upto_nul_split : forall l, exists r, l = upto_nul l ++ r.
Proof.
  induction l as [|c l [r IH]]; cbn [upto_nul]; [exists []; reflexivity|].
  destruct (c =? 0); [eexists; reflexivity|]. exists r. cbn [app]. congruence.
Qed.

Lemma upto_nul_cstr_ok : forall l, bytes_ok l -> cstr_ok (upto_nul l).
Proof.
  induction l as [|c l IH]; intros H; cbn [upto_nul]; [constructor|].
  inversion H; subst. destruct (c =? 0) eqn:E; constructor; [lia|]. apply IH. assumption.
Qed.

(** Every token of a successful parse has a NUL-free text inside the input. *)
Lemma tokens_text : forall js num toks, bytes_ok js -> jsmn_parse js num = inl toks ->
  Forall (fun t => (0 <= tk_size t)%Z /\ exists x, tok_at js t x /\ cstr_ok x) toks.
Proof.
  intros js num toks Hb H. apply jsmn_upto in H. apply jsmn_tokens_in in H. destruct H as [H _].
  eapply Forall_impl; [|exact H]. cbv beta. intros t Ht. split; [apply Ht|].
  apply tok_in_at in Ht. destruct Ht as [x [[A [B [E [Hs He]]]] _]].
  destruct (upto_nul_split js) as [r Hr]. exists x. split.
  - exists A, (B ++ r). split; [|split; assumption]. rewrite Hr at 1. rewrite E, <- !app_assoc. reflexivity.
  - pose proof (upto_nul_cstr_ok js Hb) as Hc. rewrite E in Hc. unfold cstr_ok in *.
    apply Forall_app in Hc. destruct Hc as [_ Hc]. apply Forall_app in Hc. apply Hc.
Qed.

(** ** Walking over a document *)

Lemma loop_skip : forall a b num pos st,
  jsmn_loop num (a ++ b) pos (List.length a) st = jsmn_loop num b (pos + blen a) 0 st.
Proof.
  induction a as [|c a IH]; intros b num pos st.
  - cbn [app List.length]. f_equal. unfold blen. cbn. lia.
  - cbn [app List.length jsmn_loop]. rewrite IH. f_equal. rewrite blen_cons. lia.
Qed.

Lemma loop_ws : forall w b num pos st, Forall ws_char w ->
  jsmn_loop num (w ++ b) pos 0 st = jsmn_loop num b (pos + blen w) 0 st.
Proof.
  induction w as [|c w IH]; intros b num pos st H.
  - cbn [app]. f_equal. unfold blen. cbn. lia.
  - inversion H as [|? ? Hc Hw]; subst.
    transitivity (jsmn_loop num (w ++ b) (pos + 1) 0 st).
    + destruct Hc as [->|[->|[->| ->]]]; reflexivity.
    + rewrite IH by assumption. f_equal. rewrite blen_cons. lia.
Qed.

Lemma parse_plain : forall s n b, Forall plain_char s ->
  parse_string (s ++ 34 :: b) SPlain n = inl (n + blen s).
Proof.
  induction s as [|c s IH]; intros n b H; cbn [app parse_string].
  - cbn. f_equal. lia.
  - inversion H as [|? ? [Hc [H34 H92]] Hs]; subst.
    destruct (c =? 0) eqn:E0; [lia|]. destruct (c =? 34) eqn:E1; [lia|].
    destruct (c =? 92) eqn:E2; [lia|]. cbn [andb]. rewrite IH by assumption. f_equal. rewrite blen_cons. lia.
Qed.

Lemma loop_string : forall s b num pos st, Forall plain_char s ->
  jsmn_loop num (s2b """" ++ s ++ s2b """" ++ b) pos 0 st =
  match leaf_step num st TString (pos + 1) (pos + 1 + blen s) with
  | inl st' => jsmn_loop num b (pos + 2 + blen s) 0 st'
  | inr e => inr e
  end.
Proof.
  intros s b num pos st H. change (s2b """") with [34]. cbn [app].
  cbn [jsmn_loop]. change (34 =? 0) with false. change (34 =? 123) with false. change (34 =? 91) with false.
  change (34 =? 125) with false. change (34 =? 93) with false. change (34 =? 34) with true. cbn match.
  rewrite parse_plain by assumption. rewrite N.add_0_l.
  destruct (leaf_step _ _ _ _ _) as [st'|]; [|reflexivity].
  replace (N.to_nat (blen s) + 1)%nat with (List.length (s ++ [34]))
    by (rewrite app_length; unfold blen; cbn [List.length]; lia).
  change (34 :: b) with ([34] ++ b). rewrite app_assoc, loop_skip. f_equal.
  rewrite blen_app. cbn. lia.
Qed.

Definition ends (b : bytes) : Prop := exists c r, b = c :: r /\ prim_end c = true.

Lemma bare_facts : forall c, bare_char c ->
  (c =? 0) = false /\ prim_end c = false /\ (c <? 32) || (127 <=? c) = false /\
  (c =? 123) = false /\ (c =? 91) = false /\ (c =? 125) = false /\ (c =? 93) = false /\ (c =? 34) = false /\
  (c =? 9) || (c =? 13) || (c =? 10) || (c =? 32) = false /\ (c =? 58) = false /\ (c =? 44) = false.
Proof. intros c H. unfold bare_char in H. unfold prim_end. repeat split; lia. Qed.

Lemma parse_bare : forall s n b, Forall bare_char s -> ends b ->
  parse_primitive (s ++ b) n = inl (n + blen s).
Proof.
  induction s as [|c s IH]; intros n b H Hb.
  - destruct Hb as [d [r [-> Hd]]]. cbn [app parse_primitive]. rewrite Hd, orb_true_r. f_equal.
    unfold blen; cbn [List.length]; lia.
  - inversion H as [|? ? Hc Hs]; subst. apply bare_facts in Hc. destruct Hc as [E0 [E1 [E2 _]]].
    cbn [app parse_primitive]. rewrite E0, E1, E2. cbn [orb]. rewrite IH by assumption. f_equal. rewrite blen_cons. lia.
Qed.

Lemma loop_bare : forall s b num pos st, s <> [] -> Forall bare_char s -> ends b ->
  jsmn_loop num (s ++ b) pos 0 st =
  match leaf_step num st TPrim pos (pos + blen s) with
  | inl st' => jsmn_loop num b (pos + blen s) 0 st'
  | inr e => inr e
  end.
Proof.
  intros s b num pos st Hn H Hb. pose proof (parse_bare s 0 b H Hb) as Hp.
  destruct s as [|c s]; [congruence|]. inversion H as [|? ? Hc Hs]; subst. apply bare_facts in Hc.
  destruct Hc as [E0 [E1 [E2 [E3 [E4 [E5 [E6 [E7 [E8 [E9 E10]]]]]]]]]].
  cbn [app] in *. cbn [jsmn_loop]. rewrite E0, E3, E4, E5, E6, E7, E8, E9, E10. rewrite Hp, N.add_0_l.
  destruct (leaf_step _ _ _ _ _) as [st'|]; [|reflexivity].
  replace (N.to_nat (blen (c :: s)) - 1)%nat with (List.length s) by (rewrite blen_cons; unfold blen; lia).
  rewrite loop_skip. f_equal. rewrite blen_cons. lia.
Qed.

Lemma loop_colon : forall b num pos st,
  jsmn_loop num (s2b ":" ++ b) pos 0 st = jsmn_loop num b (pos + 1) 0 (colon_step st).
Proof. reflexivity. Qed.
Lemma loop_comma : forall b num pos st,
  jsmn_loop num (s2b "," ++ b) pos 0 st = jsmn_loop num b (pos + 1) 0 (comma_step st).
Proof. reflexivity. Qed.
Lemma loop_open : forall b num pos st,
  jsmn_loop num (s2b "{" ++ b) pos 0 st =
  match open_step num st TObject pos with inl st' => jsmn_loop num b (pos + 1) 0 st' | inr e => inr e end.
Proof. reflexivity. Qed.
Lemma loop_close : forall b num pos st,
  jsmn_loop num (s2b "}" ++ b) pos 0 st =
  match close_step st TObject pos with inl st' => jsmn_loop num b (pos + 1) 0 st' | inr e => inr e end.
Proof. reflexivity. Qed.

(** Leaf tokens of finished members. *)
Definition leaf_tok (t : token) : Prop :=
  is_open t = false /\ is_container t = false.

Lemma upd_nth_mid : forall pre o post f, upd_nth (pre ++ o :: post) (List.length pre) f = pre ++ f o :: post.
Proof. induction pre as [|t pre IH]; intros o post f; cbn [app List.length upd_nth]; [reflexivity|]. f_equal. apply IH. Qed.

Lemma find_last_mid : forall f pre o post i, f o = true -> Forall (fun t => f t = false) post ->
  find_last f (pre ++ o :: post) i = Some (i + List.length pre)%nat.
Proof.
  intros f pre. induction pre as [|t pre IH]; intros o post i Ho Hp; cbn [app find_last List.length].
  - assert (N : forall i, find_last f post i = None).
    { clear - Hp. induction Hp as [|t l Ht Hl IH]; intros i; cbn [find_last]; [reflexivity|]. rewrite IH, Ht. reflexivity. }
    rewrite N, Ho. f_equal. lia.
  - rewrite IH by assumption. f_equal. lia.
Qed.

(** The object being filled, with [k] members so far. *)
Definition obj_tok (s : N) (k : nat) : token := mk_tok TObject (Z.of_N s) (-1) (Z.of_nat k).

Lemma obj_open : forall s k, is_open (obj_tok s k) = true /\ is_container (obj_tok s k) = true.
Proof. intros s k. unfold obj_tok, is_open, is_container. cbn. split; [|reflexivity]. lia. Qed.

Lemma nth_mid : forall A (pre : list A) o post, nth_error (pre ++ o :: post) (List.length pre) = Some o.
Proof. induction pre; cbn; auto. Qed.

Lemma leaf_step_at : forall num pre o post ty s e,
  (List.length (pre ++ o :: post) < num)%nat ->
  leaf_step num (mk_js (pre ++ o :: post) (Some (List.length pre))) ty s e =
  inl (mk_js (pre ++ incr_size o :: post ++ [mk_tok ty (Z.of_N s) (Z.of_N e) 0]) (Some (List.length pre))).
Proof.
  intros num pre o post ty s e H. unfold leaf_step, alloc_token. cbn [js_toks js_super].
  destruct (List.length (pre ++ o :: post) <? num)%nat eqn:E; [|lia].
  unfold incr_super. cbn [js_super js_toks]. rewrite <- app_assoc. cbn [app]. rewrite upd_nth_mid. reflexivity.
Qed.

Lemma leaf_step_one : forall o ty s e,
  leaf_step 32 (mk_js [o] (Some 0%nat)) ty s e = inl (mk_js [incr_size o; mk_tok ty (Z.of_N s) (Z.of_N e) 0] (Some 0%nat)).
Proof. reflexivity. Qed.

Lemma colon_at : forall l t sup, colon_step (mk_js (l ++ [t]) sup) = mk_js (l ++ [t]) (Some (List.length l)).
Proof.
  intros l t sup. unfold colon_step. cbn [js_toks]. f_equal.
  assert (H : (List.length (l ++ [t]) - 1 = List.length l)%nat) by (rewrite app_length; cbn; lia).
  rewrite <- H. destruct (l ++ [t]) eqn:E; [destruct l; discriminate|reflexivity].
Qed.

(** One member. *)
Lemma loop_member : forall m num pre s k done r pos J P,
  member_ok m -> (List.length pre + List.length done + 3 <= num)%nat -> ends r ->
  J = P ++ member_text m ++ r -> pos = blen P -> 
  exists kt vt sup, tok_at J kt (m_key m) /\ tok_at J vt (jtext (m_val m)) /\ leaf_tok kt /\ leaf_tok vt /\
    sup = (List.length pre + 1 + List.length done)%nat /\ 
    jsmn_loop num (member_text m ++ r) pos 0 (mk_js (pre ++ obj_tok s k :: done) (Some (List.length pre))) =
    jsmn_loop num r (pos + blen (member_text m)) 0
      (mk_js (pre ++ obj_tok s (S k) :: done ++ [kt; vt]) (Some sup)).
Proof.
  intros m num pre s k done r pos J P [W1 [W2 [W3 [W4 [HK HV]]]]] Hn Hr HJ Hpos.
  destruct m as [w1 key w2 w3 x w4]. cbn [m_w1 m_key m_w2 m_w3 m_val m_w4] in *.
  set (kp := blen P + blen w1 + 1).
  set (kt := mk_tok TString (Z.of_N kp) (Z.of_N (kp + blen key)) 1).
  set (vp0 := kp + blen key + 1 + blen w2 + 1 + blen w3).
  set (vp := match x with JQuoted _ => vp0 + 1 | JBare _ => vp0 end).
  set (vty := match x with JQuoted _ => TString | JBare _ => TPrim end).
  set (vt := mk_tok vty (Z.of_N vp) (Z.of_N (vp + blen (jtext x))) 0).
  exists kt, vt, (List.length pre + 1 + List.length done)%nat.
  unfold member_text in *. cbn [m_w1 m_key m_w2 m_w3 m_val m_w4] in *.
  assert (TK : tok_at J kt key).
  { exists (P ++ w1 ++ s2b """"). eexists. split.
    - rewrite HJ, <- !app_assoc. reflexivity.
    - unfold kt, kp. cbn [tk_start tk_end]. rewrite !blen_app. cbn [blen s2b map list_ascii_of_string List.length].
      unfold blen. cbn [List.length]. split; lia. }
  assert (TV : tok_at J vt (jtext x)).
  { destruct x as [v|v].
    - exists (P ++ w1 ++ s2b """" ++ key ++ s2b """" ++ w2 ++ s2b ":" ++ w3 ++ s2b """"). eexists. split.
      + rewrite HJ, <- !app_assoc. cbn [jrender jtext]. rewrite <- !app_assoc. reflexivity.
      + unfold vt, vp, vp0, kp. cbn [tk_start tk_end jtext]. rewrite !blen_app.
        unfold blen. cbn [s2b map list_ascii_of_string List.length]. split; lia.
    - exists (P ++ w1 ++ s2b """" ++ key ++ s2b """" ++ w2 ++ s2b ":" ++ w3). eexists. split.
      + rewrite HJ, <- !app_assoc. cbn [jrender jtext]. reflexivity.
      + unfold vt, vp, vp0, kp. cbn [tk_start tk_end jtext]. rewrite !blen_app.
        unfold blen. cbn [s2b map list_ascii_of_string List.length]. split; lia. }
  split; [exact TK|]. split; [exact TV|].
  split. { unfold leaf_tok, kt, is_open, is_container. cbn. split; [lia|reflexivity]. }
  split. { unfold leaf_tok, vt, is_open, is_container. cbn. split; [lia|]. destruct x; reflexivity. }
  split; [reflexivity|].
  rewrite <- !app_assoc. rewrite loop_ws by assumption. rewrite loop_string by assumption.
  rewrite leaf_step_at by (rewrite app_length; cbn [List.length]; lia).
  rewrite loop_ws by assumption. rewrite loop_colon.
  replace (incr_size (obj_tok s k)) with (obj_tok s (S k)) by (unfold incr_size, obj_tok; cbn; f_equal; lia).
  set (kt0 := mk_tok TString (Z.of_N (pos + blen w1 + 1)) (Z.of_N (pos + blen w1 + 1 + blen key)) 0).
  replace (pre ++ obj_tok s (S k) :: done ++ [kt0]) with ((pre ++ obj_tok s (S k) :: done) ++ [kt0])
    by (rewrite <- app_assoc; reflexivity).
  rewrite colon_at. rewrite loop_ws by assumption.
  assert (Hlen : (List.length ((pre ++ obj_tok s (S k) :: done) ++ [kt0]) < num)%nat)
    by (rewrite !app_length; cbn [List.length]; lia).
  replace (List.length pre + 1 + List.length done)%nat with (List.length (pre ++ obj_tok s (S k) :: done))
    by (rewrite app_length; cbn [List.length]; lia).
  assert (Hfin : (pre ++ obj_tok s (S k) :: done) ++ incr_size kt0 :: [] ++ [vt] = pre ++ obj_tok s (S k) :: done ++ [kt; vt]).
  { rewrite <- app_assoc. cbn [app]. do 3 f_equal. unfold kt, kt0, kp, incr_size. cbn. rewrite Hpos. reflexivity. }
  destruct x as [v|v]; cbn [jrender jtext jval_ok] in *.
  - replace ((s2b """" ++ v ++ s2b """") ++ w4 ++ r) with (s2b """" ++ v ++ s2b """" ++ w4 ++ r)
      by (rewrite <- !app_assoc; reflexivity).
    rewrite loop_string by assumption. rewrite leaf_step_at by exact Hlen.
    rewrite loop_ws by assumption. rewrite <- Hfin.
    replace (pos + blen w1 + 2 + blen key + blen w2 + 1 + blen w3 + 1) with vp by (unfold vp, vp0, kp; lia).
    change (mk_tok TString (Z.of_N vp) (Z.of_N (vp + blen v)) 0) with vt.
    f_equal. rewrite !blen_app. change (blen (s2b """")) with 1. change (blen (s2b ":")) with 1. lia.
  - destruct HV as [HV1 HV2].
    assert (He : ends (w4 ++ r)).
    { destruct w4 as [|c w4]; [exact Hr|]. inversion W4 as [|? ? Hc Hw]; subst. exists c, (w4 ++ r).
      split; [reflexivity|]. destruct Hc as [->|[->|[->| ->]]]; reflexivity. }
    rewrite loop_bare by assumption. rewrite leaf_step_at by exact Hlen.
    rewrite loop_ws by assumption. rewrite <- Hfin.
    replace (pos + blen w1 + 2 + blen key + blen w2 + 1 + blen w3) with vp by (unfold vp, vp0, kp; lia).
    change (mk_tok TPrim (Z.of_N vp) (Z.of_N (vp + blen v)) 0) with vt.
    f_equal. unfold vp, vp0, kp. rewrite !blen_app. change (blen (s2b """")) with 1. change (blen (s2b ":")) with 1. lia.
Qed.

Fixpoint pairs_at (J : bytes) (ms : list member) (toks : list token) : Prop :=
  match ms, toks with
  | [], [] => True
  | m :: ms, k :: v :: toks => tok_at J k (m_key m) /\ tok_at J v (jtext (m_val m)) /\ pairs_at J ms toks
  | _, _ => False
  end.

Lemma comma_at : forall pre s k done sup t,
  Forall leaf_tok done -> nth_error (pre ++ obj_tok s k :: done) sup = Some t -> is_container t = false ->
  comma_step (mk_js (pre ++ obj_tok s k :: done) (Some sup)) =
  mk_js (pre ++ obj_tok s k :: done) (Some (List.length pre)).
Proof.
  intros pre s k done sup t Hd Hn Hc. unfold comma_step. cbn [js_super js_toks]. rewrite Hn, Hc.
  rewrite find_last_mid; [reflexivity| |].
  - destruct (obj_open s k) as [H1 H2]. rewrite H1, H2. reflexivity.
  - eapply Forall_impl; [|exact Hd]. intros u [H1 H2]. rewrite H2. reflexivity.
Qed.

Lemma loop_members : forall ms num pre s k done r pos J P,
  Forall member_ok ms -> Forall leaf_tok done ->
  (List.length pre + List.length done + 2 * List.length ms + 1 <= num)%nat -> ends r ->
  J = P ++ join (s2b ",") (map member_text ms) ++ r -> pos = blen P -> 
  exists toks sup, pairs_at J ms toks /\ Forall leaf_tok toks /\
    jsmn_loop num (join (s2b ",") (map member_text ms) ++ r) pos 0 (mk_js (pre ++ obj_tok s k :: done) (Some (List.length pre))) =
    jsmn_loop num r (pos + blen (join (s2b ",") (map member_text ms))) 0
      (mk_js (pre ++ obj_tok s (k + List.length ms) :: done ++ toks) (Some sup)).
Proof.
  induction ms as [|m ms IH]; intros num pre s k done r pos J P Hok Hd Hn Hr HJ Hpos.
  - exists [], (List.length pre). split; [exact I|]. split; [constructor|].
    cbn [map join app List.length]. rewrite app_nil_r. f_equal; [unfold blen; cbn; lia|].
    do 3 f_equal. f_equal. lia.
  - inversion Hok as [|? ? Hm Hms]; subst.
    destruct ms as [|m' ms].
    + cbn [map join] in *. 
      destruct (loop_member m num pre s k done r (blen P) (P ++ member_text m ++ r) P) as [kt [vt [sup [H1 [H2 [H3 [H4 [H5 H6]]]]]]]];
        [assumption|cbn [List.length] in Hn; lia|assumption|reflexivity|reflexivity|].
      exists [kt; vt], sup. split; [cbn; auto|]. split; [repeat constructor; apply H3 || apply H4|].
      rewrite H6. f_equal. do 3 f_equal. f_equal. cbn. lia.
    + assert (HJn : join (s2b ",") (map member_text (m :: m' :: ms)) =
                    member_text m ++ s2b "," ++ join (s2b ",") (map member_text (m' :: ms))) by reflexivity.
      rewrite HJn in *. clear HJn. set (rest := join (s2b ",") (map member_text (m' :: ms))) in *.
      assert (E1 : ends (s2b "," ++ rest ++ r)) by (exists 44, (rest ++ r); split; reflexivity).
      destruct (loop_member m num pre s k done (s2b "," ++ rest ++ r) (blen P) (P ++ (member_text m ++ s2b "," ++ rest) ++ r) P)
        as [kt [vt [sup [H1 [H2 [H3 [H4 [H5 H6]]]]]]]]; [assumption|cbn [List.length] in Hn; lia|assumption|
          rewrite <- !app_assoc; reflexivity|reflexivity|].
      destruct (IH num pre s (S k) (done ++ [kt; vt]) r (blen (P ++ member_text m ++ s2b ",")) 
        (P ++ (member_text m ++ s2b "," ++ rest) ++ r) (P ++ member_text m ++ s2b ","))
        as [toks [sup' [T1 [T2 T3]]]].
      { assumption. }
      { apply Forall_app. split; [assumption|]. repeat constructor; apply H3 || apply H4. }
      { rewrite app_length. cbn [List.length] in Hn |- *. lia. }
      { assumption. }
      { rewrite <- !app_assoc. reflexivity. }
      { reflexivity. }
      exists (kt :: vt :: toks), sup'. split; [cbn [pairs_at]; auto|]. split; [repeat (constructor; [assumption|]); assumption|].
      rewrite <- !app_assoc. rewrite H6. rewrite loop_comma.
      rewrite (comma_at pre s (S k) (done ++ [kt; vt]) sup kt).
      * replace (blen P + blen (member_text m) + 1) with (blen (P ++ member_text m ++ s2b ",")) by (rewrite !blen_app; change (blen (s2b ",")) with 1; lia).
        fold rest in T3. rewrite T3. f_equal.
        { rewrite !blen_app. change (blen (s2b ",")) with 1. lia. }
        { replace (k + List.length (m :: m' :: ms))%nat with (S k + List.length (m' :: ms))%nat by (cbn [List.length]; lia).
          rewrite <- app_assoc. reflexivity. }
      * apply Forall_app. split; [assumption|]. repeat constructor; apply H3 || apply H4.
      * rewrite H5. change (obj_tok s (S k) :: done ++ [kt; vt]) with ((obj_tok s (S k) :: done) ++ kt :: [vt]).
        rewrite app_assoc. replace (List.length pre + 1 + List.length done)%nat with (List.length (pre ++ obj_tok s (S k) :: done))
          by (rewrite app_length; cbn [List.length]; lia). apply nth_mid.
      * apply H3.
Qed.

Lemma find_last_none_all : forall f l i, Forall (fun t => f t = false) l -> find_last f l i = None.
Proof. intros f l i H. revert i. induction H as [|t l Ht Hl IH]; intros i; cbn [find_last]; [reflexivity|]. rewrite IH, Ht. reflexivity. Qed.

Lemma document_tokens : forall w key ms, layout_ok w -> Forall plain_char key -> Forall member_ok ms ->
  (2 * List.length ms + 3 <= 32)%nat ->
  exists o0 k0 o2 toks, jsmn_parse (document w key ms) 32 = inl (o0 :: k0 :: o2 :: toks) /\
    tk_type o0 = TObject /\ tok_at (document w key ms) k0 key /\ tk_type k0 = TString /\
    tk_type o2 = TObject /\ tk_size o2 = Z.of_nat (List.length ms) /\
    (exists x, tok_at (document w key ms) o2 (s2b "{" ++ x)) /\
    pairs_at (document w key ms) ms toks /\ Forall leaf_tok toks.
Proof.
  intros [a b c d e f g] key ms [Wa [Wb [Wc [Wd [We [Wf Wg]]]]]] HK Hms Hn.
  cbn [w_a w_b w_c w_d w_e w_f w_g] in *.
  set (J := document (mk_lay a b c d e f g) key ms).
  assert (HJ : J = document (mk_lay a b c d e f g) key ms) by reflexivity.
  unfold document in HJ. cbn [w_a w_b w_c w_d w_e w_f w_g] in HJ.
  set (M := join (s2b ",") (map member_text ms)) in *.
  set (P := a ++ s2b "{" ++ b ++ s2b """" ++ key ++ s2b """" ++ c ++ s2b ":" ++ d ++ s2b "{").
  set (R := e ++ s2b "}" ++ f ++ s2b "}" ++ g).
  assert (HJ2 : J = P ++ M ++ R) by (rewrite HJ; unfold P, R; rewrite <- !app_assoc; reflexivity).
  set (p0 := blen a). set (kp := p0 + 1 + blen b + 1).
  set (op := kp + blen key + 1 + blen c + 1 + blen d).
  set (o0 := mk_tok TObject (Z.of_N p0) (-1) 1).
  set (k0 := mk_tok TString (Z.of_N kp) (Z.of_N (kp + blen key)) 1).
  assert (ER : ends R).
  { unfold R. destruct e as [|x e']; [exists 125; eexists; split; reflexivity|].
    inversion We as [|? ? Hx ?]; subst. exists x. eexists. split; [reflexivity|].
    destruct Hx as [->|[->|[->| ->]]]; reflexivity. }
  destruct (loop_members ms 32 [o0; k0] op 0 [] R (blen P) J P) as [toks [sup [T1 [T2 T3]]]];
    [assumption|constructor|cbn [List.length]; lia|assumption|exact HJ2|reflexivity|].
  set (n := List.length ms) in *.
  set (cp := blen P + blen M + blen e).
  exists (mk_tok TObject (Z.of_N p0) (Z.of_N (cp + 1 + blen f) + 1) 1), k0,
         (mk_tok TObject (Z.of_N op) (Z.of_N cp + 1) (Z.of_nat n)), toks.
  assert (Hop : blen P = op + 1).
  { unfold P, op, kp, p0. rewrite !blen_app. change (blen (s2b """")) with 1. change (blen (s2b ":")) with 1.
    change (blen (s2b "{")) with 1. lia. }
  split; [|split; [reflexivity|split; [|split; [reflexivity|split; [reflexivity|split; [reflexivity|split; [|split; assumption]]]]]]].
  - unfold jsmn_parse. rewrite HJ. rewrite loop_ws by assumption. rewrite loop_open.
    unfold open_step, alloc_token. cbn [js_toks List.length Nat.ltb Nat.leb app incr_super js_super Nat.sub].
    rewrite loop_ws by assumption. rewrite loop_string by assumption.
    rewrite leaf_step_one.
    rewrite loop_ws by assumption. rewrite loop_colon. unfold colon_step. cbn [js_toks List.length Nat.sub].
    rewrite loop_ws by assumption. rewrite loop_open.
    unfold open_step, alloc_token. cbn [js_toks List.length Nat.ltb Nat.leb app incr_super js_super Nat.sub upd_nth].
    unfold incr_size. cbn [tk_type tk_start tk_end tk_size].
    rewrite !N.add_0_l. fold p0. change (0 + 1)%Z with 1%Z.
    fold o0. 
    replace (p0 + 1 + blen b + 2 + blen key + blen c + 1 + blen d) with op by (unfold op, kp; lia).
    replace (p0 + 1 + blen b + 1) with kp by (unfold kp; lia). fold k0.
    rewrite <- Hop. change (e ++ s2b "}" ++ f ++ s2b "}" ++ g) with R. fold M in T3.
    change (mk_tok TObject (Z.of_N op) (-1) 0) with (obj_tok op 0).
    change ([o0; k0; obj_tok op 0]) with ([o0; k0] ++ obj_tok op 0 :: []).
    change (Some 2%nat) with (Some (List.length [o0; k0])). unfold p0 in T3. rewrite T3. unfold R.
    rewrite loop_ws by assumption. rewrite loop_close. fold cp.
    cbn [Nat.add app]. 
    assert (Hleaf : forall (h : token -> bool), (h = is_open) -> Forall (fun t => h t = false) toks).
    { intros h ->. eapply Forall_impl; [|exact T2]. intros t [H _]. exact H. }
    unfold close_step. cbn [js_toks].
    change (o0 :: k0 :: obj_tok op n :: toks) with ([o0; k0] ++ obj_tok op n :: toks).
    rewrite find_last_mid; [|apply obj_open|apply Hleaf; reflexivity].
    cbn [Nat.add]. rewrite nth_mid. cbn [tk_type obj_tok type_eqb negb].
    rewrite upd_nth_mid. cbn [tk_type tk_start tk_size tk_end obj_tok List.length firstn app].
    replace (find_last is_open [o0; k0] 0) with (Some 0%nat).
    2:{ cbn [find_last]. assert (Hk : is_open k0 = false) by (unfold k0, is_open; cbn; lia).
        assert (Ho : is_open o0 = true) by (unfold o0, is_open; cbn; lia). rewrite Hk, Ho. reflexivity. }
    rewrite loop_ws by assumption. rewrite loop_close. unfold close_step. cbn [js_toks].
    set (o2 := mk_tok TObject (Z.of_N op) (Z.of_N cp + 1) (Z.of_nat n)).
    change (o0 :: k0 :: o2 :: toks) with ([] ++ o0 :: (k0 :: o2 :: toks)).
    rewrite find_last_mid; [| |].
    2:{ unfold o0, is_open. cbn. lia. }
    2:{ constructor; [unfold k0, is_open; cbn; lia|]. constructor; [unfold o2, is_open; cbn; lia|]. apply Hleaf. reflexivity. }
    cbn [List.length Nat.add app nth_error tk_type o0 type_eqb negb upd_nth firstn find_last tk_start tk_size].
    replace g with (g ++ []) at 1 by apply app_nil_r. rewrite loop_ws by assumption. cbn [jsmn_loop]. unfold finish. cbn [js_toks].
    rewrite find_last_none_all; [reflexivity|].
    constructor; [unfold is_open; cbn; lia|]. constructor; [unfold k0, is_open; cbn; lia|].
    constructor; [unfold o2, is_open; cbn; lia|]. apply Hleaf. reflexivity.
  - exists (a ++ s2b "{" ++ b ++ s2b """"). eexists. split.
    + rewrite HJ, <- !app_assoc. reflexivity.
    + unfold k0, kp, p0. cbn [tk_start tk_end]. rewrite !blen_app. change (blen (s2b """")) with 1. change (blen (s2b "{")) with 1. split; lia.
  - exists (M ++ e ++ s2b "}").
    exists (a ++ s2b "{" ++ b ++ s2b """" ++ key ++ s2b """" ++ c ++ s2b ":" ++ d). exists (f ++ s2b "}" ++ g). split.
    + rewrite HJ, <- !app_assoc. reflexivity.
    + cbn [tk_start tk_end]. unfold cp. rewrite Hop. unfold op, kp, p0. rewrite !blen_app. change (blen (s2b """")) with 1. change (blen (s2b "{")) with 1.
      change (blen (s2b ":")) with 1. change (blen (s2b "}")) with 1. split; lia.
Qed.
