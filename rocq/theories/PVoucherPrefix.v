(** Proofs: vouchers in texts that begin like a document and go on in any way. *)
From Coq Require Import ZifyBool ZifyNat ZifyN.
From Verif Require Import Base PBase MBase64 SBase64 PBase64 MSerialize SSerialize PSerialize MOs POs
  MJsmn PJsmn MVoucher SVoucher PVoucher SJson SJsonMore PVoucherText PJsonTok PJsonPrefix PVoucherJson.
Open Scope N_scope.

Lemma grown_split : forall l l', grown l l' -> exists p e, l' = p ++ e /\ Forall2 stays l p.
Proof.
  induction l as [|t l IH]; intros l' H.
  - exists [], l'. split; [reflexivity|constructor].
  - destruct (H 0%nat t eq_refl) as (t' & Ht & St). destruct l' as [|u l']; [discriminate|]. cbn in Ht. injection Ht as ->.
    destruct (IH l') as (p & e & -> & F). { intros i x Hi. exact (H (S i) x Hi). }
    exists (t' :: p), e. split; [reflexivity|]. constructor; assumption.
Qed.

Lemma tok_at_stays : forall J t t' x, tok_at J t x -> is_open t = false -> stays t t' -> tok_at J t' x.
Proof. intros J t t' x (A & B & E & Hs & He) Ho (_ & S2 & S3 & _). destruct (S3 Ho) as [S4 _]. exists A, B. split; [exact E|]. split; congruence. Qed.

Lemma pairs_stay : forall J ms toks p, pairs_at J ms toks -> Forall leaf_tok toks -> Forall2 stays toks p -> pairs_at J ms p.
Proof.
  intros J. induction ms as [|m ms IH]; intros toks p Hp Hl F.
  - destruct toks; [|contradiction]. inversion F; subst. exact I.
  - destruct toks as [|k [|v toks]]; try contradiction. destruct Hp as (H1 & H2 & H3). inversion Hl as [|? ? L1 Hl']; subst. inversion Hl' as [|? ? L2 L3]; subst.
    inversion F as [|? k' ? p1 S1 F1]; subst. inversion F1 as [|? v' ? p2 S2 F2]; subst. cbn [pairs_at].
    split; [eapply tok_at_stays; [exact H1|apply L1|exact S1]|]. split; [eapply tok_at_stays; [exact H2|apply L2|exact S2]|]. eapply IH; eassumption.
Qed.

Lemma pairs_length : forall J ms toks, pairs_at J ms toks -> List.length toks = (2 * List.length ms)%nat.
Proof. intros J. induction ms as [|m ms IH]; intros [|k [|v toks]] H; try contradiction; [reflexivity|]. destruct H as (_ & _ & H). apply IH in H. cbn [List.length]. lia. Qed.

(** Reading pairs looks at their own slots only. *)
Lemma read_pairs_app : forall J A B idx n j v, (idx + (j + n) * 2 + 1 <= List.length A)%nat ->
  read_pairs J (A ++ B) idx n j v = read_pairs J A idx n j v.
Proof.
  intros J A B idx. induction n as [|n IH]; intros j v H; cbn [read_pairs]; [reflexivity|].
  rewrite !nth_error_app1 by lia.
  destruct (nth_error A (idx + j * 2 + 1)) as [k|]; [|reflexivity]. destruct (nth_error A (idx + (j * 2 + 1) + 1)) as [x|]; [|reflexivity].
  destruct (tok_mem J k) as [key|]; cbn [obind]; [|reflexivity]. destruct (tok_mem J x) as [value|]; cbn [obind]; [|reflexivity].
  destruct (set_keyvalue all_attrs v key (tok_len k) value (tok_len x)) as [r|]; cbn [obind]; [|reflexivity].
  destruct (fst r <? 0)%Z; [reflexivity|]. apply IH. lia.
Qed.

Lemma read_pairs_split : forall J toks idx n k j v,
  read_pairs J toks idx (n + k) j v = obind (read_pairs J toks idx n j v) (fun r => if fst r then read_pairs J toks idx k (j + n) (snd r) else Ok r).
Proof.
  intros J toks idx. induction n as [|n IH]; intros k j v; cbn [Nat.add read_pairs].
  - cbn [obind fst snd]. f_equal. lia.
  - destruct (nth_error toks (idx + j * 2 + 1)) as [a|]; [|reflexivity]. destruct (nth_error toks (idx + (j * 2 + 1) + 1)) as [x|]; [|reflexivity].
    destruct (tok_mem J a) as [key|]; cbn [obind]; [|reflexivity]. destruct (tok_mem J x) as [value|]; cbn [obind]; [|reflexivity].
    destruct (set_keyvalue all_attrs v key (tok_len a) value (tok_len x)) as [r|]; cbn [obind]; [|reflexivity].
    destruct (fst r <? 0)%Z; [reflexivity|]. rewrite IH. replace (j + S n)%nat with (S j + n)%nat by lia. reflexivity.
Qed.

(** ** The text behind the voucher object *)

Lemma ws_ends : forall w c r, Forall ws_char w -> prim_end c = true -> ends (w ++ c :: r).
Proof.
  intros [|x w] c r H Hc; [exists c, r; split; [reflexivity|exact Hc]|]. inversion H as [|? ? Hx _]; subst. exists x. eexists. split; [reflexivity|]. destruct Hx as [->|[->|[->| ->]]]; reflexivity.
Qed.

Lemma behind : forall w key ms s, layout_ok w -> Forall plain_char key -> prefix_of_root key ->
  Forall member_ok ms -> ms <> [] -> (List.length ms <= 14)%nat -> blen (voucher_part w key ms ++ s) < 2147483648 ->
  deserialize_voucher true (Some (voucher_part w key ms ++ s)) = Ok None \/
  exists kvs, meaning ms kvs /\ deserialize_voucher true (Some (voucher_part w key ms ++ s)) = Ok (Some (put_all init_voucher kvs)).
Proof.
  intros w key ms s Hw Hk Hpre Hms Hne Hn HJ. set (J := voucher_part w key ms ++ s) in *.
  pose proof Hw as (_ & _ & _ & _ & We & _).
  assert (HJ2 : J = opening w key ms ++ (w_e w ++ s2b "}" ++ s)) by (unfold J, voucher_part; rewrite <- !app_assoc; reflexivity).
  destruct (opening_loop w key ms (w_e w ++ s2b "}" ++ s) Hw Hk Hms Hn) as (p0 & k0 & op & toks & sup & Tk & Lk & Tp & Tl & Tn & _ & Ep); [intros _; apply ws_ends; [exact We|reflexivity]|].
  rewrite <- HJ2 in *. unfold deserialize_voucher. destruct (jsmn_parse J 32) as [T|] eqn:E; [|left; reflexivity].
  symmetry in Ep. rewrite loop_ws, loop_close in Ep by exact We. unfold close_step in Ep. cbn [js_toks] in Ep.
  set (n := List.length ms) in *.
  change (root_tok p0 :: k0 :: obj_tok op n :: toks) with ([root_tok p0; k0] ++ obj_tok op n :: toks) in Ep.
  assert (Hcl : Forall (fun t => is_open t = false) toks) by (eapply Forall_impl; [|exact Tl]; intros t [H _]; exact H).
  rewrite find_last_mid in Ep; [|apply obj_open|exact Hcl].
  cbn [Nat.add] in Ep. rewrite nth_mid in Ep. cbn [tk_type obj_tok type_eqb negb] in Ep. rewrite upd_nth_mid in Ep. cbn [tk_type tk_start tk_size tk_end obj_tok List.length firstn app] in Ep.
  set (cp := blen (opening w key ms) + blen (w_e w)) in *.
  set (o2 := mk_tok TObject (Z.of_N op) (Z.of_N cp + 1) (Z.of_nat n)) in *.
  assert (Hk0 : is_open k0 = false) by apply Lk.
  replace (find_last is_open [root_tok p0; k0] 0) with (Some 0%nat) in Ep.
  2:{ cbn [find_last]. rewrite Hk0. assert (Ho : is_open (root_tok p0) = true) by (unfold root_tok, is_open; cbn; lia). rewrite Ho. reflexivity. }
  destruct (loop_stays _ _ _ _ _ _ Ep) as (sup' & Gr & Se). cbn [js_toks] in Gr.
  destruct (grown_split _ _ Gr) as (p & e & -> & F).
  inversion F as [|? r' ? p1 Sr F1]; subst p. inversion F1 as [|? k' ? p2 Sk F2]; subst p1. inversion F2 as [|? o' ? p3 So F3]; subst p2. clear F F1 F2.
  assert (Ho2 : o' = o2).
  { assert (Hs : sealed (mk_js (root_tok p0 :: k0 :: o2 :: toks) (Some 0%nat)) 2 o2).
    { split; [reflexivity|]. split; [unfold o2, is_open; cbn; lia|]. split; [discriminate|]. cbn [js_toks List.length]. rewrite Tn. destruct ms; [congruence|]. unfold n. cbn [List.length]. lia. }
    apply Se in Hs. destruct Hs as (Hs & _). cbn in Hs. congruence. }
  subst o'. cbn [app]. assert (Tr : tk_type r' = TObject) by apply Sr. rewrite Tr. cbn [find_root].
  destruct (tok_mem_at _ _ _ (tok_at_stays _ _ _ _ Tk Hk0 Sk)) as [B [K1 K2]]. rewrite K1. cbn [obind]. rewrite (K2 HJ).
  rewrite root_prefix by (apply plain_cstr; assumption). cbn [obind]. apply prefix_beqb in Hpre. rewrite Hpre. cbn [nth_error]. cbn [o2 tk_type tk_size]. rewrite Nat2Z.id.
  pose proof (pairs_stay _ _ _ _ Tp Tl F3) as Tp'. pose proof (pairs_length _ _ _ Tp') as Ln.
  change (r' :: k' :: o2 :: p3 ++ e) with ((r' :: k' :: o2 :: p3) ++ e). rewrite read_pairs_app by (cbn [List.length]; unfold n; lia).
  unfold n. destruct (read_members J ms p3 [r'; k'; o2] 2 0 init_voucher) as [[kvs [M1 M2]]|[Hno [v' M2]]]; auto; cbn [app] in M2; unfold o2 in *; rewrite M2; cbn [obind fst snd].
  - right. eauto.
  - left. reflexivity.
Qed.

(** ** Objects and arrays as values *)

Lemma nested_value : forall a c r p, kind a = KTime \/ kind a = KEnum \/ kind a = KBool -> c = 123 \/ c = 91 -> ~ value_ok a (c :: r) p.
Proof.
  intros a c r p Hk Hc H. unfold value_ok in H. destruct (kind a); try (destruct Hk as [Hk|[Hk|Hk]]; discriminate).
  - destruct H as (t & H & _). destruct Hc as [->| ->]; cbn in H; discriminate.
  - destruct H as [(H & _)|[(H & _)|(H & _)]]; destruct Hc as [->| ->]; vm_compute in H; discriminate.
  - assert (X : forall l w, ~ ci_eq (c :: r) (l :: w) \/ c = l \/ c + 32 = l). { intros l w. destruct (N.eq_dec c l); [auto|]. destruct (N.eq_dec (c + 32) l); [auto|]. left. intros Q. inversion Q as [|? ? ? ? Y]; subst. destruct Y; contradiction. }
    destruct H as [([H|H] & _)|([H|H] & _)].
    + vm_compute in H. injection H as H _. lia.
    + destruct (X 116 (s2b "rue")) as [Y|Y]; [exact (Y H)|lia].
    + vm_compute in H. injection H as H _. lia.
    + destruct (X 102 (s2b "alse")) as [Y|Y]; [exact (Y H)|lia].
Qed.

Lemma loop_quoted : forall s b num pos st, Forall plain_char s ->
  jsmn_loop num (s2b """" ++ s ++ s2b """" ++ b) pos 0 st =
  match leaf_step num st TString (pos + 1) (pos + 1 + blen s) with
  | inl st' => jsmn_loop num b (pos + 2 + blen s) 0 st'
  | inr e => inr e
  end.
Proof. exact loop_string. Qed.

Lemma name_plain : forall a, In a all_attrs -> Forall plain_char (attr_name a).
Proof. intros a H. repeat (destruct H as [<-|H]; [repeat constructor; vm_compute; intuition discriminate|]). contradiction. Qed.

Definition brace_type (c : N) : toktype := if c =? 123 then TObject else TArray.
Lemma loop_brace : forall c b num pos st, c = 123 \/ c = 91 ->
  jsmn_loop num (c :: b) pos 0 st = match open_step num st (brace_type c) pos with inl st' => jsmn_loop num b (pos + 1) 0 st' | inr e => inr e end.
Proof. intros c b num pos st [->| ->]; reflexivity. Qed.

(** The state after a beginning and the start of a further member. *)
Lemma begun : forall w key ms w1 a w2 w3 c s T, layout_ok w -> Forall plain_char key -> Forall member_ok ms -> (List.length ms <= 14)%nat ->
  Forall ws_char w1 -> Forall ws_char w2 -> Forall ws_char w3 -> In a all_attrs -> c = 123 \/ c = 91 ->
  jsmn_parse (opening w key ms ++ comma_if ms ++ member_start w1 (attr_name a) w2 w3 ++ c :: s) 32 = inl T ->
  exists r k o pairs kt vt e, T = r :: k :: o :: pairs ++ kt :: vt :: e /\
    tk_type r = TObject /\ tok_at (opening w key ms ++ comma_if ms ++ member_start w1 (attr_name a) w2 w3 ++ c :: s) k key /\
    tk_type o = TObject /\ (Z.of_nat (S (List.length ms)) <= tk_size o)%Z /\
    pairs_at (opening w key ms ++ comma_if ms ++ member_start w1 (attr_name a) w2 w3 ++ c :: s) ms pairs /\
    tok_at (opening w key ms ++ comma_if ms ++ member_start w1 (attr_name a) w2 w3 ++ c :: s) kt (attr_name a) /\
    tk_start vt = Z.of_N (blen (opening w key ms ++ comma_if ms ++ member_start w1 (attr_name a) w2 w3)) /\ is_container vt = true.
Proof.
  intros w key ms w1 a w2 w3 c s T Hw Hk Hms Hn W1 W2 W3 Ha Hc E.
  pose proof (name_plain a Ha) as Hp. set (name := attr_name a) in *.
  set (J := opening w key ms ++ comma_if ms ++ member_start w1 name w2 w3 ++ c :: s) in *.
  destruct (opening_loop w key ms (comma_if ms ++ member_start w1 name w2 w3 ++ c :: s) Hw Hk Hms Hn) as (p0 & k0 & op & toks & sup & Tk & Lk & Tp & Tl & Tn & Su & Ep).
  { intros Hne. destruct ms; [congruence|]. exists 44. eexists. split; reflexivity. }
  fold J in Tk, Tp, Ep. rewrite E in Ep. symmetry in Ep. set (n := List.length ms) in *.
  set (L0 := root_tok p0 :: k0 :: obj_tok op n :: toks) in *.
  assert (Ec : jsmn_loop 32 (member_start w1 name w2 w3 ++ c :: s) (blen (opening w key ms ++ comma_if ms)) 0 (mk_js L0 (Some 2%nat)) = inl T).
  { destruct ms as [|m ms].
    - cbn in Su. subst sup. cbn [comma_if app] in *. rewrite app_nil_r. exact Ep.
    - cbn [comma_if] in *. cbn [super_ok] in Su. destruct Su as (t & Su1 & Su2). rewrite loop_comma in Ep. rewrite blen_app. change (blen (s2b ",")) with 1.
      unfold L0 in *. change (root_tok p0 :: k0 :: obj_tok op n :: toks) with ([root_tok p0; k0] ++ obj_tok op n :: toks) in *. rewrite (comma_at _ _ _ _ _ t Tl Su1 Su2) in Ep. exact Ep. }
  clear Ep. set (q := blen (opening w key ms ++ comma_if ms)) in *. unfold member_start in Ec. rewrite <- !app_assoc in Ec.
  rewrite loop_ws, loop_quoted in Ec by assumption.
  assert (Hlen : List.length L0 = (2 * n + 3)%nat) by (unfold L0; cbn [List.length]; rewrite Tn; unfold n; lia).
  unfold L0 in Ec. change (root_tok p0 :: k0 :: obj_tok op n :: toks) with ([root_tok p0; k0] ++ obj_tok op n :: toks) in Ec.
  change (Some 2%nat) with (Some (List.length [root_tok p0; k0])) in Ec. rewrite leaf_step_at in Ec by (fold n in Hn; unfold L0 in Hlen; cbn [List.length app] in *; lia).
  rewrite loop_ws, loop_colon in Ec by assumption.
  replace (incr_size (obj_tok op n)) with (obj_tok op (S n)) in Ec by (unfold incr_size, obj_tok; cbn; f_equal; lia).
  set (kt0 := mk_tok TString (Z.of_N (q + blen w1 + 1)) (Z.of_N (q + blen w1 + 1 + blen name)) 0) in *.
  set (L1 := [root_tok p0; k0] ++ obj_tok op (S n) :: toks) in *.
  replace ([root_tok p0; k0] ++ obj_tok op (S n) :: toks ++ [kt0]) with (L1 ++ [kt0]) in Ec by (unfold L1; rewrite <- app_assoc; reflexivity).
  rewrite colon_at, loop_ws, loop_brace in Ec by assumption.
  unfold open_step, alloc_token in Ec. cbn [js_toks] in Ec.
  destruct (List.length (L1 ++ [kt0]) <? 32)%nat; [|discriminate]. cbn [incr_super js_super js_toks] in Ec.
  unfold incr_super in Ec. cbn [js_super js_toks] in Ec. rewrite <- app_assoc in Ec. cbn [app] in Ec. rewrite upd_nth_mid in Ec.
  set (vp := q + blen w1 + 2 + blen name + blen w2 + 1 + blen w3) in *.
  destruct (loop_stays _ _ _ _ _ _ Ec) as (sup' & Gr & _). cbn [js_toks] in Gr. clear Ec.
  destruct (grown_split _ _ Gr) as (p & e & -> & F). unfold L1 in F. cbn [app] in F.
  inversion F as [|? r' ? p1 Sr F1]; subst p. inversion F1 as [|? k' ? p2 Sk F2]; subst p1. inversion F2 as [|? o' ? p3 So F3]; subst p2. clear F F1 F2.
  apply Forall2_app_inv_l in F3. destruct F3 as (pairs & p4 & F3 & F4 & ->).
  inversion F4 as [|? kt ? p5 Skt F5]; subst p4. inversion F5 as [|? vt ? p6 Sv F6]; subst p5. inversion F6; subst p6. clear F4 F5 F6.
  exists r', k', o', pairs, kt, vt, e. split; [cbn [app]; rewrite <- app_assoc; reflexivity|].
  split; [apply Sr|]. split; [eapply tok_at_stays; [exact Tk|apply Lk|exact Sk]|]. split; [apply So|]. split; [destruct So as (_ & _ & _ & So); cbn [obj_tok tk_size] in So; exact So|].
  split; [eapply pairs_stay; eassumption|].
  assert (Hq : q = blen (opening w key ms) + blen (comma_if ms)) by (unfold q; apply blen_app).
  split; [|split].
  - apply (tok_at_stays J (incr_size kt0) kt name); [|unfold incr_size, is_open, kt0; cbn [tk_start tk_end tk_type tk_size]; lia|exact Skt].
    exists (opening w key ms ++ comma_if ms ++ w1 ++ s2b """"). eexists. split.
    + unfold J, member_start. rewrite <- !app_assoc. reflexivity.
    + unfold incr_size, kt0. cbn [tk_start tk_end]. rewrite !blen_app. change (blen (s2b """")) with 1. split; lia.
  - destruct Sv as (_ & Sv & _). rewrite Sv. cbn [tk_start]. f_equal. unfold vp, member_start. rewrite !blen_app. change (blen (s2b """")) with 1. change (blen (s2b ":")) with 1. lia.
  - destruct Sv as (Sv & _). unfold is_container. rewrite Sv. cbn [tk_type]. destruct Hc as [->| ->]; reflexivity.
Qed.

Lemma read_pairs_any : forall J toks idx n j v, toks_ok J toks -> blen J < 2147483648 -> exists b v', read_pairs J toks idx n j (Some v) = Ok (b, v') /\ (b = true -> v' <> None).
Proof.
  intros J toks idx. induction n as [|n IH]; intros j v Ht HJ; cbn [read_pairs]; [exists true; eexists; split; [reflexivity|discriminate]|].
  destruct (nth_error toks (idx + j * 2 + 1)) as [k|] eqn:Ek; [|exists false; eexists; split; [reflexivity|discriminate]].
  destruct (nth_error toks (idx + (j * 2 + 1) + 1)) as [x|] eqn:Ex; [|exists false; eexists; split; [reflexivity|discriminate]].
  destruct (nth_toks_ok _ _ _ _ Ht Ek) as [kt [kB [K1 [K2 [K3 K4]]]]]. destruct (nth_toks_ok _ _ _ _ Ht Ex) as [xt [xB [X1 [X2 [X3 X4]]]]].
  rewrite K3, X3. cbn [obind]. rewrite (K4 HJ), (X4 HJ).
  destruct (set_keyvalue_spec all_attrs v kt kB xt xB) as [[a [p [Ha [Hk [Hv Hs]]]]]|[_ Hs]]; [auto|apply all_attrs_nodup|assumption|assumption| |]; rewrite Hs; cbn [obind fst snd Z.ltb Z.compare].
  - apply IH; assumption.
  - exists false. eexists. split; [reflexivity|discriminate].
Qed.

Lemma brace_text : forall J P c s t x, J = P ++ c :: s -> tok_at J t x -> tk_start t = Z.of_N (blen P) -> x = [] \/ exists r, x = c :: r.
Proof.
  intros J P c s t x HJ (A & B & E & S1 & S2) S0. destruct x as [|d x]; [left; reflexivity|right]. exists x.
  assert (Hl : List.length A = List.length P) by (unfold blen in *; lia). rewrite HJ in E. cbn [app] in E. symmetry in E. destruct (app_inv_len _ _ _ _ _ Hl E) as [_ Q]. injection Q as -> _. reflexivity.
Qed.
Lemma empty_value : forall a p, kind a = KTime \/ kind a = KEnum \/ kind a = KBool -> ~ value_ok a [] p.
Proof.
  intros a p Hk H. unfold value_ok in H. destruct (kind a); try (destruct Hk as [Hk|[Hk|Hk]]; discriminate).
  - destruct H as (t & H & _). discriminate.
  - destruct H as [(H & _)|[(H & _)|(H & _)]]; discriminate.
  - destruct H as [([H|H] & _)|([H|H] & _)]; try discriminate; inversion H.
Qed.

Lemma nested_rejected : forall w key ms w1 a w2 w3 c s, layout_ok w -> Forall plain_char key -> prefix_of_root key -> Forall member_ok ms -> (List.length ms <= 14)%nat ->
  Forall ws_char w1 -> Forall ws_char w2 -> Forall ws_char w3 -> In a all_attrs -> kind a = KTime \/ kind a = KEnum \/ kind a = KBool -> c = 123 \/ c = 91 ->
  bytes_ok (opening w key ms ++ comma_if ms ++ member_start w1 (attr_name a) w2 w3 ++ c :: s) ->
  blen (opening w key ms ++ comma_if ms ++ member_start w1 (attr_name a) w2 w3 ++ c :: s) < 2147483648 ->
  deserialize_voucher true (Some (opening w key ms ++ comma_if ms ++ member_start w1 (attr_name a) w2 w3 ++ c :: s)) = Ok None.
Proof.
  intros w key ms w1 a w2 w3 c s Hw Hk Hpre Hms Hn W1 W2 W3 Ha Hka Hc Hb HJ.
  pose proof (begun w key ms w1 a w2 w3 c s) as Bg. set (J := opening w key ms ++ comma_if ms ++ member_start w1 (attr_name a) w2 w3 ++ c :: s) in *.
  unfold deserialize_voucher. destruct (jsmn_parse J 32) as [T|] eqn:E; [|reflexivity].
  destruct (Bg T Hw Hk Hms Hn W1 W2 W3 Ha Hc eq_refl) as (r & k & o & pairs & kt & vt & e & -> & Tr & Tk & To & Ts & Tp & Tkt & Tv & _). clear Bg.
  pose proof (tokens_text _ _ _ Hb E) as Ht. fold (toks_ok J (r :: k :: o :: pairs ++ kt :: vt :: e)) in Ht. rewrite Tr. cbn [find_root].
  destruct (tok_mem_at _ _ _ Tk) as [B [K1 K2]]. rewrite K1. cbn [obind]. rewrite (K2 HJ). rewrite root_prefix by (apply plain_cstr; assumption). cbn [obind].
  apply prefix_beqb in Hpre. rewrite Hpre. cbn [nth_error]. rewrite To.
  pose proof (pairs_length _ _ _ Tp) as Ln.
  replace (Z.to_nat (tk_size o)) with (List.length ms + (1 + (Z.to_nat (tk_size o) - S (List.length ms))))%nat by lia.
  rewrite read_pairs_split.
  destruct (read_pairs_any J (r :: k :: o :: pairs ++ kt :: vt :: e) 2 (List.length ms) 0 init_voucher Ht HJ) as (b & v' & R1 & R2). rewrite R1. cbn [obind fst snd].
  destruct b; [|reflexivity]. specialize (R2 eq_refl). destruct v' as [v'|]; [|congruence]. cbn [Nat.add read_pairs].
  assert (N1 : nth_error (r :: k :: o :: pairs ++ kt :: vt :: e) (S (S (List.length ms * 2 + 1))) = Some kt).
  { replace (S (S (List.length ms * 2 + 1))) with (List.length (r :: k :: o :: pairs)) by (cbn [List.length]; lia). change (r :: k :: o :: pairs ++ kt :: vt :: e) with ((r :: k :: o :: pairs) ++ kt :: vt :: e). apply nth_mid. }
  assert (N2 : nth_error (r :: k :: o :: pairs ++ kt :: vt :: e) (S (S (List.length ms * 2 + 1 + 1))) = Some vt).
  { replace (S (S (List.length ms * 2 + 1 + 1))) with (List.length ((r :: k :: o :: pairs) ++ [kt])) by (rewrite app_length; cbn [List.length]; lia).
    replace (r :: k :: o :: pairs ++ kt :: vt :: e) with (((r :: k :: o :: pairs) ++ [kt]) ++ vt :: e) by (rewrite <- app_assoc; reflexivity). apply nth_mid. }
  rewrite N1, N2. destruct (tok_mem_at _ _ _ Tkt) as [kB [K3 K4]]. rewrite K3. cbn [obind]. rewrite (K4 HJ).
  destruct (nth_toks_ok _ _ _ _ Ht N2) as [xt [xB [X1 [X2 [X3 X4]]]]]. rewrite X3. cbn [obind]. rewrite (X4 HJ).
  destruct (set_keyvalue_spec all_attrs v' (attr_name a) kB xt xB) as [[a' [p [Ha' [Hk' [Hv Hs]]]]]|[_ Hs]]; [auto|apply all_attrs_nodup|apply plain_cstr; apply name_plain; exact Ha|exact X2| |rewrite Hs; reflexivity].
  exfalso. assert (a = a') by (apply attr_name_inj; assumption). subst a'.
  destruct (brace_text J (opening w key ms ++ comma_if ms ++ member_start w1 (attr_name a) w2 w3) c s vt xt) as [->|[x ->]]; [unfold J; rewrite <- !app_assoc; reflexivity|exact X1|exact Tv| |].
  - eapply empty_value; eassumption.
  - eapply nested_value; eassumption.
Qed.

(** ** Too many members *)

Lemma join_split : forall (sep : bytes) l x r, l <> [] -> join sep (l ++ x :: r) = join sep l ++ sep ++ join sep (x :: r).
Proof.
  intros sep l x r H. induction l as [|y l IH]; [congruence|]. destruct l as [|z l].
  - reflexivity.
  - cbn [app]. change (join sep (y :: z :: l ++ x :: r)) with (y ++ sep ++ join sep ((z :: l) ++ x :: r)). rewrite IH by discriminate.
    change (join sep (y :: z :: l)) with (y ++ sep ++ join sep (z :: l)). rewrite <- !app_assoc. reflexivity.
Qed.

Lemma too_many_tokens : forall w key ms, layout_ok w -> Forall plain_char key -> Forall member_ok ms -> (14 < List.length ms)%nat ->
  jsmn_parse (document w key ms) 32 = inr JNoMem.
Proof.
  intros w key ms Hw Hk Hms Hn.
  assert (Sp : exists ms1 m ms2, ms = ms1 ++ m :: ms2 /\ List.length ms1 = 14%nat).
  { exists (firstn 14 ms). destruct (skipn 14 ms) as [|m r] eqn:Es.
    - assert (L : List.length (skipn 14 ms) = 0%nat) by (rewrite Es; reflexivity). rewrite skipn_length in L. lia.
    - exists m, r. split; [rewrite <- Es; symmetry; apply firstn_skipn|]. rewrite firstn_length. lia. }
  destruct Sp as (ms1 & m & ms2 & -> & L1). apply Forall_app in Hms. destruct Hms as [Hms1 Hms2]. inversion Hms2 as [|? ? Hm _]; subst.
  set (rest := join (s2b ",") (map member_text (m :: ms2))).
  set (tail := w_e w ++ s2b "}" ++ w_f w ++ s2b "}" ++ w_g w).
  assert (Hd : document w key (ms1 ++ m :: ms2) = opening w key ms1 ++ s2b "," ++ rest ++ tail).
  { unfold document, opening, rest, tail. rewrite map_app. cbn [map]. rewrite join_split by (destruct ms1; [discriminate|discriminate]). rewrite <- !app_assoc. reflexivity. }
  rewrite Hd. destruct (opening_loop w key ms1 (s2b "," ++ rest ++ tail) Hw Hk Hms1) as (p0 & k0 & op & toks & sup & Tk & Lk & Tp & Tl & Tn & Su & Ep); [lia|intros _; exists 44; eexists; split; reflexivity|].
  rewrite Ep. clear Ep. rewrite loop_comma. assert (Su' : exists t, nth_error (root_tok p0 :: k0 :: obj_tok op (List.length ms1) :: toks) sup = Some t /\ is_container t = false) by (destruct ms1; [discriminate|exact Su]). destruct Su' as (t & Su1 & Su2).
  change (root_tok p0 :: k0 :: obj_tok op (List.length ms1) :: toks) with ([root_tok p0; k0] ++ obj_tok op (List.length ms1) :: toks) in *.
  rewrite (comma_at _ _ _ _ _ t Tl Su1 Su2).
  assert (Hr : exists r2, rest = member_text m ++ r2 /\ ends (r2 ++ tail)).
  { assert (Et : ends tail). { unfold tail. pose proof Hw as (_ & _ & _ & _ & We & _). apply ws_ends; [exact We|reflexivity]. }
    unfold rest. cbn [map]. destruct ms2 as [|m2 ms2].
    - exists []. split; [cbn; rewrite app_nil_r; reflexivity|exact Et].
    - cbn [map]. exists (s2b "," ++ join (s2b ",") (map member_text (m2 :: ms2))). split; [reflexivity|]. eexists. eexists. split; reflexivity. }
  destruct Hr as (r2 & -> & Er). destruct m as [w1 mk w2 w3 x w4]. destruct Hm as (W1 & W2 & W3 & W4 & HK & HV). cbn [m_w1 m_key m_w2 m_w3 m_val m_w4] in *.
  unfold member_text. cbn [m_w1 m_key m_w2 m_w3 m_val m_w4]. rewrite <- !app_assoc. rewrite loop_ws, loop_quoted by assumption.
  rewrite leaf_step_at by (rewrite app_length; cbn [List.length]; rewrite Tn; lia). rewrite loop_ws, loop_colon, loop_ws by assumption.
  match goal with |- context [colon_step (mk_js (?a ++ ?o :: toks ++ [?k]) ?sp)] => set (kt0 := k); replace (a ++ o :: toks ++ [kt0]) with ((a ++ o :: toks) ++ [kt0]) by (rewrite <- app_assoc; reflexivity); rewrite colon_at; set (L := (a ++ o :: toks)) end.
  assert (HL : List.length (L ++ [kt0]) = 32%nat) by (unfold L; rewrite !app_length; cbn [List.length]; rewrite Tn, L1; reflexivity).
  assert (Full : forall sp ty s e, leaf_step 32 (mk_js (L ++ [kt0]) sp) ty s e = inr JNoMem).
  { intros sp ty s e. unfold leaf_step, alloc_token. cbn [js_toks]. rewrite HL. reflexivity. }
  destruct x as [v|v]; cbn [jrender jval_ok] in *.
  - rewrite <- !app_assoc. rewrite loop_quoted by assumption. rewrite Full. reflexivity.
  - destruct HV as [V1 V2]. rewrite loop_bare; [rewrite Full; reflexivity|exact V1|exact V2|].
    destruct w4 as [|d w4]; [exact Er|]. inversion W4 as [|? ? Hd' _]; subst. eexists. eexists. split; [reflexivity|]. destruct Hd' as [->|[->|[->| ->]]]; reflexivity.
Qed.
Lemma too_many : forall w key ms, layout_ok w -> Forall plain_char key -> Forall member_ok ms -> (14 < List.length ms)%nat ->
  deserialize_voucher true (Some (document w key ms)) = Ok None.
Proof. intros w key ms Hw Hk Hms Hn. unfold deserialize_voucher. rewrite (too_many_tokens w key ms Hw Hk Hms Hn). reflexivity. Qed.
