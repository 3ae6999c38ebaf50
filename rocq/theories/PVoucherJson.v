(** Proofs: JSON deserialisation of vouchers. *)
From Coq Require Import ZifyBool ZifyNat ZifyN.
From Verif Require Import Base PBase MBase64 SBase64 PBase64 MSerialize SSerialize PSerialize MOs POs
  MJsmn PJsmn MVoucher SVoucher PVoucher SJson PVoucherText PJsonTok.
Open Scope N_scope.

(** ** Order of tokens in the text *)

Definition before (t u : token) : Prop := is_container t = true \/ (tk_end t <= tk_start u)%Z.

Inductive ordered : list token -> Prop :=
| ord_nil : ordered []
| ord_cons : forall t l, Forall (before t) l -> ordered l -> ordered (t :: l).

Lemma ordered_app1 : forall l x, ordered l -> Forall (fun t => before t x) l -> ordered (l ++ [x]).
Proof.
  induction l as [|t l IH]; intros x H Hx; cbn [app].
  - constructor; constructor.
  - inversion H; subst. inversion Hx; subst. constructor; [|apply IH; assumption].
    apply Forall_app. split; [assumption|]. constructor; [assumption|constructor].
Qed.

(** Updates that keep type and start, and the end of leaves. *)
Definition same_place (f : token -> token) : Prop :=
  forall t, tk_start (f t) = tk_start t /\ tk_type (f t) = tk_type t.

Lemma before_upd : forall f t l i, same_place f -> Forall (before t) l -> Forall (before t) (upd_nth l i f).
Proof.
  intros f t l i Hf. revert i. induction l as [|u l IH]; intros i H; destruct i; cbn [upd_nth]; try assumption.
  - inversion H; subst. constructor; [|assumption]. destruct (Hf u) as [Hs _]. unfold before in *. rewrite Hs. assumption.
  - inversion H; subst. constructor; [assumption|]. apply IH. assumption.
Qed.

Lemma ordered_upd : forall f l i, same_place f ->
  (forall t, nth_error l i = Some t -> is_container t = true \/ tk_end (f t) = tk_end t) ->
  ordered l -> ordered (upd_nth l i f).
Proof.
  intros f l i Hf. revert i. induction l as [|u l IH]; intros i He H; destruct i; cbn [upd_nth]; try assumption.
  - inversion H as [|? ? Hu Hl]; subst. constructor; [|assumption]. destruct (He u eq_refl) as [Hc|Hq].
    + eapply Forall_impl; [|exact Hu]. intros x _. left. destruct (Hf u) as [_ Ht]. unfold is_container in *. rewrite Ht. exact Hc.
    + eapply Forall_impl; [|exact Hu]. intros x Hx. unfold before in *. rewrite Hq.
      destruct (Hf u) as [_ Ht]. unfold is_container in *. rewrite Ht. exact Hx.
  - inversion H as [|? ? Hu Hl]; subst. constructor; [apply before_upd; assumption|]. apply IH; assumption.
Qed.

Definition brace_at (J : bytes) (t : token) : Prop :=
  exists A B c, J = A ++ c :: B /\ tk_start t = Z.of_N (blen A) /\ (c = 123 \/ c = 91).

(** What holds of the tokens when [q] characters are consumed. *)
Definition place (J : bytes) (q : N) (l : list token) : Prop :=
  ordered l /\
  Forall (fun t => is_container t = true -> brace_at J t) l /\
  Forall (fun t => is_container t = false -> (0 <= tk_end t <= Z.of_N q)%Z) l.

Lemma place_mono : forall J q q' l, q <= q' -> place J q l -> place J q' l.
Proof.
  intros J q q' l Hq [H1 [H2 H3]]. split; [exact H1|]. split; [exact H2|].
  eapply Forall_impl; [|exact H3]. cbv beta. intros t H Hc. specialize (H Hc). lia.
Qed.

Lemma place_upd : forall J q l i f, same_place f ->
  (forall t, nth_error l i = Some t -> is_container t = true \/ tk_end (f t) = tk_end t) ->
  place J q l -> place J q (upd_nth l i f).
Proof.
  intros J q l i f Hf He [H1 [H2 H3]]. split; [apply ordered_upd; assumption|].
  clear H1. revert i He. induction l as [|u l IH]; intros i He; [destruct i; split; constructor|].
  inversion H2; subst. inversion H3; subst. destruct (Hf u) as [Hs Ht].
  destruct i; cbn [upd_nth].
  - split; constructor; auto.
    + intros Hc. unfold is_container in Hc. rewrite Ht in Hc. unfold brace_at. rewrite Hs.
      match goal with H : is_container u = true -> _ |- _ => exact (H Hc) end.
    + intros Hc. unfold is_container in Hc. rewrite Ht in Hc. destruct (He u eq_refl) as [Hc'|Hq].
      * unfold is_container in Hc'. congruence.
      * rewrite Hq. auto.
  - destruct (IH H4 H6 i He) as [K1 K2]. split; constructor; auto.
Qed.

Lemma place_new : forall J q l t, place J q l -> (Z.of_N q <= tk_start t)%Z ->
  (is_container t = true -> brace_at J t) -> (is_container t = false -> (0 <= tk_end t)%Z) ->
  exists q', q <= q' /\ (forall r, (is_container t = false -> (tk_end t <= Z.of_N r)%Z) -> q <= r -> place J r (l ++ [t])).
Proof.
  intros J q l t [H1 [H2 H3]] Hs Hc He. exists q. split; [lia|]. intros r Hr Hq. split.
  - apply ordered_app1; [exact H1|]. apply Forall_forall. intros u Hu. unfold before.
    destruct (is_container u) eqn:Eu; [left; reflexivity|right].
    rewrite Forall_forall in H3. specialize (H3 u Hu Eu). lia.
  - split; apply Forall_app; split.
    + exact H2.
    + constructor; [exact Hc|constructor].
    + eapply Forall_impl; [|exact H3]. cbv beta. intros u Hu Hx. specialize (Hu Hx). lia.
    + constructor; [|constructor]. intros Hx. specialize (He Hx). specialize (Hr Hx). lia.
Qed.

Lemma same_incr : same_place incr_size.
Proof. intros t. split; reflexivity. Qed.

Lemma place_incr : forall J q st, place J q (js_toks st) -> place J q (js_toks (incr_super st)).
Proof.
  intros J q st H. unfold incr_super. destruct (js_super st); [|exact H]. cbn [js_toks].
  apply place_upd; [apply same_incr|right; reflexivity|exact H].
Qed.

Lemma place_leaf : forall J q num st ty s e st', ty = TString \/ ty = TPrim ->
  place J q (js_toks st) -> leaf_step num st ty s e = inl st' -> q <= s -> s <= e ->
  place J e (js_toks st').
Proof.
  intros J q num st ty s e st' Hty H Hl Hq He. unfold leaf_step, alloc_token in Hl.
  destruct (_ <? _)%nat; [|discriminate]. inversion Hl; subst st'. apply place_incr. cbn [js_toks].
  assert (Hc : is_container (mk_tok ty (Z.of_N s) (Z.of_N e) 0) = false) by (destruct Hty as [->| ->]; reflexivity).
  destruct (place_new J q (js_toks st) (mk_tok ty (Z.of_N s) (Z.of_N e) 0)) as [q' [_ P]]; auto.
  - cbn. lia.
  - intros Hx. congruence.
  - intros _. cbn. lia.
  - apply P; [intros _; cbn; lia|lia].
Qed.

Lemma place_open : forall J q num st ty pos st', ty = TObject \/ ty = TArray ->
  place J q (js_toks st) -> open_step num st ty pos = inl st' -> q <= pos ->
  (exists A B c, J = A ++ c :: B /\ pos = blen A /\ (c = 123 \/ c = 91)) ->
  place J (pos + 1) (js_toks st').
Proof.
  intros J q num st ty pos st' Hty H Hl Hq Hb. unfold open_step, alloc_token in Hl.
  destruct (_ <? _)%nat; [|discriminate]. inversion Hl; subst st'. cbn [js_toks]. apply place_incr. cbn [js_toks].
  assert (Hc : is_container (mk_tok ty (Z.of_N pos) (-1) 0) = true) by (destruct Hty as [->| ->]; reflexivity).
  destruct (place_new J q (js_toks st) (mk_tok ty (Z.of_N pos) (-1) 0)) as [q' [_ P]]; auto.
  - cbn. lia.
  - intros _. destruct Hb as [A [B [c [E1 [E2 E3]]]]]. exists A, B, c. cbn. split; [exact E1|]. split; [lia|exact E3].
  - intros Hx. congruence.
  - apply P; [intros Hx; congruence|lia].
Qed.

Lemma place_close : forall J q st ty pos st', ty = TObject \/ ty = TArray ->
  place J q (js_toks st) -> close_step st ty pos = inl st' -> place J q (js_toks st').
Proof.
  intros J q st ty pos st' Hty H Hl. unfold close_step in Hl.
  destruct (find_last is_open (js_toks st) 0) as [i|]; [|discriminate].
  destruct (nth_error (js_toks st) i) as [t|] eqn:En; [|discriminate].
  destruct (type_eqb (tk_type t) ty) eqn:Et; [|discriminate]. cbn [negb] in Hl. inversion Hl; subst st'. cbn [js_toks].
  apply place_upd; [split; reflexivity| |exact H].
  intros u Hu. left. assert (u = t) by congruence. subst. unfold is_container.
  destruct Hty as [->| ->]; destruct (tk_type t); try discriminate; reflexivity.
Qed.

Lemma loop_place : forall l num pos skip st toks J P,
  J = P ++ l -> pos = blen P -> (skip <= List.length l)%nat ->
  place J (pos + N.of_nat skip) (js_toks st) ->
  jsmn_loop num l pos skip st = inl toks -> exists q, place J q toks.
Proof.
  induction l as [|c r IH]; intros num pos skip st toks J P HJ Hp Hs Hpl H.
  - cbn [jsmn_loop] in H. unfold finish in H. destruct (find_last _ _ _); [discriminate|].
    inversion H; subst. eauto.
  - cbn [jsmn_loop] in H.
    assert (HJ' : J = (P ++ [c]) ++ r) by (rewrite HJ, <- app_assoc; reflexivity).
    assert (Hp' : pos + 1 = blen (P ++ [c])) by (rewrite blen_app; unfold blen at 2; cbn; lia).
    destruct skip as [|k].
    + rewrite N.add_0_r in Hpl.
      assert (G : forall k st', (k <= List.length r)%nat -> place J (pos + 1 + N.of_nat k) (js_toks st') ->
                 jsmn_loop num r (pos + 1) k st' = inl toks -> exists q, place J q toks)
        by (intros k st' Hk HP HH; exact (IH num (pos + 1) k st' toks J (P ++ [c]) HJ' Hp' Hk HP HH)).
      assert (Hb : c = 123 \/ c = 91 -> exists A B c, J = A ++ c :: B /\ pos = blen A /\ (c = 123 \/ c = 91))
        by (intros Hc; exists P, r, c; auto).
      destruct (c =? 0).
      { unfold finish in H. destruct (find_last _ _ _); [discriminate|]. inversion H; subst. eauto. }
      destruct (c =? 123) eqn:E1.
      { destruct (open_step num st TObject pos) as [st'|] eqn:E; [|discriminate].
        apply (G 0%nat st'); [lia| |exact H]. eapply place_mono; [|eapply place_open; [left; reflexivity|exact Hpl|exact E|lia|apply Hb; lia]]. lia. }
      destruct (c =? 91) eqn:E2.
      { destruct (open_step num st TArray pos) as [st'|] eqn:E; [|discriminate].
        apply (G 0%nat st'); [lia| |exact H]. eapply place_mono; [|eapply place_open; [right; reflexivity|exact Hpl|exact E|lia|apply Hb; lia]]. lia. }
      destruct (c =? 125).
      { destruct (close_step st TObject pos) as [st'|] eqn:E; [|discriminate].
        apply (G 0%nat st'); [lia| |exact H]. eapply place_mono; [|eapply place_close; [left; reflexivity|exact Hpl|exact E]]. lia. }
      destruct (c =? 93).
      { destruct (close_step st TArray pos) as [st'|] eqn:E; [|discriminate].
        apply (G 0%nat st'); [lia| |exact H]. eapply place_mono; [|eapply place_close; [right; reflexivity|exact Hpl|exact E]]. lia. }
      destruct (c =? 34).
      { destruct (parse_string r SPlain 0) as [n|] eqn:Ep; [|discriminate].
        destruct (leaf_step num st TString (pos + 1) (pos + 1 + n)) as [st'|] eqn:E; [|discriminate].
        apply parse_string_bound in Ep. 
        apply (G (N.to_nat n + 1)%nat st'); [unfold blen in Ep; lia| |exact H].
        eapply place_mono; [|eapply place_leaf; [left; reflexivity|exact Hpl|exact E|lia|lia]]. lia. }
      destruct ((c =? 9) || (c =? 13) || (c =? 10) || (c =? 32)).
      { apply (G 0%nat st); [lia| |exact H]. eapply place_mono; [|exact Hpl]. lia. }
      destruct (c =? 58).
      { apply (G 0%nat (colon_step st)); [lia| |exact H]. eapply place_mono; [|exact Hpl]. lia. }
      destruct (c =? 44).
      { apply (G 0%nat (comma_step st)); [lia| |exact H]. eapply place_mono; [|]; [|unfold comma_step;
        destruct (js_super st); [|exact Hpl]; destruct (nth_error _ _); [|exact Hpl];
        destruct (is_container _); [exact Hpl|]; destruct (find_last _ _ _); exact Hpl]. lia. }
      destruct (parse_primitive (c :: r) 0) as [n|] eqn:Ep; [|discriminate].
      destruct (leaf_step num st TPrim pos (pos + n)) as [st'|] eqn:E; [|discriminate].
      apply parse_primitive_bound in Ep. rewrite blen_cons in Ep.
      apply (G (N.to_nat n - 1)%nat st'); [unfold blen in Ep; lia| |exact H].
      eapply place_mono; [|eapply place_leaf; [right; reflexivity|exact Hpl|exact E|lia|lia]]. lia.
    + apply (IH num (pos + 1) k st toks J (P ++ [c])); auto; [cbn in Hs; lia|].
      replace (pos + 1 + N.of_nat k) with (pos + N.of_nat (S k)) by lia. exact Hpl.
Qed.

Lemma parse_place : forall js num toks, jsmn_parse js num = inl toks -> exists q, place js q toks.
Proof.
  intros js num toks H. eapply (loop_place js num 0 0 _ toks js []); [reflexivity|reflexivity|lia| |exact H].
  cbn. split; [constructor|split; constructor].
Qed.

Lemma ordered_nth : forall l i j t u, ordered l -> (i < j)%nat -> nth_error l i = Some t -> nth_error l j = Some u -> before t u.
Proof.
  induction l as [|x l IH]; intros i j t u H Hij Hi Hj; [destruct i; discriminate|].
  inversion H as [|? ? Hx Hl]; subst. destruct j; [lia|]. cbn in Hj. destruct i.
  - cbn in Hi. inversion Hi; subst. rewrite Forall_forall in Hx. apply Hx. eapply nth_error_In. exact Hj.
  - cbn in Hi. eapply IH; [exact Hl| |exact Hi|exact Hj]. lia.
Qed.

(** ** Reading tokens *)

Lemma tok_mem_at : forall J t x, tok_at J t x ->
  exists B, tok_mem J t = Ok (x ++ B) /\ (blen J < 2147483648 -> tok_len t = blen x).
Proof.
  intros J t x [A [B [E [Hs He]]]]. exists B. unfold tok_mem, tok_len. rewrite Hs, He. split.
  - assert (blen J = blen A + blen x + blen B) by (rewrite E, !blen_app; lia).
    destruct ((0 <=? Z.of_N (blen A)) && (Z.of_N (blen A) <=? Z.of_N (blen J)))%Z eqn:C; [|lia].
    f_equal. rewrite E. unfold blen. replace (Z.to_nat (Z.of_N (N.of_nat (List.length A)))) with (List.length A) by lia.
    rewrite skipn_app, skipn_all, Nat.sub_diag. reflexivity.
  - intros HJ. assert (blen J = blen A + blen x + blen B) by (rewrite E, !blen_app; lia).
    rewrite Z.mod_small by lia. lia.
Qed.

Definition toks_ok (J : bytes) (toks : list token) : Prop :=
  Forall (fun t => (0 <= tk_size t)%Z /\ exists x, tok_at J t x /\ cstr_ok x) toks.

Lemma tok_at_occurs : forall J t x, tok_at J t x -> occurs x J.
Proof. intros J t x [A [B [E _]]]. exists A, B. exact E. Qed.

Lemma app_inv_len : forall A (a b c d : list A), List.length a = List.length c -> a ++ b = c ++ d -> a = c /\ b = d.
Proof.
  induction a as [|x a IH]; intros b c d Hl H; destruct c as [|y c]; try discriminate; cbn in *; [auto|].
  inversion H; subst. destruct (IH b c d) as [-> ->]; auto.
Qed.

Lemma tok_order : forall J k v kx vx, tok_at J k kx -> tok_at J v vx -> (tk_end k <= tk_start v)%Z ->
  exists A M B, J = A ++ kx ++ M ++ vx ++ B.
Proof.
  intros J k v kx vx [A [B [E1 [S1 F1]]]] [A' [B' [E2 [S2 F2]]]] H.
  assert (Hl : (List.length (A ++ kx) <= List.length A')%nat) by (rewrite app_length; unfold blen in *; lia).
  assert (HA : A' = (A ++ kx) ++ skipn (List.length (A ++ kx)) A').
  { rewrite <- (firstn_skipn (List.length (A ++ kx)) A') at 1. f_equal.
    assert (X : firstn (List.length (A ++ kx)) J = A ++ kx).
    { rewrite E1. rewrite app_assoc, firstn_app, firstn_all, Nat.sub_diag. cbn. apply app_nil_r. }
    rewrite <- X at 2. rewrite E2, firstn_app.
    replace (List.length (A ++ kx) - List.length A')%nat with 0%nat by lia. cbn. rewrite app_nil_r. reflexivity. }
  exists A, (skipn (List.length (A ++ kx)) A'), B'. rewrite E2. rewrite HA at 1. rewrite <- !app_assoc. reflexivity.
Qed.

Lemma attr_name_head : forall a, In a all_attrs -> exists c r, attr_name a = c :: r /\ c <> 123 /\ c <> 91.
Proof. intros a H. destruct a; try (do 2 eexists; split; [reflexivity|]; split; discriminate). cbn in H. intuition discriminate. Qed.

Lemma not_brace : forall J t c r, tok_at J t (c :: r) -> brace_at J t -> c = 123 \/ c = 91.
Proof.
  intros J t c r [A [B [E [S _]]]] [A' [B' [c' [E' [S' Hc]]]]].
  assert (Hl : List.length A = List.length A') by (unfold blen in *; lia).
  rewrite E in E'. cbn [app] in E'. destruct (app_inv_len _ _ _ _ _ Hl E') as [_ H]. inversion H; subst. exact Hc.
Qed.

Lemma nth_toks_ok : forall J toks i t, toks_ok J toks -> nth_error toks i = Some t ->
  exists x B, tok_at J t x /\ cstr_ok x /\ tok_mem J t = Ok (x ++ B) /\ (blen J < 2147483648 -> tok_len t = blen x).
Proof.
  intros J toks i t H Hn. apply nth_error_In in Hn. unfold toks_ok in H. rewrite Forall_forall in H.
  apply H in Hn. destruct Hn as [_ [x [Hx Hc]]]. destruct (tok_mem_at J t x Hx) as [B [H1 H2]]. exists x, B. auto.
Qed.

Lemma read_pairs_spec : forall J toks idx q, toks_ok J toks -> blen J < 2147483648 -> place J q toks ->
  forall n j v,
  (exists es, List.length es = n /\ Forall (entry_ok J) es /\
     read_pairs J toks idx n j (Some v) = Ok (true, Some (put_all v (map entry_kv es)))) \/
  (exists v', read_pairs J toks idx n j (Some v) = Ok (false, v')).
Proof.
  intros J toks idx q Ht HJ [Hord [Hbr _]]. induction n as [|n IH]; intros j v; cbn [read_pairs].
  - left. exists []. repeat split. constructor.
  - destruct (nth_error toks (idx + j * 2 + 1)) as [k|] eqn:Ek; [|right; eauto].
    destruct (nth_error toks (idx + (j * 2 + 1) + 1)) as [x|] eqn:Ex; [|right; eauto].
    destruct (nth_toks_ok _ _ _ _ Ht Ek) as [kt [kB [K1 [K2 [K3 K4]]]]].
    destruct (nth_toks_ok _ _ _ _ Ht Ex) as [xt [xB [X1 [X2 [X3 X4]]]]].
    rewrite K3, X3. cbn [obind]. rewrite (K4 HJ), (X4 HJ).
    destruct (set_keyvalue_spec all_attrs v kt kB xt xB) as [[a [p [Ha [Hk [Hv Hs]]]]]|[_ Hs]];
      [auto|apply all_attrs_nodup|assumption|assumption| |]; rewrite Hs; cbn [obind fst snd].
    + cbn [Z.ltb Z.compare].
      assert (He : entry_ok J (a, xt, p)).
      { cbn. split; [exact Ha|]. split; [exact Hv|]. split; [exact X2|]. subst kt.
        assert (Hb : before k x) by (eapply (ordered_nth toks); [exact Hord| |exact Ek|exact Ex]; lia).
        destruct Hb as [Hc|Hb]; [|eapply tok_order; eassumption].
        exfalso. destruct (attr_name_head a Ha) as [c [r [E [N1 N2]]]]. rewrite E in K1.
        rewrite Forall_forall in Hbr. specialize (Hbr k (nth_error_In _ _ Ek) Hc).
        destruct (not_brace _ _ _ _ K1 Hbr); congruence. }
      destruct (IH (S j) (put_value v a p)) as [[es [L1 [L2 L3]]]|[v' Hf]].
      * left. exists ((a, xt, p) :: es). split; [cbn; lia|]. split; [constructor; assumption|].
        rewrite L3. reflexivity.
      * right. exists v'. rewrite Hf. reflexivity.
    + right. cbn [Z.ltb Z.compare]. eauto.
Qed.

Lemma root_prefix : forall x B, cstr_ok x -> strncmp_eq root_name (x ++ B) (N.to_nat (blen x)) =
  Ok (beqb x (firstn (List.length x) root_name)).
Proof.
  intros x B H. unfold blen. rewrite Nat2N.id, strncmp_local by lia.
  rewrite strncmp_eq_spec by (lia || apply cstr_no0; assumption). rewrite firstn_all. reflexivity.
Qed.

Lemma find_root_spec : forall J toks q, toks_ok J toks -> blen J < 2147483648 -> place J q toks ->
  forall rest idx v, (forall t, In t rest -> In t toks) ->
  (exists es, Forall (entry_ok J) es /\
     find_root J toks rest idx (Some v) = Ok (true, Some (put_all v (map entry_kv es)))) \/
  (exists v', find_root J toks rest idx (Some v) = Ok (false, v')).
Proof.
  intros J toks q Ht HJ Hpl. induction rest as [|t rest IH]; intros idx v Hin; cbn [find_root]; [right; eauto|].
  assert (Hi : In t toks) by (apply Hin; left; reflexivity). apply In_nth_error in Hi. destruct Hi as [i Hi].
  destruct (nth_toks_ok _ _ _ _ Ht Hi) as [x [B [X1 [X2 [X3 X4]]]]]. rewrite X3. cbn [obind].
  rewrite (X4 HJ), root_prefix by assumption. cbn [obind].
  destruct (beqb x (firstn (List.length x) root_name)).
  - destruct (nth_error toks (S idx)) as [o|]; [|right; eauto].
    destruct (tk_type o); try (right; eauto; fail).
    destruct (read_pairs_spec J toks (S idx) q Ht HJ Hpl (Z.to_nat (tk_size o)) 0%nat v) as [[es [_ [H1 H2]]]|H]; [|right; exact H].
    left. eauto.
  - apply IH. intros u Hu. apply Hin. right. exact Hu.
Qed.

Lemma deserialize_any : forall js, bytes_ok js -> blen js < 2147483648 ->
  (exists es, Forall (entry_ok js) es /\
     deserialize_voucher true (Some js) = Ok (Some (put_all init_voucher (map entry_kv es)))) \/
  deserialize_voucher true (Some js) = Ok None.
Proof.
  intros js Hb HJ. unfold deserialize_voucher. destruct (jsmn_parse js 32) as [toks|] eqn:E; [|right; reflexivity].
  pose proof (tokens_text _ _ _ Hb E) as Ht. destruct (parse_place _ _ _ E) as [q Hpl].
  destruct toks as [|t0 rest]; [right; reflexivity|]. destruct (tk_type t0); try (right; reflexivity).
  destruct (find_root_spec js (t0 :: rest) q Ht HJ Hpl rest 1%nat init_voucher) as [[es [H1 H2]]|[v' H]].
  - intros t Hin. right. exact Hin.
  - left. exists es. split; [exact H1|]. rewrite H2. reflexivity.
  - right. rewrite H. reflexivity.
Qed.

Lemma entries_hold : forall J es, Forall (entry_ok J) es ->
  holds_exactly (put_all init_voucher (map entry_kv es)) (map entry_kv es).
Proof.
  intros J es H a. apply put_all_holds. apply Forall_forall. intros kv Hin. apply in_map_iff in Hin.
  destruct Hin as [[[b x] p] [<- Hin]]. rewrite Forall_forall in H. apply H in Hin. cbn in *. destruct Hin as [H1 [H2 _]]. eauto.
Qed.

(** C25. *)
Lemma deserialize_safe : forall js, bytes_ok js -> blen js < 2147483648 ->
  exists r, deserialize_voucher true (Some js) = Ok r.
Proof. intros js H1 H2. destruct (deserialize_any js H1 H2) as [[es [_ H]]|H]; eauto. Qed.

(** C23. *)
Lemma deserialize_only : forall js v, bytes_ok js -> blen js < 2147483648 ->
  deserialize_voucher true (Some js) = Ok (Some v) ->
  exists es, Forall (entry_ok js) es /\ holds_exactly v (map entry_kv es).
Proof.
  intros js v H1 H2 H. destruct (deserialize_any js H1 H2) as [[es [E Hd]]|Hd]; rewrite Hd in H; [|discriminate].
  inversion H; subst. exists es. split; [exact E|]. eapply entries_hold; eauto.
Qed.

(** C18 for parsed vouchers. *)
Lemma put_value_wf : forall v a x p, voucher_wf v -> In a all_attrs -> cstr_ok x -> value_ok a x p -> voucher_wf (put_value v a p).
Proof.
  intros v a x p Hwf Ha Hx Hv. pose proof Hwf as Hwf0. destruct Hwf as [W1 [W2 W3]].
  assert (A1 := W3 AIssuer _ eq_refl). assert (A2 := W3 APinned _ eq_refl). assert (A3 := W3 ANonce _ eq_refl).
  assert (A4 := W3 APrior _ eq_refl). assert (A5 := W3 AProximity _ eq_refl).
  assert (Bof : forall d, ba_wf (ba_of d)) by (intros d; right; exists d; split; reflexivity).
  unfold value_ok in Hv.
  destruct a; cbn [kind] in Hv;
    try (destruct Hv as [t [_ ->]]); try (destruct Hv as [[_ ->]|[[_ ->]|[_ ->]]]); try (destruct Hv as [Hl ->]);
    try (destruct Hv as [[_ ->]|[_ ->]]); try contradiction; cbn [put_value];
    (split; [|split]); cbn; try assumption; try lia;
    try (intros b ba Hba; destruct b; cbn in Hba; try discriminate; inversion Hba; subst; auto; fail).
  intros s Hs. inversion Hs; subst. split; [exact Hl|]. apply cstr_no0. exact Hx.
Qed.

Lemma put_all_wf : forall J es v, Forall (entry_ok J) es -> voucher_wf v -> voucher_wf (put_all v (map entry_kv es)).
Proof.
  intros J es. induction es as [|[[a x] p] es IH]; intros v H Hv; [exact Hv|].
  inversion H as [|? ? He Hr]; subst. destruct He as [Ha [Hx [Hc _]]]. cbn [map entry_kv].
  change (put_all v ((a, p) :: map entry_kv es)) with (put_all (put_value v a p) (map entry_kv es)).
  apply IH; [exact Hr|]. eapply put_value_wf; eauto.
Qed.

Lemma parsed_wf : forall js v, bytes_ok js -> blen js < 2147483648 ->
  deserialize_voucher true (Some js) = Ok (Some v) -> voucher_wf v.
Proof.
  intros js v H1 H2 H. destruct (deserialize_any js H1 H2) as [[es [E Hd]]|Hd]; rewrite Hd in H; [|discriminate].
  inversion H; subst. eapply put_all_wf; [exact E|exact init_wf].
Qed.

(** ** Documents *)

Lemma plain_cstr : forall s, Forall plain_char s -> cstr_ok s.
Proof. intros s H. eapply Forall_impl; [|exact H]. intros c [Hc _]. exact Hc. Qed.
Lemma jval_cstr : forall x, jval_ok x -> cstr_ok (jtext x).
Proof.
  intros [s|s] H; cbn in *; [apply plain_cstr; exact H|]. destruct H as [_ H].
  eapply Forall_impl; [|exact H]. cbv beta. unfold bare_char. intros c Hc. lia.
Qed.

Lemma read_members : forall J ms pairs hd idx j v, blen J < 2147483648 ->
  Forall member_ok ms -> pairs_at J ms pairs -> List.length hd = (idx + j * 2 + 1)%nat ->
  (exists kvs, meaning ms kvs /\
     read_pairs J (hd ++ pairs) idx (List.length ms) j (Some v) = Ok (true, Some (put_all v kvs))) \/
  ((forall kvs, ~ meaning ms kvs) /\
     exists v', read_pairs J (hd ++ pairs) idx (List.length ms) j (Some v) = Ok (false, v')).
Proof.
  intros J. induction ms as [|m ms IH]; intros pairs hd idx j v HJ Hok Hp Hl; cbn [List.length read_pairs].
  - left. exists []. split; [constructor|reflexivity].
  - destruct pairs as [|kt [|vt pairs]]; try contradiction. destruct Hp as [Tk [Tv Hp]].
    inversion Hok as [|? ? Hm Hms]; subst.
    assert (N1 : nth_error (hd ++ kt :: vt :: pairs) (idx + j * 2 + 1) = Some kt).
    { rewrite <- Hl. apply nth_mid. }
    assert (N2 : nth_error (hd ++ kt :: vt :: pairs) (idx + (j * 2 + 1) + 1) = Some vt).
    { replace (hd ++ kt :: vt :: pairs) with ((hd ++ [kt]) ++ vt :: pairs) by (rewrite <- app_assoc; reflexivity).
      replace (idx + (j * 2 + 1) + 1)%nat with (List.length (hd ++ [kt])) by (rewrite app_length; cbn; lia). apply nth_mid. }
    rewrite N1, N2. destruct (tok_mem_at _ _ _ Tk) as [kB [K1 K2]]. destruct (tok_mem_at _ _ _ Tv) as [vB [V1 V2]].
    rewrite K1, V1. cbn [obind]. rewrite (K2 HJ), (V2 HJ).
    destruct Hm as [_ [_ [_ [_ [HK HV]]]]].
    destruct (set_keyvalue_spec all_attrs v (m_key m) kB (jtext (m_val m)) vB) as [[a [p [Ha [Hk [Hv Hs]]]]]|[Hno Hs]];
      [auto|apply all_attrs_nodup|apply plain_cstr; assumption|apply jval_cstr; assumption| |]; rewrite Hs; cbn [obind fst snd Z.ltb Z.compare].
    + replace (hd ++ kt :: vt :: pairs) with ((hd ++ [kt; vt]) ++ pairs) by (rewrite <- app_assoc; reflexivity).
      destruct (IH pairs (hd ++ [kt; vt]) idx (S j) (put_value v a p)) as [[kvs [M1 M2]]|[Hno M2]]; auto.
      { rewrite app_length. cbn. lia. }
      * left. exists ((a, p) :: kvs). split; [constructor; [cbn; auto|exact M1]|]. rewrite M2. reflexivity.
      * right. split; [|exact M2]. intros kvs Hc. inversion Hc; subst. eapply Hno. eassumption.
    + right. split; [|eauto]. intros kvs Hc. inversion Hc as [|? [a p] ? ? [H1 [H2 H3]] ?]; subst. cbn in *. eapply Hno; eauto.
Qed.

Lemma prefix_beqb : forall x, prefix_of_root x <-> beqb x (firstn (List.length x) root_name) = true.
Proof.
  intros x. rewrite beqb_eq. split.
  - intros [r E]. rewrite E, firstn_app, firstn_all, Nat.sub_diag. cbn. rewrite app_nil_r. reflexivity.
  - intros E. exists (skipn (List.length x) root_name). rewrite E at 1. symmetry. apply firstn_skipn.
Qed.

Lemma document_result : forall w key ms, layout_ok w -> Forall plain_char key -> prefix_of_root key ->
  Forall member_ok ms -> (List.length ms <= 14)%nat -> blen (document w key ms) < 2147483648 ->
  (exists kvs, meaning ms kvs /\
     deserialize_voucher true (Some (document w key ms)) = Ok (Some (put_all init_voucher kvs))) \/
  ((forall kvs, ~ meaning ms kvs) /\ deserialize_voucher true (Some (document w key ms)) = Ok None).
Proof.
  intros w key ms Hw Hk Hpre Hms Hn HJ.
  destruct (document_tokens w key ms Hw Hk Hms) as [o0 [k0 [o2 [toks [Hp [T0 [Tk [Tks [T2 [Ts [_ [Hpa _]]]]]]]]]]]]; [lia|].
  unfold deserialize_voucher. rewrite Hp, T0. cbn [find_root].
  destruct (tok_mem_at _ _ _ Tk) as [B [K1 K2]]. rewrite K1. cbn [obind]. rewrite (K2 HJ).
  rewrite root_prefix by (apply plain_cstr; assumption). cbn [obind].
  apply prefix_beqb in Hpre. rewrite Hpre. cbn [nth_error]. rewrite T2, Ts, Nat2Z.id.
  destruct (read_members (document w key ms) ms toks [o0; k0; o2] 2 0 init_voucher) as [[kvs [M1 M2]]|[Hno [v' M2]]]; auto;
    cbn [app] in M2; rewrite M2; cbn [obind fst snd].
  - left. eauto.
  - right. auto.
Qed.

Lemma meaning_holds : forall ms kvs, meaning ms kvs -> holds_exactly (put_all init_voucher kvs) kvs.
Proof.
  intros ms kvs H a. apply put_all_holds. induction H as [|m [b p] ms kvs [H1 [H2 H3]] Hr IH]; constructor; [|exact IH].
  cbn in *. eauto.
Qed.

Lemma value_ok_fun : forall a x p q, value_ok a x p -> value_ok a x q -> p = q.
Proof.
  intros a x p q. unfold value_ok. destruct (kind a).
  - intros [t [H ->]] [t' [H' ->]]. congruence.
  - intros [[H ->]|[[H ->]|[H ->]]] [[H' ->]|[[H' ->]|[H' ->]]]; try reflexivity; subst; discriminate.
  - intros [_ ->] [_ ->]. reflexivity.
  - intros [t [H ->]] [t' [H' ->]]. congruence.
  - intros H1 H2. 
    assert (D : ~ (means_true x /\ means_false x)).
    { intros [[->|Ht] [Hf|Hf]]; try discriminate.
      - destruct ci_one as [_ [_ [C _]]]. contradiction.
      - subst. destruct ci_one as [_ [C _]]. contradiction.
      - apply ci_len in Ht. apply ci_len in Hf. rewrite Ht in Hf. discriminate. }
    destruct H1 as [[A ->]|[A ->]]; destruct H2 as [[B ->]|[B ->]]; try reflexivity; exfalso; apply D; auto.
  - contradiction.
Qed.

Lemma meaning_fun : forall ms k1 k2, meaning ms k1 -> meaning ms k2 -> k1 = k2.
Proof.
  intros ms k1 k2 H. revert k2. induction H as [|m [a p] ms k1 [H1 [H2 H3]] Hr IH]; intros k2 H'; inversion H' as [|? [b q] ? ? Hy Hrest]; subst; [reflexivity|].
  cbn in *. destruct Hy as [K1 [K2 K3]].
  assert (a = b) by (apply attr_name_inj; congruence || assumption). subst.
  assert (p = q) by (eapply value_ok_fun; eassumption). subst. f_equal. apply IH. assumption.
Qed.

Lemma document_accepts : forall w key ms kvs, layout_ok w -> Forall plain_char key -> prefix_of_root key ->
  Forall member_ok ms -> (List.length ms <= 14)%nat -> blen (document w key ms) < 2147483648 -> meaning ms kvs ->
  exists v, deserialize_voucher true (Some (document w key ms)) = Ok (Some v) /\ holds_exactly v kvs.
Proof.
  intros w key ms kvs Hw Hk Hp Hms Hn HJ Hm.
  destruct (document_result w key ms Hw Hk Hp Hms Hn HJ) as [[kvs' [M1 M2]]|[Hno _]].
  - rewrite (meaning_fun _ _ _ M1 Hm) in M2. eexists. split; [exact M2|]. eapply meaning_holds; eauto.
  - exfalso. eapply Hno. exact Hm.
Qed.

Lemma document_rejects : forall w key ms, layout_ok w -> Forall plain_char key -> prefix_of_root key ->
  Forall member_ok ms -> (List.length ms <= 14)%nat -> blen (document w key ms) < 2147483648 ->
  (forall kvs, ~ meaning ms kvs) -> deserialize_voucher true (Some (document w key ms)) = Ok None.
Proof.
  intros w key ms Hw Hk Hp Hms Hn HJ Hm.
  destruct (document_result w key ms Hw Hk Hp Hms Hn HJ) as [[kvs' [M1 M2]]|[_ H]]; [exfalso; eapply Hm; eauto|exact H].
Qed.
