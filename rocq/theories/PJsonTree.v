(** Proofs: every JSON document is tokenized as its shape says. *)
From Verif Require Import Base PBase MJsmn SJsonTree.
Open Scope N_scope.

Scheme json_ind2 := Induction for json Sort Prop
  with elements_ind2 := Induction for elements Sort Prop
  with members_ind2 := Induction for members Sort Prop.
Combined Scheme json_all from json_ind2, elements_ind2, members_ind2.

(** *** Lists of tokens *)
Lemma fl_app : forall f B A i, Forall (fun t => f t = false) B -> find_last f (A ++ B) i = find_last f A i.
Proof.
  intros f B A. induction A as [|t A IH]; intros i H; cbn [app find_last].
  - revert i. induction H as [|b B Hb H IH]; intros i; cbn [find_last]; [reflexivity|]. rewrite IH, Hb. reflexivity.
  - rewrite IH by exact H. reflexivity.
Qed.
Lemma fl_upd : forall f g l j i, (forall t, f (g t) = f t) -> find_last f (upd_nth l j g) i = find_last f l i.
Proof. intros f g. induction l as [|t l IH]; intros j i H; [reflexivity|]. destruct j as [|j]; cbn [upd_nth find_last]; [rewrite H; reflexivity|rewrite IH by exact H; reflexivity]. Qed.
Lemma fl_at : forall f A t B i, Forall (fun t => f t = false) B -> f t = true -> find_last f (A ++ t :: B) i = Some (i + List.length A)%nat.
Proof.
  intros f A t B i HB Ht. revert i. induction A as [|a A IH]; intros i; cbn [app find_last List.length].
  - pose proof (fl_app f B [] (S i) HB) as Q. cbn [app find_last] in Q. rewrite Q, Ht. f_equal. lia.
  - rewrite IH. f_equal. lia.
Qed.
Lemma upd_app : forall f A B i, (i < List.length A)%nat -> upd_nth (A ++ B) i f = upd_nth A i f ++ B.
Proof. intros f. induction A as [|a A IH]; intros B i H; cbn [List.length] in H; [lia|]. destruct i as [|i]; cbn [app upd_nth]; [reflexivity|]. rewrite IH by lia. reflexivity. Qed.
Lemma upd_at : forall f A t B, upd_nth (A ++ t :: B) (List.length A) f = A ++ f t :: B.
Proof. intros f. induction A as [|a A IH]; intros t B; cbn [app List.length upd_nth]; [reflexivity|]. rewrite IH. reflexivity. Qed.

Definition bump (s : option nat) (T : list token) : list token := match s with None => T | Some i => upd_nth T i incr_size end.
Definition valid (s : option nat) (T : list token) : Prop := match s with None => True | Some i => (i < List.length T)%nat end.
Lemma bump_length : forall s T, List.length (bump s T) = List.length T.
Proof. intros [i|] T; cbn [bump]; [|reflexivity]. revert i. induction T as [|t T IH]; intros i; [reflexivity|]. destruct i; cbn [upd_nth List.length]; [reflexivity|]. rewrite IH. reflexivity. Qed.
Lemma bump_open : forall s T, find_last is_open (bump s T) 0 = find_last is_open T 0.
Proof. intros [i|] T; cbn [bump]; [|reflexivity]. apply fl_upd. reflexivity. Qed.
Lemma incr_new : forall s T t, valid s T -> incr_super (mk_js (T ++ [t]) s) = mk_js (bump s T ++ [t]) s.
Proof. intros [i|] T t V; unfold incr_super; cbn [js_super js_toks bump valid] in *; [rewrite upd_app by exact V|]; reflexivity. Qed.

(** *** Pieces of text *)
Lemma blen_cons : forall c (l : bytes), blen (c :: l) = 1 + blen l.
Proof. intros. unfold blen. cbn [List.length]. lia. Qed.
Lemma loop_skip : forall num st rest a pos, jsmn_loop num (a ++ rest) pos (List.length a) st = jsmn_loop num rest (pos + blen a) 0 st.
Proof.
  intros num st rest. induction a as [|c a IH]; intros pos; [cbn [app List.length]; unfold blen; cbn [List.length N.of_nat]; rewrite N.add_0_r; reflexivity|].
  cbn [app List.length jsmn_loop]. rewrite IH. f_equal. rewrite blen_cons. lia.
Qed.
Lemma loop_space : forall num st rest w pos, Forall space w -> jsmn_loop num (w ++ rest) pos 0 st = jsmn_loop num rest (pos + blen w) 0 st.
Proof.
  intros num st rest. induction w as [|c w IH]; intros pos H; [unfold blen; cbn [app List.length N.of_nat]; rewrite N.add_0_r; reflexivity|].
  inversion H as [|? ? Hc Hw]; subst. rewrite blen_cons. replace (pos + (1 + blen w)) with (pos + 1 + blen w) by lia. rewrite <- IH by exact Hw. destruct Hc as [->|[->|[->| ->]]]; reflexivity.
Qed.
Lemma hex_is : forall c, hex c -> is_hex c = true /\ c <> 0.
Proof. intros c H. unfold hex in H. unfold is_hex. split; [|lia]. lia. Qed.
Lemma string_parse : forall s, string_text s -> forall r n, parse_string (s ++ 34 :: r) SPlain n = inl (n + blen s).
Proof.
  intros s H. induction H as [|c s H1 H2 H3 H4 H IH|c s Hc H IH|a b c d s Ha Hb Hc Hd H IH]; intros r n.
  - cbn [app parse_string]. change (blen []) with 0. cbn. rewrite N.add_0_r. reflexivity.
  - cbn [app parse_string]. rewrite (proj2 (N.eqb_neq c 0)), (proj2 (N.eqb_neq c 34)), (proj2 (N.eqb_neq c 92)) by lia. cbn [andb]. rewrite IH, blen_cons. f_equal. lia.
  - cbn [app parse_string]. assert (R : s ++ 34 :: r <> []) by (destruct s; discriminate). change (92 =? 0) with false. change (92 =? 34) with false. change (92 =? 92) with true. cbn [andb negb].
    assert (E : esc_ok c = true) by (cbn in Hc; destruct Hc as [<-|[<-|[<-|[<-|[<-|[<-|[<-|[<-|[]]]]]]]]]; reflexivity). rewrite E. rewrite IH, !blen_cons. f_equal. lia.
  - destruct (hex_is _ Ha) as [A1 A0], (hex_is _ Hb) as [B1 B0], (hex_is _ Hc) as [C1 C0], (hex_is _ Hd) as [D1 D0].
    cbn [app parse_string]. change (92 =? 0) with false. change (92 =? 34) with false. change (92 =? 92) with true. cbn [andb negb]. change (esc_ok 117) with false. change (117 =? 117) with true. cbv iota.
    rewrite (proj2 (N.eqb_neq _ _) A0), A1, (proj2 (N.eqb_neq _ _) B0), B1, (proj2 (N.eqb_neq _ _) C0), C1, (proj2 (N.eqb_neq _ _) D0), D1. cbn [Nat.eqb]. rewrite IH, !blen_cons. f_equal. lia.
Qed.
Lemma loop_string : forall num T s0 rest s pos, string_text s -> valid s0 T ->
  jsmn_loop num (([34] ++ s ++ [34]) ++ rest) pos 0 (mk_js T s0) =
  if (List.length T <? num)%nat then jsmn_loop num rest (pos + blen s + 2) 0 (mk_js (bump s0 T ++ [mk_tok TString (Z.of_N (pos + 1)) (Z.of_N (pos + 1 + blen s)) 0]) s0) else inr JNoMem.
Proof.
  intros num T s0 rest s pos H V. cbn [app]. rewrite <- app_assoc. cbn [app jsmn_loop]. cbn [N.eqb Pos.eqb]. rewrite string_parse by exact H. rewrite N.add_0_l. unfold leaf_step, alloc_token. cbn [js_toks js_super].
  destruct (List.length T <? num)%nat; [|reflexivity]. rewrite incr_new by exact V.
  replace (N.to_nat (blen s) + 1)%nat with (List.length (s ++ [34])) by (rewrite app_length; unfold blen; cbn; lia). change (s ++ 34 :: rest) with (s ++ ([34] ++ rest)). rewrite app_assoc, loop_skip. f_equal. unfold blen. rewrite app_length. cbn [List.length]. lia.
Qed.
Lemma word_range : forall c, word_char c -> 32 < c /\ c < 127 /\ c <> 34 /\ c <> 44 /\ c <> 58 /\ c <> 91 /\ c <> 93 /\ c <> 123 /\ c <> 125.
Proof. unfold word_char. intros c H. lia. Qed.
(** What may follow a word. *)
Definition ends (rest : bytes) : Prop := match rest with [] => True | c :: _ => prim_end c = true end.
Lemma word_parse : forall s rest n, Forall word_char s -> ends rest -> parse_primitive (s ++ rest) n = inl (n + blen s).
Proof.
  induction s as [|c s IH]; intros rest n H E.
  - change (blen []) with 0. rewrite N.add_0_r. destruct rest as [|c r]; [reflexivity|]. cbn [app parse_primitive ends] in *. rewrite E, orb_true_r. reflexivity.
  - inversion H as [|? ? Hc Hs]; subst. pose proof (word_range _ Hc) as R. cbn [app parse_primitive]. unfold prim_end at 1.
    rewrite !(proj2 (N.eqb_neq c _)) by lia. rewrite (proj2 (N.ltb_ge c 32)), (proj2 (N.leb_gt 127 c)) by lia. cbn [orb]. rewrite IH by assumption. rewrite blen_cons. f_equal. lia.
Qed.
Lemma loop_word : forall num T s0 rest s pos, s <> [] -> Forall word_char s -> ends rest -> valid s0 T ->
  jsmn_loop num (s ++ rest) pos 0 (mk_js T s0) =
  if (List.length T <? num)%nat then jsmn_loop num rest (pos + blen s) 0 (mk_js (bump s0 T ++ [mk_tok TPrim (Z.of_N pos) (Z.of_N (pos + blen s)) 0]) s0) else inr JNoMem.
Proof.
  intros num T s0 rest s pos N0 H E V. pose proof (word_parse s rest 0 H E) as WP. destruct s as [|c s]; [congruence|]. inversion H as [|? ? Hc Hs]; subst. pose proof (word_range _ Hc) as R.
  change ((c :: s) ++ rest) with (c :: (s ++ rest)) in *. cbn [jsmn_loop]. rewrite !(proj2 (N.eqb_neq c _)) by lia. cbn [orb]. rewrite WP, N.add_0_l. unfold leaf_step, alloc_token. cbn [js_toks js_super].
  destruct (List.length T <? num)%nat; [|reflexivity]. rewrite incr_new by exact V. replace (N.to_nat (blen (c :: s)) - 1)%nat with (List.length s) by (unfold blen; cbn [List.length]; lia). rewrite loop_skip. f_equal. rewrite blen_cons. lia.
Qed.

(** *** The tokens of a value are closed *)
Lemma tok_closed : forall ty a b n, is_open (mk_tok ty a (Z.of_N b) n) = false.
Proof. intros. unfold is_open. cbn [tk_start tk_end]. replace (Z.of_N b =? -1)%Z with false by (symmetry; apply Z.eqb_neq; lia). apply andb_false_r. Qed.
Lemma tokens_closed : (forall v p, Forall (fun t => is_open t = false) (tokens p v)) /\ (forall l p b, Forall (fun t => is_open t = false) (elements_tokens p b l)) /\ (forall l p b, Forall (fun t => is_open t = false) (members_tokens p b l)).
Proof.
  apply json_all; intros; cbn [tokens elements_tokens members_tokens]; repeat (constructor; [apply tok_closed|]); auto; try apply Forall_app; auto.
Qed.

Definition plus (n : Z) (t : token) : token := mk_tok (tk_type t) (tk_start t) (tk_end t) (n + tk_size t).
Definition after (v : json) (T : list token) (s : option nat) : option nat := match v with JText _ | JWord _ => s | _ => find_last is_open T 0 end.

Definition value_run (v : json) : Prop := forall num T s pos rest, proper v -> valid s T -> ends rest ->
  jsmn_loop num (text v ++ rest) pos 0 (mk_js T s) =
  if (List.length T + List.length (tokens pos v) <=? num)%nat then jsmn_loop num rest (pos + blen (text v)) 0 (mk_js (bump s T ++ tokens pos v) (after v T s)) else inr JNoMem.
Definition elements_run (l : elements) : Prop := forall num A t B pos first rest, proper_elements l -> is_open t = true -> is_container t = true -> Forall (fun t => is_open t = false) B -> (List.length (A ++ t :: B) <= num)%nat ->
  jsmn_loop num (elements_text first l ++ [93] ++ rest) pos 0 (mk_js (A ++ t :: B) (Some (List.length A))) =
  if (List.length (A ++ t :: B) + List.length (elements_tokens pos first l) <=? num)%nat
  then jsmn_loop num ([93] ++ rest) (pos + blen (elements_text first l)) 0 (mk_js (A ++ plus (elements_count l) t :: B ++ elements_tokens pos first l) (Some (List.length A))) else inr JNoMem.
Definition members_run (l : members) : Prop := forall num A t B pos first rest s, proper_members l -> is_open t = true -> is_container t = true -> Forall (fun t => is_open t = false) B -> (List.length (A ++ t :: B) <= num)%nat ->
  (s = Some (List.length A) \/ first = false /\ exists k u, s = Some k /\ nth_error (A ++ t :: B) k = Some u /\ is_container u = false) ->
  exists s', jsmn_loop num (members_text first l ++ [125] ++ rest) pos 0 (mk_js (A ++ t :: B) s) =
  if (List.length (A ++ t :: B) + List.length (members_tokens pos first l) <=? num)%nat
  then jsmn_loop num ([125] ++ rest) (pos + blen (members_text first l)) 0 (mk_js (A ++ plus (members_count l) t :: B ++ members_tokens pos first l) s') else inr JNoMem.

Lemma plus_zero : forall t, plus 0 t = t.
Proof. intros [a b c d]. reflexivity. Qed.
Lemma plus_incr : forall n t, plus n (incr_size t) = plus (1 + n) t.
Proof. intros n [a b c d]. unfold plus, incr_size. cbn [tk_size tk_type tk_start tk_end]. f_equal. lia. Qed.

(** Closing a container. *)
Lemma loop_close : forall num A ty p n B s pos rest c, Forall (fun t => is_open t = false) B -> (ty = TObject /\ c = 125 \/ ty = TArray /\ c = 93) ->
  jsmn_loop num ([c] ++ rest) pos 0 (mk_js (A ++ mk_tok ty (Z.of_N p) (-1) n :: B) s) =
  jsmn_loop num rest (pos + 1) 0 (mk_js (A ++ mk_tok ty (Z.of_N p) (Z.of_N (pos + 1)) n :: B) (find_last is_open A 0)).
Proof.
  intros num A ty p n B s pos rest c HB Hc.
  assert (E : close_step (mk_js (A ++ mk_tok ty (Z.of_N p) (-1) n :: B) s) ty pos = inl (mk_js (A ++ mk_tok ty (Z.of_N p) (Z.of_N (pos + 1)) n :: B) (find_last is_open A 0))).
  { unfold close_step. cbn [js_toks]. assert (O : is_open (mk_tok ty (Z.of_N p) (-1) n) = true) by (unfold is_open; cbn [tk_start tk_end]; replace (Z.of_N p =? -1)%Z with false by (symmetry; apply Z.eqb_neq; lia); reflexivity).
    rewrite (fl_at is_open A _ B 0 HB O). cbn [Nat.add]. rewrite nth_error_app2, Nat.sub_diag by lia. cbn [nth_error tk_type]. replace (type_eqb ty ty) with true by (destruct ty; reflexivity). cbn [negb].
    rewrite upd_at. cbn [tk_type tk_start tk_size]. rewrite firstn_app, Nat.sub_diag, firstn_all, firstn_O, app_nil_r. rewrite N2Z.inj_add. reflexivity. }
  destruct Hc as [[-> ->]|[-> ->]]; cbn [app jsmn_loop]; cbn [N.eqb Pos.eqb]; rewrite E; reflexivity.
Qed.
(** Opening one. *)
Lemma loop_open : forall num T s pos rest ty c, valid s T -> (ty = TObject /\ c = 123 \/ ty = TArray /\ c = 91) ->
  jsmn_loop num ([c] ++ rest) pos 0 (mk_js T s) =
  if (List.length T <? num)%nat then jsmn_loop num rest (pos + 1) 0 (mk_js (bump s T ++ [mk_tok ty (Z.of_N pos) (-1) 0]) (Some (List.length (bump s T)))) else inr JNoMem.
Proof.
  intros num T s pos rest ty c V Hc.
  assert (E : open_step num (mk_js T s) ty pos = if (List.length T <? num)%nat then inl (mk_js (bump s T ++ [mk_tok ty (Z.of_N pos) (-1) 0]) (Some (List.length (bump s T)))) else inr JNoMem).
  { unfold open_step, alloc_token. cbn [js_toks js_super]. destruct (List.length T <? num)%nat; [|reflexivity]. rewrite incr_new by exact V. cbn [js_toks]. rewrite app_length. cbn [List.length]. replace (List.length (bump s T) + 1 - 1)%nat with (List.length (bump s T)) by lia. reflexivity. }
  destruct Hc as [[-> ->]|[-> ->]]; cbn [app jsmn_loop]; cbn [N.eqb Pos.eqb]; rewrite E; destruct (List.length T <? num)%nat; reflexivity.
Qed.
Lemma loop_comma : forall num A t B s pos rest, is_open t = true -> is_container t = true -> Forall (fun t => is_open t = false) B ->
  (s = Some (List.length A) \/ exists k u, s = Some k /\ nth_error (A ++ t :: B) k = Some u /\ is_container u = false) ->
  jsmn_loop num ([44] ++ rest) pos 0 (mk_js (A ++ t :: B) s) = jsmn_loop num rest (pos + 1) 0 (mk_js (A ++ t :: B) (Some (List.length A))).
Proof.
  intros num A t B s pos rest Ot Ct HB H. cbn [app jsmn_loop]. cbn [N.eqb Pos.eqb orb]. f_equal. unfold comma_step. destruct H as [->|(k & u & -> & Nu & Cu)]; cbn [js_super js_toks].
  - rewrite nth_error_app2, Nat.sub_diag by lia. cbn [nth_error]. rewrite Ct. reflexivity.
  - rewrite Nu, Cu. rewrite fl_at; [reflexivity| |rewrite Ct, Ot; reflexivity]. eapply Forall_impl; [|exact HB]. intros x Hx. cbn beta in *. rewrite Hx. apply andb_false_r.
Qed.
Lemma loop_colon : forall num T t s pos rest, jsmn_loop num ([58] ++ rest) pos 0 (mk_js (T ++ [t]) s) = jsmn_loop num rest (pos + 1) 0 (mk_js (T ++ [t]) (Some (List.length T))).
Proof.
  intros num T t s pos rest. cbn [app jsmn_loop]. cbn [N.eqb Pos.eqb orb]. f_equal. unfold colon_step. cbn [js_toks]. f_equal. destruct (T ++ [t]) eqn:E; [destruct T; discriminate|]. rewrite <- E, app_length. cbn [List.length]. f_equal. lia.
Qed.
