(** Proofs about the JSON tokenizer. *)
From Coq Require Import ZifyBool ZifyNat ZifyN.
From Verif Require Import Base PBase MJsmn.
Open Scope N_scope.

Lemma parse_string_bound : forall l st n m, parse_string l st n = inl m -> n <= m /\ m < n + blen l.
Proof.
  induction l as [|c r IH]; intros st n m H; cbn [parse_string] in H; [discriminate|].
  rewrite blen_cons. destruct st.
  - destruct (c =? 0); [discriminate|]. destruct (c =? 34); [inversion H; subst; lia|].
    destruct ((c =? 92) && _); apply IH in H; lia.
  - destruct (esc_ok c); [apply IH in H; lia|]. destruct (c =? 117); [apply IH in H; lia|discriminate].
  - destruct (c =? 0); [discriminate|]. destruct (is_hex c); [apply IH in H; lia|discriminate].
Qed.

Lemma parse_primitive_bound : forall l n m, parse_primitive l n = inl m -> n <= m /\ m <= n + blen l.
Proof.
  induction l as [|c r IH]; intros n m H; cbn [parse_primitive] in H; [inversion H; subst; lia|].
  rewrite blen_cons. destruct ((c =? 0) || prim_end c); [inversion H; subst; lia|].
  destruct ((c <? 32) || (127 <=? c)); [discriminate|]. apply IH in H. lia.
Qed.

(** Slot invariant while scanning at [pos] a text of [T] bytes. *)
Definition tok_inv (T pos : N) (t : token) : Prop :=
  (0 <= tk_start t)%Z /\ (0 <= tk_size t)%Z /\
  ((tk_end t = -1 /\ tk_start t <= Z.of_N pos)%Z \/ (tk_start t <= tk_end t <= Z.of_N T)%Z).

Definition st_inv (T pos : N) (num : nat) (st : jstate) : Prop :=
  Forall (tok_inv T pos) (js_toks st) /\ (List.length (js_toks st) <= num)%nat.

Lemma tok_inv_mono : forall T p q t, p <= q -> tok_inv T p t -> tok_inv T q t.
Proof. intros T p q t H [H1 [H2 H3]]. repeat split; try assumption. lia. Qed.

Lemma st_inv_mono : forall T p q num st, p <= q -> st_inv T p num st -> st_inv T q num st.
Proof.
  intros T p q num st H [H1 H2]. split; [|assumption]. eapply Forall_impl; [|exact H1].
  intros t. apply tok_inv_mono; assumption.
Qed.

Lemma upd_nth_length : forall l i f, List.length (upd_nth l i f) = List.length l.
Proof. induction l as [|t l IH]; intros [|i] f; cbn; congruence. Qed.

Lemma upd_nth_Forall : forall (P : token -> Prop) l i f, Forall P l -> (forall t, In t l -> P t -> P (f t)) ->
  Forall P (upd_nth l i f).
Proof.
  induction l as [|t l IH]; intros i f H Hf; [constructor|]. inversion H; subst. destruct i; cbn [upd_nth]; constructor; auto.
  - apply Hf; [left; reflexivity|assumption].
  - apply IH; [assumption|]. intros u Hu. apply Hf. right; assumption.
Qed.

Lemma incr_super_inv : forall T pos num st, st_inv T pos num st -> st_inv T pos num (incr_super st).
Proof.
  intros T pos num st [H1 H2]. unfold incr_super. destruct (js_super st); [|split; assumption].
  split; cbn [js_toks]; [|rewrite upd_nth_length; assumption].
  apply upd_nth_Forall; [assumption|]. intros t _ [A [B C]]. unfold incr_size, tok_inv. cbn. repeat split; try lia.
Qed.

Lemma alloc_inv : forall T pos num st t st', st_inv T pos num st -> tok_inv T pos t ->
  alloc_token num st t = Some st' -> st_inv T pos num st'.
Proof.
  intros T pos num st t st' [H1 H2] Ht H. unfold alloc_token in H.
  destruct (_ <? _)%nat eqn:E; [|discriminate]. inversion H; subst. split; cbn [js_toks].
  - apply Forall_app. split; [assumption|]. constructor; [exact Ht|constructor].
  - rewrite app_length. cbn. lia.
Qed.

Lemma leaf_inv : forall T pos num st ty s e st', st_inv T pos num st -> s <= e -> e <= T ->
  leaf_step num st ty s e = inl st' -> st_inv T pos num st'.
Proof.
  intros T pos num st ty s e st' H Hs He HH. unfold leaf_step in HH.
  destruct (alloc_token _ _ _) as [st1|] eqn:E; [|discriminate]. inversion HH; subst.
  apply incr_super_inv. eapply alloc_inv; [exact H| |exact E]. unfold tok_inv. cbn. lia.
Qed.

Lemma open_inv : forall T pos num st ty st', st_inv T pos num st ->
  open_step num st ty pos = inl st' -> st_inv T pos num st'.
Proof.
  intros T pos num st ty st' H HH. unfold open_step in HH.
  destruct (alloc_token _ _ _) as [st1|] eqn:E; [|discriminate]. inversion HH; subst.
  destruct (incr_super_inv T pos num st1) as [A B]; [|split; assumption].
  eapply alloc_inv; [exact H| |exact E]. unfold tok_inv. cbn. lia.
Qed.

Lemma find_last_spec : forall f (l : list token) i0 j, find_last f l i0 = Some j ->
  (i0 <= j)%nat /\ exists t, nth_error l (j - i0) = Some t /\ f t = true.
Proof.
  induction l as [|u l IH]; intros i0 j Hf; cbn [find_last] in Hf; [discriminate|].
  destruct (find_last f l (S i0)) as [k|] eqn:E.
  - inversion Hf; subst. apply IH in E. destruct E as [A [t' [B C]]]. split; [lia|].
    exists t'. replace (j - i0)%nat with (S (j - S i0)) by lia. auto.
  - destruct (f u) eqn:Eu; [|discriminate]. inversion Hf; subst. split; [lia|].
    exists u. rewrite Nat.sub_diag. auto.
Qed.

Lemma find_last_none : forall f (l : list token) i0, find_last f l i0 = None -> Forall (fun t => f t = false) l.
Proof.
  induction l as [|u l IH]; intros i0 H; cbn [find_last] in H; constructor.
  - destruct (find_last f l (S i0)); [discriminate|]. destruct (f u) eqn:E; congruence.
  - destruct (find_last f l (S i0)) eqn:E; [discriminate|]. eapply IH; exact E.
Qed.

Lemma upd_nth_Forall_at : forall (P : token -> Prop) l i f t, Forall P l -> nth_error l i = Some t -> P (f t) ->
  Forall P (upd_nth l i f).
Proof.
  induction l as [|u l IH]; intros i f t H Hn Hf; [constructor|]. inversion H; subst.
  destruct i; cbn [upd_nth nth_error] in *; constructor; auto; [inversion Hn; subst; assumption|]. eapply IH; eauto.
Qed.

Lemma close_inv : forall T pos num st ty st', st_inv T pos num st -> pos < T ->
  close_step st ty pos = inl st' -> st_inv T pos num st'.
Proof.
  intros T pos num st ty st' [H1 H2] Hp HH. unfold close_step in HH.
  destruct (find_last is_open (js_toks st) 0) as [i|] eqn:Ef; [|discriminate].
  destruct (nth_error (js_toks st) i) as [t|] eqn:En; [|discriminate].
  destruct (type_eqb (tk_type t) ty); cbn [negb] in HH; [|discriminate]. inversion HH; subst. clear HH.
  split; cbn [js_toks]; [|rewrite upd_nth_length; assumption].
  apply find_last_spec in Ef. destruct Ef as [_ [t' [Hn Ho]]]. rewrite Nat.sub_0_r in Hn.
  assert (t' = t) by congruence. subst t'.
  eapply upd_nth_Forall_at; [exact H1|exact En|].
  rewrite Forall_forall in H1. specialize (H1 t (nth_error_In _ _ En)). destruct H1 as [A [B C]].
  unfold is_open in Ho. unfold tok_inv; cbn. repeat split; try assumption. right. lia.
Qed.

Definition tok_in (T : N) (t : token) : Prop :=
  (0 <= tk_start t)%Z /\ (tk_start t <= tk_end t)%Z /\ (tk_end t <= Z.of_N T)%Z /\ (0 <= tk_size t)%Z.

Lemma finish_ok : forall T pos num st toks, st_inv T pos num st -> finish st = inl toks ->
  Forall (tok_in T) toks /\ (List.length toks <= num)%nat.
Proof.
  intros T pos num st toks [H1 H2] H. unfold finish in H.
  destruct (find_last is_open (js_toks st) 0) eqn:E; [discriminate|]. inversion H; subst.
  split; [|assumption]. apply find_last_none in E. rewrite Forall_forall in *.
  intros t Ht. specialize (E t Ht). specialize (H1 t Ht). destruct H1 as [A [B C]].
  unfold is_open in E. unfold tok_in. lia.
Qed.

Lemma loop_inv : forall num T l pos skip st toks, pos + blen l = T -> st_inv T pos num st ->
  jsmn_loop num l pos skip st = inl toks ->
  Forall (tok_in T) toks /\ (List.length toks <= num)%nat.
Proof.
  intros num T. induction l as [|c r IH]; intros pos skip st toks HT Hst H; cbn [jsmn_loop] in H.
  - eapply finish_ok; eauto.
  - rewrite blen_cons in HT.
    destruct skip as [|k].
    2:{ eapply IH; [|eapply st_inv_mono; [|exact Hst]|exact H]; lia. }
    assert (Hnext : forall st', st_inv T pos num st' -> st_inv T (pos + 1) num st')
      by (intros; eapply st_inv_mono; [|eassumption]; lia).
    destruct (c =? 0); [eapply finish_ok; eauto|].
    destruct (c =? 123).
    { destruct (open_step num st TObject pos) as [st'|] eqn:E; [|discriminate].
      eapply IH; [|apply Hnext; eapply open_inv; eassumption|exact H]; lia. }
    destruct (c =? 91).
    { destruct (open_step num st TArray pos) as [st'|] eqn:E; [|discriminate].
      eapply IH; [|apply Hnext; eapply open_inv; eassumption|exact H]; lia. }
    destruct (c =? 125).
    { destruct (close_step st TObject pos) as [st'|] eqn:E; [|discriminate].
      eapply IH; [|apply Hnext; eapply close_inv; [eassumption| |eassumption]|exact H]; lia. }
    destruct (c =? 93).
    { destruct (close_step st TArray pos) as [st'|] eqn:E; [|discriminate].
      eapply IH; [|apply Hnext; eapply close_inv; [eassumption| |eassumption]|exact H]; lia. }
    destruct (c =? 34).
    { destruct (parse_string r SPlain 0) as [n|] eqn:Ep; [|discriminate].
      destruct (leaf_step _ _ _ _ _) as [st'|] eqn:E; [|discriminate].
      apply parse_string_bound in Ep.
      eapply IH; [|apply Hnext; eapply leaf_inv; [eassumption| | |eassumption]|exact H]; lia. }
    destruct ((c =? 9) || (c =? 13) || (c =? 10) || (c =? 32)).
    { eapply IH; [|apply Hnext; exact Hst|exact H]; lia. }
    destruct (c =? 58).
    { eapply IH; [| |exact H]; [lia|]. apply Hnext. destruct Hst; split; assumption. }
    destruct (c =? 44).
    { eapply IH; [| |exact H]; [lia|]. apply Hnext. unfold comma_step.
      destruct (js_super st); [|exact Hst]. destruct (nth_error _ _); [|exact Hst].
      destruct (is_container _); [exact Hst|]. destruct (find_last _ _ _); [|exact Hst].
      destruct Hst; split; assumption. }
    destruct (parse_primitive (c :: r) 0) as [n|] eqn:Ep; [|discriminate].
    destruct (leaf_step _ _ _ _ _) as [st'|] eqn:E; [|discriminate].
    apply parse_primitive_bound in Ep. rewrite blen_cons in Ep.
    eapply IH; [|apply Hnext; eapply leaf_inv; [eassumption| | |eassumption]|exact H]; lia.
Qed.

Lemma jsmn_tokens_in : forall js num toks, jsmn_parse js num = inl toks ->
  Forall (tok_in (blen js)) toks /\ (List.length toks <= num)%nat.
Proof.
  intros js num toks H. eapply loop_inv; [| |exact H]; [lia|]. split; cbn; [constructor|lia].
Qed.

Lemma jsmn_bounds : forall js num toks, jsmn_parse js num = inl toks ->
  (List.length toks <= num)%nat /\
  forall t, In t toks -> (0 <= tk_start t /\ tk_start t <= tk_end t /\ tk_end t <= Z.of_N (blen js) /\ 0 <= tk_size t)%Z.
Proof.
  intros js num toks H. apply jsmn_tokens_in in H. destruct H as [H Hl]. split; [exact Hl|].
  rewrite Forall_forall in H. exact H.
Qed.
