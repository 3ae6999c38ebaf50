(** Proofs: what JSON documents of any shape are read as. *)
From Verif Require Import Base PBase MBase64 SBase64 MSerialize SSerialize MOs MJsmn PJsmn MVoucher SVoucher PVoucher SJson PVoucherText PJsonTok PVoucherJson SJsonTree PJsonTree PJsonTree2 PJsonTree3 SJsonVoucher.
Open Scope N_scope.

Lemma word_byte : forall c, word_char c -> c < 256.
Proof. intros c H. pose proof (word_range c H). lia. Qed.
Lemma space_byte : forall w, Forall space w -> bytes_ok w.
Proof. intros w H. eapply Forall_impl; [|exact H]. unfold space. cbn. intros c [->|[->|[->| ->]]]; lia. Qed.
Lemma string_bytes : forall s, string_text s -> bytes_ok s.
Proof.
  assert (HX : forall c, hex c -> c < 256) by (unfold hex; intros; lia).
  intros s H. induction H as [|c s H1 H2 H3 H4 H IH|c s Hc H IH|a b c d s Ha Hb Hc Hd H IH]; repeat constructor; auto; try lia.
  cbn in Hc. destruct Hc as [<-|[<-|[<-|[<-|[<-|[<-|[<-|[<-|[]]]]]]]]]; lia.
Qed.
Lemma bytes_cat : forall a b : bytes, bytes_ok a -> bytes_ok b -> bytes_ok (a ++ b).
Proof. intros a b Ha Hb. apply Forall_app. split; assumption. Qed.
Lemma one_byte : forall c, c < 256 -> bytes_ok [c].
Proof. intros. repeat constructor. assumption. Qed.
Lemma text_bytes : (forall v, proper v -> bytes_ok (text v)) /\ (forall l, proper_elements l -> forall b, bytes_ok (elements_text b l)) /\ (forall l, proper_members l -> forall b, bytes_ok (members_text b l)).
Proof.
  apply json_all; intros; cbn [text elements_text members_text proper proper_elements proper_members] in *;
    repeat match goal with H : _ /\ _ |- _ => destruct H end;
    repeat (apply bytes_cat; [first [destruct b; [constructor|apply one_byte; lia]|apply one_byte; lia|apply space_byte; assumption|apply string_bytes; assumption|solve [auto]|apply bytes_cat; [apply one_byte; lia|apply bytes_cat; [apply string_bytes; assumption|apply one_byte; lia]]]|]);
    first [apply one_byte; lia|solve [auto]|constructor|eapply Forall_impl; [|eassumption]; intros c Hc; exact (word_byte c Hc)].
Qed.

Lemma look_tok : forall J t x, tok_at J t x -> look J t = (tk_type t, tk_size t, x).
Proof.
  intros J t x (A & B & E & S1 & S2). subst J. destruct t as [ty a b n]. cbn [tk_start tk_end] in *. subst. apply look_at; reflexivity.
Qed.

Lemma read_any : forall J, blen J < 2147483648 -> forall n hd rest idx j v, toks_ok J rest -> List.length hd = (idx + j * 2 + 1)%nat ->
  (exists pairs kvs, next_pairs n (map (look J) rest) = Some pairs /\ pairs_mean pairs kvs /\ read_pairs J (hd ++ rest) idx n j (Some v) = Ok (true, Some (put_all v kvs))) \/
  ((forall pairs kvs, next_pairs n (map (look J) rest) = Some pairs -> ~ pairs_mean pairs kvs) /\ exists v', read_pairs J (hd ++ rest) idx n j (Some v) = Ok (false, v')).
Proof.
  intros J HJ. induction n as [|n IH]; intros hd rest idx j v Ht Hl; cbn [read_pairs next_pairs].
  - left. exists [], []. repeat split. constructor.
  - destruct rest as [|kt [|vt rest]]; cbn [map].
    + right. split; [discriminate|]. rewrite app_nil_r. replace (nth_error hd (idx + j * 2 + 1)) with (@None token) by (symmetry; apply nth_error_None; lia). eauto.
    + right. split; [destruct (look J kt) as [[? ?] ?]; discriminate|]. replace (nth_error (hd ++ [kt]) (idx + (j * 2 + 1) + 1)) with (@None token) by (symmetry; apply nth_error_None; rewrite app_length; cbn [List.length]; lia). destruct (nth_error _ _); eauto.
    + assert (N1 : nth_error (hd ++ kt :: vt :: rest) (idx + j * 2 + 1) = Some kt) by (rewrite <- Hl; apply nth_mid).
      assert (N2 : nth_error (hd ++ kt :: vt :: rest) (idx + (j * 2 + 1) + 1) = Some vt).
      { replace (hd ++ kt :: vt :: rest) with ((hd ++ [kt]) ++ vt :: rest) by (rewrite <- app_assoc; reflexivity).
        replace (idx + (j * 2 + 1) + 1)%nat with (List.length (hd ++ [kt])) by (rewrite app_length; cbn; lia). apply nth_mid. }
      rewrite N1, N2. inversion Ht as [|? ? [_ (k & Tk & Ck)] Ht1]; subst. inversion Ht1 as [|? ? [_ (x & Tx & Cx)] Ht2]; subst.
      rewrite (look_tok _ _ _ Tk), (look_tok _ _ _ Tx).
      destruct (tok_mem_at _ _ _ Tk) as [kB [K1 K2]]. destruct (tok_mem_at _ _ _ Tx) as [vB [V1 V2]].
      rewrite K1, V1. cbn [obind]. rewrite (K2 HJ), (V2 HJ).
      destruct (set_keyvalue_spec all_attrs v k kB x vB) as [[a [p [Ha [Hk [Hv Hs]]]]]|[Hno Hs]]; [auto|apply all_attrs_nodup|assumption|assumption| |]; rewrite Hs; cbn [obind fst snd Z.ltb Z.compare].
      * replace (hd ++ kt :: vt :: rest) with ((hd ++ [kt; vt]) ++ rest) by (rewrite <- app_assoc; reflexivity).
        destruct (IH (hd ++ [kt; vt]) rest idx (S j) (put_value v a p)) as [(pairs & kvs & Q1 & Q2 & Q3)|[Q1 Q2]]; [exact Ht2|rewrite app_length; cbn [List.length]; lia| |].
        -- left. rewrite Q1. exists ((k, x) :: pairs), ((a, p) :: kvs). split; [reflexivity|]. split; [constructor; [cbn; auto|exact Q2]|]. rewrite Q3. reflexivity.
        -- right. split; [|exact Q2]. intros pairs kvs E M. destruct (next_pairs n (map (look J) rest)) as [l|]; [|discriminate]. injection E as <-. inversion M; subst. eapply Q1; [reflexivity|eassumption].
      * right. split; [|eauto]. intros pairs kvs E M. destruct (next_pairs n (map (look J) rest)) as [l|]; [|discriminate]. injection E as <-. inversion M as [|? [a p] ? ? (M1 & M2 & M3) ?]; subst. cbn in *. eapply Hno; eauto.
Qed.

Lemma root_any : forall J, blen J < 2147483648 -> forall rest hd v, toks_ok J rest ->
  let found := match behind_root (map (look J) rest) with Some ((TObject, n, _) :: r) => next_pairs (Z.to_nat n) r | _ => None end in
  (exists pairs kvs, found = Some pairs /\ pairs_mean pairs kvs /\ find_root J (hd ++ rest) rest (List.length hd) (Some v) = Ok (true, Some (put_all v kvs))) \/
  ((forall pairs kvs, found = Some pairs -> ~ pairs_mean pairs kvs) /\ exists v', find_root J (hd ++ rest) rest (List.length hd) (Some v) = Ok (false, v')).
Proof.
  intros J HJ. induction rest as [|t rest IH]; intros hd v Ht; cbn [map behind_root find_root].
  - right. split; [discriminate|eauto].
  - inversion Ht as [|? ? [_ (x & Tx & Cx)] Ht1]; subst. rewrite (look_tok _ _ _ Tx). destruct (tok_mem_at _ _ _ Tx) as [B [X1 X2]]. rewrite X1. cbn [obind]. rewrite (X2 HJ), root_prefix by exact Cx. cbn [obind].
    replace (hd ++ t :: rest) with ((hd ++ [t]) ++ rest) by (rewrite <- app_assoc; reflexivity). replace (S (List.length hd)) with (List.length (hd ++ [t])) by (rewrite app_length; cbn; lia).
    destruct (beqb x (firstn (List.length x) root_name)); [|apply (IH (hd ++ [t]) v Ht1)].
    destruct rest as [|o rest]; cbn [map].
    + right. split; [discriminate|]. rewrite app_nil_r. replace (nth_error (hd ++ [t]) (List.length (hd ++ [t]))) with (@None token) by (symmetry; apply nth_error_None; lia). eauto.
    + rewrite nth_mid. inversion Ht1 as [|? ? [_ (y & Ty & Cy)] Ht2]; subst. rewrite (look_tok _ _ _ Ty). destruct (tk_type o); try (right; split; [discriminate|eauto]; fail).
      replace ((hd ++ [t]) ++ o :: rest) with (((hd ++ [t]) ++ [o]) ++ rest) by (rewrite <- !app_assoc; reflexivity).
      apply (read_any J HJ (Z.to_nat (tk_size o)) ((hd ++ [t]) ++ [o]) rest (List.length (hd ++ [t])) 0%nat v Ht2). rewrite (app_length (hd ++ [t])). cbn [List.length]. lia.
Qed.

Lemma mean_holds : forall l kvs, pairs_mean l kvs -> holds_exactly (put_all init_voucher kvs) kvs.
Proof.
  intros l kvs H a. apply put_all_holds. induction H as [|m [b p] ms kvs [H1 [H2 H3]] Hr IH]; constructor; [|exact IH]. cbn in *. eauto.
Qed.

Section Doc.
Variables (v : json) (w1 w2 : bytes).
Hypothesis Pv : proper v.
Hypothesis P1 : Forall space w1.
Hypothesis P2 : Forall space w2.
Hypothesis Short : blen (w1 ++ text v ++ w2) < 2147483648.

Theorem doc_exact : (List.length (pieces v) <= 32)%nat ->
  (exists pairs kvs u, voucher_pairs v = Some pairs /\ pairs_mean pairs kvs /\ deserialize_voucher true (Some (w1 ++ text v ++ w2)) = Ok (Some u) /\ holds_exactly u kvs) \/
  ((forall pairs kvs, voucher_pairs v = Some pairs -> ~ pairs_mean pairs kvs) /\ deserialize_voucher true (Some (w1 ++ text v ++ w2)) = Ok None).
Proof.
  intros L. destruct (tree_read v w1 w2 32 Pv P1 P2 L) as (ts & E & M).
  assert (HB : bytes_ok (w1 ++ text v ++ w2)) by (repeat apply bytes_cat; [apply space_byte; exact P1|apply (proj1 text_bytes); exact Pv|apply space_byte; exact P2]).
  pose proof (tokens_text _ _ _ HB E) as T. unfold deserialize_voucher, voucher_pairs. rewrite E, <- M. destruct ts as [|t ts]; cbn [map].
  - right. split; [discriminate|reflexivity].
  - inversion T as [|? ? [_ (x & Tx & _)] Ts]; subst. rewrite (look_tok _ _ _ Tx). destruct (tk_type t); try (right; split; [discriminate|reflexivity]).
    destruct (root_any _ Short ts [t] init_voucher Ts) as [(pairs & kvs & Q1 & Q2 & Q3)|[Q1 [v' Q2]]]; cbn [app List.length] in *.
    + left. exists pairs, kvs, (put_all init_voucher kvs). split; [exact Q1|]. split; [exact Q2|]. rewrite Q3. split; [reflexivity|]. exact (mean_holds _ _ Q2).
    + right. split; [exact Q1|]. rewrite Q2. reflexivity.
Qed.
Theorem doc_full : (32 < List.length (pieces v))%nat -> deserialize_voucher true (Some (w1 ++ text v ++ w2)) = Ok None.
Proof. intros L. unfold deserialize_voucher. rewrite (tree_full v w1 w2 32 Pv P1 P2 L). reflexivity. Qed.
End Doc.

Lemma leaf_pieces : forall l pairs r, leaf_members l = Some pairs -> next_pairs (Z.to_nat (members_count l)) (members_pieces l ++ r) = Some pairs.
Proof.
  assert (C : forall l, (0 <= members_count l)%Z) by (induction l; cbn [members_count]; lia).
  induction l as [|w1 key w2 w3 v w4 l IH]; intros pairs r H; cbn [leaf_members members_count members_pieces] in *; [injection H as <-; reflexivity|].
  replace (Z.to_nat (1 + members_count l)) with (S (Z.to_nat (members_count l))) by (specialize (C l); lia). cbn [next_pairs app].
  destruct v as [s|s|w x|w x]; try discriminate; destruct (leaf_members l) as [q|]; try discriminate; injection H as <-; cbn [pieces app]; rewrite (IH q r eq_refl); reflexivity.
Qed.
Lemma leaf_voucher : forall w a1 key a2 a3 w' l a4 more pairs, prefix_of_root key -> leaf_members l = Some pairs ->
  voucher_pairs (JTable w (MMore a1 key a2 a3 (JTable w' l) a4 more)) = Some pairs.
Proof.
  intros w a1 key a2 a3 w' l a4 more pairs Hk H. unfold voucher_pairs. cbn [pieces members_pieces behind_root app]. rewrite (proj1 (prefix_beqb key) Hk). apply leaf_pieces. exact H.
Qed.
Lemma mean_fun : forall l k1 k2, pairs_mean l k1 -> pairs_mean l k2 -> k1 = k2.
Proof.
  intros ms k1 k2 H. revert k2. induction H as [|m [a p] ms k1 [H1 [H2 H3]] Hr IH]; intros k2 H'; inversion H' as [|? [b q] ? ? Hy Hrest]; subst; [reflexivity|].
  cbn in *. destruct Hy as [K1 [K2 K3]].
  assert (a = b) by (apply attr_name_inj; congruence || assumption). subst.
  assert (p = q) by (eapply value_ok_fun; eassumption). subst. f_equal. apply IH. assumption.
Qed.

(** A voucher object of plain values, whatever comes behind it in the document. *)
Theorem members_read : forall o1 o2 w a1 key a2 a3 w' l a4 more pairs, let v := JTable w (MMore a1 key a2 a3 (JTable w' l) a4 more) in
  proper v -> Forall space o1 -> Forall space o2 -> blen (o1 ++ text v ++ o2) < 2147483648 -> (List.length (pieces v) <= 32)%nat ->
  prefix_of_root key -> leaf_members l = Some pairs ->
  (forall kvs, pairs_mean pairs kvs -> exists u, deserialize_voucher true (Some (o1 ++ text v ++ o2)) = Ok (Some u) /\ holds_exactly u kvs) /\
  ((forall kvs, ~ pairs_mean pairs kvs) -> deserialize_voucher true (Some (o1 ++ text v ++ o2)) = Ok None).
Proof.
  intros o1 o2 w a1 key a2 a3 w' l a4 more pairs v Pv P1 P2 Short L Hk Hl. pose proof (leaf_voucher w a1 key a2 a3 w' l a4 more pairs Hk Hl) as Q. fold v in Q.
  destruct (doc_exact v o1 o2 Pv P1 P2 Short L) as [(pairs' & kvs & u & E & M & D & HE)|[N D]].
  - rewrite Q in E. injection E as <-. split; [|intros N; exfalso; exact (N _ M)]. intros kvs' M'. rewrite (mean_fun _ _ _ M' M). eauto.
  - split; [intros kvs M; exfalso; exact (N _ _ Q M)|intros _; exact D].
Qed.
