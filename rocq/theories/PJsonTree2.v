(** Proofs: every JSON document is tokenized as its shape says (the induction). *)
From Verif Require Import Base PBase MJsmn SJsonTree PJsonTree.
Open Scope N_scope.

Lemma ends_space : forall w rest, Forall space w -> ends rest -> ends (w ++ rest).
Proof. intros [|c w] rest H E; [exact E|]. inversion H as [|? ? Hc Hw]; subst. destruct Hc as [->|[->|[->| ->]]]; reflexivity. Qed.
Lemma ends_elements : forall l rest, ends (elements_text false l ++ [93] ++ rest).
Proof. intros [|w1 v w2 l] rest; reflexivity. Qed.
Lemma ends_members : forall l rest, ends (members_text false l ++ [125] ++ rest).
Proof. intros [|w1 k w2 w3 v w4 l] rest; reflexivity. Qed.
Lemma blen_app2 : forall a b : bytes, blen (a ++ b) = blen a + blen b.
Proof. intros. unfold blen. rewrite app_length. lia. Qed.
Lemma after_in : forall v A t B, is_open t = true -> Forall (fun t => is_open t = false) B -> after v (A ++ t :: B) (Some (List.length A)) = Some (List.length A).
Proof. intros [s|s|w l|w l] A t B Ot HB; cbn [after]; try reflexivity; rewrite (fl_at is_open A t B 0 HB Ot); reflexivity. Qed.

Lemma run_text : forall s, value_run (JText s).
Proof.
  intros s num T s0 pos rest P V E. cbn [text tokens after proper] in *. rewrite loop_string by assumption. cbn [List.length].
  replace (List.length T + 1 <=? num)%nat with (List.length T <? num)%nat by lia. destruct (_ <? _)%nat; [|reflexivity]. f_equal. rewrite !blen_app2. change (blen [34]) with 1. lia.
Qed.
Lemma run_word : forall s, value_run (JWord s).
Proof.
  intros s num T s0 pos rest [P1 P2] V E. cbn [text tokens after] in *. rewrite loop_word by assumption. cbn [List.length].
  replace (List.length T + 1 <=? num)%nat with (List.length T <? num)%nat by lia. reflexivity.
Qed.
Lemma blen_list : forall w l, blen (text (JList w l)) = 1 + (blen w + (blen (elements_text true l) + 1)).
Proof. intros. cbn [text]. rewrite !blen_app2. reflexivity. Qed.
Lemma blen_table : forall w l, blen (text (JTable w l)) = 1 + (blen w + (blen (members_text true l) + 1)).
Proof. intros. cbn [text]. rewrite !blen_app2. reflexivity. Qed.
Lemma tokens_list : forall p w l, tokens p (JList w l) = mk_tok TArray (Z.of_N p) (Z.of_N (p + (1 + (blen w + (blen (elements_text true l) + 1))))) (elements_count l) :: elements_tokens (p + 1 + blen w) true l.
Proof. intros. rewrite <- blen_list. reflexivity. Qed.
Lemma tokens_table : forall p w l, tokens p (JTable w l) = mk_tok TObject (Z.of_N p) (Z.of_N (p + (1 + (blen w + (blen (members_text true l) + 1))))) (members_count l) :: members_tokens (p + 1 + blen w) true l.
Proof. intros. rewrite <- blen_table. reflexivity. Qed.
Lemma run_list : forall w l, elements_run l -> value_run (JList w l).
Proof.
  intros w l IH num T s pos rest [P1 P2] V E. rewrite blen_list, tokens_list. cbn [text List.length]. rewrite <- !app_assoc. rewrite (loop_open num T s pos _ TArray 91) by auto.
  destruct (List.length T <? num)%nat eqn:L; [|replace (_ <=? num)%nat with false by lia; reflexivity].
  rewrite loop_space by exact P1. change ([mk_tok TArray (Z.of_N pos) (-1) 0]) with (mk_tok TArray (Z.of_N pos) (-1) 0 :: []).
  rewrite (IH num _ _ [] _ true rest P2); [|unfold is_open; cbn [tk_start tk_end]; replace (Z.of_N pos =? -1)%Z with false by (symmetry; apply Z.eqb_neq; lia); reflexivity|reflexivity|constructor|rewrite app_length, bump_length; cbn [List.length]; lia].
  rewrite app_length, bump_length. cbn [List.length app].
  replace (List.length T + S (List.length (elements_tokens (pos + 1 + blen w) true l)) <=? num)%nat with (List.length T + 1 + List.length (elements_tokens (pos + 1 + blen w) true l) <=? num)%nat by (f_equal; lia).
  destruct (_ <=? num)%nat; [|reflexivity]. unfold plus. cbn [tk_type tk_start tk_end tk_size]. change (93 :: rest) with ([93] ++ rest). rewrite loop_close; [|apply (proj1 (proj2 tokens_closed))|right; split; reflexivity].
  cbn [after]. rewrite bump_open, Z.add_0_r. 
  replace (pos + 1 + blen w + blen (elements_text true l) + 1) with (pos + (1 + (blen w + (blen (elements_text true l) + 1)))) by lia. reflexivity.
Qed.
Lemma run_table : forall w l, members_run l -> value_run (JTable w l).
Proof.
  intros w l IH num T s pos rest [P1 P2] V E. rewrite blen_table, tokens_table. cbn [text List.length]. rewrite <- !app_assoc. rewrite (loop_open num T s pos _ TObject 123) by auto.
  destruct (List.length T <? num)%nat eqn:L; [|replace (_ <=? num)%nat with false by lia; reflexivity].
  rewrite loop_space by exact P1. change ([mk_tok TObject (Z.of_N pos) (-1) 0]) with (mk_tok TObject (Z.of_N pos) (-1) 0 :: []).
  destruct (IH num (bump s T) (mk_tok TObject (Z.of_N pos) (-1) 0) [] (pos + 1 + blen w) true rest (Some (List.length (bump s T))) P2) as (s' & R); [unfold is_open; cbn [tk_start tk_end]; replace (Z.of_N pos =? -1)%Z with false by (symmetry; apply Z.eqb_neq; lia); reflexivity|reflexivity|constructor|rewrite app_length, bump_length; cbn [List.length]; lia|left; reflexivity|].
  rewrite R. clear R. rewrite app_length, bump_length. cbn [List.length app].
  replace (List.length T + S (List.length (members_tokens (pos + 1 + blen w) true l)) <=? num)%nat with (List.length T + 1 + List.length (members_tokens (pos + 1 + blen w) true l) <=? num)%nat by (f_equal; lia).
  destruct (_ <=? num)%nat; [|reflexivity]. unfold plus. cbn [tk_type tk_start tk_end tk_size]. change (125 :: rest) with ([125] ++ rest). rewrite loop_close; [|apply (proj2 (proj2 tokens_closed))|left; split; reflexivity].
  cbn [after]. rewrite bump_open, Z.add_0_r. 
  replace (pos + 1 + blen w + blen (members_text true l) + 1) with (pos + (1 + (blen w + (blen (members_text true l) + 1)))) by lia. reflexivity.
Qed.
Lemma run_enone : elements_run ENone.
Proof.
  intros num A t B pos first rest P Ot Ct HB L. cbn [elements_text elements_tokens elements_count List.length]. rewrite plus_zero, app_nil_r. change (blen []) with 0. rewrite N.add_0_r, Nat.add_0_r. rewrite (proj2 (Nat.leb_le _ _) L). reflexivity.
Qed.
Lemma run_mnone : members_run MNone.
Proof.
  intros num A t B pos first rest s P Ot Ct HB L Hs. exists s. cbn [members_text members_tokens members_count List.length]. rewrite plus_zero, app_nil_r. change (blen []) with 0. rewrite N.add_0_r, Nat.add_0_r. rewrite (proj2 (Nat.leb_le _ _) L). reflexivity.
Qed.
Lemma bump_at : forall A t B, bump (Some (List.length A)) (A ++ t :: B) = A ++ incr_size t :: B.
Proof. intros. cbn [bump]. apply upd_at. Qed.
Lemma valid_at : forall A (t : token) B, valid (Some (List.length A)) (A ++ t :: B).
Proof. intros. cbn [valid]. rewrite app_length. cbn [List.length]. lia. Qed.
Lemma run_emore : forall w1 v w2 l, value_run v -> elements_run l -> elements_run (EMore w1 v w2 l).
Proof.
  intros w1 v w2 l IHv IHl num A t B pos first rest (P1 & Pv & P2 & Pl) Ot Ct HB L. cbn [elements_text elements_tokens elements_count].
  set (q := pos + (if first then 0 else 1) + blen w1).
  assert (R : jsmn_loop num (((if first then [] else [44]) ++ w1 ++ text v ++ w2 ++ elements_text false l) ++ [93] ++ rest) pos 0 (mk_js (A ++ t :: B) (Some (List.length A))) =
              jsmn_loop num (text v ++ (w2 ++ elements_text false l ++ [93] ++ rest)) q 0 (mk_js (A ++ t :: B) (Some (List.length A)))).
  { rewrite <- !app_assoc. unfold q. destruct first; [cbn [app]; rewrite N.add_0_r|rewrite loop_comma by auto]; rewrite loop_space by exact P1; reflexivity. }
  rewrite R. clear R. rewrite IHv; [|exact Pv|apply valid_at|apply ends_space; [exact P2|apply ends_elements]]. rewrite bump_at, after_in by assumption. rewrite (app_length (tokens q v)).
  destruct (List.length (A ++ t :: B) + List.length (tokens q v) <=? num)%nat eqn:E1; [|replace (_ <=? num)%nat with false by lia; reflexivity].
  apply Nat.leb_le in E1. rewrite loop_space by exact P2. replace ((A ++ incr_size t :: B) ++ tokens q v) with (A ++ incr_size t :: (B ++ tokens q v)) by (rewrite <- app_assoc; reflexivity).
  assert (LL : List.length (A ++ incr_size t :: B ++ tokens q v) = (List.length (A ++ t :: B) + List.length (tokens q v))%nat) by (repeat (rewrite app_length; cbn [List.length]); lia).
  rewrite IHl; [|exact Pl|exact Ot|exact Ct|apply Forall_app; split; [exact HB|apply (proj1 tokens_closed)]|rewrite LL; lia].
  rewrite LL. replace (List.length (A ++ t :: B) + (List.length (tokens q v) + List.length (elements_tokens (q + blen (text v) + blen w2) false l)))%nat with (List.length (A ++ t :: B) + List.length (tokens q v) + List.length (elements_tokens (q + blen (text v) + blen w2) false l))%nat by lia.
  destruct (_ <=? num)%nat; [|reflexivity]. rewrite plus_incr, <- (app_assoc B). f_equal. rewrite !blen_app2. unfold q. destruct first; [change (blen []) with 0|change (blen [44]) with 1]; lia.
Qed.
Lemma run_mmore : forall w1 key w2 w3 v w4 l, value_run v -> members_run l -> members_run (MMore w1 key w2 w3 v w4 l).
Proof.
  intros w1 key w2 w3 v w4 l IHv IHl num A t B pos first rest s (P1 & Pk & P2 & P3 & Pv & P4 & Pl) Ot Ct HB L Hs. cbn [members_text members_tokens members_count].
  set (k := pos + (if first then 0 else 1) + blen w1). set (q := k + blen key + 2 + blen w2 + 1 + blen w3).
  set (kt := mk_tok TString (Z.of_N (k + 1)) (Z.of_N (k + 1 + blen key)) 0).
  set (kt1 := mk_tok TString (Z.of_N (k + 1)) (Z.of_N (k + 1 + blen key)) 1).
  set (C := B ++ [kt1]).
  assert (Bk : Forall (fun t => is_open t = false) (B ++ [kt])) by (apply Forall_app; split; [exact HB|constructor; [apply tok_closed|constructor]]).
  assert (HC : Forall (fun t => is_open t = false) C) by (apply Forall_app; split; [exact HB|constructor; [apply tok_closed|constructor]]).
  assert (R : jsmn_loop num (((if first then [] else [44]) ++ w1 ++ ([34] ++ key ++ [34]) ++ w2 ++ [58] ++ w3 ++ text v ++ w4 ++ members_text false l) ++ [125] ++ rest) pos 0 (mk_js (A ++ t :: B) s) =
              if (List.length (A ++ t :: B) <? num)%nat then
              jsmn_loop num (text v ++ (w4 ++ members_text false l ++ [125] ++ rest)) q 0 (mk_js ((A ++ incr_size t :: B) ++ [kt]) (Some (List.length (A ++ incr_size t :: B)))) else inr JNoMem).
  { transitivity (jsmn_loop num (([34] ++ key ++ [34]) ++ (w2 ++ [58] ++ w3 ++ text v ++ w4 ++ members_text false l ++ [125] ++ rest)) k 0 (mk_js (A ++ t :: B) (Some (List.length A)))).
    - unfold k. destruct first; rewrite <- !app_assoc; [destruct Hs as [->|[F _]]; [|discriminate F]; rewrite N.add_0_r; cbn [app]|rewrite loop_comma; auto; [|destruct Hs as [Hs|[_ Hs]]; auto]]; rewrite loop_space by exact P1; reflexivity.
    - rewrite loop_string; [|exact Pk|apply valid_at]. destruct (_ <? num)%nat; [|reflexivity]. rewrite bump_at. fold kt. rewrite loop_space by exact P2. rewrite loop_colon. rewrite loop_space by exact P3. reflexivity. }
  destruct (List.length (A ++ t :: B) <? num)%nat eqn:E0.
  2:{ exists None. rewrite R. cbn [List.length]. replace (_ <=? num)%nat with false by lia. reflexivity. }
  assert (LT : List.length ((A ++ incr_size t :: B) ++ [kt]) = (List.length (A ++ t :: B) + 1)%nat) by (repeat (rewrite app_length; cbn [List.length]); lia).
  rewrite (IHv num _ _ q _ Pv) in R; [|apply (valid_at (A ++ incr_size t :: B) kt [])|apply ends_space; [exact P4|apply ends_members]].
  rewrite (bump_at (A ++ incr_size t :: B) kt []) in R. change (incr_size kt) with kt1 in R. rewrite LT in R.
  set (s1 := after v ((A ++ incr_size t :: B) ++ [kt]) (Some (List.length (A ++ incr_size t :: B)))) in R.
  replace (((A ++ incr_size t :: B) ++ [kt1]) ++ tokens q v) with (A ++ incr_size t :: C ++ tokens q v) in R by (unfold C; rewrite <- !app_assoc; cbn [app]; rewrite <- ?app_assoc; reflexivity).
  cbn [List.length]. rewrite (app_length (tokens q v)).
  destruct (List.length (A ++ t :: B) + 1 + List.length (tokens q v) <=? num)%nat eqn:E1.
  2:{ exists None. rewrite R. replace (_ <=? num)%nat with false by lia. reflexivity. }
  apply Nat.leb_le in E1. rewrite (loop_space _ _ _ w4 _ P4) in R.
  assert (LL : List.length (A ++ incr_size t :: C ++ tokens q v) = (List.length (A ++ t :: B) + 1 + List.length (tokens q v))%nat) by (unfold C; repeat (rewrite app_length; cbn [List.length]); lia).
  destruct (IHl num A (incr_size t) (C ++ tokens q v) (q + blen (text v) + blen w4) false rest s1 Pl Ot Ct) as (s' & R2).
  { apply Forall_app. split; [exact HC|apply (proj1 tokens_closed)]. }
  { rewrite LL. lia. }
  { assert (K : s1 = Some (List.length A) \/ s1 = Some (List.length (A ++ incr_size t :: B))).
    { unfold s1. rewrite <- app_assoc. cbn [app]. destruct v; cbn [after]; auto; left; rewrite (fl_at is_open A (incr_size t) (B ++ [kt]) 0 Bk Ot); reflexivity. }
    destruct K as [K|K]; [left; exact K|]. right. split; [reflexivity|]. exists (List.length (A ++ incr_size t :: B)), kt1. split; [exact K|]. split; [|reflexivity].
    replace (A ++ incr_size t :: C ++ tokens q v) with ((A ++ incr_size t :: B) ++ kt1 :: tokens q v) by (unfold C; rewrite <- !app_assoc; cbn [app]; reflexivity). rewrite nth_error_app2, Nat.sub_diag by lia. reflexivity. }
  exists s'. rewrite R.
  change (jsmn_loop num (members_text false l ++ [125] ++ rest) (q + blen (text v) + blen w4) 0 (mk_js (A ++ incr_size t :: C ++ tokens q v) s1) = if (List.length (A ++ t :: B) + S (List.length (tokens q v) + List.length (members_tokens (q + blen (text v) + blen w4) false l)) <=? num)%nat
    then jsmn_loop num ([125] ++ rest) (pos + blen ((if first then [] else [44]) ++ w1 ++ ([34] ++ key ++ [34]) ++ w2 ++ [58] ++ w3 ++ text v ++ w4 ++ members_text false l)) 0 (mk_js (A ++ plus (1 + members_count l) t :: B ++ kt1 :: tokens q v ++ members_tokens (q + blen (text v) + blen w4) false l) s') else inr JNoMem).
  rewrite R2, LL. clear R R2.
  replace (List.length (A ++ t :: B) + S (List.length (tokens q v) + List.length (members_tokens (q + blen (text v) + blen w4) false l)))%nat with (List.length (A ++ t :: B) + 1 + List.length (tokens q v) + List.length (members_tokens (q + blen (text v) + blen w4) false l))%nat by lia.
  destruct (_ <=? num)%nat; [|reflexivity]. rewrite plus_incr. unfold C. rewrite <- !app_assoc. cbn [app]. f_equal. change (34 :: key ++ [34]) with ([34] ++ key ++ [34]). change (58 :: w3 ++ text v ++ w4 ++ members_text false l) with ([58] ++ w3 ++ text v ++ w4 ++ members_text false l).
  unfold q, k. rewrite blen_app2, (blen_app2 w1). change (34 :: key ++ 34 :: w2 ++ [58] ++ w3 ++ text v ++ w4 ++ members_text false l) with ([34] ++ key ++ [34] ++ w2 ++ [58] ++ w3 ++ text v ++ w4 ++ members_text false l). rewrite !blen_app2. change (blen [34]) with 1. change (blen [58]) with 1. destruct first; [change (blen []) with 0|change (blen [44]) with 1]; lia.
Qed.

Lemma all_runs : (forall v, value_run v) /\ (forall l, elements_run l) /\ (forall l, members_run l).
Proof.
  apply json_all; intros; auto using run_text, run_word, run_list, run_table, run_enone, run_emore, run_mnone, run_mmore.
Qed.

Theorem tree_exact : forall v w1 w2 num, proper v -> Forall space w1 -> Forall space w2 ->
  jsmn_parse (w1 ++ text v ++ w2) num = if (List.length (tokens (blen w1) v) <=? num)%nat then inl (tokens (blen w1) v) else inr JNoMem.
Proof.
  intros v w1 w2 num P H1 H2. unfold jsmn_parse. rewrite loop_space by exact H1. rewrite (proj1 all_runs v); [|exact P|exact I|replace w2 with (w2 ++ []) by apply app_nil_r; apply ends_space; [exact H2|exact I]].
  cbn [List.length Nat.add bump app]. rewrite N.add_0_l. destruct (_ <=? num)%nat; [|reflexivity]. replace w2 with (w2 ++ []) by apply app_nil_r. rewrite loop_space by exact H2. cbn [jsmn_loop]. unfold finish. cbn [js_toks].
  pose proof (fl_app is_open (tokens (blen w1) v) [] 0 (proj1 tokens_closed v (blen w1))) as F. cbn [app find_last] in F. rewrite F. reflexivity.
Qed.
