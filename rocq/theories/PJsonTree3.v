(** Proofs: what the tokens of a JSON document say of its text. *)
From Verif Require Import Base PBase MJsmn SJsonTree PJsonTree PJsonTree2.
Open Scope N_scope.

Lemma look_at : forall ty n pre s post p q, p = blen pre -> q = blen pre + blen s -> look (pre ++ s ++ post) (mk_tok ty (Z.of_N p) (Z.of_N q) n) = (ty, n, s).
Proof.
  intros ty n pre s post p q -> ->. unfold look. cbn [tk_type tk_size tk_start tk_end]. f_equal.
  replace (Z.to_nat (Z.of_N (blen pre))) with (List.length pre) by (unfold blen; lia). replace (Z.to_nat (Z.of_N (blen pre + blen s) - Z.of_N (blen pre))) with (List.length s) by (unfold blen; lia).
  rewrite skipn_app, skipn_all, Nat.sub_diag. cbn [app skipn]. rewrite firstn_app, firstn_all, Nat.sub_diag. cbn [firstn]. apply app_nil_r.
Qed.

Lemma looks : (forall v pre post, map (look (pre ++ text v ++ post)) (tokens (blen pre) v) = pieces v) /\
  (forall l pre post b, map (look (pre ++ elements_text b l ++ post)) (elements_tokens (blen pre) b l) = elements_pieces l) /\
  (forall l pre post b, map (look (pre ++ members_text b l ++ post)) (members_tokens (blen pre) b l) = members_pieces l).
Proof.
  apply json_all.
  - intros s pre post. cbn [tokens text pieces map]. f_equal. rewrite <- !app_assoc. rewrite app_assoc. apply look_at; rewrite blen_app2; reflexivity.
  - intros s pre post. cbn [tokens text pieces map]. f_equal. apply look_at; reflexivity.
  - intros w l IH pre post. rewrite tokens_list. cbn [map pieces]. f_equal; [apply look_at; [reflexivity|rewrite blen_list; reflexivity]|].
    cbn [text]. rewrite <- (IH ((pre ++ [91]) ++ w) ([93] ++ post) true). rewrite !blen_app2. change (blen [91]) with 1. f_equal. f_equal. rewrite <- !app_assoc. reflexivity.
  - intros w l IH pre post. rewrite tokens_table. cbn [map pieces]. f_equal; [apply look_at; [reflexivity|rewrite blen_table; reflexivity]|].
    cbn [text]. rewrite <- (IH ((pre ++ [123]) ++ w) ([125] ++ post) true). rewrite !blen_app2. change (blen [123]) with 1. f_equal. f_equal. rewrite <- !app_assoc. reflexivity.
  - reflexivity.
  - intros w1 v IHv w2 l IHl pre post b. cbn [elements_text elements_tokens elements_pieces]. rewrite map_app.
    set (c := if b then [] else [44] : bytes). replace (if b then 0 else 1) with (blen c) by (destruct b; reflexivity).
    rewrite <- (IHv (pre ++ c ++ w1) (w2 ++ elements_text false l ++ post)), <- (IHl (pre ++ c ++ w1 ++ text v ++ w2) post false). rewrite !blen_app2, !N.add_assoc. f_equal; f_equal; f_equal; rewrite <- !app_assoc; reflexivity.
  - reflexivity.
  - intros w1 key w2 w3 v IHv w4 l IHl pre post b. cbn [members_text members_tokens members_pieces map]. rewrite map_app.
    set (c := if b then [] else [44] : bytes). replace (if b then 0 else 1) with (blen c) by (destruct b; reflexivity).
    f_equal.
    + replace (pre ++ (c ++ w1 ++ ([34] ++ key ++ [34]) ++ w2 ++ [58] ++ w3 ++ text v ++ w4 ++ members_text false l) ++ post) with ((pre ++ c ++ w1 ++ [34]) ++ key ++ ([34] ++ w2 ++ [58] ++ w3 ++ text v ++ w4 ++ members_text false l ++ post)) by (rewrite <- !app_assoc; reflexivity).
      apply look_at; rewrite !blen_app2; change (blen [34]) with 1; lia.
    + rewrite <- (IHv (pre ++ c ++ w1 ++ [34] ++ key ++ [34] ++ w2 ++ [58] ++ w3) (w4 ++ members_text false l ++ post)), <- (IHl (pre ++ c ++ w1 ++ [34] ++ key ++ [34] ++ w2 ++ [58] ++ w3 ++ text v ++ w4) post false).
      rewrite !blen_app2. change (blen [34]) with 1. change (blen [58]) with 1.
      f_equal; (f_equal; [f_equal; rewrite <- !app_assoc; reflexivity|]); f_equal; lia.
Qed.

Theorem tree_read : forall v w1 w2 num, proper v -> Forall space w1 -> Forall space w2 -> (List.length (pieces v) <= num)%nat ->
  exists ts, jsmn_parse (w1 ++ text v ++ w2) num = inl ts /\ map (look (w1 ++ text v ++ w2)) ts = pieces v.
Proof.
  intros v w1 w2 num P H1 H2 L. exists (tokens (blen w1) v). pose proof (proj1 looks v w1 w2) as Q. split; [|exact Q]. rewrite tree_exact by assumption.
  rewrite <- Q, map_length in L. rewrite (proj2 (Nat.leb_le _ _) L). reflexivity.
Qed.
Theorem tree_full : forall v w1 w2 num, proper v -> Forall space w1 -> Forall space w2 -> (num < List.length (pieces v))%nat -> jsmn_parse (w1 ++ text v ++ w2) num = inr JNoMem.
Proof.
  intros v w1 w2 num P H1 H2 L. rewrite tree_exact by assumption. rewrite <- (proj1 looks v w1 w2), map_length in L. rewrite (proj2 (Nat.leb_gt _ _) L). reflexivity.
Qed.
