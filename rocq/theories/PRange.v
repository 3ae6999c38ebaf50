(** Proofs about requests for a part of an answer: reading the request. *)
From Coq Require Import ZifyBool ZifyNat ZifyN Sorted.
From Verif Require Import Base PBase MSerialize MHttp SHttp PHttp PHttp2 MTls MWire SWire PWire PWire2 PWire3 PWire4 PWire5 PWire6 PWire7 PWire8 MRange SRange.
Open Scope N_scope.

Lemma trim_left_first c r : space_or_tab c = false -> trim_left (c :: r) = c :: r.
Proof. intro H. cbn [trim_left]. rewrite H. reflexivity. Qed.
Lemma trim_none s : Forall (fun c => space_or_tab c = false) s -> trim s = s.
Proof.
  intro F. assert (L : forall t, Forall (fun c => space_or_tab c = false) t -> trim_left t = t) by (intros [|c t] G; [reflexivity|]; apply trim_left_first; inversion G; assumption).
  unfold trim, trim_right. rewrite (L s F), L by (apply Forall_rev, F). apply rev_involutive.
Qed.
Lemma cut_minus_digits : forall a b acc, Forall digit a -> cut_minus acc (a ++ 45 :: b) = Some (rev acc ++ a, b).
Proof.
  induction a as [|c a IH]; intros b acc F; cbn [cut_minus app]; [rewrite app_nil_r; reflexivity|]. apply Forall_cons_iff in F as [A F]. unfold digit in A. replace (c =? 45) with false by lia.
  rewrite IH by exact F. cbn [rev]. rewrite <- app_assoc. reflexivity.
Qed.
Lemma digits_test a : Forall digit a -> forallb is_digit a = true.
Proof. intro F. apply forallb_forall. rewrite Forall_forall in F. intros c I. specialize (F c I). unfold digit, is_digit in *. lia. Qed.
Lemma skip_white_range a b : Forall digit a -> skip_white (a ++ 45 :: b) = a ++ 45 :: b.
Proof. intro F. destruct a as [|c a]; [reflexivity|]. apply Forall_cons_iff in F as [A _]. cbn [app skip_white]. unfold white, digit in *. replace ((c =? 32) || ((9 <=? c) && (c <=? 13))) with false by lia. reflexivity. Qed.
Lemma match_range_text blanks a b : Forall digit a -> Forall digit b -> match_range blanks (a ++ 45 :: b) = Some (a, b).
Proof.
  intros A B. unfold match_range. replace (if blanks then skip_white (a ++ 45 :: b) else a ++ 45 :: b) with (a ++ 45 :: b) by (destruct blanks; [symmetry; apply skip_white_range, A|reflexivity]).
  rewrite cut_minus_digits by exact A. cbn [rev app]. rewrite (digits_test _ A), (digits_test _ B). reflexivity.
Qed.
Lemma group_digits n : n <= LLONG_MAX -> group_value (dec_digits n) = Some (Z.of_N n).
Proof. intro H. unfold group_value. destruct (digits_cons n) as (c & r & E & _). pose proof (number_digits n) as V. rewrite E in *. rewrite V. cbv zeta. replace (n <=? LLONG_MAX) with true by lia. reflexivity. Qed.

(** One range. *)
Definition sides (w : want) : bytes * bytes :=
  match w with Between a b => (dec_digits a, dec_digits b) | From a => (dec_digits a, []) | Last n => ([], dec_digits n) end.
Definition want_range (w : want) : range :=
  match w with Between a b => (Z.of_N a, Z.of_N b) | From a => (Z.of_N a, (-1)%Z) | Last n => ((-1)%Z, Z.of_N n) end.
Lemma want_sides w : want_text w = fst (sides w) ++ 45 :: snd (sides w).
Proof. destruct w; reflexivity. Qed.
Lemma sides_digit w : Forall digit (fst (sides w)) /\ Forall digit (snd (sides w)).
Proof. destruct w; split; try apply digits_digit; constructor. Qed.
Lemma parse_one w : want_ok w -> parse_range_header (range_text w) = (true, [want_range w]).
Proof.
  intro OK. unfold parse_range_header, range_text. change (has_prefix (s2b "bytes=") (s2b "bytes=" ++ want_text w)) with (beqb (s2b "bytes=") (s2b "bytes=")). rewrite beqb_refl.
  change (skipn 6 (s2b "bytes=" ++ want_text w)) with (want_text w). destruct (sides_digit w) as [FA FB]. rewrite want_sides. remember (fst (sides w)) as a. remember (snd (sides w)) as b.
  assert (NC : Forall (fun c => c <> 44) (a ++ 45 :: b)). { apply Forall_app. split; [eapply Forall_impl; [|exact FA]; unfold digit; lia|]. constructor; [discriminate|]. eapply Forall_impl; [|exact FB]; unfold digit; lia. }
  assert (NB : Forall (fun c => space_or_tab c = false) (a ++ 45 :: b)). { apply Forall_app. split; [eapply Forall_impl; [|exact FA]; unfold digit, space_or_tab; lia|]. constructor; [reflexivity|]. eapply Forall_impl; [|exact FB]; unfold digit, space_or_tab; lia. }
  assert (MR : match_ranges (a ++ 45 :: b) = true) by (unfold match_ranges; rewrite parts_whole by exact NC; cbn [rev app]; rewrite match_range_text by assumption; reflexivity).
  rewrite MR. cbn [andb]. unfold split. rewrite parts_whole by exact NC. cbn [rev app map filter]. rewrite trim_none by exact NB.
  replace (beqb (a ++ 45 :: b) []) with false by (destruct a; reflexivity). cbn [negb take_ranges]. rewrite match_range_text by assumption.
  destruct w as [x y|x|x]; cbn [sides fst snd] in *; subst a b; cbn [want_ok want_range] in *.
  - rewrite !group_digits by (unfold LLONG_MAX; lia). replace (negb (Z.of_N x =? -1)%Z && negb (Z.of_N y =? -1)%Z && (Z.of_N y <? Z.of_N x)%Z) with false by lia. reflexivity.
  - rewrite group_digits by (unfold LLONG_MAX; lia). cbn [group_value]. change (-1 =? -1)%Z with true. cbn [negb]. rewrite Bool.andb_false_r. reflexivity.
  - rewrite group_digits by (unfold LLONG_MAX; lia). cbn [group_value]. change (-1 =? -1)%Z with true. reflexivity.
Qed.

(** Where the part is. *)
Lemma skipn_all_more {A} (n : nat) (l : list A) : (List.length l <= n)%nat -> skipn n l = [].
Proof. apply skipn_all2. Qed.
Lemma place_one w s : want_ok w -> blen s <= LLONG_MAX -> s <> [] ->
  (fst (range_place (blen s) (want_range w)) < blen s <-> there w (blen s)) /\ (there w (blen s) -> substr (fst (range_place (blen s) (want_range w))) (snd (range_place (blen s) (want_range w))) s = asked w s).
Proof.
  intros OK L NE. unfold LLONG_MAX in L. assert (P : 0 < blen s) by (destruct s; [contradiction|unfold blen; cbn [List.length]; lia]).
  assert (MODS : forall z : Z, (0 <= z < SIZE_MOD - 1)%Z -> ((z mod SIZE_MOD + 1) mod SIZE_MOD = z + 1)%Z) by (intros z Z0; unfold SIZE_MOD in *; rewrite (Z.mod_small z) by lia; rewrite Z.mod_small by lia; reflexivity).
  destruct w as [a b|a|n]; cbn [want_ok want_range there asked] in *; unfold range_place.
  - replace ((Z.of_N a =? -1)%Z && (Z.of_N b =? -1)%Z) with false by lia. cbv zeta. replace (Z.of_N a =? -1)%Z with false by lia. replace (Z.of_N b =? -1)%Z with false by lia. cbn [fst snd]. rewrite N2Z.id. split; [reflexivity|]. intros T.
    rewrite MODS by (unfold SIZE_MOD; lia). unfold substr. replace (Z.to_N (Z.of_N b - Z.of_N a + 1)) with (b - a + 1) by lia.
    destruct (N.leb_spec (b - a + 1) (blen s)); [replace (N.min (b - a + 1) (blen s)) with (b - a + 1) by lia; reflexivity|]. replace (N.min (b - a + 1) (blen s)) with (blen s) by lia.
    rewrite !firstn_all2; [reflexivity| |]; rewrite skipn_length; unfold blen in *; lia.
  - change (-1 =? -1)%Z with true. rewrite Bool.andb_true_r. replace (Z.of_N a =? -1)%Z with false by lia. cbv zeta. cbv iota. change (-1 =? -1)%Z with true. cbn [fst snd]. rewrite N2Z.id. split; [reflexivity|]. intros T.
    rewrite MODS by (unfold SIZE_MOD; lia). unfold substr. rewrite firstn_all2; [reflexivity|]. rewrite skipn_length. unfold blen in *. lia.
  - change (-1 =? -1)%Z with true. replace (Z.of_N n =? -1)%Z with false by lia. cbn [andb]. cbv zeta. replace (Z.of_N (blen s) - 1 =? -1)%Z with false by lia. cbn [fst snd]. split; [lia|]. intros T.
    rewrite MODS by (unfold SIZE_MOD; lia). unfold substr. replace (N.to_nat (Z.to_N (Z.max 0 (Z.of_N (blen s) - Z.of_N n)))) with (List.length s - N.to_nat n)%nat by (unfold blen in *; lia).
    rewrite firstn_all2; [reflexivity|]. rewrite skipn_length. unfold blen in *. lia.
Qed.
