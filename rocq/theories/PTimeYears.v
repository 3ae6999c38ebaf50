(** Proofs: which date-times can be printed. *)
From Coq Require Import ZifyBool ZifyNat ZifyN.
From Verif Require Import Base PBase MSerialize SSerialize PSerialize.
Open Scope N_scope.

Lemma digits_most : forall k f n acc, n < 10 ^ N.of_nat (S k) -> (List.length (dec_digits_aux f n acc) <= List.length acc + S k)%nat.
Proof.
  induction k as [|k IH]; intros [|f] n acc L; cbn [dec_digits_aux]; try lia.
  - change (10 ^ N.of_nat 1) with 10 in L. replace (n <? 10) with true by lia. cbn [List.length]. lia.
  - destruct (n <? 10) eqn:E; cbn [List.length]; [lia|]. assert (n / 10 < 10 ^ N.of_nat (S k)) as Q.
    { apply N.div_lt_upper_bound; [lia|]. replace (N.of_nat (S (S k))) with (N.succ (N.of_nat (S k))) in L by lia. rewrite N.pow_succ_r' in L. exact L. }
    specialize (IH f (n / 10) ((48 + n mod 10) :: acc) Q). cbn [List.length] in IH. lia.
Qed.
Lemma digits_least : forall k f n acc, 10 ^ N.of_nat k <= n -> (k < f)%nat -> (List.length acc + S k <= List.length (dec_digits_aux f n acc))%nat.
Proof.
  assert (G : forall f n acc, (List.length acc <= List.length (dec_digits_aux f n acc))%nat).
  { induction f as [|f IH]; intros n acc; cbn [dec_digits_aux]; [lia|]. destruct (n <? 10); cbn [List.length]; [lia|]. specialize (IH (n / 10) ((48 + n mod 10) :: acc)). cbn [List.length] in IH. lia. }
  induction k as [|k IH]; intros [|f] n acc L F; try lia; cbn [dec_digits_aux].
  - destruct (n <? 10); cbn [List.length]; [lia|]. specialize (G f (n / 10) ((48 + n mod 10) :: acc)). cbn [List.length] in G. lia.
  - replace (N.of_nat (S k)) with (N.succ (N.of_nat k)) in L by lia. rewrite N.pow_succ_r' in L. assert (P : 0 < 10 ^ N.of_nat k) by (apply N.neq_0_lt_0, N.pow_nonzero; lia).
    replace (n <? 10) with false by lia. assert (10 ^ N.of_nat k <= n / 10) as Q by (apply N.div_le_lower_bound; [lia|exact L]).
    specialize (IH f (n / 10) ((48 + n mod 10) :: acc) Q ltac:(lia)). cbn [List.length] in IH. lia.
Qed.
Lemma year_len : forall y, blen (strf_num 1 y) <= 5 <-> (-9999 <= y <= 99999)%Z.
Proof.
  intro y. unfold strf_num, blen, dec_digits. set (n := Z.to_N (Z.abs y)).
  assert (L4 : 10000 <= n -> (5 <= List.length (dec_digits_aux (S (N.to_nat (N.log2 n))) n []))%nat).
  { intro H. apply (digits_least 4 (S (N.to_nat (N.log2 n))) n []); [exact H|]. pose proof (N.log2_le_mono 10000 n H) as Q. change (N.log2 10000) with 13 in Q. lia. }
  assert (L5 : 100000 <= n -> (6 <= List.length (dec_digits_aux (S (N.to_nat (N.log2 n))) n []))%nat).
  { intro H. apply (digits_least 5 (S (N.to_nat (N.log2 n))) n []); [exact H|]. pose proof (N.log2_le_mono 100000 n H) as Q. change (N.log2 100000) with 16 in Q. lia. }
  pose proof (digits_least 0 (S (N.to_nat (N.log2 n))) n [] ) as L0. change (10 ^ N.of_nat 0) with 1 in L0.
  pose proof (digits_most 3 (S (N.to_nat (N.log2 n))) n []) as M4. change (10 ^ N.of_nat 4) with 10000 in M4.
  pose proof (digits_most 4 (S (N.to_nat (N.log2 n))) n []) as M5. change (10 ^ N.of_nat 5) with 100000 in M5. cbn [List.length] in *.
  assert (EN : Z.of_N n = Z.abs y) by (unfold n; lia). set (d := dec_digits_aux (S (N.to_nat (N.log2 n))) n []) in *. clearbody d. clearbody n.
  destruct (y <? 0)%Z eqn:E; cbn [List.length]; rewrite app_length, repeat_length; split; intro H; lia.
Qed.
Lemma time_years : forall t,
  (0 <= tm_mon t <= 11)%Z -> (1 <= tm_mday t <= 31)%Z -> (0 <= tm_hour t <= 23)%Z -> (0 <= tm_min t <= 59)%Z -> (0 <= tm_sec t <= 61)%Z ->
  (serialize_time2str t <> None <-> (-9999 <= tm_year t + 1900 <= 99999)%Z).
Proof.
  intros t M D H I S0. rewrite <- year_len. unfold serialize_time2str. cbv zeta.
  assert (T : forall v, (0 <= v < 100)%Z -> blen (strf_num 2 v) = 2) by (intros v V; rewrite <- (Z2N.id v) by lia; rewrite strf_two by lia; reflexivity).
  assert (E : blen (strftime_iso t) = blen (strf_num 1 (tm_year t + 1900)) + 16).
  { unfold strftime_iso. rewrite !blen_app. rewrite !T by lia. unfold blen. cbn [List.length]. lia. }
  rewrite E. set (b := blen (strf_num 1 (tm_year t + 1900))). clearbody b. destruct (b + 16 + 1 <=? 22) eqn:Q; split; intro K; try discriminate; try lia. destruct (K eq_refl).
Qed.
