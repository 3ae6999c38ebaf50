(** Proofs: names are compared by the letters. *)
From Coq Require Import ZifyBool ZifyNat ZifyN.
From Verif Require Import Base PBase MSerialize MHttp SHttp PHttp MTls MWire SCase.
Open Scope N_scope.

Lemma pairs_range a b : In (a, b) (combine capitals smalls) <-> 65 <= a <= 90 /\ b = a + 32.
Proof.
  split.
  - intro I. vm_compute in I. repeat (destruct I as [E|I]; [injection E as <- <-; lia|]). destruct I.
  - intros [R ->]. assert (E : exists i, (i < 26)%nat /\ a = 65 + N.of_nat i) by (exists (N.to_nat (a - 65)); lia). destruct E as (i & L & ->).
    do 26 (destruct i as [|i]; [vm_compute; tauto|]). lia.
Qed.
Lemma letter_lower a b : tolower a = tolower b <-> same_letter a b.
Proof.
  unfold same_letter. rewrite !pairs_range. unfold tolower. destruct ((65 <=? a) && (a <=? 90)) eqn:A, ((65 <=? b) && (b <=? 90)) eqn:B; lia.
Qed.
Lemma text_lower : forall a b, map tolower a = map tolower b <-> same_text a b.
Proof.
  unfold same_text. induction a as [|x a IH]; intros [|y b]; cbn [map]; split; intro H; try discriminate; try solve [inversion H]; [constructor|reflexivity| |].
  - injection H as H1 H2. constructor; [apply letter_lower, H1|apply IH, H2].
  - inversion H; subst. f_equal; [apply letter_lower; assumption|apply IH; assumption].
Qed.
Lemma names_same a b : ci_same a b = true <-> same_text a b.
Proof. rewrite <- text_lower. apply ci_same_iff. Qed.
Lemma tokens_same a b : same_ignoring_case a b = true <-> same_text a b.
Proof. rewrite <- text_lower. unfold same_ignoring_case. apply beqb_eq. Qed.
Lemma names_spec a b : same_name a b <-> same_text a b.
Proof. apply text_lower. Qed.
Lemma values_spec k l v : In v (values_ci k l) <-> exists k', In (k', v) l /\ same_text k k'.
Proof.
  unfold values_ci. rewrite in_map_iff. split.
  - intros ([k' w] & <- & I). apply filter_In in I as [I E]. exists k'. split; [exact I|]. apply text_lower. apply beqb_eq in E. exact E.
  - intros (k' & I & E). exists (k', v). split; [reflexivity|]. apply filter_In. split; [exact I|]. apply beqb_eq. apply text_lower. exact E.
Qed.
