(** General lemmas. *)
From Coq Require Import ZifyBool ZifyNat ZifyN.
From Verif Require Import Base.
Open Scope N_scope.

Ltac Zify.zify_post_hook ::= Z.div_mod_to_equations.

Definition rangeN (n : nat) : list N := map N.of_nat (seq 0 n).

Lemma in_rangeN : forall n x, x < N.of_nat n -> In x (rangeN n).
Proof.
  intros n x H. unfold rangeN. apply in_map_iff. exists (N.to_nat x).
  split; [lia|]. apply in_seq. lia.
Qed.

Lemma all_range : forall n (f : N -> bool),
  forallb f (rangeN n) = true -> forall x, x < N.of_nat n -> f x = true.
Proof.
  intros n f H x Hx. rewrite forallb_forall in H. apply H.
  apply in_rangeN; exact Hx.
Qed.

Lemma all_range2 : forall n m (f : N -> N -> bool),
  forallb (fun x => forallb (f x) (rangeN m)) (rangeN n) = true ->
  forall x y, x < N.of_nat n -> y < N.of_nat m -> f x y = true.
Proof.
  intros n m f H x y Hx Hy.
  pose proof (all_range n _ H x Hx) as H1. cbv beta in H1.
  exact (all_range m _ H1 y Hy).
Qed.

Lemma beqb_eq : forall a b, beqb a b = true <-> a = b.
Proof.
  induction a as [|x a IH]; destruct b as [|y b]; cbn; split; intros H;
    try discriminate; try reflexivity.
  - apply andb_true_iff in H. destruct H as [H1 H2].
    apply N.eqb_eq in H1. apply IH in H2. congruence.
  - inversion H; subst. rewrite N.eqb_refl. cbn. apply IH. reflexivity.
Qed.

Lemma beqb_refl : forall a, beqb a a = true.
Proof. intros a. apply beqb_eq. reflexivity. Qed.

Lemma beqb_neq : forall a b, beqb a b = false <-> a <> b.
Proof.
  intros a b. split.
  - intros H E. apply beqb_eq in E. congruence.
  - intros H. destruct (beqb a b) eqn:E; [|reflexivity].
    apply beqb_eq in E. contradiction.
Qed.

Lemma obind_ok : forall A B (m : outcome A) (f : A -> outcome B) b,
  obind m f = Ok b -> exists a, m = Ok a /\ f a = Ok b.
Proof. intros A B [a|k] f b H; cbn in H; [eauto | discriminate]. Qed.

Lemma bytes_ok_app : forall a b, bytes_ok (a ++ b) <-> bytes_ok a /\ bytes_ok b.
Proof. intros a b. unfold bytes_ok. apply Forall_app. Qed.

Lemma blen_app : forall a b, blen (a ++ b) = blen a + blen b.
Proof. intros a b. unfold blen. rewrite app_length. lia. Qed.

Lemma blen_cons : forall x a, blen (x :: a) = 1 + blen a.
Proof. intros x a. unfold blen. cbn [List.length]. lia. Qed.

Lemma blen_rev : forall a, blen (rev a) = blen a.
Proof. intros a. unfold blen. rewrite rev_length. reflexivity. Qed.

Lemma cstr_bytes : forall l, cstr_ok l -> bytes_ok l.
Proof.
  intros l H. unfold cstr_ok, bytes_ok in *.
  eapply Forall_impl; [|exact H]. cbn. intros a Ha. lia.
Qed.

Definition bytes_okb (l : bytes) : bool := forallb (fun b => b <? 256) l.
Lemma bytes_okb_ok : forall l, bytes_okb l = true -> bytes_ok l.
Proof.
  intros l H. unfold bytes_ok. apply Forall_forall. intros x Hx.
  unfold bytes_okb in H. rewrite forallb_forall in H. specialize (H x Hx). lia.
Qed.

Definition cstr_okb (l : bytes) : bool := forallb (fun b => (0 <? b) && (b <? 256)) l.
Lemma cstr_okb_ok : forall l, cstr_okb l = true -> cstr_ok l.
Proof.
  intros l H. unfold cstr_ok. apply Forall_forall. intros x Hx.
  unfold cstr_okb in H. rewrite forallb_forall in H. specialize (H x Hx). lia.
Qed.
