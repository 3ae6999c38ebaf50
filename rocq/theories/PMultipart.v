(** Proofs: a content in parts is taken apart as it was put together. *)
From Coq Require Import ZifyBool ZifyNat ZifyN.
From Verif Require Import Base PBase MSerialize MHttp SHttp PHttp MTls MWire MRange SWire PWire PWire2 PWire3 MMultipart SMultipart.
Open Scope N_scope.

(** ** Finding a text *)
Lemma prefix_app : forall p s, has_prefix p (p ++ s) = true.
Proof. intros p s. unfold has_prefix. rewrite firstn_app, firstn_all, Nat.sub_diag. cbn [firstn]. rewrite app_nil_r. apply beqb_eq. reflexivity. Qed.
Lemma prefix_inv : forall p s, has_prefix p s = true -> exists r, s = p ++ r.
Proof. intros p s H. unfold has_prefix in H. apply beqb_eq in H. exists (skipn (List.length p) s). rewrite <- H at 1. symmetry. apply firstn_skipn. Qed.

(** No place before the end of [c] has the text. *)
Definition clean (p c : bytes) : Prop := forall i, (i < List.length c)%nat -> has_prefix p (skipn i (c ++ p)) = false.
Lemma skip_skip : forall (l : bytes) k i, skipn i (skipn k l) = skipn (k + i) l.
Proof. induction l as [|a l IH]; intros [|k] i; cbn [skipn Nat.add]; try reflexivity; [destruct i; reflexivity|apply IH]. Qed.
Lemma clean_skip : forall p c k, clean p c -> clean p (skipn k c).
Proof.
  intros p c k H i L. rewrite skipn_length in L. specialize (H (k + i)%nat ltac:(lia)). rewrite <- H, <- skip_skip. do 2 f_equal.
  rewrite skipn_app. replace (k - List.length c)%nat with O by lia. reflexivity.
Qed.
Lemma prefix_more : forall p s t, (List.length p <= List.length s)%nat -> has_prefix p (s ++ t) = has_prefix p s.
Proof. intros p s t L. unfold has_prefix. rewrite firstn_app. replace (List.length p - List.length s)%nat with O by lia. cbn [firstn]. rewrite app_nil_r. reflexivity. Qed.
Lemma prefix_short : forall p s, (List.length s < List.length p)%nat -> has_prefix p s = false.
Proof. intros p s L. destruct (has_prefix p s) eqn:E; [|reflexivity]. apply prefix_inv in E as [r ->]. rewrite app_length in L. lia. Qed.
Lemma place_first : forall p c t, clean p c -> place_of p (c ++ p ++ t) = List.length c.
Proof.
  intros p. induction c as [|a c IH]; intros t H.
  - cbn [app List.length]. destruct (p ++ t) as [|y l] eqn:E; [reflexivity|]. cbn [place_of]. rewrite <- E, prefix_app. reflexivity.
  - cbn [app place_of List.length]. pose proof (H O ltac:(cbn; lia)) as H0. cbn [skipn] in H0.
    replace (a :: c ++ p ++ t) with (((a :: c) ++ p) ++ t) by (rewrite <- app_assoc; reflexivity). rewrite prefix_more, H0 by (rewrite app_length; lia).
    rewrite IH; [reflexivity|]. exact (clean_skip p (a :: c) 1 H).
Qed.
(** A beginning that ends before the end of the first occurrence. *)
Lemma place_none : forall p c t buf rest, clean p c -> buf ++ rest = c ++ p ++ t -> (List.length buf < List.length c + List.length p)%nat -> place_of p buf = List.length buf.
Proof.
  intros p c t buf. revert c. induction buf as [|a buf IH]; intros c rest H E L; [reflexivity|]. cbn [place_of List.length].
  assert (F : has_prefix p (a :: buf) = false).
  { destruct (has_prefix p (a :: buf)) eqn:HP; [|reflexivity]. exfalso. pose proof (prefix_inv _ _ HP) as [r R]. pose proof (f_equal (@List.length N) R) as RL. rewrite app_length in RL.
    destruct c as [|y c].
    - cbn [List.length app] in *; lia.
    - pose proof (H O ltac:(cbn; lia)) as H0. cbn [skipn] in H0. rewrite <- (prefix_more p ((y :: c) ++ p) t) in H0 by (rewrite app_length; lia). rewrite <- app_assoc, <- E in H0.
      rewrite prefix_more in H0 by lia. rewrite H0 in HP. discriminate HP. }
  rewrite F. f_equal. destruct c as [|y c].
  - cbn [app] in E. cbn [List.length] in L.
    assert (N0 : forall l i, (List.length l < List.length p)%nat -> (i = List.length l)%nat -> place_of p l = i).
    { induction l as [|z l IHl]; intros i Ll ->; [reflexivity|]. cbn [place_of]. rewrite prefix_short by exact Ll. cbn [List.length] in *. f_equal. apply IHl; [lia|reflexivity]. }
    apply N0; [cbn in *; lia|reflexivity].
  - cbn [app] in E. injection E as _ E. apply (IH c rest); [exact (clean_skip p (y :: c) 1 H)|exact E|cbn in *; lia].
Qed.
Lemma clean_of : forall p c, (forall j, (1 <= j < List.length p)%nat -> nth j p 0 <> nth 0 p 0) -> ~ part_of p c -> clean p c.
Proof.
  intros p c D NP i L. destruct (has_prefix p (skipn i (c ++ p))) eqn:E; [|reflexivity]. exfalso.
  assert (E2 := E). apply prefix_inv in E2 as [r R]. destruct (Nat.le_gt_cases (i + List.length p) (List.length c)) as [LE|GT].
  - apply NP. rewrite skipn_app in E. replace (i - List.length c)%nat with O in E by lia. cbn [skipn] in E. rewrite prefix_more in E by (rewrite skipn_length; lia). apply prefix_inv in E as [q Q].
    exists (firstn i c), q. rewrite <- Q. symmetry. apply firstn_skipn.
  - assert (Z : nth (List.length c - i) (skipn i (c ++ p)) 0 = nth 0 p 0).
    { rewrite skipn_app. replace (i - List.length c)%nat with O by lia. cbn [skipn]. rewrite app_nth2 by (rewrite skipn_length; lia). rewrite skipn_length. f_equal. lia. }
    rewrite R, app_nth1 in Z by lia. exact (D (List.length c - i)%nat ltac:(lia) Z).
Qed.
(** A beginning that reaches beyond the occurrence. *)
Lemma reach : forall (c : bytes) t buf rest, buf ++ rest = c ++ t -> (List.length c <= List.length buf)%nat -> exists more, buf = c ++ more /\ more ++ rest = t.
Proof.
  induction c as [|y c IH]; intros t buf rest E L; [exists buf; split; [reflexivity|exact E]|]. destruct buf as [|a buf]; [cbn in L; lia|]. cbn [app] in E. injection E as -> E.
  destruct (IH t buf rest E ltac:(cbn in L; lia)) as (more & -> & M). exists more. split; [reflexivity|exact M].
Qed.
Lemma short_of : forall (c : bytes) t buf rest, buf ++ rest = c ++ t -> (List.length buf <= List.length c)%nat -> exists more, c = buf ++ more /\ rest = more ++ t.
Proof. intros c t buf rest E L. symmetry in E. destruct (reach buf rest c t E L) as (more & -> & M). exists more. split; [reflexivity|symmetry; exact M]. Qed.
