(** The results of the functions of MObjectFiles, by the calls that fail. *)
From Verif Require Import Base PBase MBase64 MSerialize MOs MVoucher MCrypto MObjects MObjectFiles SObjects.
Open Scope nat_scope.

Definition alike (s s' : objs) : Prop := ob_next s' = ob_next s /\ ob_ret s' = ob_ret s.
Lemma alike_trans : forall a b c, alike a b -> alike b c -> alike a c.
Proof. intros a b c [A1 A2] [B1 B2]. split; congruence. Qed.
Lemma put_alike : forall s x v, alike s (ob_put s x v).
Proof. intros s x v. split; [|reflexivity]. unfold ob_next, ob_put. cbn [ob_list]. generalize (ob_list s) as l. intros l. revert x. induction l as [|y l IH]; intros [|x]; cbn [upd List.length]; auto. Qed.
Lemma release_alike : forall d s x s', release d s x = Ok s' -> alike s s'.
Proof.
  induction d as [|d IH]; intros s x s' H; cbn [release] in H; destruct (ob_at s x) as [k r l|]; try discriminate.
  - destruct r as [|[|r]].
    + destruct l; [|discriminate]. injection H as <-. apply put_alike.
    + destruct l; [|discriminate]. injection H as <-. apply put_alike.
    + injection H as <-. apply put_alike.
  - assert (Each : forall l s0, ((fix each (l : list nat) (s : objs) : outcome objs := match l with [] => Ok s | y :: l => obind (release d s y) (fun s => each l s) end) l s0) = Ok s' -> alike s0 s').
    { clear H. intros l0. induction l0 as [|y l0 IHl]; intros s0 H; [injection H as <-; split; reflexivity|].
      destruct (release d s0 y) as [s1|] eqn:E; [|discriminate]. cbn [obind] in H. eapply alike_trans; [eapply IH; exact E|apply IHl; exact H]. }
    destruct r as [|[|r]].
    + eapply alike_trans; [apply put_alike|apply Each in H; exact H].
    + eapply alike_trans; [apply put_alike|apply Each in H; exact H].
    + injection H as <-. apply put_alike.
Qed.
Lemma free_alike : forall k s x s', free k s x = Ok s' -> alike s s'.
Proof.
  intros k s [x|] s' H; cbn [free] in H; [|injection H as <-; split; reflexivity]. destruct (ob_at s x) as [k' r l|]; [|discriminate]. destruct (kind_eqb k k'); [|discriminate]. eapply release_alike. exact H.
Qed.
Lemma hold_alike : forall s c x s', hold s c x = Ok s' -> alike s s'.
Proof. intros s c x s' H. unfold hold in H. destruct (ob_at s c); [|discriminate]. injection H as <-. apply put_alike. Qed.

(** [s'] is [n] calls after [s]. *)
Definition after (s : objs) (n : nat) (s' : objs) : Prop := ob_next s' = ob_next s + n /\ ob_ret s' = ob_ret s.
Lemma after_start : forall s, after s 0 s.
Proof. intros s. split; [lia|reflexivity]. Qed.
Lemma after_new : forall s n s1 k p s2, after s n s1 -> ob_new s1 k = (p, s2) -> after s (S n) s2 /\ (p <> None <-> (0 < ret s n)%Z).
Proof.
  intros s n s1 k p s2 [A1 A2] E. unfold ob_new in E. rewrite A1, A2 in E. fold (ret s n) in E. destruct (ret s n <=? 0)%Z eqn:Q; injection E as <- <-; (split; [split; [unfold ob_next, ob_add in *; cbn [ob_list]; rewrite app_length; cbn [List.length]; lia|exact A2]|]).
  - split; [intros X; destruct (X eq_refl)|lia].
  - split; [lia|discriminate].
Qed.
Lemma after_call : forall s n s1 z s2, after s n s1 -> ob_call s1 = (z, s2) -> after s (S n) s2 /\ z = ret s n.
Proof.
  intros s n s1 z s2 [A1 A2] E. unfold ob_call in E. injection E as <- <-. split; [split; [unfold ob_next, ob_add in *; cbn [ob_list]; rewrite app_length; cbn [List.length]; lia|exact A2]|]. rewrite A1, A2. reflexivity.
Qed.
Lemma after_alike : forall s n s1 s2, after s n s1 -> alike s1 s2 -> after s n s2.
Proof. intros s n s1 s2 [A1 A2] [B1 B2]. split; congruence. Qed.
Lemma after_parse : forall A s n s1 k (v : option A) p s2, after s n s1 -> parse k v s1 = (p, s2) ->
  match v with None => p = None /\ after s n s2 | Some a => after s (S n) s2 /\ (p <> None <-> (0 < ret s n)%Z) /\ (forall b x, p = Some (b, x) -> b = a) end.
Proof.
  intros A s n s1 k [a|] p s2 H E; cbn [parse] in E; [|injection E as <- <-; auto].
  destruct (ob_new s1 k) as [x s3] eqn:En. destruct (after_new _ _ _ _ _ _ H En) as [H1 H2]. destruct x as [x|]; injection E as <- <-.
  - split; [exact H1|]. split; [rewrite <- H2; split; discriminate|]. intros b y Q. congruence.
  - split; [exact H1|]. split; [rewrite <- H2; tauto|]. discriminate.
Qed.

Ltac frees H := match type of H with obind (free ?k ?s ?x) _ = _ => let E := fresh "E" in let s' := fresh "s" in destruct (free k s x) as [s'|] eqn:E; [|discriminate H]; apply free_alike in E; cbn [obind] in H end.

(** Success exactly when the calls work and the content parses. *)
Theorem file_results : forall k pem s r s', file_to_buf k pem s = Ok (r, s') -> (r <> None <-> pem = true /\ forall i, i < 4 -> (0 < ret s i)%Z).
Proof.
  intros k pem s r s' H. unfold file_to_buf in H. destruct (ob_new s KFile) as [p s1] eqn:E1. destruct (after_new _ _ _ _ _ _ (after_start s) E1) as [A1 R1].
  destruct p as [fp|]. 2:{ injection H as <- <-. split; [congruence|]. intros [_ Q]. apply R1. apply (Q 0). lia. }
  destruct (parse k (if pem then Some tt else None) s1) as [p s2] eqn:E2. pose proof (after_parse _ _ _ _ _ _ _ _ A1 E2) as P2. destruct p as [[u x]|].
  2:{ frees H. injection H as <- <-. split; [congruence|]. intros [-> Q]. destruct P2 as (_ & P2 & _). exfalso. apply (proj2 P2); [apply Q; lia|reflexivity]. }
  destruct pem; [|destruct P2; discriminate]. destruct P2 as (A2 & P2 & _). frees H. pose proof (after_alike _ _ _ _ A2 E) as A3.
  destruct (ob_new s0 KList) as [p s4] eqn:E4. destruct (after_new _ _ _ _ _ _ A3 E4) as [A4 R4]. destruct p as [arr|].
  2:{ frees H. injection H as <- <-. split; [congruence|]. intros [_ Q]. apply R4. apply Q. lia. }
  destruct (ob_new s4 KBuf) as [p s5] eqn:E5. destruct (after_new _ _ _ _ _ _ A4 E5) as [A5 R5]. destruct p as [b|].
  2:{ frees H. frees H. injection H as <- <-. split; [congruence|]. intros [_ Q]. apply R5. apply Q. lia. }
  destruct (hold s5 arr b) as [s6|]; [|discriminate]. cbn [obind] in H. frees H. injection H as <- <-. split; [|discriminate]. intros _. split; [reflexivity|].
  intros i Hi. destruct i as [|[|[|[|i]]]]; [apply R1; discriminate|apply P2; discriminate|apply R4; discriminate|apply R5; discriminate|lia].
Qed.

Theorem write_results : forall k der s z s', buf_to_file k der s = Ok (z, s') -> (z = 0%Z <-> der = true /\ forall i, i < 3 -> (0 < ret s i)%Z).
Proof.
  intros k der s z s' H. unfold buf_to_file in H. destruct (ob_new s KFile) as [p s1] eqn:E1. destruct (after_new _ _ _ _ _ _ (after_start s) E1) as [A1 R1].
  destruct p as [fp|]. 2:{ injection H as <- <-. split; [discriminate|]. intros [_ Q]. exfalso. apply R1; [apply (Q 0); lia|reflexivity]. }
  destruct (parse k (if der then Some tt else None) s1) as [p s2] eqn:E2. pose proof (after_parse _ _ _ _ _ _ _ _ A1 E2) as P2. destruct p as [[u x]|].
  2:{ frees H. injection H as <- <-. split; [discriminate|]. intros [-> Q]. destruct P2 as (_ & P2 & _). exfalso. apply (proj2 P2); [apply Q; lia|reflexivity]. }
  destruct der; [|destruct P2; discriminate]. destruct P2 as (A2 & P2 & _). destruct (ob_call s2) as [y s3] eqn:E3. destruct (after_call _ _ _ _ _ A2 E3) as [A3 R3]. frees H. frees H. injection H as <- <-. subst y.
  destruct (Z.leb_spec (ret s 2) 0) as [Q|Q]; (split; [try discriminate|]).
  - intros [_ X]. specialize (X 2 ltac:(lia)). lia.
  - intros _. split; [reflexivity|]. intros i Hi. destruct i as [|[|[|i]]]; [apply R1; discriminate|apply P2; discriminate|exact Q|lia].
  - reflexivity.
Qed.

Lemma add_certs_after : forall n s m s1 c s2, after s m s1 -> add_certs n s1 c = Ok s2 -> after s (m + n) s2.
Proof.
  induction n as [|n IH]; intros s m s1 c s2 A E; cbn [add_certs] in E.
  - injection E as <-. rewrite Nat.add_0_r. exact A.
  - destruct (hold (ob_add s1 (Alive KCert 1 [])) c (ob_next s1)) as [s3|] eqn:H; [|discriminate]. cbn [obind] in E. apply hold_alike in H.
    replace (m + S n) with (S m + n) by lia. eapply IH; [|exact E]. eapply after_alike; [|exact H]. destruct A as [A1 A2]. split; [unfold ob_next, ob_add in *; cbn [ob_list]; rewrite app_length; cbn [List.length]; lia|exact A2].
Qed.

Theorem cms_results : forall o (inn : inner o) v s z s', cmsbuf_to_file inn v s = Ok (z, s') ->
  (z = 0%Z <-> exists c, v = Some c /\ (0 < ret s 0)%Z /\ (0 < ret s (1 + in_certs inn c))%Z /\ (0 < ret s (2 + in_certs inn c))%Z).
Proof.
  intros o inn v s z s' H. unfold cmsbuf_to_file, parse_cms in H. destruct (parse KCms v s) as [p s1] eqn:E1. pose proof (after_parse _ _ _ _ _ _ _ _ (after_start s) E1) as P1.
  destruct p as [[c x]|]. 2:{ cbn [obind] in H. injection H as <- <-. split; [discriminate|]. intros (c & -> & Q & _). destruct P1 as (_ & P1 & _). exfalso. apply (proj2 P1 Q). reflexivity. }
  destruct v as [c'|]; [|destruct P1; discriminate]. destruct P1 as (A1 & P1 & Ev). specialize (Ev _ _ eq_refl). subst c'.
  destruct (add_certs (in_certs inn c) s1 x) as [s2|] eqn:E2; [|discriminate]. cbn [obind] in H. pose proof (add_certs_after _ _ _ _ _ _ A1 E2) as A2.
  destruct (ob_new s2 KBio) as [p s3] eqn:E3. destruct (after_new _ _ _ _ _ _ A2 E3) as [A3 R3]. destruct p as [out|].
  2:{ frees H. injection H as <- <-. split; [discriminate|]. intros (c1 & Q & _ & Q2 & _). assert (c1 = c) as -> by congruence. exfalso. apply (proj2 R3); [exact Q2|reflexivity]. }
  destruct (ob_call s3) as [y s4] eqn:E4. destruct (after_call _ _ _ _ _ A3 E4) as [A4 R4]. frees H. frees H. injection H as <- <-. subst y. change (S (1 + in_certs inn c)) with (2 + in_certs inn c).
  destruct (Z.leb_spec (ret s (2 + in_certs inn c)) 0) as [Q|Q]; (split; [try discriminate|]).
  - intros (c1 & Q1 & _ & _ & Q2). assert (c1 = c) as -> by congruence. lia.
  - intros _. exists c. split; [reflexivity|]. split; [apply P1; discriminate|]. split; [apply R3; discriminate|exact Q].
  - reflexivity.
Qed.

Theorem cert2buf_results : forall cert s r s', cert2buf cert s = Ok (r, s') -> (r <> None <-> forall i, i < 2 -> (0 < ret s i)%Z).
Proof.
  intros cert s r s' H. unfold cert2buf in H. destruct (ob_new s KList) as [p s1] eqn:E1. destruct (after_new _ _ _ _ _ _ (after_start s) E1) as [A1 R1].
  destruct p as [arr|]. 2:{ injection H as <- <-. split; [congruence|]. intros Q. apply R1. apply Q. lia. }
  destruct (ob_at s1 cert); [|discriminate]. destruct (ob_new s1 KBuf) as [p s2] eqn:E2. destruct (after_new _ _ _ _ _ _ A1 E2) as [A2 R2]. destruct p as [b|].
  2:{ frees H. injection H as <- <-. split; [congruence|]. intros Q. apply R2. apply Q. lia. }
  destruct (hold s2 arr b) as [s3|]; [|discriminate]. cbn [obind] in H. injection H as <- <-. split; [|discriminate]. intros _ [|[|i]] Hi; [apply R1; discriminate|apply R2; discriminate|lia].
Qed.

Theorem issuer_results : forall cert text s r s', getcert_issuer cert text s = Ok (r, s') ->
  (r <> None <-> (0 < ret s 0)%Z /\ (0 <= ret s 1)%Z /\ (0 < ret s 2)%Z /\ (text <> [] -> 0 < ret s 3)%Z).
Proof.
  intros cert text s r s' H. unfold getcert_issuer in H. destruct (ob_at s cert); [|discriminate].
  destruct (ob_new s KBio) as [p s1] eqn:E1. destruct (after_new _ _ _ _ _ _ (after_start s) E1) as [A1 R1].
  destruct p as [mem|]. 2:{ injection H as <- <-. split; [congruence|]. intros [Q _]. apply R1. exact Q. }
  destruct (ob_call s1) as [z s2] eqn:E2. destruct (after_call _ _ _ _ _ A1 E2) as [A2 ->]. destruct (Z.ltb_spec (ret s 1) 0) as [Q1|Q1].
  { frees H. injection H as <- <-. split; [congruence|]. lia. }
  destruct (ob_new s2 KList) as [p s3] eqn:E3. destruct (after_new _ _ _ _ _ _ A2 E3) as [A3 R3].
  destruct p as [arr|]. 2:{ frees H. injection H as <- <-. split; [congruence|]. intros (_ & _ & Q & _). apply R3. exact Q. }
  destruct text as [|c text]; cbn [bio_to_ptr] in H.
  - frees H. injection H as <- <-. split; [|discriminate]. intros _. split; [apply R1; discriminate|]. split; [exact Q1|]. split; [apply R3; discriminate|congruence].
  - destruct (ob_new s3 KBuf) as [p s4] eqn:E4. destruct (after_new _ _ _ _ _ _ A3 E4) as [A4 R4]. destruct p as [b|]; frees H.
    + destruct (hold s0 arr b) as [s5|]; [|discriminate]. cbn [obind] in H. injection H as <- <-. split; [|discriminate]. intros _. split; [apply R1; discriminate|]. split; [exact Q1|]. split; [apply R3; discriminate|]. intros _. apply R4. discriminate.
    + frees H. injection H as <- <-. split; [congruence|]. intros (_ & _ & _ & Q). apply R4. apply Q. discriminate.
Qed.
