(** Proofs: what an accepted content in parts must have been. *)
From Coq Require Import ZifyBool ZifyNat ZifyN.
From Verif Require Import Base PBase MSerialize MHttp SHttp PHttp MTls MWire MRange SWire PWire PWire2 PWire3 PWire4 PWire5 PWire6 PWire7 PWire8 SLength PLength MMultipart SMultipart PMultipart PMultipart2 PMultipart3 PMultipart4.
Open Scope N_scope.

Lemma part_of_more p c x : part_of p c -> part_of p (c ++ x).
Proof. intros (u & w & ->). exists u, (w ++ x). rewrite <- !app_assoc. reflexivity. Qed.
Lemma lines_rest : forall n buf f ok buf' f', header_lines n buf f = Some (ok, buf', f') -> exists c, buf = c ++ buf'.
Proof.
  induction n as [|n IH]; intros buf f ok buf' f'; cbn [header_lines]; [intro E; injection E as _ <- _; exists []; reflexivity|]. destruct (Nat.ltb _ _); [|intro E; injection E as _ <- _; exists []; reflexivity].
  destruct (Nat.eqb _ 0); [intro E; injection E as _ <- _; exists (firstn 2 buf); symmetry; apply firstn_skipn|]. destruct (part_header _ f); [|discriminate].
  intro E. apply IH in E as (c & E). exists (firstn (place_of CRLF buf + 2) buf ++ c). rewrite <- app_assoc, <- E. symmetry. apply firstn_skipn.
Qed.
Lemma place_at : forall p s, (place_of p s < List.length s)%nat -> exists r, skipn (place_of p s) s = p ++ r.
Proof.
  intros p. induction s as [|a s IH]; cbn [place_of List.length]; [lia|]. destruct (has_prefix p (a :: s)) eqn:E; [intros _; apply prefix_inv in E; exact E|]. intro L. cbn [skipn]. apply IH. lia.
Qed.

Section Sound.
Variable b : bytes.
(** [X]: all bytes given to the parser so far. *)
Definition Sound (p : parser) (X : bytes) : Prop := exists c, X = c ++ ps_buf p /\ (ps_state p = PAfter -> ps_valid p = true \/ exists c', c = c' ++ between b) /\
  (ps_state p <> PBoundary -> part_of (s2b "--" ++ b ++ CRLF) c) /\ (ps_valid p = true -> part_of (between b ++ s2b "--") c /\ ps_state p <> PBoundary) /\ (List.length (ps_files p) <= FILE_MAX_COUNT)%nat.
Lemma added : forall c l, List.length (add_content c l) = List.length l.
Proof. intros c. induction l as [|x l IH]; [reflexivity|]. cbn [add_content]. destruct l; [reflexivity|]. cbn [List.length] in *. rewrite IH. reflexivity. Qed.

Lemma loop_sound : forall n p X p', Sound p X -> parse_loop n b p = (p', true) -> Sound p' X.
Proof.
  induction n as [|n IH]; intros [st va buf f fs] X p' S E; cbn [parse_loop ps_buf ps_state ps_valid ps_file ps_files] in *; [injection E as <-; exact S|].
  destruct buf as [|c0 buf0]; [injection E as <-; exact S|]. remember (c0 :: buf0) as buf eqn:Bf. clear c0 buf0 Bf.
  pose proof S as (c & XE & SA & SB & SV & SN). cbn [ps_buf ps_state ps_valid ps_file ps_files] in *. destruct st.
  - set (first := s2b "--" ++ b ++ CRLF) in *. assert (XE2 : X = (c ++ firstn (place_of first buf) buf) ++ skipn (place_of first buf) buf) by (rewrite <- app_assoc, firstn_skipn; exact XE).
    assert (VF : va = true -> False) by (intro V; destruct (SV V) as [_ Q]; congruence).
    destruct (Nat.ltb _ _).
    + injection E as <-. exists (c ++ firstn (place_of first buf) buf). cbn [ps_buf ps_state ps_valid ps_file ps_files]. split; [exact XE2|]. repeat split; try congruence; try assumption; contradiction || (intro V; destruct (VF V)).
    + destruct (has_prefix first (skipn (place_of first buf) buf)) eqn:HP; cbn [negb] in E; [|discriminate E]. apply prefix_inv in HP as [q Q].
      apply IH with (X := X) in E; [exact E|]. exists ((c ++ firstn (place_of first buf) buf) ++ first). cbn [ps_buf ps_state ps_valid ps_file ps_files].
      split; [rewrite <- app_assoc, Q, skipn_app, skipn_all, Nat.sub_diag; cbn [skipn app]; rewrite XE2, Q; reflexivity|]. split; [discriminate|]. split; [intros _; exists (c ++ firstn (place_of first buf) buf), []; rewrite app_nil_r; reflexivity|].
      split; [intro V; destruct (VF V)|exact SN].
  - apply IH with (X := X) in E; [exact E|]. exists c. cbn [ps_buf ps_state ps_valid ps_file ps_files]. split; [exact XE|]. split; [discriminate|]. split; [intros _; apply SB; discriminate|]. split; [intro V; split; [exact (proj1 (SV V))|discriminate]|exact SN].
  - destruct (MAX_LENGTH <? _); [discriminate E|]. destruct (header_lines _ buf f) as [[[ok buf'] f']|] eqn:HL; [|discriminate E]. apply lines_rest in HL as [k K]. rewrite K in XE.
    assert (Q : forall st' f'' fs', st' <> PAfter -> st' <> PBoundary -> (List.length fs' <= FILE_MAX_COUNT)%nat -> Sound (mk_parser st' va buf' f'' fs') X).
    { intros st' f'' fs' A1 A2 A3. exists (c ++ k). cbn [ps_buf ps_state ps_valid ps_file ps_files]. split; [rewrite <- app_assoc; exact XE|]. split; [congruence|]. split; [intros _; apply part_of_more, SB; discriminate|].
      split; [intro V; split; [apply part_of_more; exact (proj1 (SV V))|exact A2]|exact A3]. }
    destruct ok; [|injection E as <-; apply Q; [discriminate|discriminate|exact SN]]. destruct (Nat.eqb_spec (List.length fs) FILE_MAX_COUNT); [discriminate E|].
    apply IH with (X := X) in E; [exact E|]. apply Q; [discriminate|discriminate|]. rewrite app_length. cbn [List.length]. lia.
  - change (CRLF ++ s2b "--" ++ b) with (between b) in E. destruct (Nat.ltb _ _); [injection E as <-; exact S|]. destruct (Nat.ltb_spec (place_of (between b) buf) (List.length buf)) as [L|L].
    + apply place_at in L as [q Q]. apply IH with (X := X) in E; [exact E|]. exists ((c ++ firstn (place_of (between b) buf) buf) ++ between b). cbn [ps_buf ps_state ps_valid ps_file ps_files].
      split; [rewrite <- skip_skip, Q, skipn_app, skipn_all, Nat.sub_diag; cbn [skipn app]; rewrite <- !app_assoc, <- Q, firstn_skipn; exact XE|]. split; [intros _; right; eexists; reflexivity|].
      split; [intros _; apply part_of_more, part_of_more, SB; discriminate|]. split; [intro V; split; [apply part_of_more, part_of_more; exact (proj1 (SV V))|discriminate]|rewrite added; exact SN].
    + injection E as <-. set (len := (List.length buf - List.length (between b))%nat). exists (c ++ firstn len buf). cbn [ps_buf ps_state ps_valid ps_file ps_files].
      split; [rewrite <- app_assoc, firstn_skipn; exact XE|]. split; [discriminate|]. split; [intros _; apply part_of_more, SB; discriminate|]. split; [intro V; split; [apply part_of_more; exact (proj1 (SV V))|discriminate]|rewrite added; exact SN].
  - destruct (Nat.ltb _ 2); [injection E as <-; exact S|]. destruct (has_prefix CRLF buf) eqn:HC.
    + apply prefix_inv in HC as [q Q]. apply IH with (X := X) in E; [exact E|]. exists (c ++ CRLF). cbn [ps_buf ps_state ps_valid ps_file ps_files]. rewrite Q. change (skipn 2 (CRLF ++ q)) with q.
      split; [rewrite <- app_assoc, <- Q; exact XE|]. split; [discriminate|]. split; [intros _; apply part_of_more, SB; discriminate|]. split; [intro V; split; [apply part_of_more; exact (proj1 (SV V))|discriminate]|exact SN].
    + destruct (has_prefix (s2b "--") buf) eqn:HD; [|injection E as <-; exact S]. apply prefix_inv in HD as [q Q]. injection E as <-. exists X. cbn [ps_buf ps_state ps_valid ps_file ps_files]. split; [rewrite app_nil_r; reflexivity|].
      split; [left; reflexivity|]. split; [intros _; rewrite XE; apply part_of_more, SB; discriminate|]. split; [|exact SN]. intros _. split; [|discriminate]. destruct (SA eq_refl) as [V|[c' C']]; [rewrite XE; apply part_of_more; exact (proj1 (SV V))|].
      exists c', q. rewrite XE, C', Q, <- !app_assoc. reflexivity.
Qed.
Lemma part_sound p X x p' : Sound p X -> parse_part b x p = (p', true) -> Sound p' (X ++ x).
Proof.
  intros (c & XE & S) E. unfold parse_part in E. apply loop_sound with (X := X ++ x) in E; [exact E|]. exists c. cbn [ps_buf ps_state ps_valid ps_file ps_files]. split; [rewrite XE, <- app_assoc; reflexivity|exact S].
Qed.
Lemma into_sound : forall fuel left p s p' s' X, Sound p X -> length_into fuel left b p s = (true, p', s') -> exists x, st_data s = x ++ st_data s' /\ Sound p' (X ++ x).
Proof.
  induction fuel as [|fuel IH]; intros left p s p' s' X S; cbn [length_into]; destruct (left =? 0) eqn:Z; try discriminate; try (intro E; injection E as <- <-; exists []; rewrite app_nil_r; split; [reflexivity|exact S]).
  destruct (st_data s) as [|d0 d] eqn:D; [unfold read; rewrite D; destruct (st_closed s); discriminate|].
  destruct (read_some (N.min left 4096) s d0 d (st_closed s) (conj D eq_refl) ltac:(lia)) as (k & s1 & K1 & K2 & RD & [H1 _]). rewrite RD. destruct (parse_part b (firstn k (d0 :: d)) p) as [p1 ok] eqn:PP. destruct ok; [|discriminate].
  intro E. apply IH with (X := X ++ firstn k (d0 :: d)) in E as (x & E & S'); [|exact (part_sound _ _ _ _ S PP)]. exists (firstn k (d0 :: d) ++ x). rewrite <- app_assoc, <- E, H1, firstn_skipn. split; [reflexivity|]. rewrite app_assoc. exact S'.
Qed.
Lemma rest_sound : forall fuel p s p' s' X, (List.length (st_data s) < fuel)%nat -> Sound p X -> rest_into fuel b p s = (true, p', s') -> st_data s' = [] /\ Sound p' (X ++ st_data s).
Proof.
  induction fuel as [|fuel IH]; intros p s p' s' X L S; cbn [rest_into]; [lia|]. destruct (st_data s) as [|d0 d] eqn:D.
  - unfold read. rewrite D. destruct (st_closed s); intro E; injection E as <- <-; rewrite app_nil_r; split; assumption.
  - destruct (read_some 4096 s d0 d (st_closed s) (conj D eq_refl) ltac:(lia)) as (k & s1 & K1 & K2 & RD & [H1 _]). rewrite RD. destruct (parse_part b (firstn k (d0 :: d)) p) as [p1 ok] eqn:PP. destruct ok; [|discriminate].
    intro E. apply IH with (X := X ++ firstn k (d0 :: d)) in E as [E1 E2]; [|rewrite H1, skipn_length; cbn [List.length] in *; lia|exact (part_sound _ _ _ _ S PP)].
    split; [exact E1|]. rewrite H1, <- app_assoc, firstn_skipn in E2. exact E2.
Qed.
End Sound.

Lemma quotes_part s : part_of (trim_quotes s) s.
Proof.
  unfold trim_quotes. destruct ((2 <=? blen s) && (hd 0 s =? 34) && (last s 0 =? 34)) eqn:E; [|exists [], []; rewrite app_nil_r; reflexivity]. destruct s as [|h [|c s]]; [discriminate E|discriminate E|]. cbn [tl].
  exists [h], [last (c :: s) 0]. cbn [app]. f_equal. apply app_removelast_last. discriminate.
Qed.
Lemma part_trans p q s : part_of p q -> part_of q s -> part_of p s.
Proof. intros (u & w & ->) (u2 & w2 & ->). exists (u2 ++ u), (w ++ w2). rewrite <- !app_assoc. reflexivity. Qed.
Lemma first_part n (s : bytes) : part_of (firstn n s) s.
Proof. exists [], (skipn n s). symmetry. apply firstn_skipn. Qed.
Lemma last_part n (s : bytes) : part_of (skipn n s) s.
Proof. exists (firstn n s), []. rewrite app_nil_r. symmetry. apply firstn_skipn. Qed.
Lemma upto_part : forall s, part_of (upto_nul s) s.
Proof. induction s as [|c s (u & w & E)]; [exists [], []; reflexivity|]. cbn [upto_nul]. destruct (c =? 0); [exists [], (c :: s); reflexivity|]. assert (H : exists w', s = upto_nul s ++ w') . { clear. induction s as [|d s [w' E]]; [exists []; reflexivity|]. cbn [upto_nul]. destruct (d =? 0); [exists (d :: s); reflexivity|]. exists w'. cbn [app]. rewrite <- E. reflexivity. } destruct H as [w' H]. exists [], w'. cbn [app]. rewrite <- H. reflexivity. Qed.
Lemma boundary_part ct b : parse_boundary ct = Some b -> b <> [] /\ part_of b ct.
Proof.
  unfold parse_boundary. destruct (skipn _ ct) as [|c0 r] eqn:E; [discriminate|]. rewrite <- E. cbv zeta. destruct (trim_quotes _) as [|d t] eqn:Q; [discriminate|]. intro H. injection H as <-. split; [discriminate|].
  rewrite <- Q. eapply part_trans; [apply quotes_part|]. eapply part_trans; [apply last_part|]. eapply part_trans; [apply first_part|]. apply last_part.
Qed.

(** An accepted form has a boundary from its type, a first and a last line, and no more parts than allowed. *)
Theorem form_whole hs s l hs' s' : read_form (s2b "POST") hs s = (Form l hs', s') -> values_ci (s2b "Transfer-Encoding") hs' = [] ->
  exists v vs b content, values_ci (s2b "Content-Type") hs = v :: vs /\ b <> [] /\ part_of b v /\ st_data s = content ++ st_data s' /\ part_of (s2b "--" ++ b ++ [13; 10]) content /\ part_of (between b ++ s2b "--") content /\
    N.of_nat (List.length l) <= 1024 /\ (values_ci (s2b "Content-Length") hs = [] -> st_data s' = []).
Proof.
  intros E T. revert E. unfold read_form. destruct (parse_boundary (header_value (s2b "Content-Type") hs)) as [b|] eqn:PB; [|discriminate]. apply boundary_part in PB as [B0 B1]. rewrite header_value_ci in B1.
  assert (V : exists v vs, values_ci (s2b "Content-Type") hs = v :: vs /\ part_of b v).
  { destruct (values_ci (s2b "Content-Type") hs) as [|v vs]; [destruct B1 as (u & w & E); destruct u; [destruct b; [congruence|discriminate E]|discriminate E]|]. exists v, vs. split; [reflexivity|]. eapply part_trans; [exact B1|apply upto_part]. }
  destruct V as (v & vs & V1 & V2). change (beqb (s2b "POST") (s2b "DELETE")) with false. cbn [andb]. destruct (_ || _ || _); [discriminate|].
  assert (S0 : Sound b new_parser []) by (exists []; split; [reflexivity|]; split; [discriminate|]; split; [intro Q; destruct (Q eq_refl)|]; split; [discriminate|apply Nat.le_0_l]).
  assert (FM : N.of_nat FILE_MAX_COUNT = 1024) by (vm_compute; reflexivity).
  assert (FIN : forall p X, Sound b p X -> ps_valid p = true -> part_of (s2b "--" ++ b ++ [13; 10]) X /\ part_of (between b ++ s2b "--") X /\ N.of_nat (List.length (ps_files p)) <= 1024).
  { intros p X (c & XE & SA & SB & SV & SN) VA. destruct (SV VA) as [P1 P2]. rewrite XE. split; [apply part_of_more, SB, P2|]. split; [apply part_of_more, P1|]. rewrite <- FM. lia. }
  destruct (same_ignoring_case (header_value (s2b "Transfer-Encoding") hs) (s2b "chunked")) eqn:CH.
  - destruct (chunks_into _ b hs new_parser s) as [[[ok p] h] s1] eqn:CK. destruct (ok && ps_valid p); [|discriminate]. intro E. injection E as _ -> _. exfalso.
    apply (chunks_more (s2b "Transfer-Encoding")) in CK. rewrite T in CK. rewrite header_value_ci in CH. destruct (values_ci (s2b "Transfer-Encoding") hs) as [|u us]; [discriminate CH|]. exact (CK u (or_introl eq_refl)).
  - rewrite mm_has_ci. destruct (values_ci (s2b "Content-Length") hs) as [|t r] eqn:VL; cbn [negb].
    + destruct (rest_into _ b new_parser s) as [[ok p] s1] eqn:RI. destruct ok; [|discriminate]. destruct (ps_valid p) eqn:VA; [|discriminate]. cbn [andb]. intro E. injection E as <- <- <-.
      apply (rest_sound b _ _ _ _ _ [] (Nat.lt_succ_diag_r _) S0) in RI as [R1 R2]. destruct (FIN _ _ R2 VA) as (F1 & F2 & F3). exists v, vs, b, (st_data s). rewrite R1, app_nil_r. repeat split; assumption.
    + destruct (length_into _ _ b new_parser s) as [[ok p] s1] eqn:LI. destruct ok; [|discriminate]. destruct (ps_valid p) eqn:VA; [|discriminate]. cbn [andb]. intro E. injection E as <- <- <-.
      apply (into_sound b _ _ _ _ _ _ [] S0) in LI as (x & L1 & L2). destruct (FIN _ _ L2 VA) as (F1 & F2 & F3). exists v, vs, b, x. repeat split; try assumption. discriminate.
Qed.
