(** Proofs: a content whose first part has an invalid head is refused. *)
From Coq Require Import ZifyBool ZifyNat ZifyN.
From Verif Require Import Base PBase MSerialize MHttp SHttp PHttp MTls MWire MRange SWire PWire PWire2 PWire3 PWire4 PWire5 PWire6 PWire7 PWire8 SLength PLength MMultipart SMultipart SMultipart2 PMultipart PHeadLines PMultipart2 PMultipart3.
Open Scope N_scope.

Lemma no_colon_header : forall t acc, Forall (fun c => c <> 58) t -> cut_colon acc t = None.
Proof. induction t as [|c t IH]; intros acc F; [reflexivity|]. inversion F; subst. cbn [cut_colon]. replace (c =? 58) with false by lia. apply IH. assumption. Qed.
Lemma trim_left_incl : forall t, incl (trim_left t) t.
Proof. induction t as [|c t IH]; [apply incl_refl|]. cbn [trim_left]. destruct (space_or_tab c); [apply incl_tl, IH|apply incl_refl]. Qed.
Lemma bad_refused line : bad_head line -> line <> [] /\ clean CRLF line /\ part_header line no_part = None.
Proof.
  intros [l NE F|key value K FK KN FV|name file FN NE FF].
  - split; [exact NE|]. split; [apply clean_line; eapply Forall_impl; [|exact F]; cbn; tauto|]. unfold part_header, parse_header. rewrite no_colon_header; [reflexivity|].
    apply Forall_forall. intros c I. unfold trim_right in I. apply in_rev in I. apply trim_left_incl in I. apply in_rev in I. rewrite Forall_forall in F. exact (proj2 (F c I)).
  - split; [discriminate|]. pose proof (chars_fine _ FK) as SK. pose proof (quoted_solid _ FV) as SV. set (q := [34] ++ value ++ [34]) in *. change (s2b "=" ++ q) with (61 :: q).
    assert (EN : Forall (fun c => c <> 10 /\ c <> 13) (key ++ 61 :: q)) by (apply Forall_app; split; [apply solid_ends, SK|]; apply Forall_cons; [lia|apply solid_ends, SV]).
    split.
    { apply clean_line. apply Forall_app. split; [apply Forall_forall; intros c I; vm_compute in I; repeat (destruct I as [<-|I]; [lia|]); destruct I|]. eapply Forall_impl; [|exact EN]. cbn; tauto. }
    destruct key as [|k0 key]; [congruence|]. assert (S0 : solid k0) by (inversion SK; assumption). assert (B0 : boundary_char k0) by (inversion FK; assumption).
    destruct (disposition_read ((k0 :: key) ++ 61 :: q) k0 (key ++ 61 :: q) eq_refl S0 ltac:(unfold boundary_char in B0; lia) EN) as ((h & PH) & PC & MD).
    { exists ((k0 :: key) ++ 61 :: [34] ++ value), 34. split; [unfold q; rewrite <- app_assoc; reflexivity|unfold blank_char; lia]. }
    unfold part_header. rewrite PH, PC, MD. rewrite one_pair; [|exact SK|exact SV|discriminate|unfold q; discriminate]. rewrite (chars_quotes (k0 :: key)) by exact FK. unfold param. cbn [find fst]. rewrite (proj2 (beqb_neq (s2b "name") (k0 :: key))) by congruence. reflexivity.
  - split; [discriminate|]. pose proof (quoted_solid _ FN) as SN. pose proof (chars_fine _ FF) as SF. unfold field_line. set (q := [34] ++ name ++ [34]) in *.
    assert (EL : (s2b "Content-Disposition: form-data; name=" ++ q) ++ s2b "; filename*=" ++ file = s2b "Content-Disposition: form-data; " ++ (s2b "name" ++ 61 :: q) ++ 59 :: 32 :: s2b "filename*" ++ 61 :: file) by (rewrite <- !app_assoc; reflexivity).
    change (s2b "Content-Disposition: form-data; name=" ++ [34] ++ name ++ [34]) with (s2b "Content-Disposition: form-data; name=" ++ q). rewrite EL. set (v := (s2b "name" ++ 61 :: q) ++ 59 :: 32 :: s2b "filename*" ++ 61 :: file).
    assert (W : forall t, forallb (fun c => negb ((c =? 59) || (c =? 61) || (c =? 10) || (c =? 13) || (c =? 32) || (c =? 9))) t = true -> Forall solid t) by (intros t H; rewrite forallb_forall in H; apply Forall_forall; intros c I; specialize (H c I); unfold solid, blank_char; lia).
    assert (S1 : Forall solid (s2b "name")) by (apply W; reflexivity). assert (S2 : Forall solid (s2b "filename*")) by (apply W; reflexivity).
    assert (EN : Forall (fun c => c <> 10 /\ c <> 13) v).
    { unfold v. apply Forall_app. split; [apply Forall_app; split; [apply solid_ends, S1|apply Forall_cons; [lia|apply solid_ends, SN]]|]. apply Forall_cons; [lia|]. apply Forall_cons; [lia|]. apply Forall_app. split; [apply solid_ends, S2|]. apply Forall_cons; [lia|apply solid_ends, SF]. }
    split.
    { apply clean_line. apply Forall_app. split; [apply Forall_forall; intros c I; vm_compute in I; repeat (destruct I as [<-|I]; [lia|]); destruct I|]. eapply Forall_impl; [|exact EN]. cbn; tauto. }
    destruct (disposition_read v 110 (s2b "ame" ++ 61 :: q ++ 59 :: 32 :: s2b "filename*" ++ 61 :: file)) as ((h & PH) & PC & MD); [reflexivity|inversion S1; assumption|lia|exact EN| |].
    { destruct (exists_last NE) as (f0 & fd & FE). exists ((s2b "name" ++ 61 :: q) ++ 59 :: 32 :: s2b "filename*" ++ 61 :: f0), fd. split; [unfold v; rewrite FE, <- !app_assoc; reflexivity|]. rewrite FE in SF. apply Forall_app in SF as [_ SF]. inversion SF as [|? ? SD _]; subst. unfold solid in SD. tauto. }
    unfold part_header. rewrite PH, PC, MD. unfold v. rewrite two_pairs; [|exact S1|exact SN|discriminate|unfold q; discriminate|exact S2|exact SF|discriminate|exact NE]. change (trim_quotes (s2b "name")) with (s2b "name"). change (trim_quotes (s2b "filename*")) with (s2b "filename*").
    rewrite (chars_quotes file) by exact FF. unfold param. cbn [find fst]. change (beqb (s2b "name") (s2b "name")) with true. change (beqb (s2b "filename*") (s2b "name")) with false. change (beqb (s2b "filename*") (s2b "filename*")) with true. cbn [snd].
    replace (match_extended file) with false; [reflexivity|]. symmetry. unfold match_extended. replace (prefix_ci (s2b "UTF-8''") file) with false; [reflexivity|]. symmetry. apply Bool.not_true_is_false. unfold prefix_ci. intro H. apply beqb_eq in H.
    pose proof (f_equal (fun z => nth 5 z 0) H) as Q. change (nth 5 (map tolower (s2b "UTF-8''")) 0) with 39 in Q. change (List.length (s2b "UTF-8''")) with 7%nat in Q.
    assert (B : forall t, Forall boundary_char t -> nth 5 (map tolower t) 0 <> 39).
    { intros t FT. destruct (Nat.le_gt_cases (List.length t) 5) as [LL|LL]; [rewrite nth_overflow by (rewrite map_length; exact LL); discriminate|]. rewrite (nth_indep _ 0 (tolower 0)) by (rewrite map_length; exact LL). rewrite map_nth.
      rewrite Forall_forall in FT. specialize (FT (nth 5 t 0) (nth_In t 0 LL)). unfold tolower, boundary_char in *. destruct ((65 <=? nth 5 t 0) && (nth 5 t 0 <=? 90)); lia. }
    apply (B (firstn 7 file)); [|exact Q]. rewrite <- (firstn_skipn 7 file) in FF. apply Forall_app in FF. exact (proj1 FF).
Qed.

(** ** The parser before such a line *)
Section Bad.
Variables (b line y : bytes).
Hypothesis NL : line <> [].
Hypothesis CL : clean CRLF line.
Hypothesis PH : part_header line no_part = None.
Definition Bad (p : parser) (T : bytes) : Prop := ps_valid p = false /\ (ps_state p = PEntry \/ (ps_state p = PHeaders /\ ps_file p = no_part)) /\ T = line ++ CRLF ++ y.
Lemma loop_bad : forall n p rest p' ok, Bad p (ps_buf p ++ rest) -> parse_loop n b p = (p', ok) -> ps_valid p' = false /\ (ok = true -> Bad p' (ps_buf p' ++ rest)).
Proof.
  induction n as [|n IH]; intros [st va buf f fs] rest p' ok B E; pose proof B as (V & S & T); cbn [parse_loop ps_buf ps_state ps_valid ps_file ps_files] in *; [injection E as <- <-; split; [exact V|intros _; exact B]|].
  destruct buf as [|c0 buf0]; [injection E as <- <-; split; [exact V|intros _; exact B]|]. remember (c0 :: buf0) as buf eqn:EB. destruct S as [->|[-> ->]].
  - apply (IH _ rest) in E; [exact E|]. split; [exact V|]. split; [right; split; reflexivity|exact T].
  - destruct (MAX_LENGTH <? N.of_nat (place_of CRLF buf)); [injection E as <- <-; split; [exact V|discriminate]|].
    destruct (Nat.le_gt_cases (List.length line + 2) (List.length buf)) as [G|G].
    + assert (T3 : buf ++ rest = (line ++ CRLF) ++ y) by (rewrite T, <- app_assoc; reflexivity). destruct (reach (line ++ CRLF) _ buf rest T3 ltac:(rewrite app_length; exact G)) as (more & EM & _). rewrite <- app_assoc in EM.
      assert (K : place_of CRLF buf = List.length line) by (rewrite EM; apply place_first; exact CL). cbn [header_lines] in E. rewrite K in E.
      replace (Nat.ltb (List.length line) (List.length buf)) with true in E by (symmetry; apply Nat.ltb_lt; lia). replace (Nat.eqb (List.length line) 0) with false in E by (symmetry; apply Nat.eqb_neq; destruct line; [congruence|discriminate]).
      replace (firstn (List.length line) buf) with line in E by (rewrite EM, firstn_app, firstn_all, Nat.sub_diag; cbn [firstn]; rewrite app_nil_r; reflexivity). rewrite PH in E. injection E as <- <-. split; [reflexivity|discriminate].
    + assert (K : place_of CRLF buf = List.length buf) by (apply (place_none CRLF line y buf rest); [exact CL|exact T|change (List.length CRLF) with 2%nat; clear - G; lia]).
      cbn [header_lines] in E. rewrite K, Nat.ltb_irrefl in E. injection E as <- <-. split; [exact V|]. intros _. exact B.
Qed.
Lemma part_bad p x rest p' ok : Bad p (ps_buf p ++ x ++ rest) -> parse_part b x p = (p', ok) -> ps_valid p' = false /\ (ok = true -> Bad p' (ps_buf p' ++ rest)).
Proof. intros (V & S & T) E. unfold parse_part in E. apply (loop_bad _ _ rest) in E; [exact E|]. split; [exact V|]. split; [exact S|]. cbn [ps_buf]. rewrite <- app_assoc. exact T. Qed.
Lemma into_bad : forall fuel left p s ok p' s', Bad p (ps_buf p ++ st_data s) -> length_into fuel left b p s = (ok, p', s') -> ps_valid p' = false.
Proof.
  induction fuel as [|fuel IH]; intros left p s ok p' s' B; cbn [length_into]; destruct (left =? 0) eqn:Z; try (intro E; injection E as _ <- _; exact (proj1 B)).
  destruct (st_data s) as [|d0 d] eqn:D.
  - unfold read. rewrite D. destruct (st_closed s); intro E; injection E as _ <- _; exact (proj1 B).
  - destruct (read_some (N.min left 4096) s d0 d (st_closed s) (conj D eq_refl) ltac:(lia)) as (k & s1 & K1 & K2 & RD & [H1 _]). rewrite RD. destruct (parse_part b (firstn k (d0 :: d)) p) as [p1 o1] eqn:PP.
    apply (part_bad p _ (skipn k (d0 :: d))) in PP as [V1 B1]; [|rewrite firstn_skipn; exact B]. destruct o1; [|intro E; injection E as _ <- _; exact V1]. apply IH. rewrite H1. apply B1. reflexivity.
Qed.
End Bad.

(** A form with such a line is refused. *)
Theorem bad_form b line y hs s n r : boundary_ok b -> bad_head line ->
  values_ci (s2b "Content-Type") hs = (s2b "multipart/form-data; boundary=" ++ b) :: r -> values_ci (s2b "Content-Encoding") hs = [] -> values_ci (s2b "Transfer-Encoding") hs = [] ->
  values_ci (s2b "Content-Length") hs = [dec_digits n] -> blen b + 4 <= n <= ULONG_MAX -> st_data s = s2b "--" ++ b ++ [13; 10] ++ line ++ [13; 10] ++ y -> blen b + 4 <= st_pick s (st_reads s) ->
  exists s', read_form (s2b "POST") hs s = (NoForm 400 hs, s').
Proof.
  intros HB HL VT VE VC VL LL SD PK. destruct (bad_refused line HL) as (NL & CL & PH). pose proof HB as (B0 & BF & BL). unfold read_form. rewrite !header_value_ci, VT, VE, VC, VL.
  rewrite chars_upto.
  2: { apply Forall_app. split; [|apply chars_not; [exact BF|not_char]]. apply Forall_forall; intros c I; vm_compute in I; repeat (destruct I as [<-|I]; [lia|]); destruct I. }
  fold (form_type b). rewrite form_boundary by exact HB. change (beqb (s2b "POST") (s2b "DELETE")) with false. cbn [andb].
  change (beqb [] (s2b "gzip") || beqb [] (s2b "deflate") || contains (s2b "br") []) with false. cbn iota. change (same_ignoring_case [] (s2b "chunked")) with false. cbn iota.
  rewrite mm_has_ci, VL. cbn [negb]. rewrite (digits_upto (dec_digits n)).
  2: { destruct (digits_cons n) as (c & d & E & _). split; [rewrite E; discriminate|]. exact (digits_digit _). }
  rewrite strtoul_digits by lia. cbn [fst]. destruct (length_into _ n b new_parser s) as [[ok p] s9] eqn:LI. enough (V : ps_valid p = false) by (rewrite V, Bool.andb_false_r; exists s9; reflexivity).
  revert LI. cbn [length_into]. destruct (N.eqb_spec n 0); [lia|]. set (first := s2b "--" ++ b ++ CRLF). set (R := line ++ CRLF ++ y). assert (SD2 : st_data s = first ++ R) by (rewrite SD; unfold first, R; rewrite <- !app_assoc; reflexivity).
  assert (FL : blen first = blen b + 4) by (unfold first, blen; rewrite !app_length; cbn [List.length s2b CRLF]; change (List.length (s2b "--")) with 2%nat; lia).
  assert (FD : s2b "--" ++ b ++ CRLF = first) by reflexivity. clearbody first.
  assert (RD : exists x1 x2 s1, R = x1 ++ x2 /\ read (N.min n 4096) s = (GBytes (first ++ x1), s1) /\ st_data s1 = x2).
  { unfold read. rewrite SD2. destruct (first ++ R) as [|d0 D] eqn:ED; [exfalso; pose proof (f_equal (@List.length N) ED) as Q; rewrite app_length in Q; unfold blen in FL; cbn in Q; lia|]. cbv zeta. rewrite <- ED. set (k := N.to_nat _).
    assert (K : (List.length first <= k)%nat) by (unfold k; assert (LD : blen (first ++ R) = blen first + blen R) by apply blen_app; revert LD; generalize (blen (first ++ R)); intros m0 LD; unfold blen in *; lia).
    exists (firstn (k - List.length first) R), (skipn (k - List.length first) R). eexists. split; [symmetry; apply firstn_skipn|]. split; [rewrite firstn_app, firstn_all2 by lia; reflexivity|]. cbn [st_data]. rewrite skipn_app, skipn_all2 by lia. reflexivity. }
  destruct RD as (x1 & x2 & s1 & ER & RD & D1). rewrite RD. clear RD. destruct (parse_part b (first ++ x1) new_parser) as [p1 o1] eqn:PP.
  assert (G : ps_valid p1 = false /\ (o1 = true -> Bad line y p1 (ps_buf p1 ++ x2))).
  { revert PP. unfold parse_part. cbn [new_parser ps_state ps_valid ps_buf ps_file ps_files app]. replace (2 * List.length (first ++ x1) + 2)%nat with (S (2 * List.length (first ++ x1) + 1)) by lia. cbn [parse_loop ps_buf ps_state ps_valid ps_file ps_files].
    destruct (between_first b x1) as [HP1 HP2]. rewrite FD in *. remember (first ++ x1) as buf eqn:EB. destruct buf as [|c0 buf0]; [exfalso; pose proof (f_equal (@List.length N) EB) as Q; rewrite app_length in Q; unfold blen in FL; cbn in Q; lia|].
    remember (c0 :: buf0) as buf. cbv zeta. rewrite HP2. cbn [skipn]. replace (Nat.ltb (List.length buf) (List.length first)) with false by (symmetry; apply Nat.ltb_ge; rewrite EB, app_length; lia).
    rewrite HP1. cbn [negb]. replace (skipn (List.length first) buf) with x1 by (rewrite EB, skipn_app, skipn_all, Nat.sub_diag; reflexivity).
    apply (loop_bad b line y NL CL PH). split; [reflexivity|]. split; [left; reflexivity|]. cbn [ps_buf]. rewrite <- ER. reflexivity. }
  destruct G as [G1 G2]. destruct o1; [|intro E; injection E as _ <- _; exact G1]. intro E. apply (into_bad b line y NL CL PH) in E; [exact E|]. rewrite D1. apply G2. reflexivity.
Qed.
