(** Proofs: the lines of the head of a part. *)
From Coq Require Import ZifyBool ZifyNat ZifyN.
From Verif Require Import Base PBase MSerialize MHttp SHttp PHttp MTls MWire MRange SWire PWire PWire2 PWire3 MMultipart SMultipart PMultipart.
Open Scope N_scope.

(** ** The line that names a field *)
Lemma chars_not n d : Forall boundary_char n -> ~ boundary_char d -> Forall (fun c => c <> d) n.
Proof. intros F D. eapply Forall_impl; [|exact F]. cbn beta. intros c H ->. exact (D H). Qed.
Ltac not_char := unfold boundary_char; lia.
Lemma chars_solid n : Forall boundary_char n -> Forall (fun c => ~ blank_char c) n.
Proof. intro F. eapply Forall_impl; [|exact F]. cbn beta. unfold boundary_char, blank_char. lia. Qed.
Lemma quotes_off n : trim_quotes ([34] ++ n ++ [34]) = n.
Proof.
  unfold trim_quotes. assert (L : last ([34] ++ n ++ [34]) 0 = 34) by (rewrite app_assoc; apply last_last). rewrite L. cbn [app hd tl].
  replace (2 <=? blen (34 :: n ++ [34])) with true by (unfold blen; cbn [List.length]; rewrite app_length; cbn [List.length]; lia). cbn [N.eqb Pos.eqb andb]. apply removelast_last.
Qed.
(** ** The line that tells the type of a part *)
Lemma plain_clean t : Forall plain_wire t -> clean CRLF (s2b "Content-Type: " ++ t).
Proof.
  intro F. apply clean_of.
  - intros j J. cbn in J. destruct j as [|[|j]]; cbn; try lia; discriminate.
  - intros (u & w & E). assert (In 13 (s2b "Content-Type: " ++ t)) as I by (rewrite E; apply in_or_app; right; left; reflexivity).
    apply in_app_or in I as [I|I]; [vm_compute in I; repeat (destruct I as [I|I]; [discriminate I|]); destruct I|]. rewrite Forall_forall in F. specialize (F 13 I). unfold plain_wire in F. lia.
Qed.
Lemma trim_value t : plain_value t -> trim (32 :: t) = t.
Proof.
  intros (_ & (c & r & E & C) & (q & d & E2 & Dd)). unfold trim. change (trim_left (32 :: t)) with (trim_left t). rewrite E at 1. rewrite trim_left_keep by exact C. rewrite <- E, E2. apply trim_right_keep. exact Dd.
Qed.
Lemma type_header t f : plain_value t -> part_header (s2b "Content-Type: " ++ t) f = Some (mk_part (pt_name f) t (pt_content f)).
Proof.
  intro V. pose proof (trim_value t V) as TV. destruct V as (_ & (c & r & E & C) & (q & d & E2 & Dd)). unfold part_header. assert (P : exists v, parse_header (s2b "Content-Type: " ++ t) = Some v).
  { unfold parse_header. rewrite E2, app_assoc. rewrite trim_right_keep by exact Dd. rewrite <- app_assoc, <- E2, E. change (cut_colon [] (s2b "Content-Type: " ++ c :: r)) with (Some (s2b "Content-Type", 32 :: c :: r)). cbn iota.
    change (trim_left (32 :: c :: r)) with (trim_left (c :: r)). rewrite trim_left_keep by exact C. cbn iota. eexists. reflexivity. }
  destruct P as [v ->]. change (prefix_ci (s2b "Content-Type:") (s2b "Content-Type: " ++ t)) with true. cbn iota. change (skipn 13 (s2b "Content-Type: " ++ t)) with (32 :: t). rewrite TV. reflexivity.
Qed.

(** ** The lines *)
Definition solid (c : N) : Prop := c <> 59 /\ c <> 61 /\ c <> 10 /\ c <> 13 /\ ~ blank_char c.
Lemma solid_not t d : Forall solid t -> d = 59 \/ d = 61 -> Forall (fun c => c <> d) t.
Proof. intros F D. eapply Forall_impl; [|exact F]. cbn beta. unfold solid. lia. Qed.
Lemma solid_trim t : Forall solid t -> trim t = t.
Proof. intro F. apply trim_plain. eapply Forall_impl; [|exact F]. unfold solid. tauto. Qed.
Lemma chars_fine t : Forall boundary_char t -> Forall solid t.
Proof. intro F. eapply Forall_impl; [|exact F]. cbn beta. unfold boundary_char, solid, blank_char. lia. Qed.
Lemma quoted_solid t : Forall boundary_char t -> Forall solid ([34] ++ t ++ [34]).
Proof. intro F. assert (Q : solid 34) by (unfold solid, blank_char; lia). apply Forall_app. split; [apply Forall_cons; [exact Q|apply Forall_nil]|]. apply Forall_app. split; [apply chars_fine, F|apply Forall_cons; [exact Q|apply Forall_nil]]. Qed.
Lemma nonempty_true (t : bytes) : t <> [] -> negb (beqb t []) = true.
Proof. destruct t; [congruence|reflexivity]. Qed.
Lemma pair_split k v m : Forall solid k -> Forall solid v -> k <> [] -> v <> [] -> split (S (S m)) 61 (k ++ 61 :: v) = [k; v].
Proof.
  intros FK FV K V. unfold split. rewrite parts_cut by (apply solid_not; tauto). rewrite parts_whole by (apply solid_not; tauto). cbn [rev app map]. rewrite !solid_trim by assumption. cbn [filter]. rewrite !nonempty_true by assumption. reflexivity.
Qed.
Lemma pair_trim k v : Forall solid k -> Forall solid v -> trim (k ++ 61 :: v) = k ++ 61 :: v /\ Forall (fun c => c <> 59) (k ++ 61 :: v).
Proof.
  intros FK FV. split.
  - apply trim_plain. apply Forall_app. split; [eapply Forall_impl; [|exact FK]; unfold solid; tauto|]. apply Forall_cons; [unfold blank_char; lia|]. eapply Forall_impl; [|exact FV]; unfold solid; tauto.
  - apply Forall_app. split; [apply solid_not; tauto|]. apply Forall_cons; [discriminate|apply solid_not; tauto].
Qed.
Lemma one_pair k v : Forall solid k -> Forall solid v -> k <> [] -> v <> [] -> disposition_params (k ++ 61 :: v) = [(trim_quotes k, trim_quotes v)].
Proof.
  intros FK FV K V. destruct (pair_trim k v FK FV) as [T N59]. unfold disposition_params. unfold split at 2. rewrite parts_whole by exact N59. cbn [rev app map]. rewrite T. cbn [filter].
  rewrite nonempty_true by (destruct k; discriminate). cbn [flat_map]. rewrite pair_split by assumption. reflexivity.
Qed.
Lemma two_pairs k v k2 v2 : Forall solid k -> Forall solid v -> k <> [] -> v <> [] -> Forall solid k2 -> Forall solid v2 -> k2 <> [] -> v2 <> [] ->
  disposition_params ((k ++ 61 :: v) ++ 59 :: 32 :: k2 ++ 61 :: v2) = [(trim_quotes k, trim_quotes v); (trim_quotes k2, trim_quotes v2)].
Proof.
  intros FK FV K V FK2 FV2 K2 V2. destruct (pair_trim k v FK FV) as [T N59]. destruct (pair_trim k2 v2 FK2 FV2) as [T2 N592]. unfold disposition_params. unfold split at 2. rewrite parts_cut by exact N59.
  rewrite parts_whole by (apply Forall_cons; [discriminate|exact N592]). cbn [rev app map]. rewrite T. change (trim (32 :: k2 ++ 61 :: v2)) with (trim (k2 ++ 61 :: v2)). rewrite T2. cbn [filter].
  rewrite !nonempty_true by (destruct k, k2; discriminate). cbn [flat_map]. rewrite !pair_split by assumption. reflexivity.
Qed.
Lemma chars_quotes t : Forall boundary_char t -> trim_quotes t = t.
Proof.
  intro F. unfold trim_quotes. destruct t as [|c t]; [reflexivity|]. inversion F as [|? ? B _]; subst. cbn [hd]. replace (c =? 34) with false by (unfold boundary_char in B; lia). rewrite Bool.andb_false_r. reflexivity.
Qed.
Lemma solid_line t : Forall (fun c => c <> 10 /\ c <> 13) t -> no_line_end t = true.
Proof. intro F. apply forallb_forall. intros c I. rewrite Forall_forall in F. specialize (F c I). lia. Qed.
Lemma solid_ends t : Forall solid t -> Forall (fun c => c <> 10 /\ c <> 13) t.
Proof. intro F. eapply Forall_impl; [|exact F]. unfold solid. tauto. Qed.
Lemma skip_white_keep c t : solid c -> 14 <= c -> skip_white (c :: t) = c :: t.
Proof. intros S L. cbn [skip_white]. unfold white. replace ((c =? 32) || ((9 <=? c) && (c <=? 13))) with false; [reflexivity|]. unfold solid, blank_char in S. lia. Qed.
Lemma clean_line t : Forall (fun c => c <> 13) t -> clean CRLF t.
Proof.
  intro F. apply clean_of.
  - intros j J. cbn in J. destruct j as [|[|j]]; cbn; try lia; discriminate.
  - intros (u & w & E). rewrite Forall_forall in F. apply (F 13); [|reflexivity]. rewrite E. apply in_or_app. right. left. reflexivity.
Qed.
Lemma disposition_read v c t : v = c :: t -> solid c -> 14 <= c -> Forall (fun c => c <> 10 /\ c <> 13) v -> (exists q d, v = q ++ [d] /\ ~ blank_char d) -> let line := s2b "Content-Disposition: form-data; " ++ v in
  (exists h, parse_header line = Some h) /\ prefix_ci (s2b "Content-Type:") line = false /\ match_disposition line = Some v.
Proof.
  intros E S L F (q & d & E2 & D) line. split; [|split].
  - unfold line, parse_header. rewrite E2, app_assoc, trim_right_keep by exact D. rewrite <- app_assoc, <- E2. eexists. reflexivity.
  - reflexivity.
  - unfold match_disposition, line. change (prefix_ci (s2b "Content-Disposition:") (s2b "Content-Disposition: form-data; " ++ v)) with true. cbn iota. change (skip_white (skipn 20 (s2b "Content-Disposition: form-data; " ++ v))) with (s2b "form-data; " ++ v).
    change (prefix_ci (s2b "form-data;") (s2b "form-data; " ++ v)) with true. cbn iota. change (skip_white (skipn 10 (s2b "form-data; " ++ v))) with (skip_white v). assert (SW : skip_white v = v) by (rewrite E; apply skip_white_keep; assumption). rewrite SW, solid_line by exact F. reflexivity.
Qed.

(** ** Every line of a head *)
Lemma field_read n f : Forall boundary_char n -> part_header (field_line n) f = Some (mk_part n (pt_type f) (pt_content f)).
Proof.
  intro F. pose proof (quoted_solid _ F) as SQ. unfold field_line. set (q := [34] ++ n ++ [34]) in *.
  assert (S1 : Forall solid (s2b "name")) by (apply (chars_fine (s2b "name")); apply Forall_forall; intros c I; vm_compute in I; unfold boundary_char; repeat (destruct I as [<-|I]; [lia|]); destruct I).
  assert (EN : Forall (fun c => c <> 10 /\ c <> 13) (s2b "name" ++ 61 :: q)) by (apply Forall_app; split; [apply solid_ends, S1|]; apply Forall_cons; [lia|apply solid_ends, SQ]).
  destruct (disposition_read (s2b "name" ++ 61 :: q) 110 (s2b "ame" ++ 61 :: q) eq_refl ltac:(inversion S1; assumption) ltac:(lia) EN) as ((h & PH) & PC & MD).
  { exists (s2b "name" ++ 61 :: [34] ++ n), 34. split; [unfold q; rewrite <- app_assoc; reflexivity|unfold blank_char; lia]. }
  change (s2b "Content-Disposition: form-data; name=" ++ q) with (s2b "Content-Disposition: form-data; " ++ s2b "name" ++ 61 :: q). unfold part_header. rewrite PH, PC, MD.
  rewrite one_pair; [|exact S1|exact SQ|discriminate|unfold q; discriminate]. unfold q. rewrite quotes_off. reflexivity.
Qed.
Definition pair_text (p : bytes * bytes) : bytes := fst p ++ 61 :: snd p.
Definition pair_fine (p : bytes * bytes) : Prop := Forall solid (fst p) /\ Forall solid (snd p) /\ fst p <> [] /\ snd p <> [].
Definition pairs_text (ps : list (bytes * bytes)) : bytes := flat_map (fun p => 59 :: 32 :: pair_text p) ps.
Lemma many_parts : forall ps h m, Forall (fun c => c <> 59) h -> Forall pair_fine ps -> (List.length ps <= m)%nat -> parts (S m) 59 [] (h ++ pairs_text ps) = h :: map (fun p => 32 :: pair_text p) ps.
Proof.
  induction ps as [|p ps IH]; intros h m H F L.
  - unfold pairs_text. cbn [flat_map map]. rewrite app_nil_r. apply parts_whole. exact H.
  - inversion F as [|? ? (P1 & P2 & P3 & P4) F2]; subst. destruct m as [|m]; [cbn [List.length] in L; lia|]. unfold pairs_text. cbn [flat_map map]. rewrite <- !app_comm_cons. rewrite parts_cut by exact H. cbn [rev app]. f_equal.
    apply (IH (32 :: pair_text p) m); [|exact F2|cbn [List.length] in L; lia]. apply Forall_cons; [discriminate|]. exact (proj2 (pair_trim _ _ P1 P2)).
Qed.
Lemma pairs_len ps : (List.length ps <= List.length (pairs_text ps))%nat.
Proof. induction ps as [|p ps IH]; [cbn; lia|]. unfold pairs_text in *. cbn [flat_map List.length app]. rewrite app_length. lia. Qed.
Lemma many_pairs p ps : pair_fine p -> Forall pair_fine ps -> disposition_params (pair_text p ++ pairs_text ps) = map (fun p => (trim_quotes (fst p), trim_quotes (snd p))) (p :: ps).
Proof.
  intros FP F. unfold disposition_params. unfold split at 2. pose proof FP as (P1 & P2 & P3 & P4). destruct (pair_trim _ _ P1 P2) as [T N59].
  rewrite many_parts; [|exact N59|exact F|rewrite app_length; pose proof (pairs_len ps); lia].
  assert (E : map trim (pair_text p :: map (fun p => 32 :: pair_text p) ps) = map pair_text (p :: ps)).
  { cbn [map]. f_equal; [exact T|]. rewrite map_map. apply map_ext_in. intros q I. rewrite Forall_forall in F. destruct (F q I) as (Q1 & Q2 & _). change (trim (32 :: pair_text q)) with (trim (pair_text q)). exact (proj1 (pair_trim _ _ Q1 Q2)). }
  match goal with |- context [map trim ?x] => replace (map trim x) with (map pair_text (p :: ps)) by (symmetry; exact E) end. assert (FA : Forall pair_fine (p :: ps)) by (apply Forall_cons; assumption). clear - FA. induction FA as [|q l (Q1 & Q2 & Q3 & Q4) FA IH]; [reflexivity|].
  cbn [map filter]. rewrite nonempty_true by (unfold pair_text; destruct (fst q); discriminate). cbn [flat_map map]. rewrite IH. unfold pair_text at 1 2. rewrite pair_split by assumption. reflexivity.
Qed.
Lemma params_text ps : flat_map param_text ps = pairs_text (map (fun p => (fst p, [34] ++ snd p ++ [34])) ps).
Proof. induction ps as [|p ps IH]; [reflexivity|]. unfold pairs_text in *. cbn [flat_map map]. rewrite IH. reflexivity. Qed.
Lemma params_fine ps : Forall (fun p => fst p <> [] /\ Forall boundary_char (fst p) /\ Forall (fun c => boundary_char c \/ c = 46) (snd p)) ps -> Forall pair_fine (map (fun p => (fst p, [34] ++ snd p ++ [34])) ps).
Proof.
  intro F. apply Forall_map. eapply Forall_impl; [|exact F]. intros p (A & B & C). unfold pair_fine. cbn [fst snd]. split; [apply chars_fine, B|]. split; [|split; [exact A|discriminate]].
  assert (Q : solid 34) by (unfold solid, blank_char; lia). apply Forall_app. split; [apply Forall_cons; [exact Q|apply Forall_nil]|]. apply Forall_app. split; [|apply Forall_cons; [exact Q|apply Forall_nil]]. eapply Forall_impl; [|exact C]. cbn beta. unfold boundary_char, solid, blank_char. lia.
Qed.
Lemma pairs_ends ps : Forall pair_fine ps -> Forall (fun c => c <> 10 /\ c <> 13) (pairs_text ps).
Proof.
  intro F. induction F as [|p l (A & B & _) F IH]; [apply Forall_nil|]. unfold pairs_text in *. cbn [flat_map]. apply Forall_app. split; [|exact IH]. apply Forall_cons; [lia|]. apply Forall_cons; [lia|]. unfold pair_text. apply Forall_app. split; [apply solid_ends, A|]. apply Forall_cons; [lia|apply solid_ends, B].
Qed.
Lemma params_last : forall (ps : list (bytes * bytes)) r, exists q, (r ++ [34]) ++ flat_map param_text ps = q ++ [34].
Proof.
  induction ps as [|p ps IH]; intro r; [exists r; apply app_nil_r|]. cbn [flat_map]. destruct (IH ((r ++ [34]) ++ s2b "; " ++ fst p ++ s2b "=" ++ [34] ++ snd p)) as [q E]. exists q. rewrite <- E. unfold param_text. rewrite <- !app_assoc. reflexivity.
Qed.
Definition param_fine (p : bytes * bytes) : Prop := fst p <> [] /\ Forall boundary_char (fst p) /\ Forall (fun c => boundary_char c \/ c = 46) (snd p).
Lemma params_seen ps : Forall param_fine ps -> map (fun p : bytes * bytes => (trim_quotes (fst p), trim_quotes (snd p))) (map (fun p : bytes * bytes => (fst p, [34] ++ snd p ++ [34])) ps) = ps.
Proof.
  intro F. induction F as [|[k v] l (A & B & C) F IH]; [reflexivity|]. cbn [map fst snd] in *. rewrite IH, quotes_off, chars_quotes by exact B. reflexivity.
Qed.
Lemma first_name before n behind : Forall (fun p => fst p <> s2b "name") before -> param (s2b "name") (before ++ (s2b "name", n) :: behind) = Some n.
Proof.
  intro F. unfold param. induction F as [|p l A F IH]; [reflexivity|]. cbn [app find]. destruct (beqb (s2b "name") (fst p)) eqn:Q; [|exact IH]. apply beqb_eq in Q. destruct (A (eq_sym Q)).
Qed.
Lemma no_extended ps : Forall param_fine ps -> param (s2b "filename*") ps = None.
Proof.
  intro F. unfold param. induction F as [|p l (A & B & C) F IH]; [reflexivity|]. cbn [find]. destruct (beqb (s2b "filename*") (fst p)) eqn:Q; [|exact IH]. apply beqb_eq in Q. rewrite <- Q in B. rewrite Forall_forall in B. specialize (B 42 ltac:(vm_compute; tauto)). unfold boundary_char in B. lia.
Qed.
Lemma params_listed all n f : Forall param_fine all -> all <> [] -> param (s2b "name") all = Some n -> part_header (s2b "Content-Disposition: form-data" ++ flat_map param_text all) f = Some (mk_part n (pt_type f) (pt_content f)).
Proof.
  intros FP NE PN. pose proof (params_fine all FP) as FF. pose proof (params_seen all FP) as SE. pose proof (no_extended all FP) as NX. destruct all as [|p ps]; [congruence|]. clear NE.
  inversion FP as [|? ? (A & B & C) FP2]; subst. pose proof (params_fine ps FP2) as FF2. destruct (params_last ps (fst p ++ s2b "=" ++ [34] ++ snd p)) as [q0 EQ].
  set (v := pair_text (fst p, [34] ++ snd p ++ [34]) ++ flat_map param_text ps).
  assert (EL : s2b "Content-Disposition: form-data" ++ flat_map param_text (p :: ps) = s2b "Content-Disposition: form-data; " ++ v) by (unfold v, pair_text; cbn [flat_map fst snd]; unfold param_text at 1; change (61 :: [34] ++ snd p ++ [34]) with (s2b "=" ++ [34] ++ snd p ++ [34]); rewrite <- !app_assoc; reflexivity).
  rewrite EL. assert (FH : pair_fine (fst p, [34] ++ snd p ++ [34])) by (inversion FF; assumption).
  assert (EN : Forall (fun c => c <> 10 /\ c <> 13) v).
  { unfold v. rewrite params_text. apply Forall_app. split; [|apply pairs_ends, FF2]. destruct FH as (Q1 & Q2 & _). unfold pair_text. apply Forall_app. split; [apply solid_ends, Q1|apply Forall_cons; [lia|apply solid_ends, Q2]]. }
  destruct (fst p) as [|c k] eqn:EK; [congruence|].
  destruct (disposition_read v c (k ++ (61 :: [34] ++ snd p ++ [34]) ++ flat_map param_text ps)) as ((h & PH) & PC & MD).
  { unfold v, pair_text. cbn [fst snd]. rewrite <- !app_assoc. reflexivity. }
  { destruct FH as (Q1 & _). cbn [fst] in Q1. inversion Q1. assumption. }
  { inversion B as [|? ? BC _]; subst. unfold boundary_char in BC. lia. }
  { exact EN. }
  { exists q0, 34. split; [|unfold blank_char; lia]. rewrite <- EQ. unfold v, pair_text. cbn [fst snd]. change (61 :: [34] ++ snd p ++ [34]) with (s2b "=" ++ [34] ++ snd p ++ [34]). rewrite <- !app_assoc. reflexivity. }
  unfold part_header. rewrite PH, PC, MD. unfold v. rewrite params_text, many_pairs; [|exact FH|exact FF2]. rewrite <- EK.
  match goal with |- context [param (s2b "name") ?x] => replace x with (p :: ps) by (symmetry; exact SE) end. rewrite PN. cbv zeta. rewrite NX. reflexivity.
Qed.
Lemma all_fine before n behind : Forall boundary_char n -> Forall param_fine (before ++ behind) -> Forall param_fine (before ++ (s2b "name", n) :: behind).
Proof.
  intros FN FP. apply Forall_app in FP as [F1 F2]. apply Forall_app. split; [exact F1|]. apply Forall_cons; [|exact F2]. split; [discriminate|]. split; [|eapply Forall_impl; [|exact FN]; cbn beta; tauto].
  cbn [fst]. apply Forall_forall; intros c I; vm_compute in I; unfold boundary_char; repeat (destruct I as [<-|I]; [lia|]); destruct I.
Qed.
Lemma params_read before n behind f : n <> [] -> Forall boundary_char n -> Forall param_fine (before ++ behind) -> Forall (fun p => fst p <> s2b "name") before ->
  part_header (s2b "Content-Disposition: form-data" ++ flat_map param_text (before ++ (s2b "name", n) :: behind)) f = Some (mk_part n (pt_type f) (pt_content f)).
Proof.
  intros N0 FN FP FB. apply params_listed; [|destruct before; discriminate|apply first_name; exact FB].
  apply all_fine; assumption.
Qed.
Lemma prefix_name p k v : plain_name k -> Forall (fun c => c <> 58) p -> ~ same_name k p -> prefix_ci (p ++ [58]) (k ++ s2b ": " ++ v) = false.
Proof.
  intros [_ FK] FP NS. apply Bool.not_true_is_false. unfold prefix_ci. intro H. apply beqb_eq in H. apply NS. unfold same_name.
  assert (T : forall c, tolower c = 58 -> c = 58) by (intros c; unfold tolower; destruct ((65 <=? c) && (c <=? 90)) eqn:E; lia).
  assert (T2 : tolower 58 = 58) by reflexivity. change (s2b ": " ++ v) with (58 :: 32 :: v) in H. clear NS. revert k FK H. induction p as [|a p IH]; intros k FK H.
  - destruct k as [|c k]; [reflexivity|]. inversion FK; subst. cbn in H. injection H as H. apply T in H. lia.
  - inversion FP; subst. destruct k as [|c k].
    + cbn [app List.length firstn map] in H. injection H as H _. rewrite T2 in H. symmetry in H. apply T in H. congruence.
    + inversion FK; subst. cbn [app List.length firstn map] in H. injection H as H0 H. cbn [map]. rewrite H0. f_equal. apply IH; assumption.
Qed.
Lemma other_read k v f : plain_name k -> plain_value v -> ~ same_name k (s2b "Content-Type") -> ~ same_name k (s2b "Content-Disposition") -> part_header (k ++ s2b ": " ++ v) f = Some f.
Proof.
  intros K V N1 N2. unfold part_header. rewrite parse_plain by assumption.
  assert (P1 : prefix_ci (s2b "Content-Type:") (k ++ s2b ": " ++ v) = false) by (apply (prefix_name (s2b "Content-Type") k v K); [apply Forall_forall; intros c I; vm_compute in I; repeat (destruct I as [<-|I]; [lia|]); destruct I|exact N1]).
  assert (P2 : prefix_ci (s2b "Content-Disposition:") (k ++ s2b ": " ++ v) = false) by (apply (prefix_name (s2b "Content-Disposition") k v K); [apply Forall_forall; intros c I; vm_compute in I; repeat (destruct I as [<-|I]; [lia|]); destruct I|exact N2]).
  rewrite P1. unfold match_disposition. rewrite P2. reflexivity.
Qed.
Lemma head_line_read h n t : head_line_ok h -> part_header (head_line_text h) (mk_part n t []) = Some (mk_part (line_name n h) (line_type t h) []).
Proof.
  destruct h as [m|bf m bh|u|k v]; cbn [head_line_ok head_line_text line_name line_type].
  - intros (_ & F & _). apply field_read. exact F.
  - intros ((N0 & F & _) & G & NB & _). apply params_read; assumption.
  - intros [V _]. apply type_header. exact V.
  - intros (K & V & _ & N1 & N2). apply other_read; assumption.
Qed.
Lemma field_plain n : Forall boundary_char n -> Forall (fun c => c <> 13) (field_line n).
Proof.
  intro F. unfold field_line. apply Forall_app. split; [apply Forall_forall; intros c I; vm_compute in I; repeat (destruct I as [<-|I]; [lia|]); destruct I|]. apply Forall_app. split; [apply Forall_cons; [lia|apply Forall_nil]|].
  apply Forall_app. split; [apply chars_not; [exact F|not_char]|apply Forall_cons; [lia|apply Forall_nil]].
Qed.
Lemma head_line_shape h : head_line_ok h -> head_line_text h <> [] /\ clean CRLF (head_line_text h) /\ N.of_nat (List.length (head_line_text h)) <= 8100.
Proof.
  destruct h as [m|bf m bh|u|k v]; cbn [head_line_ok head_line_text].
  - intros (_ & F & L). split; [discriminate|]. split; [apply clean_line, field_plain, F|]. unfold field_line. rewrite !app_length. unfold blen in L. cbn [List.length]. change (List.length (s2b "Content-Disposition: form-data; name=")) with 37%nat. lia.
  - intros ((_ & F & L) & G & NB & LG). split; [discriminate|]. split.
    + apply clean_line. apply Forall_app. split; [apply Forall_forall; intros c I; vm_compute in I; repeat (destruct I as [<-|I]; [lia|]); destruct I|]. rewrite params_text. eapply Forall_impl; [|apply pairs_ends, params_fine, (all_fine bf m bh F G)]. cbn beta. tauto.
    + rewrite app_length. unfold blen in LG. change (List.length (s2b "Content-Disposition: form-data")) with 30%nat. lia.
  - intros [(F & _) L]. split; [discriminate|]. split; [apply plain_clean; exact F|]. rewrite app_length. change (List.length (s2b "Content-Type: ")) with 14%nat. unfold blen in L. lia.
  - intros ((K0 & K) & (V & _) & L & _). split; [destruct k; [congruence|discriminate]|]. split.
    + apply clean_line. apply Forall_app. split; [eapply Forall_impl; [|exact K]; cbn beta; unfold plain_wire; intros a Q; lia|]. apply Forall_app. split; [apply Forall_forall; intros c I; vm_compute in I; repeat (destruct I as [<-|I]; [lia|]); destruct I|eapply Forall_impl; [|exact V]; unfold plain_wire; intros a Q; lia].
    + rewrite !app_length. change (List.length (s2b ": ")) with 2%nat. unfold blen in L. lia.
Qed.
