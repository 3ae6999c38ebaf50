(** Request lines: what the server does with them. *)
From Coq Require Import ZifyBool ZifyNat ZifyN Sorted.
From Verif Require Import Base PBase MSerialize MHttp SHttp PHttp PHttp2 MTls MWire SWire PWire PWire2 PWire3 PWire4 PWire5 PWire6 PWire7 PWire8 STarget PTarget.
Open Scope N_scope.

Lemma known_words m l : existsb (beqb m) l = true <-> In m l.
Proof.
  rewrite existsb_exists. split.
  - intros (x & I & E). apply beqb_eq in E. subst x. exact I.
  - intro I. exists m. split; [exact I|apply beqb_eq; reflexivity].
Qed.
Lemma version_known v : beqb v (s2b "HTTP/1.1") || beqb v (s2b "HTTP/1.0") = true <-> In v served_versions.
Proof.
  rewrite Bool.orb_true_iff, !beqb_eq. unfold served_versions. cbn [map In]. split; [intros [->|E]; [left; reflexivity|right; left; symmetry; exact E]|].
  intros [E|[E|E]]; [left; symmetry; exact E|right; symmetry; exact E|contradiction E].
Qed.
Definition target_text (t : bytes) : bytes := decode_url (nth 0 (split 2 63 (cut_fragment t)) []).
Lemma parse_words p m t v : line_words p m t v -> In m served_methods -> In v served_versions -> parse_request_line (p ++ CRLF) = mk_line true m (target_text t) v.
Proof.
  intros W M V. unfold parse_request_line. rewrite crlf_app, crlf_cut. cbn [negb].
  rewrite (split_three p m t v) by (try exact W; rewrite app_length; lia). cbv zeta. cbn [List.length nth]. change (Nat.eqb 3 3) with true.
  change methods with served_methods. apply known_words in M. apply version_known in V. rewrite M, V. reflexivity.
Qed.
Lemma parse_only p : rl_ok (parse_request_line (p ++ CRLF)) = true -> exists m t v, line_words p m t v /\ In m served_methods /\ In v served_versions /\
  parse_request_line (p ++ CRLF) = mk_line true m (target_text t) v.
Proof.
  intro H. assert (Q : exists m t v, line_words p m t v /\ In m served_methods /\ In v served_versions).
  { revert H. unfold parse_request_line. rewrite crlf_app, crlf_cut. cbn [negb]. cbv zeta. remember (split _ 32 p) as l eqn:E. symmetry in E.
    destruct (Nat.eqb (List.length l) 3) eqn:L; cbn [negb orb]; [|discriminate]. destruct l as [|m [|t [|v [|x l]]]]; try discriminate L. cbn [nth].
    change methods with served_methods. destruct (existsb (beqb m) served_methods) eqn:M; cbn [negb orb]; [|discriminate].
    destruct (beqb v (s2b "HTTP/1.1") || beqb v (s2b "HTTP/1.0")) eqn:V; cbn [negb orb]; [|discriminate]. intros _.
    exists m, t, v. split; [eapply three_split; [|exact E]; rewrite app_length; lia|]. split; [apply known_words, M|apply version_known, V]. }
  destruct Q as (m & t & v & W & M & V). exists m, t, v. repeat (split; [assumption|]). apply parse_words; assumption.
Qed.

(** ** The path *)

Lemma hex_of_value c v : hex_of c v -> hex_value c = Some v /\ c <> 117.
Proof.
  unfold hex_of, hex_value. intros [[A ->]|[A [-> | ->]]].
  - replace ((48 <=? 48 + v) && (48 + v <=? 57)) with true by lia. split; [f_equal; lia|lia].
  - replace ((48 <=? 55 + v) && (55 + v <=? 57)) with false by lia. replace ((65 <=? 55 + v) && (55 + v <=? 70)) with true by lia. split; [f_equal; lia|lia].
  - replace ((48 <=? 87 + v) && (87 + v <=? 57)) with false by lia. replace ((65 <=? 87 + v) && (87 + v <=? 70)) with false by lia. replace ((97 <=? 87 + v) && (87 + v <=? 102)) with true by lia. split; [f_equal; lia|lia].
Qed.
Lemma decodes_url q s : decodes q s -> decode_url q = s.
Proof.
  induction 1 as [|c r s C D IH|a b x y r s A B D IH]; [reflexivity| |].
  - cbn [decode_url]. destruct (N.eqb_spec c 37); [contradiction|]. f_equal. exact IH.
  - destruct (hex_of_value a x A) as [A1 A2]. destruct (hex_of_value b y B) as [B1 _]. cbn [decode_url]. change (37 =? 37) with true. cbn iota. destruct (N.eqb_spec a 117); [contradiction|].
    cbn [hex_number]. rewrite A1, B1. rewrite IH. f_equal. lia.
Qed.
Lemma cut_path q tail : Forall (fun c => c <> 35 /\ c <> 63) q -> (tail = [] \/ exists c r, tail = c :: r /\ (c = 35 \/ c = 63)) ->
  cut_fragment (q ++ tail) = q \/ exists r, cut_fragment (q ++ tail) = q ++ 63 :: r.
Proof.
  intros F T. induction F as [|c q [A B] F IH]; cbn [app].
  - destruct T as [->|(c & r & -> & [-> | ->])]; [left; reflexivity|left; reflexivity|right; exists (cut_fragment r); reflexivity].
  - cbn [cut_fragment]. destruct (N.eqb_spec c 35); [contradiction|]. destruct IH as [-> |(r & ->)]; [left; reflexivity|right; exists r; reflexivity].
Qed.
Lemma names_text t path : names_path t path -> target_text t = path.
Proof.
  intros (q & (tail & -> & F & T) & NE & NB & D). unfold target_text. assert (E : nth 0 (split 2 63 (cut_fragment (q ++ tail))) [] = q).
  { assert (N63 : Forall (fun c => c <> 63) q) by (eapply Forall_impl; [|exact F]; cbn beta; intuition). pose proof (trim_plain q NB) as TP. apply beqb_neq in NE.
    destruct (cut_path q tail F T) as [-> |(r & ->)]; unfold split.
    - rewrite parts_whole by exact N63. cbn [rev app map filter]. rewrite TP, NE. reflexivity.
    - rewrite parts_cut by exact N63. cbn [rev app map filter]. rewrite TP, NE. reflexivity. }
  rewrite E. apply decodes_url, D.
Qed.

(** ** The server *)

Lemma upto_nul_in a r : In 0 a -> upto_nul (a ++ r) = upto_nul a.
Proof.
  induction a as [|c a IH]; [contradiction|]. intros I. cbn [app upto_nul]. destruct (N.eqb_spec c 0) as [->|C]; [reflexivity|]. f_equal. apply IH. destruct I as [E|I]; [congruence|exact I].
Qed.
Lemma no_nul a : In 0 a \/ Forall (fun c => c <> 0) a.
Proof. destruct (cut_at 0 a) as [(p & r & -> & _)|F]; [left; apply in_or_app; right; left; reflexivity|right; exact F]. Qed.
Lemma lined_getline s line s1 : getline s = (Some line, s1) -> end_with_crlf (upto_nul line) = true ->
  exists p, line = p ++ CRLF /\ Forall (fun c => c <> 10) p /\ Forall (fun c => c <> 0) p /\ st_data s = p ++ CRLF ++ st_data s1.
Proof.
  intros G C. pose proof (getline_head s line s1 G) as [D _]. pose proof (getline_spec s _ _ (holds_self s)) as GS. destruct (cut_line (st_data s)) as [[l r]|] eqn:CL.
  - destruct GS as (s9 & G9 & _). rewrite G in G9. injection G9 as -> _. apply cut_line_ends in CL as (a & -> & F).
    destruct (no_nul a) as [I|N].
    + exfalso. rewrite (upto_nul_in a [10] I), (no_lf_no_crlf _ (upto_nul_forall _ _ F)) in C. discriminate C.
    + rewrite upto_nul_plain in C by (apply Forall_app; split; [exact N|constructor; [discriminate|constructor]]). destruct (crlf_has_lf _ C) as (x & E).
      change (x ++ CRLF) with (x ++ [13] ++ [10]) in E. rewrite app_assoc in E. apply app_inj_tail in E as [-> _]. exists x. split; [rewrite <- app_assoc; reflexivity|].
      split; [apply Forall_app in F; apply F|]. split; [apply Forall_app in N; apply N|]. rewrite D, <- !app_assoc. reflexivity.
  - exfalso. apply cut_line_none in CL. destruct GS as (s9 & G9 & _). rewrite G in G9. destruct (st_closed s && negb (beqb (st_data s) [])); [|discriminate G9].
    injection G9 as -> _. rewrite (no_lf_no_crlf _ (upto_nul_forall _ _ CL)) in C. discriminate C.
Qed.
Lemma ok_crlf l : rl_ok (parse_request_line l) = true -> end_with_crlf l = true.
Proof. unfold parse_request_line. destruct (end_with_crlf l); [reflexivity|discriminate]. Qed.

(** C127: what is handled had a line of three words. *)
Lemma first_line cn sv close s w req again s' : process_turn cn sv close s = Turn w (Some req) again s' ->
  exists p rest m t v, st_data s = p ++ CRLF ++ rest /\ Forall (fun c => c <> 10) p /\ blen p + 2 <= 8192 /\ request_line_of p m t v /\ rq_method req = m /\
    (forall path, names_path t path -> rq_path req = path).
Proof.
  unfold process_turn. destruct (getline s) as [[line|] s1] eqn:G; [|discriminate].
  destruct (N.ltb_spec MAX_LENGTH (blen line)) as [|LL]; [destruct (read_headers s1) as [[a b] s2]; discriminate|].
  destruct (rl_ok (parse_request_line (upto_nul line))) eqn:OK; cbn [negb]; [|discriminate].
  destruct (lined_getline s line s1 G (ok_crlf _ OK)) as (p & -> & F10 & F0 & D).
  rewrite upto_nul_plain in * by (apply Forall_app; split; [exact F0|repeat constructor; discriminate]).
  destruct (parse_only p OK) as (m & t & v & W & M & V & E). rewrite E. cbn [rl_method rl_path rl_version]. intro H.
  exists p, (st_data s1), m, t, v. split; [exact D|]. split; [exact F10|]. split; [rewrite blen_app in LL; change (blen CRLF) with 2 in LL; exact LL|].
  split; [split; [exact F0|split; [exact W|split; [exact M|exact V]]]|].
  assert (Q : rq_method req = m /\ rq_path req = target_text t).
  { revert H. destruct (read_headers s1) as [[ok hs] s2]. destruct ok; cbn [negb]; [|discriminate]. destruct (mm_has _ _); [discriminate|]. destruct (expects_content _ && _); [discriminate|].
    destruct (server_content _ _ s2) as [[body hs2|z hs2] s3]; [|discriminate]. destruct (routed_response sv _) as [routed r]. intro H. injection H as _ <- _ _. split; reflexivity. }
  split; [apply Q|]. intros path N. rewrite (proj2 Q). apply names_text, N.
Qed.

(** C127: lines that are refused. *)
Lemma status_line close m hs routed z : exists r, server_reply close m hs routed (failure z) = s2b "HTTP/1.1 " ++ to_text z ++ [32] ++ status_message z ++ CRLF ++ r.
Proof.
  unfold server_reply. cbv zeta. match goal with |- context [rs_status ?r] => idtac end.
  assert (S : forall r k v, rs_status (set_header k v r) = rs_status r) by (intros r k v; unfold set_header; destruct (has_crlf _ || has_crlf _); reflexivity).
  assert (Eh : forall r, rs_status (error_handler r) = rs_status r) by (intro r; unfold error_handler; repeat (match goal with |- context [if ?b then _ else _] => destruct b end); reflexivity).
  match goal with |- exists r, s2b "HTTP/1.1 " ++ to_text (rs_status ?x) ++ _ = _ => assert (Z0 : rs_status x = z) end.
  { repeat (match goal with |- rs_status (if ?b then _ else _) = _ => destruct b end; rewrite ?S); rewrite ?Eh; reflexivity. }
  rewrite Z0. eexists. reflexivity.
Qed.
Lemma line_refused cn sv close s p rest c : holds (p ++ CRLF ++ rest) c s -> Forall (fun x => x <> 10) p -> blen p + 2 <= 8192 ->
  ~ (exists m t v, request_line_of p m t v) ->
  exists w s', process_turn cn sv close s = Turn w None true s' /\ holds rest c s' /\ is_prefix (s2b "HTTP/1.1 400 Bad Request" ++ CRLF) w.
Proof.
  intros H F L N. unfold process_turn. change (p ++ CRLF ++ rest) with (p ++ [13] ++ 10 :: rest) in H. rewrite app_assoc in H.
  destruct (getline_line s _ _ c H) as (s1 & G & H1); [apply Forall_app; split; [exact F|repeat constructor; discriminate]|]. rewrite G.
  replace ((p ++ [13]) ++ [10]) with (p ++ CRLF) by (rewrite <- app_assoc; reflexivity).
  replace (MAX_LENGTH <? blen (p ++ CRLF)) with false by (rewrite blen_app; change (blen CRLF) with 2; unfold MAX_LENGTH; lia).
  assert (OK : rl_ok (parse_request_line (upto_nul (p ++ CRLF))) = false).
  { destruct (rl_ok _) eqn:OK; [|reflexivity]. exfalso. apply N. destruct (no_nul p) as [I|F0].
    - apply ok_crlf in OK. rewrite (upto_nul_in p CRLF I), (no_lf_no_crlf _ (upto_nul_forall _ _ F)) in OK. discriminate OK.
    - rewrite upto_nul_plain in OK by (apply Forall_app; split; [exact F0|repeat constructor; discriminate]). destruct (parse_only p OK) as (m & t & v & W & M & V & _).
      exists m, t, v. split; [exact F0|]. split; [exact W|]. split; assumption. }
  rewrite OK. cbn [negb]. destruct (status_line close (rl_method (parse_request_line (upto_nul (p ++ CRLF)))) [] false 400) as (r & E). rewrite E.
  eexists _, s1. split; [reflexivity|]. split; [exact H1|]. exists r. reflexivity.
Qed.
Lemma line_long cn sv close s p rest c : holds (p ++ 10 :: rest) c s -> Forall (fun x => x <> 10) p -> 8191 < blen p ->
  exists w s', process_turn cn sv close s = Turn w None true s' /\ is_prefix (s2b "HTTP/1.1 414 URI Too Long" ++ CRLF) w.
Proof.
  intros H F L. unfold process_turn. destruct (getline_line s _ _ c H F) as (s1 & G & H1). rewrite G.
  replace (MAX_LENGTH <? blen (p ++ [10])) with true by (rewrite blen_app; change (blen [10]) with 1; unfold MAX_LENGTH; lia).
  destruct (read_headers s1) as [[a b] s2]. destruct (status_line close [] [] false 414) as (r & E). rewrite E. eexists _, s2. split; [reflexivity|]. exists r. reflexivity.
Qed.

(** C127: lines that are served. *)
Lemma line_served cn sv close s p t v path lines body more c : request_line_of p (s2b "POST") t v -> Forall (fun x => x <> 10) p -> blen p + 2 <= 8192 -> names_path t path ->
  own_lines_ok lines (blen body) -> blen body <= SIZE_MAX -> conn_ok cn -> holds (lined_request p lines body ++ more) c s ->
  exists w again s', process_turn cn sv close s = Turn w (Some (mk_request (s2b "POST") path (arriving (lines ++ conn_lines cn)) body)) again s' /\ holds more c s'.
Proof.
  intros (F0 & W & M & V) F10 L NP (PL & VL & VE & VT & VR & VC) B C H. unfold process_turn. unfold lined_request in H.
  replace ((p ++ CRLF ++ write_headers lines ++ body) ++ more) with ((p ++ [13]) ++ 10 :: (write_headers lines ++ (body ++ more))) in H by (rewrite <- !app_assoc; reflexivity).
  destruct (getline_line s _ _ c H) as (s1 & G & H1); [apply Forall_app; split; [exact F10|repeat constructor; discriminate]|]. rewrite G. clear G H.
  replace ((p ++ [13]) ++ [10]) with (p ++ CRLF) by (rewrite <- app_assoc; reflexivity).
  replace (MAX_LENGTH <? blen (p ++ CRLF)) with false by (rewrite blen_app; change (blen CRLF) with 2; unfold MAX_LENGTH; lia).
  rewrite upto_nul_plain by (apply Forall_app; split; [exact F0|repeat constructor; discriminate]). rewrite (parse_words p _ t v W M V). cbn [rl_ok rl_method rl_path rl_version negb].
  rewrite (names_text t path NP).
  destruct (usual_headers s1 lines (body ++ more) c (Forall_impl usual_line (fun e (Q : plain_line e) => or_introl Q) PL) H1) as (s2 & G & H2). rewrite G. clear G H1.
  cbn [negb]. rewrite (tells_plain lines PL). rewrite add_addresses_lines by exact C. cbv zeta.
  remember (arriving (lines ++ conn_lines cn)) as hs eqn:EH.
  assert (HR : mm_has (s2b "Range") hs = false) by (subst hs; rewrite mm_has_ci; replace (values_ci (s2b "Range") (arriving (lines ++ conn_lines cn))) with (@nil bytes); [reflexivity|symmetry; own_value; exact VR]).
  rewrite HR. change (expects_content (s2b "POST")) with true. cbn [andb].
  assert (HT : has_prefix (s2b "multipart/form-data") (header_value (s2b "Content-Type") hs) = false /\ has_prefix (s2b "application/x-www-form-urlencoded") (header_value (s2b "Content-Type") hs) = false).
  { rewrite header_value_ci. assert (E : values_ci (s2b "Content-Type") hs = values_ci (s2b "Content-Type") lines) by (subst hs; own_value; reflexivity). rewrite E.
    destruct (values_ci (s2b "Content-Type") lines) as [|x r] eqn:Vx; [split; reflexivity|]. destruct (VC x r eq_refl) as [V1 V2].
    assert (PV : plain_value x).
    { assert (I : In x (values_ci (s2b "Content-Type") lines)) by (rewrite Vx; left; reflexivity). unfold values_ci in I. apply in_map_iff in I as (e & <- & I). apply filter_In in I as [I _]. rewrite Forall_forall in PL. apply PL, I. }
    destruct (value_sendable _ (plain_value_chars _ PV)) as [_ ->].
    split; match goal with |- ?b = false => destruct b eqn:Mx; [apply prefix_iff in Mx; contradiction|reflexivity] end. }
  destruct HT as [HT1 HT2]. rewrite HT1.
  remember (if beqb (header_value (s2b "Expect") hs) (s2b "100-continue") then s2b "HTTP/1.1 100 Continue" ++ CRLF ++ CRLF else []) as first.
  unfold server_content. change (expects_content (s2b "POST")) with true. change (beqb (s2b "POST") (s2b "DELETE")) with false. cbn [negb andb orb].
  destruct (content_of_length hs s2 (body ++ more) c (blen body) [] H2) as (s3 & G & H3).
  { subst hs. own_value. exact VE. } { subst hs. own_value. exact VT. } { subst hs. own_value. exact VL. } { exact B. }
  rewrite G. replace (blen body <=? blen (body ++ more)) with true by (rewrite blen_app; lia). rewrite firstn_app_len, skipn_app_len in *. rewrite HT2. cbn [andb].
  destruct (routed_response sv (mk_request (s2b "POST") path hs body)) as [routed r]. eexists _, _, s3. split; [reflexivity|exact H3].
Qed.
