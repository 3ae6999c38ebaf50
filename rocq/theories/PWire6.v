(** Whole exchanges, and messages that are cut off. *)
From Coq Require Import ZifyBool ZifyNat ZifyN Sorted.
From Verif Require Import Base PBase MSerialize MHttp SHttp PHttp MTls MWire SWire PWire PWire2 PWire3 PWire4 PWire5.
Open Scope N_scope.

(** ** An exchange *)

Lemma exchange_answered cn sv sp cp host port path ctype body : destination_ok host port -> type_ok ctype -> plain_path path -> blen body <= SIZE_MAX -> conn_ok cn -> usual_server sv (arrived host port path ctype body cn) ->
  let p := process_request sv (arrived host port path ctype body cn) in
  let r := exchange_over cn sv sp cp (client_request host port path ctype body) in
  ((101 <= rs_status p <= 999)%Z -> r = Replied (rs_status p) (received (rs_status p) (rs_body p))) /\ (~ (100 <= rs_status p <= 999)%Z -> r = Failed).
Proof.
  intros D T P B C U p r. assert (H : holds (client_request host port path ctype body ++ []) false (mk_stream (client_request host port path ctype body) sp 0 false)) by (split; [cbn [st_data]; rewrite app_nil_r; reflexivity|reflexivity]).
  destruct (request_arrives cn sv false _ host port path ctype body [] false D T P B C H) as (s' & E & _). cbv zeta in E.
  unfold r, exchange_over, connection. cbn [serve]. change (Nat.eqb 4 0) with false. rewrite E. cbn iota.
  remember (arrived host port path ctype body cn) as req eqn:ER. assert (M : rq_method req = s2b "POST") by (subst; reflexivity).
  pose proof (routed_ok sv req U M) as RO. pose proof (routed_sent sv req M) as RS. destruct (routed_response sv req) as [routed q]. cbn [fst snd] in *.
  destruct RO as (R1 & R2 & R3). destruct RS as [S1 S2]. unfold p. rewrite S1, S2.
  remember (server_reply false (s2b "POST") (rq_headers req) routed q) as w eqn:EW.
  assert (HW : holds (w ++ []) true (mk_stream w cp 0 true)) by (split; [cbn [st_data]; rewrite app_nil_r; reflexivity|reflexivity]). rewrite EW in HW at 1.
  split; intro ST; [eapply reply_received; eassumption|eapply reply_unread; eassumption].
Qed.
Lemma exchange_handled cn sv sp host port path ctype body : destination_ok host port -> type_ok ctype -> plain_path path -> blen body <= SIZE_MAX -> conn_ok cn ->
  exists w, connection cn sv (mk_stream (client_request host port path ctype body) sp 0 false) = (w, [arrived host port path ctype body cn], true).
Proof.
  intros D T P B C. assert (H : holds (client_request host port path ctype body ++ []) false (mk_stream (client_request host port path ctype body) sp 0 false)) by (split; [cbn [st_data]; rewrite app_nil_r; reflexivity|reflexivity]).
  destruct (request_arrives cn sv false _ host port path ctype body [] false D T P B C H) as (s' & E & _). cbv zeta in E.
  unfold connection. cbn [serve]. change (Nat.eqb 4 0) with false. rewrite E. eexists. reflexivity.
Qed.

(** ** Prefixes *)

Lemma prefix_of_app (a b p x : bytes) : a ++ b = p ++ x -> (exists y, y <> [] /\ a = p ++ y) \/ exists q, p = a ++ q /\ b = q ++ x.
Proof.
  revert p. induction a as [|c a IH]; intros p H; cbn [app] in H; [right; exists p; split; [reflexivity|exact H]|].
  destruct p as [|e p]; [left; exists (c :: a); split; [discriminate|reflexivity]|].
  cbn [app] in H. injection H as <- H. destruct (IH p H) as [(y & N & ->)|(q & -> & E)]; [left; exists y; split; [exact N|reflexivity]|right; exists q; split; [reflexivity|exact E]].
Qed.
Lemma prefix_of_last (l p y : bytes) c : l ++ [c] = p ++ y -> y <> [] -> exists z, l = p ++ z.
Proof.
  intros H N. destruct (exists_last N) as (z & b & ->). exists z. rewrite app_assoc in H. apply app_inj_tail in H as [H _]. exact H.
Qed.
Lemma Forall_prefix {A} (P : A -> Prop) a b : Forall P (a ++ b) -> Forall P a.
Proof. intro H. apply Forall_app in H as [H _]. exact H. Qed.

Lemma block_cut : forall lines hs p y fuel, Forall short_line lines -> flat_map write_header lines ++ CRLF = p ++ y -> y <> [] -> (List.length p < fuel)%nat ->
  exists hs', block fuel hs p = (false, hs', []).
Proof.
  induction lines as [|e lines IH]; intros hs p y fuel F E N L; (destruct fuel as [|fuel]; [lia|]); cbn [flat_map] in E.
  - cbn [app] in E. apply (prefix_of_last [13] p y 10) in E as (z & E); [|exact N]. cbn [block].
    replace (cut_line p) with (@None (bytes * bytes)) by (symmetry; apply cut_line_none, (Forall_prefix _ p z); rewrite <- E; repeat constructor; discriminate). eexists. reflexivity.
  - apply Forall_cons_iff in F as [[A B] F]. rewrite write_header_text, <- app_assoc in E.
    replace (line_text e ++ CRLF) with ((line_text e ++ [13]) ++ [10]) in E by (rewrite <- app_assoc; reflexivity).
    assert (LT : Forall (fun c => c <> 10) (line_text e ++ [13])) by (apply Forall_app; split; [apply line_text_lf; exact A|repeat constructor; discriminate]).
    apply prefix_of_app in E as [(z & NZ & E)|(q & -> & E)].
    + apply prefix_of_last in E as (z' & E); [|exact NZ]. cbn [block].
      replace (cut_line p) with (@None (bytes * bytes)) by (symmetry; apply cut_line_none, (Forall_prefix _ p z'); rewrite <- E; exact LT). eexists. reflexivity.
    + cbn [block]. rewrite <- app_assoc. cbn [app]. rewrite cut_line_first by exact LT.
      replace ((line_text e ++ [13]) ++ [10]) with (line_text e ++ CRLF) by (rewrite <- app_assoc; reflexivity).
      rewrite crlf_app, crlf_cut. cbn [negb]. rewrite blen_app.
      assert (Z : 2 <= blen (line_text e)) by (unfold line_text; rewrite !blen_app; change (blen (s2b ": ")) with 2; lia).
      change (blen CRLF) with 2. destruct (N.eqb_spec (blen (line_text e) + 2) 2) as [Q|_]; [lia|].
      destruct (N.ltb_spec MAX_LENGTH (blen (line_text e) + 2)) as [Q|_]; [unfold MAX_LENGTH in Q; lia|].
      apply (IH _ q y); [exact F|exact E|exact N|]. rewrite !app_length in L. cbn [List.length] in L. lia.
Qed.
Lemma read_headers_cut s lines p y c : Forall usual_line lines -> write_headers lines = p ++ y -> y <> [] -> holds p c s ->
  exists hs s', read_headers s = (false, hs, s') /\ holds [] c s'.
Proof.
  intros F E N H. destruct (read_headers_spec s p c H) as (s' & ok & hs & r & G & B & H').
  destruct (block_cut lines [] p y (S (List.length p)) (Forall_impl _ usual_short F) E N ltac:(lia)) as (hs' & B'). rewrite B' in B. injection B as <- <- <-.
  exists hs', s'. split; assumption.
Qed.
(** A line that is cut off. *)
Lemma getline_cut s l p y c : l ++ [10] = p ++ y -> y <> [] -> Forall (fun x => x <> 10) l -> holds p c s ->
  exists s', getline s = (if c && negb (beqb p []) then Some p else None, s') /\ holds [] c s' /\ Forall (fun x => x <> 10) p.
Proof.
  intros E N F H. apply prefix_of_last in E as (z & ->); [|exact N]. apply Forall_prefix in F. pose proof (getline_spec s p c H) as G.
  rewrite (proj2 (cut_line_none p) F) in G. destruct G as (s' & G & H'). exists s'. split; [exact G|split; [exact H'|exact F]].
Qed.
Lemma upto_nul_forall (P : N -> Prop) l : Forall P l -> Forall P (upto_nul l).
Proof. induction 1 as [|c l A F IH]; cbn [upto_nul]; [constructor|]. destruct (c =? 0); constructor; assumption. Qed.

(** ** Requests that are cut off *)

Lemma request_body cn sv close s host port path ctype body d c : destination_ok host port -> type_ok ctype -> plain_path path -> blen body <= SIZE_MAX -> conn_ok cn ->
  holds ((request_text path ++ [13]) ++ 10 :: (write_headers (sent_lines (host_line host port) ctype (blen body)) ++ d)) c s -> blen d < blen body ->
  exists w s', process_turn cn sv close s = Turn w None false s'.
Proof.
  intros D T P B C H LT. unfold process_turn.
  pose proof (host_line_ok host port D) as [W WL]. destruct T as (TV & TL & T1 & T2).
  pose proof (sent_lines_ok (host_line host port) ctype (blen body) W WL TV TL B) as PL.
  remember (sent_lines (host_line host port) ctype (blen body)) as lines eqn:EL.
  assert (EU : encode_url path = flat_map encode_char path) by (unfold encode_url; rewrite path_nul by apply P; reflexivity).
  destruct P as (P0 & PC & PL0).
  assert (NLF : Forall (fun x => x <> 10) (request_text path ++ [13])).
  { unfold request_text. rewrite EU. rewrite !Forall_app; repeat split; try (repeat constructor; discriminate); apply enc_no; [exact PC|tauto]. }
  assert (NUL : Forall (fun x => x <> 0) (request_text path ++ CRLF)).
  { unfold request_text. rewrite EU. rewrite !Forall_app; repeat split; try (repeat constructor; discriminate); apply enc_no; [exact PC|tauto]. }
  destruct (getline_line s _ _ c H NLF) as (s1 & G & H1). rewrite G. clear G H.
  replace ((request_text path ++ [13]) ++ [10]) with (request_text path ++ CRLF) by (rewrite <- app_assoc; reflexivity).
  assert (LL : blen (request_text path ++ CRLF) <= MAX_LENGTH).
  { unfold request_text. rewrite EU, !blen_app. change (blen (s2b "POST ")) with 5. change (blen (s2b " HTTP/1.1")) with 9. change (blen CRLF) with 2.
    pose proof (encoded_length path) as Q. unfold blen, MAX_LENGTH in *. lia. }
  replace (MAX_LENGTH <? blen (request_text path ++ CRLF)) with false by lia.
  rewrite (upto_nul_plain _ NUL), parse_request by (split; [exact P0|split; [exact PC|exact PL0]]). cbn [rl_ok rl_method rl_path rl_version negb].
  destruct (usual_headers s1 lines d c (Forall_impl usual_line (fun e (Q : plain_line e) => or_introl Q) PL) H1) as (s2 & G & H2). rewrite G. clear G H1.
  cbn [negb]. rewrite (tells_plain lines PL). rewrite add_addresses_lines by exact C.
  assert (HC : header_value (s2b "Connection") (arriving lines) = s2b "close") by (rewrite header_value_ci, arriving_values, EL; reflexivity).
  rewrite HC. change (beqb (s2b "close") (s2b "close")) with true. cbn [orb].
  assert (HR : mm_has (s2b "Range") (arriving (lines ++ conn_lines cn)) = false) by (rewrite mm_has_ci, arriving_values, EL; reflexivity). rewrite HR.
  assert (HT : header_value (s2b "Content-Type") (arriving (lines ++ conn_lines cn)) = ctype).
  { rewrite header_value_ci, arriving_values, EL. change (values_ci (s2b "Content-Type") _) with [ctype]. cbn iota. apply value_sendable, plain_value_chars, TV. }
  rewrite HT. change (expects_content (s2b "POST")) with true.
  destruct (has_prefix (s2b "multipart/form-data") ctype) eqn:M; [apply prefix_iff in M; contradiction|]. cbn [andb].
  unfold server_content. change (expects_content (s2b "POST")) with true. change (beqb (s2b "POST") (s2b "DELETE")) with false. cbn [negb andb orb].
  destruct (content_of_length (arriving (lines ++ conn_lines cn)) s2 d c (blen body) [] H2) as (s3 & G & H3).
  { rewrite arriving_values, EL. reflexivity. } { rewrite arriving_values, EL. reflexivity. } { rewrite arriving_values, EL. reflexivity. } { exact B. }
  rewrite G. replace (blen body <=? blen d) with false by lia. eexists _, _. reflexivity.
Qed.

Lemma serve_nothing n cn sv s c : holds [] c s -> serve n cn sv s = ([], [], true).
Proof.
  intro H. destruct n as [|n]; [reflexivity|]. cbn [serve]. unfold process_turn. pose proof (getline_spec s [] c H) as G. cbn [cut_line beqb negb] in G.
  rewrite Bool.andb_false_r in G. destruct G as (s' & -> & _). reflexivity.
Qed.
Lemma turn_none n cn sv s w again s' c : process_turn cn sv (Nat.eqb n 0) s = Turn w None again s' -> (again = true -> holds [] c s') ->
  exists w', serve (S n) cn sv s = (w', [], true).
Proof.
  intros E H. cbn [serve]. rewrite E. destruct again; [|exists w; reflexivity]. rewrite (serve_nothing n cn sv s' c (H eq_refl)). eexists. reflexivity.
Qed.
Lemma request_cut n cn sv s host port path ctype body p y c : destination_ok host port -> type_ok ctype -> plain_path path -> blen body <= SIZE_MAX -> conn_ok cn ->
  client_request host port path ctype body = p ++ y -> y <> [] -> holds p c s -> exists w, serve n cn sv s = (w, [], true).
Proof.
  intros D T P B C E N H. destruct n as [|n]; [exists []; reflexivity|]. unfold client_request in E. rewrite client_lines in E by assumption.
  pose proof (host_line_ok host port D) as [W WL].
  pose proof (sent_lines_ok (host_line host port) ctype (blen body) W WL (proj1 T) (proj1 (proj2 T)) B) as PL.
  remember (sent_lines (host_line host port) ctype (blen body)) as lines eqn:EL.
  replace (s2b "POST " ++ encode_url path ++ s2b " HTTP/1.1" ++ CRLF ++ write_headers lines ++ body)
    with (((request_text path ++ [13]) ++ [10]) ++ (write_headers lines ++ body)) in E by (unfold request_text; rewrite <- !app_assoc; reflexivity).
  assert (EU : encode_url path = flat_map encode_char path) by (unfold encode_url; rewrite path_nul by apply P; reflexivity).
  pose proof P as (P0 & PC & PL0).
  assert (NLF : Forall (fun x => x <> 10) (request_text path ++ [13])).
  { unfold request_text. rewrite EU. rewrite !Forall_app; repeat split; try (repeat constructor; discriminate); apply enc_no; [exact PC|tauto]. }
  assert (NUL : Forall (fun x => x <> 0) (request_text path ++ CRLF)).
  { unfold request_text. rewrite EU. rewrite !Forall_app; repeat split; try (repeat constructor; discriminate); apply enc_no; [exact PC|tauto]. }
  assert (LL : blen (request_text path ++ CRLF) <= MAX_LENGTH).
  { unfold request_text. rewrite EU, !blen_app. change (blen (s2b "POST ")) with 5. change (blen (s2b " HTTP/1.1")) with 9. change (blen CRLF) with 2.
    pose proof (encoded_length path) as Q. unfold blen, MAX_LENGTH in *. lia. }
  apply prefix_of_app in E as [(z & NZ & E)|(q & -> & E)].
  - pose proof E as E'. apply (f_equal (fun x => blen x)) in E'. rewrite (blen_app p z) in E'. rewrite <- (app_assoc _ [13]) in E'. change ([13] ++ [10]) with CRLF in E'.
    destruct (getline_cut s _ p z c E NZ NLF H) as (s1 & G & H1 & F).
    destruct (c && negb (beqb p [])) eqn:CP.
    + assert (PT : process_turn cn sv (Nat.eqb n 0) s = Turn (server_reply (Nat.eqb n 0) [] [] false (failure 400)) None true s1).
      { unfold process_turn. rewrite G. replace (MAX_LENGTH <? blen p) with false by lia. unfold parse_request_line.
        rewrite (no_lf_no_crlf (upto_nul p) (upto_nul_forall _ _ F)). reflexivity. }
      exact (turn_none n cn sv s _ _ _ c PT (fun _ => H1)).
    + cbn [serve]. unfold process_turn. rewrite G. eexists. reflexivity.
  - replace (((request_text path ++ [13]) ++ [10]) ++ q) with ((request_text path ++ [13]) ++ 10 :: q) in H by (rewrite <- (app_assoc _ [10]); reflexivity).
    apply prefix_of_app in E as [(z & NZ & E)|(b & -> & E)].
    + destruct (getline_line s _ _ c H NLF) as (s1 & G & H1).
      destruct (read_headers_cut s1 lines q z c (Forall_impl usual_line (fun e (Q : plain_line e) => or_introl Q) PL) E NZ H1) as (hs & s2 & G2 & H2).
      assert (PT : process_turn cn sv (Nat.eqb n 0) s = Turn (server_reply (Nat.eqb n 0) (s2b "POST") hs false (failure 400)) None true s2).
      { unfold process_turn. rewrite G. replace ((request_text path ++ [13]) ++ [10]) with (request_text path ++ CRLF) by (rewrite <- app_assoc; reflexivity).
        replace (MAX_LENGTH <? blen (request_text path ++ CRLF)) with false by lia.
        rewrite (upto_nul_plain _ NUL), parse_request by exact P. cbn [rl_ok rl_method negb]. rewrite G2. reflexivity. }
      exact (turn_none n cn sv s _ _ _ c PT (fun _ => H2)).
    + rewrite EL in H. destruct (request_body cn sv (Nat.eqb n 0) s host port path ctype body b c D T P B C H) as (w & s1 & PT).
      { rewrite E, blen_app. destruct y; [contradiction|]. unfold blen. cbn [List.length]. lia. }
      apply (turn_none n cn sv s w false s1 c PT). discriminate.
Qed.

(** ** Answers that are cut off *)

Lemma match_needs_end l : Forall (fun x => x <> 10) l -> match_status l = None.
Proof.
  intro F. unfold match_status. destruct (negb _); [reflexivity|]. assert (G : Forall (fun x => x <> 10) (skipn 7 l)).
  { rewrite <- (firstn_skipn 7 l) in F. apply Forall_app in F as [_ F]. exact F. }
  destruct (skipn 7 l) as [|v [|sp [|a [|b [|d r]]]]]; try reflexivity. destruct (_ && _); [|reflexivity]. destruct (three_digits a b d); [|reflexivity].
  do 5 apply Forall_cons_iff in G as [_ G]. destruct (beqb r CRLF) eqn:E.
  - apply beqb_eq in E. subst r. apply Forall_cons_iff in G as [_ G]. apply Forall_cons_iff in G as [G _]. contradiction.
  - destruct r as [|g t]; [reflexivity|]. apply Forall_cons_iff in G as [_ G]. rewrite (no_lf_no_crlf t G), Bool.andb_false_r. reflexivity.
Qed.
Lemma response_cut s c st hs body p y : holds p c s -> status_line st ++ CRLF ++ write_headers hs ++ body = p ++ y -> y <> [] -> (101 <= st <= 999)%Z ->
  Forall usual_line hs -> values_ci (s2b "Content-Encoding") hs = [] -> values_ci (s2b "Transfer-Encoding") hs = [] ->
  values_ci (s2b "Content-Length") hs = [dec_digits (blen body)] -> blen body <= SIZE_MAX ->
  read_response s = None \/ st = 204%Z /\ exists h, read_response s = Some (204%Z, h, []).
Proof.
  intros H E N ST U CE TE CL L. unfold read_response, read_response_line.
  replace (status_line st ++ CRLF ++ write_headers hs ++ body) with (((status_line st ++ [13]) ++ [10]) ++ (write_headers hs ++ body)) in E by (unfold CRLF; rewrite <- !app_assoc; reflexivity).
  assert (NLF : Forall (fun x => x <> 10) (status_line st ++ [13])).
  { apply Forall_app. split; [|repeat constructor; discriminate]. eapply Forall_impl; [|apply status_line_chars]. cbn. intuition. }
  apply prefix_of_app in E as [(z & NZ & E)|(q & -> & E)].
  - destruct (getline_cut s _ p z c E NZ NLF H) as (s1 & G & H1 & F). rewrite G. left. destruct (c && negb (beqb p [])); [|reflexivity].
    rewrite match_needs_end by (apply upto_nul_forall, F). reflexivity.
  - replace (((status_line st ++ [13]) ++ [10]) ++ q) with ((status_line st ++ [13]) ++ 10 :: q) in H by (rewrite <- (app_assoc _ [10]); reflexivity).
    destruct (getline_line s _ _ c H NLF) as (s1 & G & H1).
    rewrite G. replace ((status_line st ++ [13]) ++ [10]) with (status_line st ++ CRLF) by (rewrite <- app_assoc; reflexivity).
    rewrite upto_nul_plain by (apply Forall_app; split; [eapply Forall_impl; [|apply status_line_chars]; cbn; intuition|repeat constructor; discriminate]).
    rewrite match_line by lia. cbn [after_continue]. replace (st =? 100)%Z with false by lia.
    apply prefix_of_app in E as [(z & NZ & E)|(b & -> & E)].
    + destruct (read_headers_cut s1 hs q z c U E NZ H1) as (hs' & s2 & G2 & _). rewrite G2. left. reflexivity.
    + destruct (usual_headers s1 hs b c U H1) as (s2 & G2 & H2). rewrite G2. cbn [negb].
      destruct (Z.eqb_spec st 204) as [->|N4]; [right; split; [reflexivity|eexists; reflexivity]|]. left.
      destruct (content_of_length (arriving (filter tells hs)) s2 b c (blen body) [] H2) as (s3 & G3 & _).
      { rewrite arriving_values, tells_values, CE. reflexivity. } { rewrite arriving_values, tells_values, TE. reflexivity. }
      { rewrite arriving_values, tells_values, CL. cbn [filter]. destruct (digits_cons (blen body)) as (u & v & -> & _). reflexivity. } { exact L. }
      rewrite G3. replace (blen body <=? blen b) with false; [reflexivity|]. symmetry. apply N.leb_gt. rewrite E, blen_app. destruct y; [contradiction|]. unfold blen. cbn [List.length]. lia.
Qed.
Lemma reply_cut close hs routed r s c p y : bare r -> routed = true \/ (400 <= rs_status r)%Z -> blen (rs_body r) <= SIZE_MAX -> (101 <= rs_status r <= 999)%Z ->
  server_reply close (s2b "POST") hs routed r = p ++ y -> y <> [] -> holds p c s -> client_reply s = Closed \/ client_reply s = Failed \/ (rs_status r = 204%Z /\ client_reply s = Replied 204 []).
Proof.
  intros B R L ST E N H. destruct (added_spec close hs (s2b "POST") routed r B R L) as (A1 & A2 & A3). rewrite reply_added in E.
  remember (added close (s2b "POST") hs routed r) as f. change (beqb (s2b "POST") (s2b "HEAD")) with false in E. cbn iota in E.
  rewrite A1 in E. destruct A3 as (_ & U & CE & TE & CL).
  assert (LF : blen (rs_body f) <= SIZE_MAX). { rewrite A2. unfold sent_text. destruct (rs_body r); [destruct (400 <=? rs_status r)%Z; vm_compute; discriminate|exact L]. }
  pose proof (response_cut s c _ _ _ p y H E N ST U CE TE CL LF) as G. unfold client_reply. destruct (beqb (st_data s) [] && st_closed s); [left; reflexivity|].
  destruct G as [-> |(S4 & h & ->)]; [right; left; reflexivity|right; right; split; [exact S4|reflexivity]].
Qed.

(** A connection that is cut off while the server answers. *)
Lemma answer_cut cn sv sp cp host port path ctype body n orderly : destination_ok host port -> type_ok ctype -> plain_path path -> blen body <= SIZE_MAX -> conn_ok cn -> usual_server sv (arrived host port path ctype body cn) ->
  let p := process_request sv (arrived host port path ctype body cn) in (101 <= rs_status p <= 999)%Z ->
  let r := cut_answer cn sv sp cp (client_request host port path ctype body) n orderly in
  r = Closed \/ r = Failed \/ r = Replied (rs_status p) (received (rs_status p) (rs_body p)).
Proof.
  intros D T P B C U p ST r. assert (H : holds (client_request host port path ctype body ++ []) false (mk_stream (client_request host port path ctype body) sp 0 false)) by (split; [cbn [st_data]; rewrite app_nil_r; reflexivity|reflexivity]).
  destruct (request_arrives cn sv false _ host port path ctype body [] false D T P B C H) as (s' & E & _). cbv zeta in E.
  unfold r, cut_answer, connection. cbn [serve]. change (Nat.eqb 4 0) with false. rewrite E. cbn iota.
  remember (arrived host port path ctype body cn) as req eqn:ER. assert (M : rq_method req = s2b "POST") by (subst; reflexivity).
  pose proof (routed_ok sv req U M) as RO. pose proof (routed_sent sv req M) as RS. destruct (routed_response sv req) as [routed q]. cbn [fst snd] in *.
  destruct RO as (R1 & R2 & R3). destruct RS as [S1 S2]. unfold p in *. rewrite S1, S2 in *.
  remember (server_reply false (s2b "POST") (rq_headers req) routed q) as w eqn:EW.
  destruct (skipn n w) as [|x y] eqn:K.
  - right. right. assert (FW : firstn n w = w) by (rewrite <- (firstn_skipn n w) at 2; rewrite K, app_nil_r; reflexivity). rewrite FW.
    assert (HW : holds (w ++ []) orderly (mk_stream w cp 0 orderly)) by (split; [cbn [st_data]; rewrite app_nil_r; reflexivity|reflexivity]). rewrite EW in HW at 1.
    eapply reply_received; eassumption.
  - assert (HP : holds (firstn n w) orderly (mk_stream (firstn n w) cp 0 orderly)) by (split; reflexivity).
    assert (EP : server_reply false (s2b "POST") (rq_headers req) routed q = firstn n w ++ x :: y) by (rewrite <- EW, <- K; symmetry; apply firstn_skipn).
    destruct (reply_cut _ _ _ _ _ _ _ _ R1 R2 R3 ST EP ltac:(discriminate) HP) as [G|[G|[G1 G2]]]; [left; exact G|right; left; exact G|right; right]. rewrite G2, G1. reflexivity.
Qed.
