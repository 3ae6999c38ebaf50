(** Proofs about requests for a part of an answer: what the client gets. *)
From Coq Require Import ZifyBool ZifyNat ZifyN Sorted.
From Verif Require Import Base PBase MSerialize MHttp SHttp PHttp PHttp2 MTls MWire SWire PWire PWire2 PWire3 PWire4 PWire5 PWire6 PWire7 PWire8 MRange SRange PRange PRange2.
Open Scope N_scope.

Lemma ranged_same sv req rs : rq_method req = s2b "POST" -> tells_status sv req -> ranged_response sv req rs = routed_response sv req.
Proof.
  intros M T. unfold ranged_response, routed_response. cbv zeta. remember (mk_response (-1) [] []) as res eqn:ER.
  assert (RT : routing sv req res = match dispatch req res (sv_post sv) with None => inl (false, res) | Some (inl r) => inl (true, r) | Some (inr w) => inr w end)
    by (unfold routing; rewrite M; reflexivity).
  rewrite RT. destruct (dispatch req res (sv_post sv)) as [x|] eqn:DX; [|reflexivity]. apply dispatch_cases in DX as (f & h & I & M' & E). unfold tells_status in T. rewrite Forall_forall in T. specialize (T _ I). cbn [fst snd] in T. specialize (T M').
  unfold run_handle in E. destruct (h (get_request_header req) (rq_body req)) as [st hdr body|w]; subst x; [|reflexivity].
  replace (rs_status (set_response body hdr st res) =? -1)%Z with false; [reflexivity|]. unfold set_response. cbv zeta. cbn [set_status rs_status]. symmetry. apply Z.eqb_neq, T.
Qed.

Lemma one_part b cn sv close s path lines w body more c : plain_path path -> range_lines_ok [range_text w] lines (blen body) -> want_ok w -> blen body <= SIZE_MAX -> conn_ok cn ->
  holds (own_request path lines body ++ more) c s ->
  let req := mk_request (s2b "POST") path (arriving (lines ++ conn_lines cn)) body in
  usual_server sv req -> tells_status sv req ->
  let p := process_request sv req in (101 <= rs_status p <= 999)%Z -> blen (rs_body p) <= 9223372036854775807 ->
  exists out again s', ranged_turn b cn sv close s = Turn out (Some req) again s' /\ holds more c s' /\
    forall more' pick orderly, let reply := client_reply (mk_stream (out ++ more') pick 0 orderly) in
      (there w (blen (rs_body p)) -> reply = Replied (rs_status p) (received (rs_status p) (asked w (rs_body p)))) /\
      (~ there w (blen (rs_body p)) -> rs_body p <> [] -> reply = Replied 416 []) /\
      (rs_body p = [] -> reply = Replied (rs_status p) []).
Proof.
  intros P RL OK B C H req U T p ST LB. pose proof (ranged_arrives b cn sv close s path lines [range_text w] body more c P RL B C H) as A. cbv zeta in A. cbn [range_header] in A. rewrite (parse_one w OK) in A.
  destruct A as (again & s' & first & FF & E & H'). fold req in E. rewrite (ranged_same sv req _ eq_refl T) in E.
  pose proof (routed_ok sv req U eq_refl) as RO. pose proof (routed_sent sv req eq_refl) as RS. destruct (routed_response sv req) as [routed r] eqn:RR. cbn [fst snd] in E. destruct RO as (R1 & R2 & R3). destruct RS as [S1 S2]. fold p in S1, S2.
  eexists _, again, s'. split; [exact E|]. split; [exact H'|]. intros more' pick orderly. cbv zeta.
  rewrite (ranged_finish close (s2b "POST") (rq_headers req) b [want_range w] routed r R2). cbv zeta. change (beqb (s2b "POST") (s2b "HEAD")) with false. cbv iota.
  destruct (started_spec r R1) as (Z1 & Z2 & Z3). rewrite <- S1 in Z2. assert (Z3' : rs_body (started r) = rs_body p) by congruence. clear Z3.
  assert (LL : blen (rs_body (started r)) <= LLONG_MAX) by (rewrite Z3'; exact LB).
  destruct (apply_one b w (started r) Z1 OK LL) as (A1 & A2 & A3). rewrite Z3' in *. remember (apply_ranges b [want_range w] (started r)) as a eqn:EA. clear EA.
  assert (FIN : forall st bd, rs_status a = st -> rs_body a = bd -> (101 <= st <= 999)%Z -> blen bd <= SIZE_MAX -> sized [dec_digits (blen (rs_body a))] a \/ sized [] a /\ rs_body a = [] ->
    client_reply (mk_stream ((first ++ status_line (rs_status (finish close (s2b "POST") (rq_headers req) a)) ++ CRLF ++ write_headers (rs_headers (finish close (s2b "POST") (rq_headers req) a)) ++ rs_body (finish close (s2b "POST") (rq_headers req) a)) ++ more') pick 0 orderly) = Replied st (received st bd)).
  { intros st bd Q1 Q2 Q3 Q4 Q5. destruct (finish_spec close (s2b "POST") (rq_headers req) a Q5) as (F1 & F2 & F3). remember (finish close (s2b "POST") (rq_headers req) a) as f.
    rewrite (read_after f _ orderly more' first); [rewrite F1, F2, Q1, Q2; reflexivity|rewrite F2; exact F3|rewrite F2, Q2; exact Q4|rewrite F1, Q1; exact Q3|exact FF|split; reflexivity]. }
  assert (TE : there w (blen (rs_body p)) -> rs_body p <> []) by (intros Q E0; rewrite E0 in Q; change (blen []) with 0 in Q; destruct w; cbn [there] in Q; lia).
  split; [|split].
  - intro Q. destruct (A2 (TE Q) Q) as (B1 & B2 & B3). apply FIN; [congruence|exact B2|exact ST| |left; exact B3].
    assert (Q3 : blen (asked w (rs_body p)) <= blen (rs_body p)) by (destruct w; cbn [asked]; unfold blen; rewrite ?firstn_length, skipn_length; lia). unfold SIZE_MAX. lia.
  - intros Q NE. destruct (A3 NE Q) as (B1 & B2 & B3). apply (FIN 416%Z []); [exact B1|exact B2|lia|vm_compute; discriminate|left; exact B3].
  - intro E0. specialize (A1 E0). subst a. change (@nil N) with (received (rs_status p) []) at 3 || idtac. rewrite (FIN (rs_status p) []); [unfold received; destruct (_ =? _)%Z; reflexivity|exact Z2|congruence|exact ST|vm_compute; discriminate|right; split; [exact Z1|congruence]].
Qed.

(** A header that is refused. *)
Lemma parse_foreign v : ~ is_prefix (s2b "bytes=") v -> parse_range_header v = (false, []).
Proof. intro H. unfold parse_range_header. destruct (has_prefix (s2b "bytes=") v) eqn:E; [apply prefix_iff in E; contradiction|reflexivity]. Qed.
Lemma parse_backward a b : b < a -> a <= 9223372036854775807 -> parse_range_header (range_text (Between a b)) = (false, []).
Proof.
  intros LT LA. unfold parse_range_header, range_text. change (has_prefix (s2b "bytes=") (s2b "bytes=" ++ want_text (Between a b))) with (beqb (s2b "bytes=") (s2b "bytes=")). rewrite beqb_refl.
  change (skipn 6 (s2b "bytes=" ++ want_text (Between a b))) with (want_text (Between a b)). destruct (sides_digit (Between a b)) as [FA FB]. rewrite want_sides. cbn [sides fst snd] in *.
  assert (NC : Forall (fun c => c <> 44) (dec_digits a ++ 45 :: dec_digits b)). { apply Forall_app. split; [eapply Forall_impl; [|exact FA]; unfold digit; lia|]. constructor; [discriminate|]. eapply Forall_impl; [|exact FB]; unfold digit; lia. }
  assert (NB : Forall (fun c => space_or_tab c = false) (dec_digits a ++ 45 :: dec_digits b)). { apply Forall_app. split; [eapply Forall_impl; [|exact FA]; unfold digit, space_or_tab; lia|]. constructor; [reflexivity|]. eapply Forall_impl; [|exact FB]; unfold digit, space_or_tab; lia. }
  assert (MR : match_ranges (dec_digits a ++ 45 :: dec_digits b) = true) by (unfold match_ranges; rewrite parts_whole by exact NC; cbn [rev app]; rewrite match_range_text by assumption; reflexivity).
  rewrite MR. cbn [andb]. unfold split. rewrite parts_whole by exact NC. cbn [rev app map filter]. rewrite trim_none by exact NB.
  replace (beqb (dec_digits a ++ 45 :: dec_digits b) []) with false by (destruct (dec_digits a); reflexivity). cbn [negb take_ranges]. rewrite match_range_text by assumption.
  rewrite !group_digits by (unfold LLONG_MAX; lia). replace (negb (Z.of_N a =? -1)%Z && negb (Z.of_N b =? -1)%Z && (Z.of_N b <? Z.of_N a)%Z) with true by lia. reflexivity.
Qed.
Lemma refused_part b cn sv close s path lines v body more c : plain_path path -> range_lines_ok [v] lines (blen body) -> ~ is_prefix (s2b "bytes=") v \/ (exists x y, y < x /\ x <= 9223372036854775807 /\ v = range_text (Between x y)) -> blen body <= SIZE_MAX -> conn_ok cn ->
  holds (own_request path lines body ++ more) c s ->
  exists out again s', ranged_turn b cn sv close s = Turn out None again s' /\ holds (body ++ more) c s' /\ forall more' pick orderly, client_reply (mk_stream (out ++ more') pick 0 orderly) = Replied 416 (s2b "Router error").
Proof.
  intros P RL BAD B C H. pose proof (ranged_arrives b cn sv close s path lines [v] body more c P RL B C H) as A. cbv zeta in A. cbn [range_header] in A.
  assert (E : parse_range_header v = (false, [])) by (destruct BAD as [Q|(x & y & Q1 & Q2 & ->)]; [apply parse_foreign, Q|apply parse_backward; assumption]). rewrite E in A.
  destruct A as (again & s' & A & H'). eexists _, again, s'. split; [exact A|]. split; [exact H'|]. intros more' pick orderly. rewrite reply_none.
  rewrite (reply_received close (arriving (lines ++ conn_lines cn)) false (failure 416) _ orderly more' (bare_none 416 [])); [reflexivity|right; cbn; lia|vm_compute; discriminate|cbn; lia|split; reflexivity].
Qed.

(** *** What goes wrong *)
Lemma contains_part p s : part_of p s -> contains p s = true.
Proof.
  intros (a & b & ->). unfold contains. apply existsb_exists. exists (List.length a). split.
  - apply in_seq. rewrite !app_length. lia.
  - rewrite skipn_app, skipn_all2, Nat.sub_diag by lia. cbn [app skipn]. rewrite firstn_app, Nat.sub_diag, firstn_all. cbn [firstn]. rewrite app_nil_r. apply beqb_refl.
Qed.
Definition range_case (v : bytes) : stream := mk_stream (own_request (s2b "/a") [(s2b "Content-Length", s2b "0"); (s2b "Range", v)] []) (fun _ => 1) 0 false.
Definition voucher_server : server := answering 200 (s2b "voucher").
Lemma status_part_refuted : exists b sv text w out again s', usual_server sv (mk_request (s2b "POST") (s2b "/a") (arriving ([(s2b "Content-Length", s2b "0"); (s2b "Range", range_text w)] ++ conn_lines some_conn)) []) /\
  ranged_turn b some_conn sv false (range_case (range_text w)) = Turn out (Some (mk_request (s2b "POST") (s2b "/a") (arriving ([(s2b "Content-Length", s2b "0"); (s2b "Range", range_text w)] ++ conn_lines some_conn)) [])) again s' /\
  rs_body (process_request sv (mk_request (s2b "POST") (s2b "/a") (arriving ([(s2b "Content-Length", s2b "0"); (s2b "Range", range_text w)] ++ conn_lines some_conn)) [])) = text /\
  client_reply (mk_stream out (fun _ => 1) 0 true) = Replied 200 (asked w text) /\ asked w text <> text.
Proof.
  exists (s2b "B"), voucher_server, (s2b "voucher"), (Between 1 3). eexists _, _, _. split.
  - unfold usual_server. apply Forall_cons; [|apply Forall_nil]. intros _. cbn [snd usual_answer]. split; [|split].
    + apply Forall_cons; [|apply Forall_nil]. left. split; [apply plain_nameb_ok; reflexivity|]. split; [apply plain_valueb_ok; reflexivity|vm_compute; discriminate].
    + apply Forall_cons; [|apply Forall_nil]. repeat (apply Forall_cons; [discriminate|]). apply Forall_nil.
    + vm_compute. discriminate.
  - split; [vm_compute; reflexivity|]. split; [vm_compute; reflexivity|]. split; [vm_compute; reflexivity|]. vm_compute. discriminate.
Qed.
Lemma content_range_refuted : exists b w out req again s' hs, there w 7 /\ ranged_turn b some_conn voucher_server false (range_case (range_text w)) = Turn out (Some req) again s' /\
  read_response (mk_stream out (fun _ => 1) 0 true) = Some (200%Z, hs, asked w (s2b "voucher")) /\ values_ci (s2b "Content-Range") hs = [s2b "bytes -2/7"] /\ says_range w 7 = s2b "bytes 5-6/7".
Proof.
  exists (s2b "B"), (Last 2). eexists _, _, _, _, _. split; [split; reflexivity|]. split; [vm_compute; reflexivity|]. split; [vm_compute; reflexivity|]. split; vm_compute; reflexivity.
Qed.
Lemma parts_refuted : exists b v out req again s' data, v = s2b "bytes=0-,3-5" /\ ranged_turn b some_conn voucher_server false (range_case v) = Turn out (Some req) again s' /\
  client_reply (mk_stream out (fun _ => 1) 0 true) = Replied 200 data /\ ~ part_of (asked (From 0) (s2b "voucher")) data /\ part_of (asked (Between 3 5) (s2b "voucher")) data.
Proof.
  exists (s2b "B"). eexists _, _, _, _, _, _. split; [reflexivity|]. split; [vm_compute; reflexivity|]. split; [vm_compute; reflexivity|]. split.
  - intro Q. apply contains_part in Q. vm_compute in Q. discriminate.
  - exists (s2b "--B" ++ CRLF ++ s2b "Content-Type: text/plain" ++ CRLF ++ s2b "Content-Range: bytes 0-/0" ++ CRLF ++ CRLF ++ CRLF ++ s2b "--B" ++ CRLF ++ s2b "Content-Type: text/plain" ++ CRLF ++ s2b "Content-Range: bytes 3-5/0" ++ CRLF ++ CRLF), (CRLF ++ s2b "--B--"). vm_compute. reflexivity.
Qed.
Lemma refused_body_refuted : exists head body pick w, one_message head body (text head ++ CRLF ++ body) /\ hd_error head = Some (s2b "POST /.well-known/brski/requestvoucher HTTP/1.1") /\
  ranged_serve (fun _ => s2b "B") 5 some_conn quiet_server (mk_stream (text head ++ CRLF ++ body) pick 0 false) = (w, [arrived (s2b "masa") 443 PATH_BRSKI_REQUESTVOUCHER (s2b "application/voucher-cms+json") (s2b "MIIB") some_conn], true).
Proof.
  eexists [s2b "POST /.well-known/brski/requestvoucher HTTP/1.1"; s2b "Range: bytes=5-3"; s2b "Content-Length: " ++ dec_digits (blen (ask_voucher (s2b "MIIB")))], (ask_voucher (s2b "MIIB")), (fun _ => 1), _. split.
  - split; [reflexivity|]. split; [apply lines_good; vm_compute; reflexivity|right; right; left; reflexivity].
  - split; [reflexivity|]. vm_compute. reflexivity.
Qed.
(** What the client gets for a Range header. *)
Definition answer_to (v : bytes) : option reply := match ranged_turn (s2b "B") some_conn voucher_server false (range_case v) with Turn out _ _ _ => Some (client_reply (mk_stream out (fun _ => 1) 0 true)) | _ => None end.
