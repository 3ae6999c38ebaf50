(** Proofs for C138. *)
From Coq Require Import ZifyBool ZifyNat ZifyN.
From Verif Require Import Base PBase MSerialize SSerialize MHttp SHttp PHttp MTls MWire SWire PWire PWire2 PWire3 PWire4 PWire5 SWireText PWireText SAnswerText.
Open Scope N_scope.

Lemma reasons_clean : forallb (fun e : Z * bytes => forallb (fun c => negb (c =? 10) && negb (c =? 13)) (snd e)) messages = true.
Proof. vm_compute. reflexivity. Qed.
Lemma reason_said st : reason_of st (status_message st).
Proof.
  split; [|repeat split; intros ->; vm_compute; reflexivity]. unfold status_message. destruct (find _ messages) as [e|] eqn:F.
  - apply find_some in F as [I _]. pose proof reasons_clean as A. rewrite forallb_forall in A. specialize (A e I). rewrite forallb_forall in A.
    apply Forall_forall. intros c J. specialize (A c J). lia.
  - apply Forall_forall. intros c J. vm_compute in J. lia.
Qed.

Lemma dispatch_first before f h after req res : Forall (fun e : (bytes -> bool) * handle => fst e (rq_path req) = false) before -> f (rq_path req) = true ->
  dispatch req res (before ++ (f, h) :: after) = Some (run_handle h req res).
Proof.
  intros F T. induction F as [|[g k] l A _ IH]; cbn [app dispatch]; [rewrite T; reflexivity|]. cbn [fst] in A. rewrite A. exact IH.
Qed.
Lemma set_sendable k v r : has_crlf k = false -> sendable v -> set_header k v r = mk_response (rs_status r) (mm_emplace k v (rs_headers r)) (rs_body r).
Proof. intros A B. apply crlf_sendable in B. unfold set_header. rewrite A, B. reflexivity. Qed.

Lemma routed_first sv req st ctype body : rq_method req = s2b "POST" -> plain_value ctype -> (100 <= st <= 999)%Z -> first_answers (sv_post sv) req st ctype body ->
  routed_response sv req = (true, mk_response st [(s2b "Content-Type", ctype)] body).
Proof.
  intros M C R (before & f & h & after & L & F & T & A). unfold routed_response, routing. rewrite M.
  change (beqb (s2b "POST") (s2b "GET") || beqb (s2b "POST") (s2b "HEAD")) with false. change (beqb (s2b "POST") (s2b "POST")) with true. cbn iota.
  rewrite L, (dispatch_first _ _ _ _ _ _ F T). unfold run_handle. rewrite A. unfold set_response. cbn [fold_left fst snd].
  rewrite (set_sendable (s2b "Content-Type") ctype) by (reflexivity || apply plain_sendable, C). cbn [rs_status rs_headers rs_body mm_emplace].
  change (map_at (s2b "Content-Type") [(s2b "Content-Type", ctype)]) with (Some ctype). cbn iota.
  unfold set_content. cbn [rs_status rs_headers rs_body]. change (mm_erase (s2b "Content-Type") [(s2b "Content-Type", ctype)]) with (@nil (bytes * bytes)).
  rewrite (set_sendable (s2b "Content-Type") ctype) by (reflexivity || apply plain_sendable, C). unfold set_status. cbn [rs_status rs_headers rs_body mm_emplace].
  replace (st =? -1)%Z with false by lia. reflexivity.
Qed.

Lemma digits_sendable n : sendable (dec_digits n).
Proof. apply plain_sendable, digits_plain. Qed.
Lemma write_plain k v : upto_nul k = k -> upto_nul v = v -> write_header (k, v) = k ++ s2b ": " ++ v ++ [13; 10].
Proof. intros A B. unfold write_header. cbn [fst snd]. rewrite A, B. reflexivity. Qed.

Lemma reply_text hs st ctype body : header_value (s2b "Connection") hs = s2b "close" -> plain_value ctype -> (100 <= st <= 999)%Z ->
  exists ts b, full_body st body b /\ all_types st ctype ts /\
  server_reply false (s2b "POST") hs true (mk_response st [(s2b "Content-Type", ctype)] body) = answer_text (dec_digits (Z.to_N st)) (status_message st) (dec_digits (blen b)) ts b.
Proof.
  intros H C R.
  assert (K : forall ts b, Forall plain_value ts -> ts <> [] ->
    let hl := [(s2b "Connection", s2b "close"); (s2b "Content-Length", dec_digits (blen b))] ++ map (fun t => (s2b "Content-Type", t)) ts in
    s2b "HTTP/1.1 " ++ to_text st ++ [32] ++ status_message st ++ CRLF ++ write_headers hl ++ b = answer_text (dec_digits (Z.to_N st)) (status_message st) (dec_digits (blen b)) ts b).
  { intros ts b F _ hl. rewrite to_text_port by lia. unfold hl, write_headers, answer_text. cbn [app flat_map].
    rewrite !write_plain by (reflexivity || apply digits_upto_nul).
    assert (G : flat_map write_header (map (fun t => (s2b "Content-Type", t)) ts) = List.concat (map (fun t => s2b "Content-Type: " ++ t ++ [13; 10]) ts)).
    { clear -F. induction F as [|t ts T _ IH]; [reflexivity|]. cbn [map flat_map List.concat]. rewrite write_plain by (reflexivity || apply plain_upto, T). rewrite IH.
      change (s2b "Content-Type: ") with (s2b "Content-Type" ++ s2b ": "). rewrite <- !app_assoc. reflexivity. }
    rewrite G. change CRLF with [13; 10].
    change (s2b "Connection: close") with (s2b "Connection" ++ s2b ": " ++ s2b "close"). change (s2b "Content-Length: ") with (s2b "Content-Length" ++ s2b ": ").
    rewrite <- !app_assoc. reflexivity. }
  unfold server_reply. cbv zeta. cbn [rs_status]. rewrite H. change (beqb (s2b "close") (s2b "close")) with true. cbn [orb].
  change (beqb (s2b "POST") (s2b "HEAD")) with false. rewrite !andb_false_r.
  assert (TP : plain_value (s2b "text/plain")) by (apply plain_valueb_ok; reflexivity).
  destruct (400 <=? st)%Z eqn:E.
  - set (b := match body with [] => s2b "Router error" | _ => body end).
    exists [ctype; s2b "text/plain"], b.
    assert (NB : beqb b [] = false) by (destruct body; reflexivity).
    split; [unfold full_body, b; destruct body; [right; right; split; [reflexivity|split; [lia|reflexivity]]|left; split; [discriminate|reflexivity]]|].
    split; [right; split; [lia|reflexivity]|].
    assert (EH : error_handler (mk_response st [(s2b "Content-Type", ctype)] body) = mk_response st [(s2b "Content-Type", ctype); (s2b "Content-Type", s2b "text/plain")] b).
    { unfold error_handler. cbn [rs_status rs_headers rs_body]. destruct body; reflexivity. }
    rewrite EH. cbn [rs_status rs_headers rs_body]. rewrite NB. cbn [orb andb negb].
    rewrite (set_sendable (s2b "Content-Length")) by (reflexivity || apply digits_sendable). cbn [rs_status rs_headers rs_body mm_emplace fst].
    change (ci_lt (s2b "Content-Length") (s2b "Content-Type")) with true. cbn iota.
    rewrite (set_sendable (s2b "Connection")) by (reflexivity || apply crlf_sendable; reflexivity). cbn [rs_status rs_headers rs_body mm_emplace fst].
    change (ci_lt (s2b "Connection") (s2b "Content-Length")) with true. cbn iota.
    match goal with |- context [mm_has (s2b "Content-Type") ?l] => change (mm_has (s2b "Content-Type") l) with true end.
    match goal with |- context [mm_has (s2b "Content-Length") ?l] => change (mm_has (s2b "Content-Length") l) with true end. cbn [negb andb rs_status rs_headers rs_body].
    apply (K [ctype; s2b "text/plain"] b); [constructor; [exact C|constructor; [exact TP|constructor]]|discriminate].
  - exists [ctype], body.
    split; [unfold full_body; destruct body; [right; left; split; [reflexivity|split; [lia|reflexivity]]|left; split; [discriminate|reflexivity]]|].
    split; [left; split; [lia|reflexivity]|].
    cbn [rs_status rs_headers rs_body orb andb].
    destruct (beqb body []) eqn:NB; cbn [negb andb].
    + apply beqb_eq in NB. subst body.
      rewrite (set_sendable (s2b "Connection")) by (reflexivity || apply crlf_sendable; reflexivity). cbn [rs_status rs_headers rs_body mm_emplace fst].
      change (ci_lt (s2b "Connection") (s2b "Content-Type")) with true. cbn iota.
      match goal with |- context [mm_has (s2b "Content-Type") ?l] => change (mm_has (s2b "Content-Type") l) with true end. cbn [negb andb rs_status rs_headers rs_body].
      match goal with |- context [mm_has (s2b "Content-Length") ?l] => change (mm_has (s2b "Content-Length") l) with false end. change (beqb [] []) with true. cbn [negb andb rs_status rs_headers rs_body].
      rewrite (set_sendable (s2b "Content-Length")) by (reflexivity || apply crlf_sendable; reflexivity). cbn [rs_status rs_headers rs_body mm_emplace fst].
      change (ci_lt (s2b "Content-Length") (s2b "Connection")) with false. change (ci_lt (s2b "Content-Length") (s2b "Content-Type")) with true. cbn iota.
      apply (K [ctype] []); [constructor; [exact C|constructor]|discriminate].
    + rewrite (set_sendable (s2b "Content-Length")) by (reflexivity || apply digits_sendable). cbn [rs_status rs_headers rs_body mm_emplace fst].
      change (ci_lt (s2b "Content-Length") (s2b "Content-Type")) with true. cbn iota.
      rewrite (set_sendable (s2b "Connection")) by (reflexivity || apply crlf_sendable; reflexivity). cbn [rs_status rs_headers rs_body mm_emplace fst].
      change (ci_lt (s2b "Connection") (s2b "Content-Length")) with true. cbn iota.
      match goal with |- context [mm_has (s2b "Content-Type") ?l] => change (mm_has (s2b "Content-Type") l) with true end.
      match goal with |- context [mm_has (s2b "Content-Length") ?l] => change (mm_has (s2b "Content-Length") l) with true end. cbn [negb andb rs_status rs_headers rs_body].
      apply (K [ctype] body); [constructor; [exact C|constructor]|discriminate].
Qed.

Lemma answer_text_of cn sv sp host port path ctype body st actype abody :
  destination_ok host port -> type_ok ctype -> plain_path path -> blen body <= SIZE_MAX -> conn_ok cn -> plain_value actype -> (100 <= st <= 999)%Z ->
  first_answers (sv_post sv) (arrived host port path ctype body cn) st actype abody ->
  exists status reason len types b, decimal_of (Z.to_N st) status /\ reason_of st reason /\ decimal_of (blen b) len /\ all_types st actype types /\ full_body st abody b /\
    connection cn sv (mk_stream (client_request host port path ctype body) sp 0 false) = (answer_text status reason len types b, [arrived host port path ctype body cn], true).
Proof.
  intros D T P B C A R F.
  assert (H : holds (client_request host port path ctype body ++ []) false (mk_stream (client_request host port path ctype body) sp 0 false)) by (split; [cbn [st_data]; rewrite app_nil_r; reflexivity|reflexivity]).
  destruct (request_arrives cn sv false _ host port path ctype body [] false D T P B C H) as (s' & E & _). cbv zeta in E.
  rewrite (routed_first sv (arrived host port path ctype body cn) st actype abody eq_refl A R F) in E. cbn [fst snd] in E.
  assert (HC : header_value (s2b "Connection") (rq_headers (arrived host port path ctype body cn)) = s2b "close") by (unfold arrived; cbn [rq_headers]; rewrite header_value_ci, arriving_values; reflexivity).
  destruct (reply_text _ st actype abody HC A R) as (ts & b & FB & AT & W). rewrite W in E.
  exists (dec_digits (Z.to_N st)), (status_message st), (dec_digits (blen b)), ts, b.
  split; [apply decimal_digits|]. split; [apply reason_said|]. split; [apply decimal_digits|]. split; [exact AT|]. split; [exact FB|].
  unfold connection. cbn [serve]. change (Nat.eqb 4 0) with false. rewrite E. reflexivity.
Qed.

(** ** Without an answer of a handler *)

Lemma dispatch_none l req res : none_for l req -> dispatch req res l = None.
Proof. intro F. induction F as [|[g k] l A _ IH]; cbn [dispatch]; [reflexivity|]. cbn [fst] in A. rewrite A. exact IH. Qed.
Lemma connection_of cn sv sp host port path ctype body routed r :
  destination_ok host port -> type_ok ctype -> plain_path path -> blen body <= SIZE_MAX -> conn_ok cn -> routed_response sv (arrived host port path ctype body cn) = (routed, r) ->
  connection cn sv (mk_stream (client_request host port path ctype body) sp 0 false) =
    (server_reply false (s2b "POST") (rq_headers (arrived host port path ctype body cn)) routed r, [arrived host port path ctype body cn], true).
Proof.
  intros D T P B C F.
  assert (H : holds (client_request host port path ctype body ++ []) false (mk_stream (client_request host port path ctype body) sp 0 false)) by (split; [cbn [st_data]; rewrite app_nil_r; reflexivity|reflexivity]).
  destruct (request_arrives cn sv false _ host port path ctype body [] false D T P B C H) as (s' & E & _). cbv zeta in E.
  rewrite F in E. cbn [fst snd] in E. unfold connection. cbn [serve]. change (Nat.eqb 4 0) with false. rewrite E. reflexivity.
Qed.
Lemma closes_of host port path ctype body cn : header_value (s2b "Connection") (rq_headers (arrived host port path ctype body cn)) = s2b "close".
Proof. unfold arrived. cbn [rq_headers]. rewrite header_value_ci, arriving_values. reflexivity. Qed.

Lemma unmatched_text_of cn sv sp host port path ctype body :
  destination_ok host port -> type_ok ctype -> plain_path path -> blen body <= SIZE_MAX -> conn_ok cn -> none_for (sv_post sv) (arrived host port path ctype body cn) ->
  connection cn sv (mk_stream (client_request host port path ctype body) sp 0 false) =
    (answer_text (s2b "404") (s2b "Not Found") (s2b "12") [s2b "text/plain"] (s2b "Router error"), [arrived host port path ctype body cn], true).
Proof.
  intros D T P B C F. rewrite (connection_of cn sv sp host port path ctype body false (mk_response 404 [] []) D T P B C).
  - assert (W : forall hs, header_value (s2b "Connection") hs = s2b "close" -> server_reply false (s2b "POST") hs false (mk_response 404 [] []) =
      answer_text (s2b "404") (s2b "Not Found") (s2b "12") [s2b "text/plain"] (s2b "Router error")).
    { intros hs Q. unfold server_reply. rewrite Q. vm_compute. reflexivity. }
    rewrite W by apply closes_of. reflexivity.
  - unfold routed_response, routing. change (rq_method (arrived host port path ctype body cn)) with (s2b "POST").
    change (beqb (s2b "POST") (s2b "GET") || beqb (s2b "POST") (s2b "HEAD")) with false. change (beqb (s2b "POST") (s2b "POST")) with true. cbn iota.
    rewrite (dispatch_none _ _ _ F). reflexivity.
Qed.

Lemma upto_parts : forall w, exists rest, w = upto_nul w ++ rest /\ Forall (fun x => x <> 0) (upto_nul w) /\ (rest = [] \/ exists r, rest = 0 :: r).
Proof.
  induction w as [|c w (rest & E & F & R)]; cbn [upto_nul]; [exists []; split; [reflexivity|split; [constructor|left; reflexivity]]|].
  destruct (N.eqb_spec c 0) as [->|N0]; [exists (0 :: w); split; [reflexivity|split; [constructor|right; exists w; reflexivity]]|].
  exists rest. cbn [app]. split; [f_equal; exact E|]. split; [constructor; assumption|exact R].
Qed.
Definition what_text (what : option bytes) : bytes := match what with Some w => firstn (N.to_nat 8191) (upto_nul w) | None => s2b "Unknown Exception" end.
Lemma what_thrown what : thrown_text what (what_text what).
Proof.
  destruct what as [w|]; [|reflexivity]. cbn [thrown_text what_text]. destruct (upto_parts w) as (rest & E & F & R). exists (upto_nul w), rest.
  split; [exact E|]. split; [exact F|]. split; [exact R|]. remember (upto_nul w) as c eqn:Q. clear Q E F. destruct (N.leb_spec (blen c) 8191) as [L|L].
  - left. split; [exact L|]. apply firstn_all2. unfold blen in L. lia.
  - right. split; [exact L|]. split; [unfold blen in *; rewrite firstn_length; lia|]. exists (skipn (N.to_nat 8191) c). symmetry. apply firstn_skipn.
Qed.
Lemma thrown_text_of cn sv sp host port path ctype body what :
  destination_ok host port -> type_ok ctype -> plain_path path -> blen body <= SIZE_MAX -> conn_ok cn -> first_throws (sv_post sv) (arrived host port path ctype body cn) what ->
  exists t b len, thrown_text what t /\ full_body 505 t b /\ decimal_of (blen b) len /\
  connection cn sv (mk_stream (client_request host port path ctype body) sp 0 false) =
    (answer_text (s2b "505") (s2b "HTTP Version Not Supported") len [s2b "text/plain"; s2b "text/plain"] b, [arrived host port path ctype body cn], true).
Proof.
  intros D T P B C (before & f & h & after & L & F & TR & A).
  assert (TP : plain_value (s2b "text/plain")) by (apply plain_valueb_ok; reflexivity).
  assert (RR : routed_response sv (arrived host port path ctype body cn) = (true, mk_response 505 [(s2b "Content-Type", s2b "text/plain")] (what_text what))).
  { unfold routed_response, routing. change (rq_method (arrived host port path ctype body cn)) with (s2b "POST").
    change (beqb (s2b "POST") (s2b "GET") || beqb (s2b "POST") (s2b "HEAD")) with false. change (beqb (s2b "POST") (s2b "POST")) with true. cbn iota.
    rewrite L, (dispatch_first _ _ _ _ _ _ F TR). unfold run_handle. rewrite A. unfold exception_handler.
    destruct what as [w|]; [|reflexivity]. unfold what_text. generalize (firstn (N.to_nat 8191) (upto_nul w)). reflexivity. }
  destruct (reply_text _ 505 (s2b "text/plain") (what_text what) (closes_of host port path ctype body cn) TP ltac:(lia)) as (ts & b & FB & AT & W).
  destruct AT as [[X _]|[_ ->]]; [lia|].
  exists (what_text what), b, (dec_digits (blen b)). split; [apply what_thrown|]. split; [exact FB|]. split; [apply decimal_digits|].
  rewrite (connection_of cn sv sp host port path ctype body _ _ D T P B C RR), W. reflexivity.
Qed.
