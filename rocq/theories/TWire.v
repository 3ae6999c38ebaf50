(** Theorems about the HTTP messages on a connection, C100 to C105. *)
From Coq Require Import Lia.
From Verif Require Import Base MSerialize MHttp SHttp PHttp PHttp2 MTls MWire SWire PWire PWire2 PWire3 PWire4 PWire5 PWire6 PWire7 PWire8.
Open Scope N_scope.

(** C100: the request SSLClient::Post writes is the one the handler gets, however the bytes
    arrive and whatever follows them. *)
Theorem C100_request : forall cn sv close s host port path ctype body more c, destination_ok host port -> type_ok ctype -> plain_path path -> blen body <= SIZE_MAX -> conn_ok cn ->
  holds (client_request host port path ctype body ++ more) c s ->
  let req := arrived host port path ctype body cn in
  exists s', process_turn cn sv close s =
    Turn (server_reply close (s2b "POST") (rq_headers req) (fst (routed_response sv req)) (snd (routed_response sv req))) (Some req) false s' /\ holds more c s'.
Proof. exact request_arrives. Qed.
Print Assumptions C100_request.

(** C100: and no other request is handled on that connection. *)
Theorem C100_only : forall cn sv sp host port path ctype body, destination_ok host port -> type_ok ctype -> plain_path path -> blen body <= SIZE_MAX -> conn_ok cn ->
  exists w, connection cn sv (mk_stream (client_request host port path ctype body) sp 0 false) = (w, [arrived host port path ctype body cn], true).
Proof. exact exchange_handled. Qed.
Print Assumptions C100_only.

Example C100_case : destination_ok (s2b "masa.example") 8443 /\ type_ok (s2b "application/voucher-cms+json") /\ plain_path PATH_BRSKI_REQUESTVOUCHER /\ plain_path (s2b "/a b+c,d") /\ conn_ok some_conn /\
  handled (mk_stream (client_request (s2b "masa.example") 8443 (s2b "/a b+c,d") (s2b "text/plain") [0; 13; 10; 37; 255]) (fun n => if Nat.even n then 1 else 7) 0 false)
    = [arrived (s2b "masa.example") 8443 (s2b "/a b+c,d") (s2b "text/plain") [0; 13; 10; 37; 255] some_conn].
Proof.
  split; [split; [apply plain_valueb_ok; reflexivity|split; [vm_compute; discriminate|lia]]|].
  split; [split; [apply plain_valueb_ok; reflexivity|split; [vm_compute; discriminate|split; intros [r E]; discriminate]]|].
  assert (P : forall p, negb (beqb p []) && forallb (fun c => (0 <? c) && (c <? 256) && negb (existsb (N.eqb c) [9; 35; 37; 63])) p && (3 * blen p <=? 8000) = true -> plain_path p).
  { intros p H. apply andb_prop in H as [H C]. apply andb_prop in H as [A B]. split; [intros ->; discriminate|]. split; [|apply N.leb_le, C]. rewrite forallb_forall in B. apply Forall_forall. intros c I.
    specialize (B c I). apply andb_prop in B as [B E]. apply andb_prop in B as [B1 B2]. apply N.ltb_lt in B1, B2. split; [split; assumption|].
    intro J. apply Bool.negb_true_iff in E. assert (X : existsb (N.eqb c) [9; 35; 37; 63] = true) by (apply existsb_exists; exists c; split; [exact J|apply N.eqb_refl]). congruence. }
  split; [apply P; reflexivity|]. split; [apply P; reflexivity|]. split; [split; apply crlf_sendable; reflexivity|]. vm_compute. reflexivity.
Qed.


(** C101 is false: a handler's status that has not three digits is no answer to the client. *)
Theorem C101_status_refuted : exists sv st hdr text sp cp, register_routes dot_compile no_handlers [mk_route (s2b "/a") POST (fun _ _ => Answers st hdr text)] = Some (0%Z, sv) /\ st = 1000%Z /\
  exchange_over some_conn sv sp cp (client_request (s2b "masa") 443 (s2b "/a") (s2b "text/plain") []) = Failed.
Proof. exact status_refuted. Qed.
Print Assumptions C101_status_refuted.

(** C101 is false: the text of an answer with status 204 is lost. *)
Theorem C101_content_refuted : exists sv hdr text sp cp, text <> [] /\ register_routes dot_compile no_handlers [mk_route (s2b "/a") POST (fun _ _ => Answers 204 hdr text)] = Some (0%Z, sv) /\
  exchange_over some_conn sv sp cp (client_request (s2b "masa") 443 (s2b "/a") (s2b "text/plain") []) = Replied 204 [].
Proof. exact no_content_refuted. Qed.
Print Assumptions C101_content_refuted.

(** C101, what holds: the client gets the status and the text of the handler's answer, except the
    text of a 204; where the status has not three digits the request fails. Missing: status 100,
    which announces a further answer. *)
Theorem C101_exchange_partial : forall cn sv sp cp host port path ctype body, destination_ok host port -> type_ok ctype -> plain_path path -> blen body <= SIZE_MAX -> conn_ok cn -> usual_server sv (arrived host port path ctype body cn) ->
  let p := process_request sv (arrived host port path ctype body cn) in
  let r := exchange_over cn sv sp cp (client_request host port path ctype body) in
  ((101 <= rs_status p <= 999)%Z -> r = Replied (rs_status p) (received (rs_status p) (rs_body p))) /\ (~ (100 <= rs_status p <= 999)%Z -> r = Failed).
Proof. exact exchange_answered. Qed.
Print Assumptions C101_exchange_partial.

(** C101 for one answer, whatever follows it: the text is the handler's, or "Router error" for an
    error without a text. *)
Theorem C101_reply_partial : forall close hs routed r s c more, bare r -> routed = true \/ (400 <= rs_status r)%Z -> blen (rs_body r) <= SIZE_MAX -> (101 <= rs_status r <= 999)%Z ->
  holds (server_reply close (s2b "POST") hs routed r ++ more) c s ->
  client_reply s = Replied (rs_status r) (received (rs_status r) (sent_text (rs_status r) (rs_body r))).
Proof. exact reply_received. Qed.
Print Assumptions C101_reply_partial.

(** C101: a status without three digits. *)
Theorem C101_unread_partial : forall close hs routed r s c more, ~ (100 <= rs_status r <= 999)%Z -> holds (server_reply close (s2b "POST") hs routed r ++ more) c s -> client_reply s = Failed.
Proof. exact reply_unread. Qed.
Print Assumptions C101_unread_partial.

Example C101_case : let sv := answering 502 (s2b "No answer") in usual_server sv (arrived (s2b "masa") 443 (s2b "/a") (s2b "text/plain") [1; 2] some_conn) /\
  exchange_over some_conn sv (fun n => N.of_nat n) (fun _ => 5) (client_request (s2b "masa") 443 (s2b "/a") (s2b "text/plain") [1; 2]) = Replied 502 (s2b "No answer") /\
  exchange_over some_conn (answering 400 []) (fun n => N.of_nat n) (fun _ => 5) (client_request (s2b "masa") 443 (s2b "/a") (s2b "text/plain") [1; 2]) = Replied 400 (s2b "Router error").
Proof.
  split; [|split; vm_compute; reflexivity]. unfold usual_server. cbn [sv_post]. apply Forall_cons; [|apply Forall_nil]. intros _. cbn [snd usual_answer]. split; [|split].
  - apply Forall_cons; [|apply Forall_nil]. left. split; [apply plain_nameb_ok; reflexivity|]. split; [apply plain_valueb_ok; reflexivity|vm_compute; discriminate].
  - apply Forall_cons; [|apply Forall_nil]. repeat (apply Forall_cons; [discriminate|]). apply Forall_nil.
  - vm_compute. discriminate.
Qed.


(** C102 is false: an answer without a length is taken for whole after the connection failed. *)
Theorem C102_part_refuted : exists whole part pick, is_prefix part whole /\ part <> whole /\
  client_reply (mk_stream (text [s2b "HTTP/1.1 200 OK"; s2b "Content-Type: application/voucher-cms+json"; []] ++ part) pick 0 false) = Replied 200 part /\
  client_reply (mk_stream (text [s2b "HTTP/1.1 200 OK"; s2b "Content-Type: application/voucher-cms+json"; []] ++ whole) pick 0 true) = Replied 200 whole.
Proof. exact part_taken_refuted. Qed.
Print Assumptions C102_part_refuted.

(** C102 is false: a request without a length is handled after the connection failed. *)
Theorem C102_handled_refuted : exists whole part pick req, is_prefix part whole /\ part <> whole /\ rq_body req = part /\
  first_handled some_conn quiet_server (mk_stream (text [s2b "POST /.well-known/brski/requestvoucher HTTP/1.1"; s2b "Host: masa"; []] ++ part) pick 0 false) req.
Proof. exact part_handled_refuted. Qed.
Print Assumptions C102_handled_refuted.

(** C102, what holds: of a request of the client that is cut off anywhere no handler sees anything. *)
Theorem C102_request_partial : forall n cn sv s host port path ctype body p y c, destination_ok host port -> type_ok ctype -> plain_path path -> blen body <= SIZE_MAX -> conn_ok cn ->
  client_request host port path ctype body = p ++ y -> y <> [] -> holds p c s -> exists w, serve n cn sv s = (w, [], true).
Proof. exact request_cut. Qed.
Print Assumptions C102_request_partial.

(** C102, what holds: of an answer of the server that is cut off anywhere the client takes nothing,
    or it takes the whole answer. *)
Theorem C102_answer_partial : forall cn sv sp cp host port path ctype body n orderly, destination_ok host port -> type_ok ctype -> plain_path path -> blen body <= SIZE_MAX -> conn_ok cn -> usual_server sv (arrived host port path ctype body cn) ->
  let p := process_request sv (arrived host port path ctype body cn) in (101 <= rs_status p <= 999)%Z ->
  let r := cut_answer cn sv sp cp (client_request host port path ctype body) n orderly in
  r = Closed \/ r = Failed \/ r = Replied (rs_status p) (received (rs_status p) (rs_body p)).
Proof. exact answer_cut. Qed.
Print Assumptions C102_answer_partial.

Example C102_case : let r := client_request (s2b "masa") 443 (s2b "/a") (s2b "text/plain") (s2b "abc") in
  cut_answer some_conn (answering 200 (s2b "voucher")) (fun _ => 1) (fun _ => 9) r 0 true = Closed /\
  cut_answer some_conn (answering 200 (s2b "voucher")) (fun _ => 1) (fun _ => 9) r 86 true = Failed /\
  cut_answer some_conn (answering 200 (s2b "voucher")) (fun _ => 1) (fun _ => 9) r 200 false = Replied 200 (s2b "voucher") /\
  snd (fst (serve 5 some_conn (answering 200 []) (mk_stream (firstn 143 r) (fun _ => 1) 0 true))) = [] /\ List.length r = 144%nat.
Proof. vm_compute. repeat split; reflexivity. Qed.


(** C103 is false: the body of a GET request is handled as a further request. *)
Theorem C103_get_refuted : exists head body pick q, one_message head body (text head ++ CRLF ++ body) /\
  handled (mk_stream (text head ++ CRLF ++ body) pick 0 false) = [q; arrived (s2b "masa") 443 PATH_BRSKI_REQUESTVOUCHER (s2b "application/voucher-cms+json") (s2b "MIIB") some_conn].
Proof. exact get_body_refuted. Qed.
Print Assumptions C103_get_refuted.

(** C103 is false: so is the body of a POST request in a coding that is not supported. *)
Theorem C103_coding_refuted : exists head body pick, one_message head body (text head ++ CRLF ++ body) /\ hd_error head = Some (s2b "POST /.well-known/brski/requestvoucher HTTP/1.1") /\
  handled (mk_stream (text head ++ CRLF ++ body) pick 0 false) = [arrived (s2b "masa") 443 PATH_BRSKI_REQUESTVOUCHER (s2b "application/voucher-cms+json") (s2b "MIIB") some_conn].
Proof. exact coded_body_refuted. Qed.
Print Assumptions C103_coding_refuted.

(** C103 is false: so is the body of a POST request with two lengths. *)
Theorem C103_lengths_refuted : exists head body pick q, one_message head body (text head ++ CRLF ++ body) /\
  handled (mk_stream (text head ++ CRLF ++ body) pick 0 false) = [q; arrived (s2b "masa") 443 PATH_BRSKI_REQUESTVOUCHER (s2b "application/voucher-cms+json") (s2b "MIIB") some_conn] /\ rq_method q = s2b "POST" /\ rq_body q = [].
Proof. exact two_lengths_refuted. Qed.
Print Assumptions C103_lengths_refuted.

(** C103, what holds: the bytes of a handled request without Transfer-Encoding are a head, its body
    and what is left; a POST has the length the first Content-Length tells, or all of the rest. *)
Theorem C103_framed_partial : forall cn sv close s w req again s', process_turn cn sv close s = Turn w (Some req) again s' -> values_ci (s2b "Transfer-Encoding") (rq_headers req) = [] ->
  exists head, st_data s = head ++ CRLF ++ rq_body req ++ st_data s' /\
    (rq_method req = s2b "POST" ->
      (values_ci (s2b "Content-Length") (rq_headers req) = [] -> st_data s' = []) /\ (forall n, announces (rq_headers req) n -> n <= SIZE_MAX -> blen (rq_body req) = n)).
Proof. exact request_framed. Qed.
Print Assumptions C103_framed_partial.

Example C103_case : match process_turn some_conn quiet_server false (mk_stream (ask_voucher (s2b "MIIB") ++ s2b "more") (fun _ => 2) 0 false) with
  | Turn _ (Some q) _ s => values_ci (s2b "Transfer-Encoding") (rq_headers q) = [] /\ announces (rq_headers q) 4 /\ rq_body q = s2b "MIIB" /\ st_data s = s2b "more"
  | _ => False
  end.
Proof. vm_compute. repeat split; try reflexivity. exists []. reflexivity. Qed.


(** C104 is false: a value with a percent sign is changed on the way. *)
Theorem C104_value_refuted : exists lines body pick req, values_ci (s2b "Content-Type") lines = [s2b "application%2Fvoucher-cms+json"] /\
  first_handled some_conn quiet_server (mk_stream (own_request PATH_BRSKI_REQUESTVOUCHER lines body) pick 0 false) req /\
  values_ci (s2b "Content-Type") (rq_headers req) = [s2b "application/voucher-cms+json"].
Proof. exact percent_refuted. Qed.
Print Assumptions C104_value_refuted.

(** C104 is false: a line end gets into a value. *)
Theorem C104_line_refuted : exists lines body pick req, Forall (fun e => Forall (fun c => c <> 10 /\ c <> 13) (fst e ++ snd e)) lines /\
  first_handled some_conn quiet_server (mk_stream (own_request PATH_BRSKI_REQUESTVOUCHER lines body) pick 0 false) req /\
  exists v, values_ci (s2b "X-Note") (rq_headers req) = [v] /\ part_of CRLF v.
Proof. exact line_end_refuted. Qed.
Print Assumptions C104_line_refuted.

(** C104, what holds: of every POST request with plain lines, of whatever client, the handler gets
    the path, the body and each value of each header in order. *)
Theorem C104_lines_partial : forall cn sv pick path lines body more closed, plain_path path -> own_lines_ok lines (blen body) -> blen body <= SIZE_MAX -> conn_ok cn ->
  exists req, first_handled cn sv (mk_stream (own_request path lines body ++ more) pick 0 closed) req /\ rq_method req = s2b "POST" /\ rq_path req = path /\ rq_body req = body /\
    forall k, Forall (fun a => ~ same_name k a) (map s2b ["REMOTE_ADDR"; "REMOTE_PORT"; "LOCAL_ADDR"; "LOCAL_PORT"]%string) -> values_ci k (rq_headers req) = values_ci k lines.
Proof. exact own_lines_arrive. Qed.
Print Assumptions C104_lines_partial.

Example C104_case : own_lines_ok [(s2b "content-length", s2b "4"); (s2b "X-Note", s2b "a"); (s2b "Host", s2b "masa"); (s2b "x-note", s2b "b c")] 4.
Proof.
  split; [|split; [reflexivity|split; [reflexivity|split; [reflexivity|split; [reflexivity|intros v r E; discriminate]]]]].
  repeat (apply Forall_cons; [split; [apply plain_nameb_ok; reflexivity|split; [apply plain_valueb_ok; reflexivity|vm_compute; discriminate]]|]). apply Forall_nil.
Qed.


(** C105 is false: a request with an unknown method gets an answer for each line of its head and
    one for the empty line. *)
Theorem C105_refuted : exists head pick a, Forall (fun l => l <> [] /\ Forall (fun c => c <> 10 /\ c <> 13) l) head /\ List.length head = 3%nat /\
  (forall more, client_reply (mk_stream (a ++ more) pick 0 true) = Replied 400 (s2b "Router error")) /\
  exists b, connection some_conn quiet_server (mk_stream (text head ++ CRLF) pick 0 false) = (a ++ a ++ a ++ a ++ b, [], true).
Proof. exact many_answers_refuted. Qed.
Print Assumptions C105_refuted.

(** C105, what holds: a request that is not handled gets an answer the client reads, with one of four
    statuses. Missing: requests with the letters HEAD in them. *)
Theorem C105_refused_partial : forall cn sv close s w again s', process_turn cn sv close s = Turn w None again s' -> ~ part_of (s2b "HEAD") (st_data s) ->
  exists z, In z [400; 413; 414; 415]%Z /\ forall more pick orderly, client_reply (mk_stream (w ++ more) pick 0 orderly) = Replied z (s2b "Router error").
Proof. exact not_handled_answered. Qed.
Print Assumptions C105_refused_partial.

(** C105, what holds: a handled POST request gets the answer of its handler. *)
Theorem C105_handled_partial : forall cn sv close s w req again s', usual_server sv req -> process_turn cn sv close s = Turn w (Some req) again s' -> rq_method req = s2b "POST" ->
  let p := process_request sv req in (101 <= rs_status p <= 999)%Z ->
  forall more pick orderly, client_reply (mk_stream (w ++ more) pick 0 orderly) = Replied (rs_status p) (received (rs_status p) (rs_body p)).
Proof. exact handled_answered. Qed.
Print Assumptions C105_handled_partial.

(** C105, exactly: the server stays silent where no line arrives. *)
Theorem C105_silent_partial : forall cn sv close s, process_turn cn sv close s = Gone <-> (Forall (fun c => c <> 10) (st_data s) /\ (st_closed s = false \/ st_data s = [])).
Proof. exact gone_exact. Qed.
Print Assumptions C105_silent_partial.

(** C105: one connection has as many requests handled as it is allowed to, five. *)
Theorem C105_five_partial : forall n cn sv s w h ok, serve n cn sv s = (w, h, ok) -> (List.length h <= n)%nat.
Proof. exact five_at_most. Qed.
Print Assumptions C105_five_partial.

Example C105_case : process_turn some_conn quiet_server false (mk_stream (s2b "hello") (fun _ => 1) 0 false) = Gone /\
  List.length (handled (mk_stream (List.concat (repeat (text [s2b "GET / HTTP/1.1"; s2b "Host: masa"; []]) 7)) (fun _ => 9) 0 false)) = 5%nat /\
  match process_turn some_conn quiet_server false (mk_stream (text [s2b "POST / HTTP/1.1"; s2b "Content-Encoding: gzip"; []]) (fun _ => 1) 0 false) with
  | Turn w None _ _ => client_reply (mk_stream w (fun _ => 1) 0 true) = Replied 415 (s2b "Router error") | _ => False end.
Proof. vm_compute. repeat split; reflexivity. Qed.

