(** Requests for a part of an answer. Theorems only. *)
From Coq Require Import Lia.
From Verif Require Import Base PBase MSerialize MHttp SHttp PHttp PHttp2 MTls MWire SWire PWire PWire2 PWire3 PWire4 PWire5 PWire6 PWire7 PWire8 MRange SRange PRange PRange2 PRange3.
Open Scope N_scope.

(** C124, what holds: a client whose request asks for one part of the answer, with
    numbers below 2^63, gets exactly that part, cut at the end of the text, or 416 when
    the text has no such part; an empty answer is unchanged; the rest of the stream is
    left for the next request. The full statement also asks that the status be 206, that
    Content-Range tell the place of the part and that several parts can be asked for. *)
Theorem C124_one_partial : forall boundary cn sv close s path lines w body more c, plain_path path -> range_lines_ok [range_text w] lines (blen body) -> want_ok w -> blen body <= SIZE_MAX -> conn_ok cn ->
  holds (own_request path lines body ++ more) c s ->
  let req := mk_request (s2b "POST") path (arriving (lines ++ conn_lines cn)) body in
  usual_server sv req -> tells_status sv req ->
  let p := process_request sv req in (101 <= rs_status p <= 999)%Z -> blen (rs_body p) <= 9223372036854775807 ->
  exists out again s', ranged_turn boundary cn sv close s = Turn out (Some req) again s' /\ holds more c s' /\
    forall more' pick orderly, let reply := client_reply (mk_stream (out ++ more') pick 0 orderly) in
      (there w (blen (rs_body p)) -> reply = Replied (rs_status p) (received (rs_status p) (asked w (rs_body p)))) /\
      (~ there w (blen (rs_body p)) -> rs_body p <> [] -> reply = Replied 416 []) /\
      (rs_body p = [] -> reply = Replied (rs_status p) []).
Proof. exact one_part. Qed.
Print Assumptions C124_one_partial.

(** C124: a header in another unit, or with its last byte before its first, is answered
    with 416 and no handler runs. The content of that request is left on the stream. *)
Theorem C124_wrong_partial : forall boundary cn sv close s path lines v body more c, plain_path path -> range_lines_ok [v] lines (blen body) ->
  ~ is_prefix (s2b "bytes=") v \/ (exists x y, y < x /\ x <= 9223372036854775807 /\ v = range_text (Between x y)) -> blen body <= SIZE_MAX -> conn_ok cn ->
  holds (own_request path lines body ++ more) c s ->
  exists out again s', ranged_turn boundary cn sv close s = Turn out None again s' /\ holds (body ++ more) c s' /\ forall more' pick orderly, client_reply (mk_stream (out ++ more') pick 0 orderly) = Replied 416 (s2b "Router error").
Proof. exact refused_part. Qed.
Print Assumptions C124_wrong_partial.

(** C124: without a Range header a request is handled as [process_turn] says, with which
    C100 to C103 are stated. *)
Theorem C124_without : forall boundary cn sv close s, process_turn cn sv close s <> Elsewhere -> ranged_turn boundary cn sv close s = process_turn cn sv close s.
Proof. exact turn_none. Qed.
Print Assumptions C124_without.

(** C124 is false: a part is answered with 200 as if it were the whole. *)
Theorem C124_status_refuted : exists b sv text w out again s', usual_server sv (mk_request (s2b "POST") (s2b "/a") (arriving ([(s2b "Content-Length", s2b "0"); (s2b "Range", range_text w)] ++ conn_lines some_conn)) []) /\
  ranged_turn b some_conn sv false (range_case (range_text w)) = Turn out (Some (mk_request (s2b "POST") (s2b "/a") (arriving ([(s2b "Content-Length", s2b "0"); (s2b "Range", range_text w)] ++ conn_lines some_conn)) [])) again s' /\
  rs_body (process_request sv (mk_request (s2b "POST") (s2b "/a") (arriving ([(s2b "Content-Length", s2b "0"); (s2b "Range", range_text w)] ++ conn_lines some_conn)) [])) = text /\
  client_reply (mk_stream out (fun _ => 1) 0 true) = Replied 200 (asked w text) /\ asked w text <> text.
Proof. exact status_part_refuted. Qed.
Print Assumptions C124_status_refuted.

(** C124 is false: Content-Range repeats the request instead of telling the place. *)
Theorem C124_place_refuted : exists b w out req again s' hs, there w 7 /\ ranged_turn b some_conn voucher_server false (range_case (range_text w)) = Turn out (Some req) again s' /\
  read_response (mk_stream out (fun _ => 1) 0 true) = Some (200%Z, hs, asked w (s2b "voucher")) /\ values_ci (s2b "Content-Range") hs = [s2b "bytes -2/7"] /\ says_range w 7 = s2b "bytes 5-6/7".
Proof. exact content_range_refuted. Qed.
Print Assumptions C124_place_refuted.

(** C124 is false: of two parts asked for, the one without an end comes back empty. *)
Theorem C124_several_refuted : exists b v out req again s' data, v = s2b "bytes=0-,3-5" /\ ranged_turn b some_conn voucher_server false (range_case v) = Turn out (Some req) again s' /\
  client_reply (mk_stream out (fun _ => 1) 0 true) = Replied 200 data /\ ~ part_of (asked (From 0) (s2b "voucher")) data /\ part_of (asked (Between 3 5) (s2b "voucher")) data.
Proof. exact parts_refuted. Qed.
Print Assumptions C124_several_refuted.

(** C124 is false: the content of one request with a wrong header is handled as a voucher
    request of its own. *)
Theorem C124_content_refuted : exists head body pick w, one_message head body (text head ++ CRLF ++ body) /\ hd_error head = Some (s2b "POST /.well-known/brski/requestvoucher HTTP/1.1") /\
  ranged_serve (fun _ => s2b "B") 5 some_conn quiet_server (mk_stream (text head ++ CRLF ++ body) pick 0 false) = (w, [arrived (s2b "masa") 443 PATH_BRSKI_REQUESTVOUCHER (s2b "application/voucher-cms+json") (s2b "MIIB") some_conn], true).
Proof. exact refused_body_refuted. Qed.
Print Assumptions C124_content_refuted.

(** A request that meets the hypotheses of C124_one_partial, and its three outcomes. *)
Example C124_case : plain_path (s2b "/a") /\ range_lines_ok [range_text (Last 3)] [(s2b "Content-Length", s2b "0"); (s2b "Range", range_text (Last 3))] 0 /\ want_ok (Last 3) /\ conn_ok some_conn /\
  holds (own_request (s2b "/a") [(s2b "Content-Length", s2b "0"); (s2b "Range", range_text (Last 3))] [] ++ []) false (range_case (range_text (Last 3))) /\
  tells_status voucher_server (mk_request (s2b "POST") (s2b "/a") (arriving ([(s2b "Content-Length", s2b "0"); (s2b "Range", range_text (Last 3))] ++ conn_lines some_conn)) []) /\ there (Last 3) 7 /\ asked (Last 3) (s2b "voucher") = s2b "her".
Proof.
  split.
  { split; [discriminate|]. split; [|vm_compute; discriminate]. unfold s2b. cbn. repeat (apply Forall_cons; [split; [lia|intro Q; repeat (destruct Q as [Q|Q]; [discriminate Q|]); exact Q]|]). apply Forall_nil. }
  split.
  - split; [repeat (apply Forall_cons; [split; [apply plain_nameb_ok; reflexivity|split; [apply plain_valueb_ok; reflexivity|vm_compute; discriminate]]|]); apply Forall_nil|]. repeat (split; [reflexivity|]). intros v r Q. discriminate Q.
  - split; [cbn; vm_compute; discriminate|]. split; [split; apply crlf_sendable; reflexivity|]. split; [split; reflexivity|]. split; [|split; [split; reflexivity|reflexivity]].
    apply Forall_cons; [|apply Forall_nil]. intros _. cbn. discriminate.
Qed.
Example C124_case_parts : answer_to (s2b "bytes=2-4") = Some (Replied 200 (s2b "uch")) /\ answer_to (s2b "bytes=4-99") = Some (Replied 200 (s2b "her")) /\ answer_to (s2b "bytes=-3") = Some (Replied 200 (s2b "her")) /\ answer_to (s2b "bytes=5-") = Some (Replied 200 (s2b "er")) /\
  answer_to (s2b "bytes=7-9") = Some (Replied 416 []) /\ answer_to (s2b "bytes=-0") = Some (Replied 416 []) /\ answer_to (s2b "lines=1-2") = Some (Replied 416 (s2b "Router error")) /\ answer_to (s2b "bytes=5-3") = Some (Replied 416 (s2b "Router error")).
Proof. vm_compute. repeat split. Qed.
