(** Request lines and targets. Theorems only. *)
From Coq Require Import Lia.
From Verif Require Import Base PBase MSerialize MHttp SHttp PHttp PHttp2 MTls MWire SWire PWire PWire2 PWire3 PWire4 PWire5 PWire6 PWire7 PWire8 STarget PTarget PTarget2 PTarget3.
Open Scope N_scope.

(** C127, what holds: whatever bytes arrive, a request is handled only if its first line has at most
    8192 bytes and is three words between blanks, of which the first is a known method and the
    third a known version; the handlers get that method and, for a target with a path and
    proper escapes, the decoded path. *)
Theorem C127_handled_partial : forall cn sv close s w req again s', process_turn cn sv close s = Turn w (Some req) again s' ->
  exists p rest m t v, st_data s = p ++ CRLF ++ rest /\ Forall (fun c => c <> 10) p /\ blen p + 2 <= 8192 /\ request_line_of p m t v /\ rq_method req = m /\
    (forall path, names_path t path -> rq_path req = path).
Proof. exact first_line. Qed.
Print Assumptions C127_handled_partial.

(** C127, the other lines: the answer is 400 and the connection goes on behind the line. *)
Theorem C127_refused : forall cn sv close s p rest c, holds (p ++ CRLF ++ rest) c s -> Forall (fun x => x <> 10) p -> blen p + 2 <= 8192 ->
  ~ (exists m t v, request_line_of p m t v) ->
  exists w s', process_turn cn sv close s = Turn w None true s' /\ holds rest c s' /\ is_prefix (s2b "HTTP/1.1 400 Bad Request" ++ CRLF) w.
Proof. exact line_refused. Qed.
Print Assumptions C127_refused.

(** C127, longer lines: the answer is 414. *)
Theorem C127_long : forall cn sv close s p rest c, holds (p ++ 10 :: rest) c s -> Forall (fun x => x <> 10) p -> 8191 < blen p ->
  exists w s', process_turn cn sv close s = Turn w None true s' /\ is_prefix (s2b "HTTP/1.1 414 URI Too Long" ++ CRLF) w.
Proof. exact line_long. Qed.
Print Assumptions C127_long.

(** C127, what is served: every POST with such a line, however its path is written and whatever query
    and fragment follow, is handled with the path its target names. *)
Theorem C127_served_partial : forall cn sv close s p t v path lines body more c, request_line_of p (s2b "POST") t v -> Forall (fun x => x <> 10) p -> blen p + 2 <= 8192 -> names_path t path ->
  own_lines_ok lines (blen body) -> blen body <= SIZE_MAX -> conn_ok cn -> holds (lined_request p lines body ++ more) c s ->
  exists w again s', process_turn cn sv close s = Turn w (Some (mk_request (s2b "POST") path (arriving (lines ++ conn_lines cn)) body)) again s' /\ holds more c s'.
Proof. exact line_served. Qed.
Print Assumptions C127_served_partial.

Example C127_case : names_path (s2b "/.well-known/brski%2frequestvoucher?a=b#c") PATH_BRSKI_REQUESTVOUCHER.
Proof.
  exists (s2b "/.well-known/brski%2frequestvoucher"). split; [exists (s2b "?a=b#c"); split; [reflexivity|split; [repeat constructor; discriminate|right; eexists _, _; split; [reflexivity|right; reflexivity]]]|].
  split; [discriminate|]. split; [repeat (apply Forall_cons; [unfold blank_char; intros [Q|Q]; discriminate Q|]); apply Forall_nil|].
  change PATH_BRSKI_REQUESTVOUCHER with (s2b "/.well-known/brski" ++ (16 * 2 + 15) :: s2b "requestvoucher").
  do 18 (apply decodes_char; [discriminate|]). apply (decodes_escape 50 102 2 15); [left; lia|right; lia|]. do 14 (apply decodes_char; [discriminate|]). apply decodes_end.
Qed.
Example C127_words : request_line_of (s2b "  POST   /a  HTTP/1.0 ") (s2b "POST") (s2b "/a") (s2b "HTTP/1.0").
Proof.
  split; [repeat constructor; discriminate|]. split; [|split; [right; right; left; reflexivity|right; left; reflexivity]].
  exists (s2b "  "), (s2b "   "), (s2b "  "), (s2b " "). split; [reflexivity|]. do 4 (split; [repeat constructor|]).
  split; [|split]; apply wordb_ok; reflexivity.
Qed.

(** C127 is false: a target in absolute form, which every server has to take (RFC 9112, 3.2.2), is
    not found. *)
Theorem C127_absolute_refuted : exists t w w2 req req2 a a2 s s2, t = s2b "https://masa" ++ PATH_BRSKI_REQUESTVOUCHER /\ request_line_of (route_line t) (s2b "POST") t (s2b "HTTP/1.1") /\
  process_turn some_conn quiet_server false (route_case PATH_BRSKI_REQUESTVOUCHER) = Turn w (Some req) a s /\ is_prefix (s2b "HTTP/1.1 200 OK") w /\
  process_turn some_conn quiet_server false (route_case t) = Turn w2 (Some req2) a2 s2 /\ is_prefix (s2b "HTTP/1.1 404 Not Found") w2.
Proof. exact absolute_refuted. Qed.
Print Assumptions C127_absolute_refuted.

(** C127 is false: of a target without a path the query is taken for the path. *)
Theorem C127_query_refuted : exists t w req a s, t = s2b "?" ++ PATH_BRSKI_REQUESTVOUCHER /\ path_of t [] /\
  process_turn some_conn quiet_server false (route_case t) = Turn w (Some req) a s /\ rq_path req = PATH_BRSKI_REQUESTVOUCHER /\ is_prefix (s2b "HTTP/1.1 200 OK") w.
Proof. exact no_path_refuted. Qed.
Print Assumptions C127_query_refuted.

(** C127 is false: a target that is none, for a percent sign with other characters behind it, is
    served. *)
Theorem C127_escape_refuted : exists t w req a s, t = s2b "/.well-known/brski%u002Frequestvoucher" /\ path_of t t /\ ~ (exists path, decodes t path) /\
  process_turn some_conn quiet_server false (route_case t) = Turn w (Some req) a s /\ rq_path req = PATH_BRSKI_REQUESTVOUCHER /\ is_prefix (s2b "HTTP/1.1 200 OK") w.
Proof. exact escape_refuted. Qed.
Print Assumptions C127_escape_refuted.
