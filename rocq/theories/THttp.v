(** Property theorems C54, C77-C79: routes, header lines, what is sent, starting a
    server. *)
From Verif Require Import Base PBase MSerialize MHttp SHttp PHttp PHttp2.
Open Scope N_scope.

(** C54 is false: the dot of "/.well-known" matches any character, so a path that no
    route has is served. *)
Theorem C54_refuted : exists routes req, table_ok routes /\ Forall (fun r => rq_path req <> rt_path r) routes /\
  forall cp s, regex_ok cp -> register_routes cp no_handlers routes = Some (0%Z, s) ->
    rs_status (process_request s req) = 200%Z /\ rs_body (process_request s req) = s2b "masa_voucher_status".
Proof. exact path_refuted. Qed.
Print Assumptions C54_refuted.

(** C54 is false: a route with method HEAD is accepted and never served. *)
Theorem C54_method_refuted : exists routes req r, In r routes /\ rt_method r = HEAD /\ rq_method req = s2b "HEAD" /\ rq_path req = rt_path r /\
  forall cp, exists s, register_routes cp no_handlers routes = Some (0%Z, s) /\ rs_status (process_request s req) = 404%Z.
Proof. exact silent_refuted. Qed.
Print Assumptions C54_method_refuted.

(** C54 is false: the second of two routes with one method and path is accepted and
    never served. *)
Theorem C54_second_refuted : exists routes req r, table_ok routes /\ In r routes /\ serves r req /\ rq_path req = rt_path r /\
  forall cp s, regex_ok cp -> register_routes cp no_handlers routes = Some (0%Z, s) -> asks r req = Answers 200 plain_text (s2b "voucher") /\ rs_body (process_request s req) = s2b "other".
Proof. exact second_refuted. Qed.
Print Assumptions C54_second_refuted.

(** C54 is false: header lines whose names differ in case are not joined. *)
Theorem C54_headers_refuted : exists lines k, map_at k (get_request_header (mk_request (s2b "POST") [] (arriving lines) [])) <> Some (joined (values_ci k lines)) /\ (1 < List.length (values_ci k lines))%nat.
Proof. exact case_refuted. Qed.
Print Assumptions C54_headers_refuted.

(** C54 for header names taken literally: the values are joined in the order they
    arrived, and there is no entry without a line. *)
Theorem C54_headers_partial : forall lines m p b k,
  map_at k (get_request_header (mk_request m p (arriving lines) b)) = match values k lines with [] => None | vs => Some (joined vs) end.
Proof. exact headers_joined. Qed.
Print Assumptions C54_headers_partial.

(** C54 for tables of plain patterns and the six methods: registration succeeds, the
    request goes to the first route with its method whose pattern matches. *)
Theorem C54_registers_partial : forall cp routes, regex_ok cp -> table_ok routes -> exists s, register_routes cp no_handlers routes = Some (0%Z, s).
Proof. exact registers. Qed.
Print Assumptions C54_registers_partial.
Theorem C54_served_partial : forall cp routes s req r st hdr body, regex_ok cp -> table_ok routes -> register_routes cp no_handlers routes = Some (0%Z, s) ->
  first_route routes req r -> asks r req = Answers st hdr body -> Forall line_ok hdr -> st <> (-1)%Z ->
  let w := process_request s req in
  rs_status w = st /\ rs_body w = sent_body req st body /\
  (forall k, ~ same_name k CT -> values_ci k (rs_headers w) = values_ci k hdr) /\
  ((st < 400)%Z -> forall c, map_at CT hdr = Some c -> values_ci CT (rs_headers w) = [c]).
Proof. exact answer_sent. Qed.
Print Assumptions C54_served_partial.

(** C54, a request no route matches: 404, or 400 for a method the server does not
    know, with the error text. *)
Theorem C54_unmatched_partial : forall cp routes s req, regex_ok cp -> table_ok routes -> register_routes cp no_handlers routes = Some (0%Z, s) ->
  (forall r, In r routes -> ~ serves r req) ->
  let res := process_request s req in
  (known_method req -> rs_status res = 404%Z) /\ (~ known_method req -> rs_status res = 400%Z) /\
  rs_body res = (if beqb (rq_method req) (s2b "HEAD") then [] else s2b "Router error") /\ plain_error res /\ rs_headers res = [(CT, s2b "text/plain")].
Proof. exact unrouted_spec. Qed.
Print Assumptions C54_unmatched_partial.

(** C54 for the two servers: each of their routes is the one that serves its own
    path, whatever the handlers that are not fixed do. *)
Theorem C54_masa : forall h r req, In r (setup_masa_routes h) -> method_text (rt_method r) = Some (asked_method req) -> rq_path req = rt_path r ->
  table_ok (setup_masa_routes h) /\ first_route (setup_masa_routes h) req r.
Proof. exact (fun h r req I M E => conj (masa_table h) (masa_own h r req I M E)). Qed.
Print Assumptions C54_masa.
Theorem C54_registrar : forall h e r req, In r (setup_registrar_routes h e) -> method_text (rt_method r) = Some (asked_method req) -> rq_path req = rt_path r ->
  table_ok (setup_registrar_routes h e) /\ first_route (setup_registrar_routes h e) req r.
Proof. exact (fun h e r req I M E => conj (registrar_table h e) (registrar_own h e r req I M E)). Qed.
Print Assumptions C54_registrar.

Example C54_case : regex_ok dot_compile /\ match register_routes dot_compile no_handlers (setup_masa_routes quiet_handle) with
  | Some (z, s) => z = 0%Z /\ process_request s (mk_request (s2b "GET") (s2b "/.well-known/est/cacerts") [] []) =
      mk_response 503 [(CT, s2b "text/plain"); (CT, s2b "text/plain")] (s2b "get_est_cacerts") /\
    rs_status (process_request s (post_to (s2b "/.well-known/est/cacerts"))) = 404%Z
  | None => False end.
Proof. split; [exact dot_compile_ok|vm_compute; repeat split]. Qed.
Example C54_headers_case : let lines := [(s2b "Accept", s2b "a"); (s2b "Host", s2b "h"); (s2b "ACCEPT", s2b "b"); (s2b "Accept", s2b "c")] in
  get_request_header (mk_request (s2b "GET") [] (arriving lines) []) = [(s2b "ACCEPT", s2b "b"); (s2b "Accept", s2b "a, c"); (s2b "Host", s2b "h")].
Proof. reflexivity. Qed.

(** C77 is false: the registrar's failing answer is sent with the content types of a
    voucher and of plain text. *)
Theorem C77_refuted : exists routes req r st body, table_ok routes /\ first_route routes req r /\ (exists hdr, asks r req = Answers st hdr body) /\ (400 <= st)%Z /\
  forall cp s, regex_ok cp -> register_routes cp no_handlers routes = Some (0%Z, s) ->
    values_ci CT (rs_headers (process_request s req)) = [s2b "application/voucher-cms+json"; s2b "text/plain"] /\ ~ plain_error (process_request s req).
Proof. exact plain_refuted. Qed.
Print Assumptions C77_refuted.
(** C77, exactly: every failing answer of a handler has two content types, its own
    and plain text; also when it throws. Only the answers to requests no route
    matches are as wanted ([C54_unmatched_partial]). *)
Theorem C77_exact_partial : forall cp routes s req r st hdr body, regex_ok cp -> table_ok routes -> register_routes cp no_handlers routes = Some (0%Z, s) ->
  first_route routes req r -> asks r req = Answers st hdr body -> Forall line_ok hdr -> (400 <= st)%Z ->
  values_ci CT (rs_headers (process_request s req)) = [own_type hdr; s2b "text/plain"].
Proof. exact errors_never_plain. Qed.
Print Assumptions C77_exact_partial.
Theorem C77_thrown_partial : forall cp routes s req r w, regex_ok cp -> table_ok routes -> register_routes cp no_handlers routes = Some (0%Z, s) ->
  first_route routes req r -> asks r req = Throws w ->
  let res := process_request s req in
  rs_status res = 505%Z /\ rs_body res = sent_body req 505 (match w with Some t => firstn (N.to_nat 8191) (upto_nul t) | None => s2b "Unknown Exception" end) /\
  values_ci CT (rs_headers res) = [s2b "text/plain"; s2b "text/plain"].
Proof. exact thrown_spec. Qed.
Print Assumptions C77_thrown_partial.
Example C77_case : let h : handle := fun _ b => match b with [] => Throws (Some (s2b "empty")) | _ => Answers 502 cms_type (s2b "no answer") end in
  match register_routes dot_compile no_handlers (setup_registrar_routes h h) with
  | Some (_, s) => process_request s (post_to PATH_BRSKI_REQUESTVOUCHER) = mk_response 505 [(CT, s2b "text/plain"); (CT, s2b "text/plain")] (s2b "empty") /\
     process_request s (mk_request (s2b "POST") PATH_EST_SIMPLEENROLL [] (s2b "x")) = mk_response 502 [(CT, s2b "application/voucher-cms+json"); (CT, s2b "text/plain")] (s2b "no answer")
  | None => False end.
Proof. vm_compute. repeat split. Qed.

(** C78 is false: a server that cannot listen has started. *)
Theorem C78_refuted : exists cert key routes listen, table_ok routes /\ (forall s, listen s = Some false) /\
  forall cp, regex_ok cp -> httplib_start cp (Some cert) (Some key) true routes listen = Ok (0%Z, true).
Proof. exact start_listen_refuted. Qed.
Print Assumptions C78_refuted.
(** C78 is false: an exception while starting deletes what was not allocated. *)
Theorem C78_throw_refuted : exists cp cert key routes listen, httplib_start cp (Some cert) (Some key) true routes listen = UB BadFree.
Proof. exact start_throw_refuted. Qed.
Print Assumptions C78_throw_refuted.
(** C78, exactly when. *)
Theorem C78_exact_partial : forall cp cert key new_ok routes listen k, httplib_start cp cert key new_ok routes listen = UB k <->
  k = BadFree /\ cert <> None /\ key <> None /\
  (new_ok = false \/ register_routes cp no_handlers routes = None \/ exists s, register_routes cp no_handlers routes = Some (0%Z, s) /\ listen s = None).
Proof. exact start_exact. Qed.
Print Assumptions C78_exact_partial.
(** C78, what holds: the context holds a server just when 0 is returned, and with
    plain tables and no exception that is when both paths are given. *)
Theorem C78_context_partial : forall cp cert key new_ok routes listen z set, httplib_start cp cert key new_ok routes listen = Ok (z, set) ->
  (z = 0%Z /\ set = true) \/ (z = (-1)%Z /\ set = false).
Proof. exact start_result. Qed.
Print Assumptions C78_context_partial.
Theorem C78_paths_partial : forall cp cert key routes listen, regex_ok cp -> table_ok routes -> (forall s, listen s <> None) ->
  exists z set, httplib_start cp cert key true routes listen = Ok (z, set) /\ (z = 0%Z <-> cert <> None /\ key <> None).
Proof. exact start_zero. Qed.
Print Assumptions C78_paths_partial.
Example C78_case : httplib_start dot_compile (Some []) None true (setup_masa_routes quiet_handle) (fun _ => Some true) = Ok ((-1)%Z, false) /\
  httplib_start dot_compile (Some []) (Some []) true [mk_route (s2b "/a") 77 quiet_handle] (fun _ => Some true) = Ok ((-1)%Z, false).
Proof. split; reflexivity. Qed.

(** C79 is false: a handler's -1 is sent as success. *)
Theorem C79_refuted : exists routes req r hdr body, table_ok routes /\ first_route routes req r /\ asks r req = Answers (-1) hdr body /\
  forall cp s, regex_ok cp -> register_routes cp no_handlers routes = Some (0%Z, s) -> rs_status (process_request s req) = 200%Z.
Proof. exact status_refuted. Qed.
Print Assumptions C79_refuted.
