(** Model of src/brski/http/httplib_wrapper.cpp with the parts of
    src/brski/http/httplib.h that decide which handler runs and what is sent, and of
    the route tables (masa_server.cpp, registrar_server.cpp). *)
From Verif Require Import Base MSerialize.
Open Scope N_scope.
Open Scope ub_scope.

(** ** Ordered containers *)

(** std::lexicographical_compare with a given order of characters. *)
Fixpoint lex_lt (f : N -> N) (a b : bytes) : bool :=
  match a, b with
  | _, [] => false
  | [], _ :: _ => true
  | x :: a, y :: b => if f x <? f y then true else if f y <? f x then false else lex_lt f a b
  end.
(** httplib.h 316-324 [ci]; the order of std::string. *)
Definition ci_lt : bytes -> bytes -> bool := lex_lt tolower.
Definition str_lt : bytes -> bytes -> bool := lex_lt (fun c => c).

(** httplib.h 433 [Headers], a multimap: emplace inserts after the equivalent
    keys, erase of an equal range, find. *)
Definition headers := list (bytes * bytes).
Fixpoint mm_emplace (k v : bytes) (l : headers) : headers :=
  match l with
  | [] => [(k, v)]
  | e :: r => if ci_lt k (fst e) then (k, v) :: l else e :: mm_emplace k v r
  end.
Definition ci_same (a b : bytes) : bool := negb (ci_lt a b) && negb (ci_lt b a).
Definition mm_erase (k : bytes) (l : headers) : headers := filter (fun e => negb (ci_same k (fst e))) l.
Definition mm_has (k : bytes) (l : headers) : bool := existsb (fun e => ci_same k (fst e)) l.

(** http.hpp 41-42: std::map, [m.at(k)] (None: std::out_of_range) and [m[k] = v]. *)
Definition smap := list (bytes * bytes).
Fixpoint map_at (k : bytes) (m : smap) : option bytes :=
  match m with
  | [] => None
  | e :: r => if beqb k (fst e) then Some (snd e) else map_at k r
  end.
Fixpoint map_set (k v : bytes) (m : smap) : smap :=
  match m with
  | [] => [(k, v)]
  | e :: r => if beqb k (fst e) then (k, v) :: r else if str_lt k (fst e) then (k, v) :: m else e :: map_set k v r
  end.

(** ** Requests and responses *)

Record request := mk_request { rq_method : bytes; rq_path : bytes; rq_headers : headers; rq_body : bytes }.
(** httplib.h: status -1 is "not set". *)
Record response := mk_response { rs_status : Z; rs_headers : headers; rs_body : bytes }.

(** httplib.h 5186-5195 [has_crlf], 5678-5683 [set_header], 5696-5703
    [set_content]. *)
Definition has_crlf (s : bytes) : bool := existsb (fun c => (c =? 13) || (c =? 10)) (upto_nul s).
Definition set_header (k v : bytes) (r : response) : response :=
  if has_crlf k || has_crlf v then r else mk_response (rs_status r) (mm_emplace k v (rs_headers r)) (rs_body r).
Definition set_content (s ctype : bytes) (r : response) : response :=
  set_header (s2b "Content-Type") ctype (mk_response (rs_status r) (mm_erase (s2b "Content-Type") (rs_headers r)) s).
Definition set_status (z : Z) (r : response) : response := mk_response z (rs_headers r) (rs_body r).

(** httplib_wrapper.cpp 25-35 [get_request_header]. *)
Definition get_request_header (req : request) : smap :=
  fold_left (fun m e =>
    match map_at (fst e) m with
    | Some v => map_set (fst e) (v ++ s2b ", " ++ snd e) m
    | None => map_set (fst e) (snd e) m
    end) (rq_headers req) [].

(** httplib_wrapper.cpp 37-50 [set_response_header], [set_response];
    [response_header["Content-Type"]] is empty when there is none. *)
Definition set_response (body : bytes) (hdr : smap) (status : Z) (r : response) : response :=
  let r := fold_left (fun r e => set_header (fst e) (snd e) r) hdr r in
  let ctype := match map_at (s2b "Content-Type") hdr with Some c => c | None => [] end in
  set_status status (set_content body ctype r).

(** What a handler does with a request: it answers, or throws ([None]: something
    that is no std::exception). The peer certificate and the context are part of
    the function. *)
Inductive hresult := Answers (status : Z) (hdr : smap) (body : bytes) | Throws (what : option bytes).
Definition handle := smap -> bytes -> hresult.

(** ** The server *)

(** http.hpp 28-39 [HTTP_METHOD]; any other int is possible in the struct. *)
Definition GET : Z := 0. Definition HEAD : Z := 1. Definition POST : Z := 2. Definition PUT : Z := 3. Definition DELETE : Z := 4.
Definition CONNECT : Z := 5. Definition OPTIONS : Z := 6. Definition TRACE : Z := 7. Definition PATCH : Z := 8. Definition PRI : Z := 9.
Record route := mk_route { rt_path : bytes; rt_method : Z; rt_handle : handle }.

(** httplib.h: the handler tables; a matcher is a predicate on paths. *)
Definition handlers := list ((bytes -> bool) * handle).
Record server := mk_server { sv_get : handlers; sv_post : handlers; sv_put : handlers; sv_delete : handlers; sv_options : handlers; sv_patch : handlers }.
Definition no_handlers : server := mk_server [] [] [] [] [] [].

(** A pattern without "/:" is a std::regex, which throws on bad syntax ([None]). *)
Definition compile := bytes -> option (bytes -> bool).

(** httplib_wrapper.cpp 52-161 [httplib_register_routes]. [None]: an exception. *)
Definition add_route (s : server) (r : route) (f : bytes -> bool) : server :=
  let e := (f, rt_handle r) in
  let m := rt_method r in
  if (m =? GET)%Z then mk_server (sv_get s ++ [e]) (sv_post s) (sv_put s) (sv_delete s) (sv_options s) (sv_patch s)
  else if (m =? POST)%Z then mk_server (sv_get s) (sv_post s ++ [e]) (sv_put s) (sv_delete s) (sv_options s) (sv_patch s)
  else if (m =? PUT)%Z then mk_server (sv_get s) (sv_post s) (sv_put s ++ [e]) (sv_delete s) (sv_options s) (sv_patch s)
  else if (m =? DELETE)%Z then mk_server (sv_get s) (sv_post s) (sv_put s) (sv_delete s ++ [e]) (sv_options s) (sv_patch s)
  else if (m =? OPTIONS)%Z then mk_server (sv_get s) (sv_post s) (sv_put s) (sv_delete s) (sv_options s ++ [e]) (sv_patch s)
  else mk_server (sv_get s) (sv_post s) (sv_put s) (sv_delete s) (sv_options s) (sv_patch s ++ [e]).
Definition is_served (m : Z) : bool := existsb (Z.eqb m) [GET; POST; PUT; DELETE; OPTIONS; PATCH].
Definition is_silent (m : Z) : bool := existsb (Z.eqb m) [HEAD; CONNECT; TRACE; PRI].
Fixpoint register_routes (cp : compile) (s : server) (routes : list route) : option (Z * server) :=
  match routes with
  | [] => Some (0%Z, s)
  | r :: rest =>
    if is_served (rt_method r) then
      match cp (rt_path r) with
      | Some f => register_routes cp (add_route s r f) rest
      | None => None
      end
    else if is_silent (rt_method r) then register_routes cp s rest
    else Some ((-1)%Z, s)
  end.

(** The lambda registered for a route, httplib_wrapper.cpp 64-75. [inr]: thrown. *)
Definition run_handle (h : handle) (req : request) (res : response) : response + option bytes :=
  match h (get_request_header req) (rq_body req) with
  | Answers status hdr body => inl (set_response body hdr status res)
  | Throws w => inr w
  end.

(** httplib.h 6840-6852 [dispatch_request]: [None] when nothing matches. *)
Fixpoint dispatch (req : request) (res : response) (l : handlers) : option (response + option bytes) :=
  match l with
  | [] => None
  | (f, h) :: r => if f (rq_path req) then Some (run_handle h req res) else dispatch req res r
  end.

(** httplib.h 6756-6838 [routing], without mount points and pre-routing handler (none
    are set), for a request whose content can be read. The result: routed or not,
    and the response; or an exception. *)
Definition routing (s : server) (req : request) (res : response) : (bool * response) + option bytes :=
  let via l := match dispatch req res l with
               | None => inl (false, res)
               | Some (inl r) => inl (true, r)
               | Some (inr w) => inr w
               end in
  let m := rq_method req in
  if beqb m (s2b "GET") || beqb m (s2b "HEAD") then via (sv_get s)
  else if beqb m (s2b "POST") then via (sv_post s)
  else if beqb m (s2b "PUT") then via (sv_put s)
  else if beqb m (s2b "DELETE") then via (sv_delete s)
  else if beqb m (s2b "OPTIONS") then via (sv_options s)
  else if beqb m (s2b "PATCH") then via (sv_patch s)
  else inl (false, set_status 400 res).

(** httplib_wrapper.cpp 163-172, 174-189: the error and the exception handler;
    BUFSIZ is 8192 and set_content(buf, ..) stops at the NUL. *)
Definition HTTP_ERROR_REPLY : bytes := s2b "Router error".
Definition error_handler (r : response) : response :=
  let r := if beqb (rs_body r) [] then mk_response (rs_status r) (rs_headers r) HTTP_ERROR_REPLY else r in
  set_header (s2b "Content-Type") (s2b "text/plain") r.
Definition exception_handler (what : option bytes) (r : response) : response :=
  let text := match what with Some w => firstn (N.to_nat 8191) (upto_nul w) | None => s2b "Unknown Exception" end in
  set_status 505 (set_content text (s2b "text/plain") r).

(** httplib.h 7069-7131 (process_request from the routing on) and 6345-6372
    (write_response_core) for a request without Range header: the response that is
    written. The headers Connection, Keep-Alive, Content-Length and Accept-Ranges
    are not modelled. The body is not sent for HEAD. *)
Definition write_response (req : request) (r : response) : response :=
  let r := if (400 <=? rs_status r)%Z then error_handler r else r in
  let r := if negb (mm_has (s2b "Content-Type") (rs_headers r)) && negb (beqb (rs_body r) []) then set_header (s2b "Content-Type") (s2b "text/plain") r else r in
  if beqb (rq_method req) (s2b "HEAD") then mk_response (rs_status r) (rs_headers r) [] else r.
Definition process_request (s : server) (req : request) : response :=
  let res := mk_response (-1) [] [] in
  let '(routed, r) := match routing s req res with inl x => x | inr w => (true, exception_handler w res) end in
  let r := if (rs_status r =? -1)%Z then set_status (if routed then 200 else 404) r else r in
  write_response req r.

(** ** Starting *)

(** httplib_wrapper.cpp 199-236 [httplib_start]: [new_ok]: constructing the server
    does not throw; [listen]: what [server->listen] does with the registered server
    ([None]: it throws); its result is not looked at. The result: return value and
    whether *srv_ctx is set. In the handler of exceptions httplib_stop gets the
    address of the pointer (203, 229) and deletes it. *)
Definition httplib_start (cp : compile) (cert key : option bytes) (new_ok : bool) (routes : list route) (listen : server -> option bool) : outcome (Z * bool) :=
  match cert, key with
  | Some _, Some _ =>
    if negb new_ok then UB BadFree
    else
      match register_routes cp no_handlers routes with
      | None => UB BadFree
      | Some (z, s) =>
        if (z <? 0)%Z then Ok ((-1)%Z, false)
        else match listen s with None => UB BadFree | Some _ => Ok (0%Z, true) end
      end
  | _, _ => Ok ((-1)%Z, false)
  end.

(** ** The route tables *)

(** masa_api.hpp 18-30. *)
Definition BRSKI_PREFIX_PATH : bytes := s2b "/.well-known/brski".
Definition EST_PREFIX_PATH : bytes := s2b "/.well-known/est".
Definition PATH_BRSKI_REQUESTVOUCHER := BRSKI_PREFIX_PATH ++ s2b "/requestvoucher".
Definition PATH_BRSKI_VOUCHER_STATUS := BRSKI_PREFIX_PATH ++ s2b "/voucher_status".
Definition PATH_BRSKI_REQUESTAUDITLOG := BRSKI_PREFIX_PATH ++ s2b "/requestauditlog".
Definition PATH_BRSKI_ENROLLSTATUS := BRSKI_PREFIX_PATH ++ s2b "/enrollstatus".
Definition PATH_EST_CACERTS := EST_PREFIX_PATH ++ s2b "/cacerts".
Definition PATH_EST_SIMPLEENROLL := EST_PREFIX_PATH ++ s2b "/simpleenroll".
Definition PATH_EST_SIMPLEREENROLL := EST_PREFIX_PATH ++ s2b "/simplereenroll".
Definition PATH_EST_FULLCMC := EST_PREFIX_PATH ++ s2b "/fullcmc".
Definition PATH_EST_SERVERKEYGEN := EST_PREFIX_PATH ++ s2b "/serverkeygen".
Definition PATH_EST_CSRATTRS := EST_PREFIX_PATH ++ s2b "/csrattrs".

Definition plain_text : smap := [(s2b "Content-Type", s2b "text/plain")].
(** masa_api.cpp 185-327, registrar_api.cpp 306-352: the handlers that answer with
    their own name. *)
Definition named_handler (name : bytes) (status : Z) : handle := fun _ _ => Answers status plain_text name.

(** masa_server.cpp 24-64 [setup_masa_routes]; [requestvoucher] is
    masa_requestvoucher. *)
Definition setup_masa_routes (requestvoucher : handle) : list route :=
  [mk_route PATH_BRSKI_REQUESTVOUCHER POST requestvoucher;
   mk_route PATH_BRSKI_VOUCHER_STATUS POST (named_handler (s2b "masa_voucher_status") 200);
   mk_route PATH_BRSKI_REQUESTAUDITLOG POST (named_handler (s2b "masa_requestauditlog") 200);
   mk_route PATH_BRSKI_ENROLLSTATUS POST (named_handler (s2b "masa_enrollstatus") 200);
   mk_route PATH_EST_CACERTS GET (named_handler (s2b "get_est_cacerts") 503);
   mk_route PATH_EST_SIMPLEENROLL POST (named_handler (s2b "post_est_simpleenroll") 503);
   mk_route PATH_EST_SIMPLEREENROLL POST (named_handler (s2b "post_est_simplereenroll") 503);
   mk_route PATH_EST_FULLCMC POST (named_handler (s2b "post_est_fullcmc") 503);
   mk_route PATH_EST_SERVERKEYGEN POST (named_handler (s2b "post_est_serverkeygen") 503);
   mk_route PATH_EST_CSRATTRS GET (named_handler (s2b "get_est_csrattrs") 503)].

(** registrar_server.cpp 26-46 [setup_registrar_routes]. *)
Definition setup_registrar_routes (requestvoucher simpleenroll : handle) : list route :=
  [mk_route PATH_BRSKI_REQUESTVOUCHER POST requestvoucher;
   mk_route PATH_BRSKI_VOUCHER_STATUS POST (named_handler (s2b "registrar_voucher_status") 200);
   mk_route PATH_BRSKI_REQUESTAUDITLOG POST (named_handler (s2b "registrar_requestauditlog") 200);
   mk_route PATH_BRSKI_ENROLLSTATUS POST (named_handler (s2b "registrar_enrollstatus") 200);
   mk_route PATH_EST_SIMPLEENROLL POST simpleenroll].
