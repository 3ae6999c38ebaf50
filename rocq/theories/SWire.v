(** What a user of a connection expects, stated on the bytes that are sent and the requests
    and answers that arrive. *)
From Verif Require Import Base MSerialize MHttp SHttp MTls MWire.
Open Scope N_scope.

(** ** Texts that go over the wire as they are *)

(** No NUL, no line end, no percent sign. *)
Definition plain_wire (c : N) : Prop := c <> 0 /\ c <> 10 /\ c <> 13 /\ c <> 37.
Definition blank_char (c : N) : Prop := c = 32 \/ c = 9.
Definition plain_value (v : bytes) : Prop :=
  Forall plain_wire v /\ (exists c r, v = c :: r /\ ~ blank_char c) /\ (exists r c, v = r ++ [c] /\ ~ blank_char c).
Definition plain_name (k : bytes) : Prop := k <> [] /\ Forall (fun c => plain_wire c /\ c <> 58) k.
(** A header line of at most 8192 bytes with its end. *)
Definition plain_line (e : bytes * bytes) : Prop := plain_name (fst e) /\ plain_value (snd e) /\ blen (fst e) + blen (snd e) + 4 <= 8192.
(** A handler may also leave a value empty; such a line tells nothing. *)
Definition quiet_line (e : bytes * bytes) : Prop := plain_name (fst e) /\ snd e = [] /\ blen (fst e) + 4 <= 8192.

(** A path: what has a meaning in a URL is not in it; blanks, quotes and bytes above 127 may
    be (they are encoded), a tabulator not. *)
Definition path_char (c : N) : Prop := 0 < c < 256 /\ ~ In c [9; 35; 37; 63].
Definition plain_path (p : bytes) : Prop := p <> [] /\ Forall path_char p /\ 3 * blen p <= 8000.

(** The lines of a request of the client. *)
Definition sent_lines (where_to ctype : bytes) (len : N) : list (bytes * bytes) :=
  [(s2b "Accept", s2b "*/*"); (s2b "Connection", s2b "close"); (s2b "Content-Length", dec_digits len); (s2b "Content-Type", ctype);
   (s2b "Host", where_to); (s2b "User-Agent", s2b "cpp-httplib/0.14.3")].

(** The names of headers that say how long a body is or how it is coded. *)
Definition framing : list bytes := map s2b ["Content-Length"; "Transfer-Encoding"; "Content-Encoding"]%string.
Definition no_framing (hs : list (bytes * bytes)) : Prop := Forall (fun e => Forall (fun k => ~ same_name k (fst e)) framing) hs.

(** Where a request goes: the host, with brackets when it has a colon, and the port unless it
    is that of https. *)
Definition host_line (host : bytes) (port : Z) : bytes :=
  if (port =? 443)%Z then host
  else (if existsb (N.eqb 58) host then s2b "[" ++ host ++ s2b "]" else host) ++ s2b ":" ++ dec_digits (Z.to_N port).
(** What the client's caller gives. *)
Definition destination_ok (host : bytes) (port : Z) : Prop := plain_value host /\ blen host <= 8000 /\ (0 <= port < 65536)%Z.
Definition is_prefix (p s : bytes) : Prop := exists r, s = p ++ r.
Definition type_ok (ctype : bytes) : Prop :=
  plain_value ctype /\ blen ctype <= 8000 /\ ~ is_prefix (s2b "multipart/form-data") ctype /\ ~ is_prefix (s2b "application/x-www-form-urlencoded") ctype.
(** The lines the server adds; addresses are texts without line ends. *)
Definition decimal (z : Z) : bytes := (if (z <? 0)%Z then s2b "-" else []) ++ dec_digits (Z.to_N (Z.abs z)).
Definition address_lines (raddr : bytes) (rport : Z) (laddr : bytes) (lport : Z) : list (bytes * bytes) :=
  [(s2b "REMOTE_ADDR", raddr); (s2b "REMOTE_PORT", decimal rport); (s2b "LOCAL_ADDR", laddr); (s2b "LOCAL_PORT", decimal lport)].
(** What a handler may answer: lines that go over the wire as they are and do not speak of
    the length or the coding of the body, which has a length at all. *)
Definition usual_answer (h : hresult) : Prop :=
  match h with
  | Answers _ hdr body => Forall (fun e => plain_line e \/ quiet_line e) hdr /\ no_framing hdr /\ blen body <= SIZE_MAX
  | Throws _ => True
  end.
(** The handlers of the path answer this request so. *)
Definition usual_server (sv : server) (req : request) : Prop :=
  Forall (fun e : (bytes -> bool) * handle => fst e (rq_path req) = true -> usual_answer (snd e (get_request_header req) (rq_body req))) (sv_post sv).
(** A part of a text. *)
Definition part_of (p s : bytes) : Prop := exists a b, s = a ++ p ++ b.

(** ** What arrives *)

(** Addresses are texts without line ends. *)
Definition conn_ok (cn : conn) : Prop := sendable (cn_remote_addr cn) /\ sendable (cn_local_addr cn).
Definition conn_lines (cn : conn) : list (bytes * bytes) := address_lines (cn_remote_addr cn) (cn_remote_port cn) (cn_local_addr cn) (cn_local_port cn).
(** The request a handler gets: what was sent, with the addresses. *)
Definition arrived (host : bytes) (port : Z) (path ctype body : bytes) (cn : conn) : request :=
  mk_request (s2b "POST") path (arriving (sent_lines (host_line host port) ctype (blen body) ++ conn_lines cn)) body.
(** The text sent for an answer: never an empty one with an error. *)
Definition sent_text (st : Z) (body : bytes) : bytes := match body with [] => if (400 <=? st)%Z then s2b "Router error" else [] | _ => body end.
(** The text that is read: none with 204. *)
Definition received (st : Z) (body : bytes) : bytes := if (st =? 204)%Z then [] else body.
(** The client gets the first bytes of what the server writes only. *)
Definition cut_answer (cn : conn) (sv : server) (server_pick client_pick : nat -> N) (request : bytes) (n : nat) (orderly : bool) : reply :=
  let '(w, _, _) := connection cn sv (mk_stream request server_pick 0 false) in
  client_reply (mk_stream (firstn n w) client_pick 0 orderly).
(** The headers tell a length. *)
Definition announces (hs : list (bytes * bytes)) (n : N) : Prop := exists r, values_ci (s2b "Content-Length") hs = dec_digits n :: r.

(** ** Requests of other programs *)

(** A POST with lines of one's own. *)
Definition own_request (path : bytes) (lines : list (bytes * bytes)) (body : bytes) : bytes :=
  s2b "POST " ++ encode_url path ++ s2b " HTTP/1.1" ++ CRLF ++ write_headers lines ++ body.
(** Plain lines that tell the length of the body and ask for nothing special. *)
Definition own_lines_ok (lines : list (bytes * bytes)) (len : N) : Prop :=
  Forall plain_line lines /\ values_ci (s2b "Content-Length") lines = [dec_digits len] /\
  values_ci (s2b "Content-Encoding") lines = [] /\ values_ci (s2b "Transfer-Encoding") lines = [] /\ values_ci (s2b "Range") lines = [] /\
  forall v r, values_ci (s2b "Content-Type") lines = v :: r -> ~ is_prefix (s2b "multipart/form-data") v /\ ~ is_prefix (s2b "application/x-www-form-urlencoded") v.
(** The first request of a connection, handled or not, and what is written. *)
Definition first_handled (cn : conn) (sv : server) (s : stream) (req : request) : Prop :=
  exists w again rest, process_turn cn sv false s = Turn w (Some req) again rest.
(** A message with a head and a body of the length the head tells. *)
Definition one_message (head : list bytes) (body data : bytes) : Prop :=
  data = flat_map (fun l => l ++ CRLF) head ++ CRLF ++ body /\ Forall (fun l => l <> [] /\ Forall (fun c => c <> 10 /\ c <> 13) l) head /\
  In (s2b "Content-Length: " ++ dec_digits (blen body)) head.
