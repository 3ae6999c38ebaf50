(** Specification for C138: the answer of the server, byte for byte. It names no function that writes answers. *)
From Verif Require Import Base SSerialize MHttp SWireText.
Open Scope N_scope.

(** The first of the handlers for the path answers so, with a content type and no other header. *)
Definition first_answers (l : handlers) (req : request) (st : Z) (ctype body : bytes) : Prop :=
  exists before f h after, l = before ++ (f, h) :: after /\ Forall (fun e : (bytes -> bool) * handle => fst e (rq_path req) = false) before /\
    f (rq_path req) = true /\ h (get_request_header req) (rq_body req) = Answers st [(s2b "Content-Type", ctype)] body.

(** The reason: some text of one line; for the statuses the servers of this project give, those of RFC 9110. *)
Definition reason_of (st : Z) (reason : bytes) : Prop :=
  Forall (fun c => c <> 10 /\ c <> 13) reason /\ (st = 200%Z -> reason = s2b "OK") /\ (st = 500%Z -> reason = s2b "Internal Server Error") /\
  (st = 400%Z -> reason = s2b "Bad Request") /\ (st = 502%Z -> reason = s2b "Bad Gateway") /\ (st = 404%Z -> reason = s2b "Not Found") /\
  (st = 503%Z -> reason = s2b "Service Unavailable").

(** An answer: a line, the headers, an empty line and the body. *)
Definition answer_text (status reason len : bytes) (ctypes : list bytes) (body : bytes) : bytes :=
  s2b "HTTP/1.1 " ++ status ++ [32] ++ reason ++ [13; 10] ++
  s2b "Connection: close" ++ [13; 10] ++
  s2b "Content-Length: " ++ len ++ [13; 10] ++
  List.concat (map (fun t => s2b "Content-Type: " ++ t ++ [13; 10]) ctypes) ++
  [13; 10] ++ body.

(** Errors without a text get one, and all errors a second content type. *)
Definition full_body (st : Z) (body : bytes) (b : bytes) : Prop :=
  (body <> [] /\ b = body) \/ (body = [] /\ (st < 400)%Z /\ b = []) \/ (body = [] /\ (400 <= st)%Z /\ b = s2b "Router error").
Definition all_types (st : Z) (ctype : bytes) (ts : list bytes) : Prop :=
  ((st < 400)%Z /\ ts = [ctype]) \/ ((400 <= st)%Z /\ ts = [ctype; s2b "text/plain"]).

(** No handler for the path. *)
Definition none_for (l : handlers) (req : request) : Prop := Forall (fun e : (bytes -> bool) * handle => fst e (rq_path req) = false) l.
(** The first handler for the path throws. *)
Definition first_throws (l : handlers) (req : request) (what : option bytes) : Prop :=
  exists before f h after, l = before ++ (f, h) :: after /\ none_for before req /\ f (rq_path req) = true /\ h (get_request_header req) (rq_body req) = Throws what.
(** The text of what is thrown: up to its NUL and not more than fits the buffer of 8192 bytes. *)
Definition thrown_text (what : option bytes) (t : bytes) : Prop :=
  match what with
  | None => t = s2b "Unknown Exception"
  | Some w => exists c rest, w = c ++ rest /\ Forall (fun x => x <> 0) c /\ (rest = [] \/ exists r, rest = 0 :: r) /\
      ((blen c <= 8191 /\ t = c) \/ (8191 < blen c /\ blen t = 8191 /\ exists r, c = t ++ r))
  end.
