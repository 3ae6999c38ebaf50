(** What a user of the HTTP wrapper expects, stated on requests, route tables and
    what is sent. *)
From Verif Require Import Base MSerialize MHttp.
Open Scope N_scope.

(** ** Header names and values *)

(** The values of the header lines with exactly this name, in order. *)
Definition values (k : bytes) (l : list (bytes * bytes)) : list bytes :=
  map snd (filter (fun e : bytes * bytes => beqb k (fst e)) l).
(** RFC 9110, 5.1: names are the same up to case. *)
Definition same_name (a b : bytes) : Prop := map tolower a = map tolower b.
Definition values_ci (k : bytes) (l : list (bytes * bytes)) : list bytes :=
  map snd (filter (fun e : bytes * bytes => beqb (map tolower k) (map tolower (fst e))) l).
Fixpoint joined (vs : list bytes) : bytes :=
  match vs with
  | [] => []
  | [v] => v
  | v :: vs => v ++ s2b ", " ++ joined vs
  end.
(** The multimap httplib fills from the header lines in the order they arrive. *)
Definition arriving (lines : list (bytes * bytes)) : headers :=
  fold_left (fun m e => mm_emplace (fst e) (snd e) m) lines [].

(** ** Patterns *)

(** The characters with a meaning in a regular expression, but for the dot. *)
Definition special : bytes := s2b "^$\*+?()[]{}|".
Definition plain_char (c : N) : Prop := ~ In c special.
Definition plain_pattern (p : bytes) : Prop :=
  Forall plain_char p /\ forall a b, p <> a ++ s2b "/:" ++ b.
(** A dot stands for any character but a line end, anything else for itself. *)
Definition char_matches (c d : N) : Prop := if c =? 46 then d <> 10 /\ d <> 13 else c = d.
Definition matches (p s : bytes) : Prop := Forall2 char_matches p s.
(** What is assumed of std::regex. *)
Definition regex_ok (cp : compile) : Prop :=
  forall p, plain_pattern p -> exists f, cp p = Some f /\ forall s, f s = true <-> matches p s.

(** ** Routes *)

Definition method_text (m : Z) : option bytes :=
  if (m =? GET)%Z then Some (s2b "GET") else if (m =? POST)%Z then Some (s2b "POST")
  else if (m =? PUT)%Z then Some (s2b "PUT") else if (m =? DELETE)%Z then Some (s2b "DELETE")
  else if (m =? OPTIONS)%Z then Some (s2b "OPTIONS") else if (m =? PATCH)%Z then Some (s2b "PATCH")
  else None.
(** A request with method HEAD is one with GET whose answer is sent without body. *)
Definition asked_method (req : request) : bytes :=
  if beqb (rq_method req) (s2b "HEAD") then s2b "GET" else rq_method req.
Definition serves (r : route) (req : request) : Prop :=
  method_text (rt_method r) = Some (asked_method req) /\ matches (rt_path r) (rq_path req).
Definition first_route (routes : list route) (req : request) (r : route) : Prop :=
  exists pre post, routes = pre ++ r :: post /\ serves r req /\ Forall (fun q => ~ serves q req) pre.
Definition table_ok (routes : list route) : Prop :=
  Forall (fun r => plain_pattern (rt_path r) /\ method_text (rt_method r) <> None) routes.
Definition asks (r : route) (req : request) : hresult := rt_handle r (get_request_header req) (rq_body req).
Definition known_method (req : request) : Prop :=
  In (asked_method req) [s2b "GET"; s2b "POST"; s2b "PUT"; s2b "DELETE"; s2b "OPTIONS"; s2b "PATCH"].

(** ** What is sent *)

(** A header line that can be sent has no line end. *)
Definition sendable (s : bytes) : Prop := Forall (fun c => c <> 10 /\ c <> 13) (upto_nul s).
Definition line_ok (e : bytes * bytes) : Prop := sendable (fst e) /\ sendable (snd e).
Definition CT : bytes := s2b "Content-Type".
(** The content type a handler gives. *)
Definition own_type (hdr : smap) : bytes := match map_at CT hdr with Some c => c | None => [] end.
Definition sent_body (req : request) (st : Z) (body : bytes) : bytes :=
  if beqb (rq_method req) (s2b "HEAD") then [] else
  match body with [] => if (400 <=? st)%Z then s2b "Router error" else [] | _ => body end.
(** An answer as the BRSKI comment in the code wants errors: one content type, plain
    text. *)
Definition plain_error (res : response) : Prop := values_ci CT (rs_headers res) = [s2b "text/plain"].
