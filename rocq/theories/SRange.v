(** What a client may expect that asks for a part of an answer (RFC 9110, section 14). *)
From Verif Require Import Base MSerialize MHttp SHttp MTls MWire SWire.
Open Scope N_scope.

(** The bytes from one place to another, from a place on, or the last ones. *)
Inductive want := Between (first last : N) | From (first : N) | Last (count : N).
Definition want_text (w : want) : bytes :=
  match w with
  | Between a b => dec_digits a ++ s2b "-" ++ dec_digits b
  | From a => dec_digits a ++ s2b "-"
  | Last n => s2b "-" ++ dec_digits n
  end.
Definition range_text (w : want) : bytes := s2b "bytes=" ++ want_text w.
(** Numbers below 2^63 in order. *)
Definition want_ok (w : want) : Prop :=
  match w with
  | Between a b => a <= b /\ b <= 9223372036854775807
  | From a => a <= 9223372036854775807
  | Last n => n <= 9223372036854775807
  end.
(** The part of a text, and whether there is one. *)
Definition asked (w : want) (s : bytes) : bytes :=
  match w with
  | Between a b => firstn (N.to_nat (b - a + 1)) (skipn (N.to_nat a) s)
  | From a => skipn (N.to_nat a) s
  | Last n => skipn (List.length s - N.to_nat n) s
  end.
Definition there (w : want) (len : N) : Prop :=
  match w with
  | Between a _ | From a => a < len
  | Last n => 0 < n /\ 0 < len
  end.
(** What Content-Range says of a part of a text of that length (section 14.4). *)
Definition says_range (w : want) (len : N) : bytes :=
  let text a b := s2b "bytes " ++ dec_digits a ++ s2b "-" ++ dec_digits b ++ s2b "/" ++ dec_digits len in
  match w with
  | Between a b => text a (N.min b (len - 1))
  | From a => text a (len - 1)
  | Last n => text (len - N.min n len) (len - 1)
  end.

(** A POST request with plain lines that tell the length and ask for parts by [ranges]. *)
Definition range_lines_ok (ranges : list bytes) (lines : list (bytes * bytes)) (len : N) : Prop :=
  Forall plain_line lines /\ values_ci (s2b "Content-Length") lines = [dec_digits len] /\
  values_ci (s2b "Content-Encoding") lines = [] /\ values_ci (s2b "Transfer-Encoding") lines = [] /\ values_ci (s2b "Range") lines = ranges /\
  forall v r, values_ci (s2b "Content-Type") lines = v :: r -> ~ is_prefix (s2b "multipart/form-data") v /\ ~ is_prefix (s2b "application/x-www-form-urlencoded") v.
(** The handlers of the path tell a status. *)
Definition tells_status (sv : server) (req : request) : Prop :=
  Forall (fun e : (bytes -> bool) * handle => fst e (rq_path req) = true -> match snd e (get_request_header req) (rq_body req) with Answers st _ _ => st <> (-1)%Z | Throws _ => True end) (sv_post sv).
