(** What a request line says: three words, and the path its target names (RFC 9112, 3; RFC
    3986, 3.3 and 2.1). *)
From Verif Require Import Base MSerialize MHttp SHttp MTls MWire SWire.
Open Scope N_scope.

(** ** Words *)

Definition blanks (s : bytes) : Prop := Forall blank_char s.
(** Between two words there is a space; there may be more blanks. *)
Definition apart (s : bytes) : Prop := blanks s /\ In 32 s.
Definition word (w : bytes) : Prop :=
  Forall (fun c => c <> 32) w /\ (exists c r, w = c :: r /\ ~ blank_char c) /\ (exists r c, w = r ++ [c] /\ ~ blank_char c).
Definition line_words (p method target version : bytes) : Prop :=
  exists b0 b1 b2 b3, p = b0 ++ method ++ b1 ++ target ++ b2 ++ version ++ b3 /\ blanks b0 /\ apart b1 /\ apart b2 /\ blanks b3 /\
    word method /\ word target /\ word version.
Definition served_methods : list bytes := map s2b ["GET"; "HEAD"; "POST"; "PUT"; "DELETE"; "CONNECT"; "OPTIONS"; "TRACE"; "PATCH"; "PRI"]%string.
Definition served_versions : list bytes := map s2b ["HTTP/1.1"; "HTTP/1.0"]%string.
(** A line that can be served. *)
Definition request_line_of (p method target version : bytes) : Prop :=
  Forall (fun c => c <> 0) p /\ line_words p method target version /\ In method served_methods /\ In version served_versions.

(** ** Targets *)

(** The part of a target before its query and its fragment. *)
Definition path_of (target path : bytes) : Prop :=
  exists tail, target = path ++ tail /\ Forall (fun c => c <> 35 /\ c <> 63) path /\ (tail = [] \/ exists c r, tail = c :: r /\ (c = 35 \/ c = 63)).
(** A percent sign stands before two hexadecimal digits, which are the byte meant. *)
Definition hex_of (c v : N) : Prop := (v < 10 /\ c = 48 + v) \/ (10 <= v < 16 /\ (c = 55 + v \/ c = 87 + v)).
Inductive decodes : bytes -> bytes -> Prop :=
| decodes_end : decodes [] []
| decodes_char c r s : c <> 37 -> decodes r s -> decodes (c :: r) (c :: s)
| decodes_escape a b x y r s : hex_of a x -> hex_of b y -> decodes r s -> decodes (37 :: a :: b :: r) (16 * x + y :: s).
(** The path a target names: it has one, without blanks in it. *)
Definition names_path (target path : bytes) : Prop :=
  exists q, path_of target q /\ q <> [] /\ Forall (fun c => ~ blank_char c) q /\ decodes q path.

(** A request with this line. *)
Definition lined_request (line : bytes) (lines : list (bytes * bytes)) (body : bytes) : bytes := line ++ CRLF ++ write_headers lines ++ body.
