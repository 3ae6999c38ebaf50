(** Specification for C137: the request of the client, byte for byte. It names no function that writes requests. *)
From Verif Require Import Base SSerialize.
Open Scope N_scope.

(** A number in decimal digits. *)
Definition decimal_of (n : N) (d : bytes) : Prop := d <> [] /\ Forall is_dec d /\ dec_value d = Z.of_N n.

(** The digits of percent encoding, RFC 3986 section 2.1. *)
Definition PCT_DIGITS : bytes := s2b "0123456789ABCDEF".
Definition pct_char (c : N) : bytes := [37; nth (N.to_nat (c / 16)) PCT_DIGITS 0; nth (N.to_nat (c mod 16)) PCT_DIGITS 0].
(** The characters that cannot stand in a request line, and four more that the library encodes: plus sign,
    apostrophe, comma and semicolon. *)
Definition must_encode (c : N) : Prop := 128 <= c \/ c = 32 \/ c = 13 \/ c = 10 \/ c = 43 \/ c = 39 \/ c = 44 \/ c = 59.
Inductive escaped : bytes -> bytes -> Prop :=
| escaped_none : escaped [] []
| escaped_kept c p t : ~ must_encode c -> escaped p t -> escaped (c :: p) (c :: t)
| escaped_coded c p t : must_encode c -> escaped p t -> escaped (c :: p) (pct_char c ++ t).

(** Where the request goes: nothing but the host at the port of https, else the host and the port. An address
    with colons stands in brackets. *)
Definition host_text (host : bytes) (port : Z) (t : bytes) : Prop :=
  (port = 443%Z /\ t = host) \/
  (port <> 443%Z /\ exists d, decimal_of (Z.to_N port) d /\ ((In 58 host /\ t = [91] ++ host ++ [93; 58] ++ d) \/ (~ In 58 host /\ t = host ++ [58] ++ d))).

(** The request: a line, six headers, an empty line and the body. *)
Definition post_text (target where_to len ctype body : bytes) : bytes :=
  s2b "POST " ++ target ++ s2b " HTTP/1.1" ++ [13; 10] ++
  s2b "Accept: */*" ++ [13; 10] ++
  s2b "Connection: close" ++ [13; 10] ++
  s2b "Content-Length: " ++ len ++ [13; 10] ++
  s2b "Content-Type: " ++ ctype ++ [13; 10] ++
  s2b "Host: " ++ where_to ++ [13; 10] ++
  s2b "User-Agent: cpp-httplib/0.14.3" ++ [13; 10] ++
  [13; 10] ++ body.
