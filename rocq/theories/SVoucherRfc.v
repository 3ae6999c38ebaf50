(** The JSON text of a voucher as RFC 8366, 5.3, writes it, with every name spelled out. *)
From Verif Require Import Base SBase64 MSerialize SSerialize MVoucher.
Open Scope N_scope.

Definition in_quotes (s : bytes) : bytes := [34] ++ s ++ [34].
Definition named_value (name value : bytes) : bytes := in_quotes name ++ [58] ++ value.
(** A date with day 0 is not set. *)
Definition date_member (name : bytes) (t : tm) : list bytes :=
  if (tm_mday t =? 0)%Z then []
  else [named_value name (in_quotes (iso_text (Z.to_N (tm_year t + 1900)) (Z.to_N (tm_mon t + 1)) (Z.to_N (tm_mday t)) (Z.to_N (tm_hour t)) (Z.to_N (tm_min t)) (Z.to_N (tm_sec t))))].
Definition binary_member (name : bytes) (b : barray) : list bytes :=
  match ba_data b with None => [] | Some d => [named_value name (in_quotes (rfc_encode d))] end.
Definition assertion_member (z : Z) : list bytes :=
  match z with
  | 1 => [s2b """assertion"":""verified"""]
  | 2 => [s2b """assertion"":""logged"""]
  | 3 => [s2b """assertion"":""proximity"""]
  | _ => []
  end%Z.
Definition voucher_members (v : voucher) : list bytes :=
  date_member (s2b "created-on") (v_created v) ++ date_member (s2b "expires-on") (v_expires v) ++ assertion_member (v_assertion v) ++
  (match v_serial v with None => [] | Some s => [named_value (s2b "serial-number") (in_quotes s)] end) ++
  binary_member (s2b "idevid-issuer") (v_issuer v) ++ binary_member (s2b "pinned-domain-cert") (v_pinned v) ++
  [if v_revocation v then s2b """domain-cert-revocation-checks"":true" else s2b """domain-cert-revocation-checks"":false"] ++
  binary_member (s2b "nonce") (v_nonce v) ++ date_member (s2b "last-renewal-date") (v_renewal v) ++
  binary_member (s2b "prior-signed-voucher-request") (v_prior v) ++ binary_member (s2b "proximity-registrar-cert") (v_proximity v).
Definition rfc8366_text (v : voucher) : bytes :=
  s2b "{""ietf-voucher:voucher"":{" ++ join (s2b ",") (voucher_members v) ++ s2b "}}".
(** RFC 8995, 3.3 and 3.4: the text of a voucher request begins with its own name. *)
Definition request_name : bytes := s2b "ietf-voucher-request:voucher".
Definition request_text (t : bytes) : Prop := exists r, t = s2b "{""" ++ request_name ++ s2b """:" ++ r.
