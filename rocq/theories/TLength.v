(** Property theorems for C103: lengths given by any text. *)
From Verif Require Import Base MSerialize MHttp SHttp PHttp MTls MWire SWire PWire8 SLength PLength PLength2.
Open Scope N_scope.

(** C103, lengths: whatever arrives, a handled POST without Transfer-Encoding has as many bytes as
    the digits of its first Content-Length say, however large the number is. *)
Theorem C103_length_partial : forall cn sv close s w req again s' t r, process_turn cn sv close s = Turn w (Some req) again s' -> values_ci (s2b "Transfer-Encoding") (rq_headers req) = [] ->
  rq_method req = s2b "POST" -> values_ci (s2b "Content-Length") (rq_headers req) = t :: r -> digits_text t -> blen (st_data s) < ULONG_MAX -> blen (rq_body req) = decimal t.
Proof. exact request_length. Qed.
Print Assumptions C103_length_partial.

Example C103_length_case : match process_turn some_conn quiet_server false (mk_stream (s2b "POST / HTTP/1.1" ++ CRLF ++ s2b "Content-Length: 0004" ++ CRLF ++ CRLF ++ s2b "MIIBmore") (fun _ => 2) 0 false) with
  | Turn _ (Some q) _ s => values_ci (s2b "Content-Length") (rq_headers q) = [s2b "0004"] /\ decimal (s2b "0004") = 4 /\ rq_body q = s2b "MIIB" /\ st_data s = s2b "more"
  | _ => False
  end /\
  match process_turn some_conn quiet_server false (mk_stream (s2b "POST / HTTP/1.1" ++ CRLF ++ s2b "Content-Length: 18446744073709551620" ++ CRLF ++ CRLF ++ s2b "MIIBmore") (fun _ => 2) 0 false) with
  | Turn _ (Some q) _ s => False
  | _ => decimal (s2b "18446744073709551620") = 18446744073709551620
  end.
Proof. split; vm_compute; repeat split; reflexivity. Qed.

(** C103 is false for a length that is no number: it counts as zero and the bytes behind the head
    are the next request. *)
Theorem C103_number_refuted : exists head pick q, In (s2b "Content-Length: x19") head /\ no_number (s2b "x19") /\
  handled (mk_stream (text head ++ CRLF ++ ask_voucher (s2b "MIIB")) pick 0 false) = [q; arrived (s2b "masa") 443 PATH_BRSKI_REQUESTVOUCHER (s2b "application/voucher-cms+json") (s2b "MIIB") some_conn] /\
  rq_method q = s2b "POST" /\ rq_body q = [].
Proof. exact no_number_refuted. Qed.
Print Assumptions C103_number_refuted.
