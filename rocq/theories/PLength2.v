(** Proofs: a length that is no number. *)
From Coq Require Import ZifyBool ZifyNat ZifyN Sorted.
From Verif Require Import Base PBase MSerialize MHttp SHttp PHttp MTls MWire SWire PWire PWire2 PWire3 PWire4 PWire5 PWire6 PWire7 PWire8 SLength.
Open Scope N_scope.

Theorem no_number_refuted : exists head pick q, In (s2b "Content-Length: x19") head /\ no_number (s2b "x19") /\
  handled (mk_stream (text head ++ CRLF ++ ask_voucher (s2b "MIIB")) pick 0 false) = [q; arrived (s2b "masa") 443 PATH_BRSKI_REQUESTVOUCHER (s2b "application/voucher-cms+json") (s2b "MIIB") some_conn] /\
  rq_method q = s2b "POST" /\ rq_body q = [].
Proof.
  eexists [s2b "POST / HTTP/1.1"; s2b "Content-Length: x19"], (fun _ => 1), _. split; [right; left; reflexivity|]. split; [reflexivity|]. split; [vm_compute; reflexivity|]. split; reflexivity.
Qed.
