(** C89: when the functions on files and certificates succeed. *)
From Verif Require Import Base PBase MBase64 MSerialize MOs MVoucher MCrypto MObjects MObjectFiles SObjects PObjects8 PObjectResults.
Open Scope nat_scope.

(** C89: reading a file succeeds exactly when it parses and each of the four calls works. *)
Theorem C89_read_result : forall k pem s r s', file_to_buf k pem s = Ok (r, s') -> (r <> None <-> pem = true /\ forall i, i < 4 -> (0 < ret s i)%Z).
Proof. exact file_results. Qed.
Print Assumptions C89_read_result.

(** C89: writing a certificate or key succeeds exactly when the array parses and opening, parsing and writing work. *)
Theorem C89_write_result : forall k der s z s', buf_to_file k der s = Ok (z, s') -> (z = 0%Z <-> der = true /\ forall i, i < 3 -> (0 < ret s i)%Z).
Proof. exact write_results. Qed.
Print Assumptions C89_write_result.

(** C89: the same for a message; the certificates in it are counted between its parsing and the opening of the file. *)
Theorem C89_write_cms_result : forall o (inn : inner o) v s z s', cmsbuf_to_file inn v s = Ok (z, s') ->
  (z = 0%Z <-> exists c, v = Some c /\ (0 < ret s 0)%Z /\ (0 < ret s (1 + in_certs inn c))%Z /\ (0 < ret s (2 + in_certs inn c))%Z).
Proof. exact cms_results. Qed.
Print Assumptions C89_write_cms_result.

(** C89 for the bytes of a certificate. *)
Theorem C89_cert_result : forall cert s r s', cert2buf cert s = Ok (r, s') -> (r <> None <-> forall i, i < 2 -> (0 < ret s i)%Z).
Proof. exact cert2buf_results. Qed.
Print Assumptions C89_cert_result.

(** C89 for the name of the issuer; an empty name needs no buffer. *)
Theorem C89_issuer_result : forall cert text s r s', getcert_issuer cert text s = Ok (r, s') ->
  (r <> None <-> (0 < ret s 0)%Z /\ (0 <= ret s 1)%Z /\ (0 < ret s 2)%Z /\ (text <> [] -> 0 < ret s 3)%Z).
Proof. exact issuer_results. Qed.
Print Assumptions C89_issuer_result.

Example C89_result_case : (exists s', buf_to_file KCert true (mk_objs [] (fun n => if n =? 2 then 0%Z else 1%Z)) = Ok ((-1)%Z, s')) /\
  (exists s', buf_to_file KCert true (mk_objs [] (fun _ => 1%Z)) = Ok (0%Z, s')) /\
  (exists s', file_to_buf KKey true (mk_objs [] (fun n => if n =? 3 then 0%Z else 1%Z)) = Ok (None, s')) /\
  (exists s', getcert_issuer 0 [] (mk_objs [Alive KCert 1 []] (fun n => if n =? 4 then 0%Z else 1%Z)) = Ok (Some 3, s')).
Proof. repeat split; eexists; vm_compute; reflexivity. Qed.
