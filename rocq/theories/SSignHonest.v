(** Specification vocabulary for the enrolment of a device by honest parties. *)
From Verif Require Import Base MOs MHeap MVoucher MCrypto MHandlers MEnrolLog MEnrolHeap MSignCert.
Open Scope N_scope.

(** The registrar's enrolment endpoint as the device reaches it: a connection comes
    about if the certificate given as authority vouches for the server; a server that
    does not survive a request gives no answer. *)
Definition full_enrol_service (sc : sign_cert_fn) (w : world) (c : registrar_conf) (nn : bytes -> N) (seen : bytes -> option cert_seen) (now : Z) (opens : bool) (log : bytes) (h : heap) (peer : cert_seen)
    (vouched : bytes -> bool) : post_ca_fn := fun ca body =>
  if vouched ca then match full_est_simpleenroll sc w c nn seen now opens log h (Some peer) body with Ok (status, response, _, _) => (status, response) | UB _ => ((-1)%Z, []) end
  else ((-1)%Z, []).
