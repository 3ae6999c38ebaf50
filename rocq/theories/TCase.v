(** Property theorems C54: what is meant by the same name of a header line. *)
From Verif Require Import Base MSerialize MHttp SHttp MTls MWire SCase PCase.
Open Scope N_scope.

(** C54: the server and the client take two names for the same exactly when they have the same characters
    up to the two forms of a letter. *)
Theorem C54_names : forall a b, (ci_same a b = true <-> same_text a b) /\ (same_ignoring_case a b = true <-> same_text a b).
Proof. exact (fun a b => conj (names_same a b) (tokens_same a b)). Qed.
Print Assumptions C54_names.

Example C54_names_case : ci_same (s2b "X-ZEBRA[@`") (s2b "x-Zebra[@`") = true /\ ci_same (s2b "X[") (s2b "X{") = false /\ ci_same (s2b "a@") (s2b "a`") = false /\ ci_same [221] [253] = false.
Proof. vm_compute. repeat split; reflexivity. Qed.

(** C54: so do the specifications of the header theorems, which are written with the lower-case letters. *)
Theorem C54_names_meant : forall a b k l v, (same_name a b <-> same_text a b) /\ (In v (values_ci k l) <-> exists k', In (k', v) l /\ same_text k k').
Proof. exact (fun a b k l v => conj (names_spec a b) (values_spec k l v)). Qed.
Print Assumptions C54_names_meant.

Example C54_names_meant_case : values_ci (s2b "x-zone") [(s2b "X-ZONE", s2b "1"); (s2b "X-Zones", s2b "2"); (s2b "x-zONE", s2b "3")] = [s2b "1"; s2b "3"].
Proof. vm_compute. reflexivity. Qed.
