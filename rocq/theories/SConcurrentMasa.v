(** Specification vocabulary for overlapping requests to the MASA. *)
From Verif Require Import Base MOs MBase64 MSerialize MVoucher MCrypto MRequest MHeap MArray MVoucherHeap MConfig MHandlers MConcurrent SBase64 SHeap SArray SConfig SVoucher SRequest SHandlers SConcurrentReg.
Open Scope N_scope.

(** The configuration is complete: the expiry time can be read, and so can every
    file. *)
Definition masa_usable (w : world) (f : masa_files) : Prop :=
  serialize_str2time (mf_expires f) <> None /\ w_cert w (mf_ldevid f) <> None /\ w_cert w (mf_cert f) <> None /\ w_key w (mf_key f) <> None /\
  Forall (fun ts => ~ missing (w_cert w) ts) (masa_lists f).

(** There is a voucher for the request. *)
Definition voucher_due (o : ossl) (w : world) (f : masa_files) (body : bytes) : Prop :=
  exists m cms, rfc_decode (c_string body) = Some m /\ masa_issues o w f m cms.

(** After [t] steps the request has put the domain certificate into the context
    and has not released it yet: the third step loads it, the twelfth releases it,
    or the thirteenth when a voucher has to be written. *)
Definition holding (o : ossl) (w : world) (f : masa_files) (body : bytes) (t : nat) : Prop :=
  (3 <= t < 12)%nat \/ t = 12%nat /\ voucher_due o w f body.

(** No request loads the domain certificate while another one holds its own. *)
Definition exclusive (o : ossl) (w : world) (f : masa_files) (bodies : list bytes) (is : interleaving) : Prop :=
  forall before i after, is = before ++ i :: after -> (i < List.length bodies)%nat -> turns before i = 2%nat ->
    forall j, (j < List.length bodies)%nat -> j <> i -> ~ holding o w f (nth j bodies []) (turns before j).
