(** C29-C31, C33 and C34 as equivalences: exactly when each request is created, and
    that it is the only one. *)
From Verif Require Import Base PBase MOs MVoucher MCrypto MRequest SVoucher SRequest PRequest6 PRequest7.
Open Scope N_scope.

(** C29: a pledge creates a request exactly when a creation time and a serial
    number shorter than 128 bytes are given and the voucher can be signed. *)
Theorem C29_exact : forall o created serial nonce rtls cert key extra cms, (forall s, serial = Some s -> cstr_ok s) ->
  (sign_pledge_voucher_request o created serial nonce rtls cert key extra = Ok (Some cms) <->
   exists t s n c, created = Some t /\ serial = Some s /\ blen s < 128 /\ opt_has nonce n /\ ba_has rtls c /\
     signed_voucher o cert key extra (pledge_content t s n c) cms).
Proof. exact pledge_iff. Qed.
Print Assumptions C29_exact.

Example C29_exact_case : sign_pledge_voucher_request toy (Some tm_case) (Some (s2b "A")) None (Some (ba_of [2; 7])) (id_cert 1) (id_key 1) None =
  Ok (Some (1 :: s2b "{""ietf-voucher:voucher"":{""created-on"":""1973-11-29T21:33:09Z"",""assertion"":""proximity"",""serial-number"":""A"",""domain-cert-revocation-checks"":false,""proximity-registrar-cert"":""Agc=""}}")) /\
  sign_pledge_voucher_request toy (Some tm_case) (Some (repeat 65 128)) None (Some (ba_of [2; 7])) (id_cert 1) (id_key 1) None = Ok None.
Proof. split; vm_compute; reflexivity. Qed.

(** C30 and C31: a registrar creates a request exactly when the pledge's request
    verifies, names the serial number, carries the registrar's TLS certificate
    and asserts proximity (and the result can be signed). *)
Theorem C31_exact : forall o pcms created serial issuer rtls cert key vcerts vstore extra cms,
  ossl_sane o -> (forall s, serial = Some s -> cstr_ok s) ->
  (sign_voucher_request o pcms created serial issuer rtls cert key vcerts vstore extra = Ok (Some cms) <->
   exists pc pvr t s i rc p prox n, pcms = Some pc /\ created = Some t /\ serial = Some s /\ rtls = Some rc /\
    says o pc vcerts vstore false pvr None /\
    get_attr_str (Some pvr) ASerial = Some (Some s) /\
    get_attr_array (Some pvr) AProximity = Some prox /\ same_bytes prox rc /\
    get_attr_enum (Some pvr) AAssertion = Some 3%Z /\
    nonce_is pvr n /\ ba_has issuer i /\ ba_has pcms p /\
    signed_voucher o cert key extra (registrar_content t s n i p) cms).
Proof. exact registrar_iff. Qed.
Print Assumptions C31_exact.

Example C31_exact_case :
  match sign_pledge_voucher_request toy (Some tm_case) (Some (s2b "A")) None (Some (ba_of [2; 7])) (id_cert 1) (id_key 1) None with
  | Ok (Some c) =>
    let run i := sign_voucher_request toy (Some (ba_of c)) (Some tm_case) (Some (s2b "A")) i (Some (ba_of [2; 7])) (id_cert 2) (id_key 2) None (id_store 1) None in
    (exists r, run (Some (ba_of [9])) = Ok (Some r)) /\ run (Some ba_null) = Ok None /\ run None = Ok None
  | _ => False
  end.
Proof. vm_compute. split; [eexists; reflexivity|split; reflexivity]. Qed.

(** C33 and C34: a MASA creates a voucher exactly when both signatures verify,
    both requests name the same serial number, and the callback accepts. *)
Theorem C34_exact : forall o rcms expires cb cert key rcerts rstore pcerts pstore extra cms,
  ossl_sane o ->
  (sign_masa_pledge_voucher o rcms expires cb cert key rcerts rstore pcerts pstore extra = Ok (Some cms) <->
   exists rc vr regs p pvr t f s rcode pinned d n,
    rcms = Some rc /\ expires = Some t /\ cb = Some f /\
    says o rc rcerts rstore true vr regs /\
    get_attr_array (Some vr) APrior = Some (ba_of p) /\ says o (ba_of p) pcerts pstore false pvr None /\
    get_attr_str (Some vr) ASerial = Some (Some s) /\ get_attr_str (Some pvr) ASerial = Some (Some s) /\
    f s regs = (rcode, pinned) /\ (0 <= rcode)%Z /\ ba_has (Some pinned) d /\ nonce_is vr n /\
    signed_voucher o cert key extra (masa_content t s n d) cms).
Proof. exact masa_iff. Qed.
Print Assumptions C34_exact.

Example C34_exact_case : exists c, sign_masa_pledge_voucher toy (Some (ba_of outer_cms)) (Some tm_case) (Some (fun _ _ => (0%Z, ba_of [7; 7]))) (id_cert 3) (id_key 3) None (id_store 2) None (id_store 1) None = Ok (Some c) /\
  sign_masa_pledge_voucher toy (Some (ba_of outer_cms)) (Some tm_case) (Some (fun _ _ => (0%Z, ba_null))) (id_cert 3) (id_key 3) None (id_store 2) None (id_store 1) None = Ok None.
Proof. eexists. split; vm_compute; reflexivity. Qed.
