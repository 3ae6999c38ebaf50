(** Property theorems C29-C40 and C60-C63: the signed voucher messages. OpenSSL
    is the record [ossl], quantified in every theorem; [toy] is a concrete
    instance used in the examples. *)
From Verif Require Import Base MBase64 SBase64 MSerialize SSerialize MJsmn MVoucher SVoucher SJson MCrypto MRequest SRequest
  PRequest PRequest2 PRequest3 PRequest4 PRequest5 PRequest6.
Open Scope N_scope.

(** C29. *)
Theorem C29_pledge_request : forall o created serial nonce rtls cert key extra cms,
  (forall s, serial = Some s -> ~ In 0 s) ->
  sign_pledge_voucher_request o created serial nonce rtls cert key extra = Ok (Some cms) ->
  exists t s n c, created = Some t /\ serial = Some s /\ opt_has nonce n /\ ba_has rtls c /\
    signed_voucher o cert key extra (pledge_content t s n c) cms.
Proof. exact pledge_request_says. Qed.
Print Assumptions C29_pledge_request.

Example C29_case : sign_pledge_voucher_request toy (Some tm_case) (Some (s2b "A")) (Some (ba_of [1; 2; 3])) (Some (ba_of [2; 7]))
    (id_cert 1) (id_key 1) None =
  Ok (Some (1 :: s2b "{""ietf-voucher:voucher"":{""created-on"":""1973-11-29T21:33:09Z"",""assertion"":""proximity"",""serial-number"":""A"",""domain-cert-revocation-checks"":false,""nonce"":""AQID"",""proximity-registrar-cert"":""Agc=""}}")).
Proof. vm_compute. reflexivity. Qed.

(** C30: the conditions under which a registrar creates a request. *)
Theorem C30_registrar_accepts : forall o pcms created serial issuer rtls cert key vcerts vstore extra cms,
  ossl_sane o -> (forall s, serial = Some s -> ~ In 0 s) ->
  sign_voucher_request o pcms created serial issuer rtls cert key vcerts vstore extra = Ok (Some cms) ->
  exists pc pvr s rc prox, pcms = Some pc /\ serial = Some s /\ rtls = Some rc /\
    says o pc vcerts vstore false pvr None /\ get_attr_str (Some pvr) ASerial = Some (Some s) /\
    get_attr_array (Some pvr) AProximity = Some prox /\ same_bytes prox rc /\ get_attr_enum (Some pvr) AAssertion = Some 3%Z.
Proof. exact registrar_accepts. Qed.
Print Assumptions C30_registrar_accepts.

(** C31. *)
Theorem C31_registrar_request : forall o pcms created serial issuer rtls cert key vcerts vstore extra cms,
  ossl_sane o -> (forall s, serial = Some s -> ~ In 0 s) ->
  sign_voucher_request o pcms created serial issuer rtls cert key vcerts vstore extra = Ok (Some cms) ->
  exists pc pvr t s i p n, pcms = Some pc /\ created = Some t /\ serial = Some s /\
    says o pc vcerts vstore false pvr None /\ get_attr_str (Some pvr) ASerial = Some (Some s) /\
    nonce_is pvr n /\ ba_has issuer i /\ ba_has pcms p /\
    signed_voucher o cert key extra (registrar_content t s n i p) cms.
Proof. exact registrar_says. Qed.
Print Assumptions C31_registrar_request.

(** The request of C29_case is taken, and refused for another serial number, for
    another registrar certificate and for another signer. *)
Example C30_case :
  match sign_pledge_voucher_request toy (Some tm_case) (Some (s2b "A")) (Some (ba_of [1; 2; 3])) (Some (ba_of [2; 7])) (id_cert 1) (id_key 1) None with
  | Ok (Some c) =>
    let run s rc st := sign_voucher_request toy (Some (ba_of c)) (Some tm_case) (Some s) (Some (ba_of [9])) (Some (ba_of rc)) (id_cert 2) (id_key 2) None st None in
    match run (s2b "A") [2; 7] (id_store 1), run (s2b "B") [2; 7] (id_store 1), run (s2b "A") [2; 8] (id_store 1), run (s2b "A") [2; 7] (id_store 2) with
    | Ok (Some r), Ok None, Ok None, Ok None =>
      match verify_cms_voucher toy (Some (ba_of r)) None (id_store 2) true with
      | Ok (Some (v, _)) => nonce_is v (Some [1; 2; 3]) /\ get_attr_array (Some v) APrior = Some (ba_of c)
      | _ => False
      end
    | _, _, _, _ => False
    end
  | _ => False
  end.
Proof. vm_compute. split; reflexivity. Qed.

(** C32 is false: a verified pledge request without a serial number is
    compared through a NULL pointer. *)
Theorem C32_refuted : exists o pc t s issuer rtls cert key vstore pvr, ossl_sane o /\
  says o pc None (Some vstore) false pvr None /\
  sign_voucher_request o (Some pc) (Some t) (Some s) (Some issuer) (Some rtls) (Some cert) (Some key) None (Some vstore) None = UB NullDeref.
Proof. exact no_serial_refuted. Qed.
Print Assumptions C32_refuted.

(** C32, what holds: the registrar crashes exactly in that case. The full
    statement, that the right hand side never happens, is false. *)
Theorem C32_registrar_crash_partial : forall o pcms t serial issuer rtls cert key vcerts vstore extra k,
  ossl_sane o -> (forall s, serial = Some s -> cstr_ok s) ->
  ba_bytes pcms -> ba_bytes issuer -> ba_bytes rtls -> ba_bytes cert -> ba_bytes key ->
  (sign_voucher_request o pcms (Some t) serial issuer rtls cert key vcerts vstore extra = UB k <->
   k = NullDeref /\ serial <> None /\ issuer <> None /\
   exists pc pvr, pcms = Some pc /\ says o pc vcerts vstore false pvr None /\ get_attr_str (Some pvr) ASerial = Some None).
Proof. exact registrar_crash. Qed.
Print Assumptions C32_registrar_crash_partial.

Example C32_case : ba_bytes (Some no_serial) /\ ba_bytes (Some (ba_of [1; 2])) /\
  sign_voucher_request toy (Some (ba_of [1; 2; 3])) (Some tm_case) (Some (s2b "A")) (Some (ba_of [9])) (Some (ba_of [2])) (id_cert 2) (id_key 2) None (id_store 1) None = Ok None.
Proof. split; [|split]; try (vm_compute; split; [repeat constructor|discriminate]). vm_compute. reflexivity. Qed.

(** C33. *)
Theorem C33_masa_accepts : forall o rcms expires cb cert key rcerts rstore pcerts pstore extra cms,
  ossl_sane o ->
  sign_masa_pledge_voucher o rcms expires cb cert key rcerts rstore pcerts pstore extra = Ok (Some cms) ->
  exists rc vr regs p pvr f s rcode pinned,
    rcms = Some rc /\ cb = Some f /\ says o rc rcerts rstore true vr regs /\
    get_attr_array (Some vr) APrior = Some (ba_of p) /\ says o (ba_of p) pcerts pstore false pvr None /\
    get_attr_str (Some vr) ASerial = Some (Some s) /\ get_attr_str (Some pvr) ASerial = Some (Some s) /\
    f s regs = (rcode, pinned) /\ (0 <= rcode)%Z.
Proof. exact masa_accepts. Qed.
Print Assumptions C33_masa_accepts.

(** C34. *)
Theorem C34_masa_voucher : forall o rcms expires cb cert key rcerts rstore pcerts pstore extra cms,
  ossl_sane o ->
  sign_masa_pledge_voucher o rcms expires cb cert key rcerts rstore pcerts pstore extra = Ok (Some cms) ->
  exists rc vr regs p pvr t f s rcode pinned d n,
    rcms = Some rc /\ expires = Some t /\ cb = Some f /\ says o rc rcerts rstore true vr regs /\
    get_attr_array (Some vr) APrior = Some (ba_of p) /\ says o (ba_of p) pcerts pstore false pvr None /\
    get_attr_str (Some pvr) ASerial = Some (Some s) /\
    f s regs = (rcode, pinned) /\ ba_has (Some pinned) d /\ nonce_is vr n /\
    signed_voucher o cert key extra (masa_content t s n d) cms.
Proof. exact masa_says. Qed.
Print Assumptions C34_masa_voucher.

Example C33_case :
  let run f rst pst := sign_masa_pledge_voucher toy (Some (ba_of outer_cms)) (Some tm_case) (Some f) (id_cert 3) (id_key 3) None rst None pst None in
  run (fun _ _ => (0%Z, ba_of [7; 7])) (id_store 2) (id_store 1) =
    Ok (Some (3 :: s2b "{""ietf-voucher:voucher"":{""expires-on"":""1973-11-29T21:33:09Z"",""assertion"":""proximity"",""serial-number"":""A"",""pinned-domain-cert"":""Bwc="",""domain-cert-revocation-checks"":false,""nonce"":""CQ==""}}")) /\
  run (fun s _ => ((if beqb s (s2b "A") then -1 else 0)%Z, ba_of [7; 7])) (id_store 2) (id_store 1) = Ok None /\
  run (fun _ _ => (0%Z, ba_of [7; 7])) (id_store 1) (id_store 1) = Ok None /\
  run (fun _ _ => (0%Z, ba_of [7; 7])) (id_store 2) (id_store 2) = Ok None.
Proof. split; [|split; [|split]]; vm_compute; reflexivity. Qed.

(** C35 is false: the nonce is the registrar's and the assertion is always
    proximity. *)
Theorem C35_refuted : exists o rcms t f cert key rstore pstore mstore cms vr regs prior pvr v, ossl_sane o /\
  says o rcms None (Some rstore) true vr regs /\ get_attr_array (Some vr) APrior = Some prior /\
  says o prior None (Some pstore) false pvr None /\
  sign_masa_pledge_voucher o (Some rcms) (Some t) (Some f) (Some cert) (Some key) None (Some rstore) None (Some pstore) None = Ok (Some cms) /\
  says o (ba_of cms) None (Some mstore) false v None /\
  nonce_is pvr (Some [1; 2; 3]) /\ nonce_is v (Some [9]) /\
  get_attr_enum (Some pvr) AAssertion = Some 2%Z /\ get_attr_enum (Some v) AAssertion = Some 3%Z.
Proof. exact unbound_refuted. Qed.
Print Assumptions C35_refuted.

(** C36. *)
Theorem C36_pledge_accepts : forall o cms serial nonce rtls dstore vcerts vstore want p l, ossl_sane o ->
  (verify_masa_pledge_voucher o cms serial nonce rtls dstore vcerts vstore want true = Ok (Some (p, l)) <->
   exists mcms mv s d, cms = Some mcms /\ serial = Some s /\ says o mcms vcerts vstore want mv l /\
     get_attr_str (Some mv) ASerial = Some (Some s) /\
     (forall n, nonce = Some n -> exists d, nonce_is mv (Some d) /\ holds_bytes n d) /\
     get_attr_array (Some mv) APinned = Some (ba_of d) /\ chains o rtls d dstore /\ p = ba_of d).
Proof. exact pledge_accepts. Qed.
Print Assumptions C36_pledge_accepts.

Example C36_case :
  verify_masa_pledge_voucher toy (Some (ba_of issued)) (Some (s2b "A")) (Some (ba_of [9])) (Some (ba_of [2; 7])) (id_store 7) None (id_store 3) true true =
    Ok (Some (ba_of [7; 7], Some [([3], 0%Z)])) /\
  verify_masa_pledge_voucher toy (Some (ba_of issued)) (Some (s2b "A")) (Some (ba_of [9])) (Some (ba_of [2; 8])) (id_store 7) None (id_store 3) true true = Ok None.
Proof. split; vm_compute; reflexivity. Qed.

(** C37. *)
Theorem C37_honest_run : forall o t1 t2 t3 s n rc i pinned f k want
    pcert pkey pextra rcert rkey rextra mcert mkey mextra
    rp_certs rp_store mr_certs mr_store mp_certs mp_store pm_certs pm_store dstore,
  ossl_sane o ->
  date_ready t1 -> date_ready t2 -> date_ready t3 -> Forall plain_char s -> blen s < 128 ->
  (forall d, n = Some d -> d <> [] /\ bytes_ok d) -> rc <> [] -> bytes_ok rc -> i <> [] -> bytes_ok i -> pinned <> [] -> bytes_ok pinned ->
  4 * (match n with None => 0 | Some d => blen d end + blen rc + blen i + blen pinned + k) + 40000 < 2147483648 ->
  trusts o pcert pkey pextra rp_certs rp_store false k -> trusts o pcert pkey pextra mp_certs mp_store false k ->
  trusts o rcert rkey rextra mr_certs mr_store true k -> trusts o mcert mkey mextra pm_certs pm_store want k ->
  (forall regs, exists code, f s regs = (code, ba_of pinned) /\ (0 <= code)%Z) -> chains o (Some (ba_of rc)) pinned dstore ->
  let nonce := match n with None => None | Some d => Some (ba_of d) end in
  exists cms1 cms2 cms3 l,
    sign_pledge_voucher_request o (Some t1) (Some s) nonce (Some (ba_of rc)) pcert pkey pextra = Ok (Some cms1) /\
    sign_voucher_request o (Some (ba_of cms1)) (Some t2) (Some s) (Some (ba_of i)) (Some (ba_of rc)) rcert rkey rp_certs rp_store rextra = Ok (Some cms2) /\
    sign_masa_pledge_voucher o (Some (ba_of cms2)) (Some t3) (Some f) mcert mkey mr_certs mr_store mp_certs mp_store mextra = Ok (Some cms3) /\
    verify_masa_pledge_voucher o (Some (ba_of cms3)) (Some s) nonce (Some (ba_of rc)) dstore pm_certs pm_store want true = Ok (Some (ba_of pinned, l)).
Proof. exact honest_run. Qed.
Print Assumptions C37_honest_run.

(** The hypotheses about OpenSSL hold of [toy], and a run of it. *)
Example C37_case : ossl_sane toy /\ (forall id want, id < 256 -> trusts toy (id_cert id) (id_key id) None None (id_store id) want 1) /\
  chains toy (Some (ba_of [2; 7])) [7; 0] (id_store 7).
Proof.
  split; [exact toy_sane|]. split; [exact toy_trusts|].
  exists [2; 7], [2; 7], [7; 0], (Some [inl [7; 0]]), [[2; 7]]. split; [apply ba_of_has|]. repeat split; try discriminate.
  repeat constructor.
Qed.
Example C37_run :
  match sign_pledge_voucher_request toy (Some tm_case) (Some (s2b "A")) (Some (ba_of [1; 2; 3])) (Some (ba_of [2; 7])) (id_cert 1) (id_key 1) None with
  | Ok (Some c1) =>
    match sign_voucher_request toy (Some (ba_of c1)) (Some tm_case) (Some (s2b "A")) (Some (ba_of [9])) (Some (ba_of [2; 7])) (id_cert 2) (id_key 2) None (id_store 1) None with
    | Ok (Some c2) =>
      match sign_masa_pledge_voucher toy (Some (ba_of c2)) (Some tm_case) (Some (fun _ _ => (0%Z, ba_of [7; 0]))) (id_cert 3) (id_key 3) None (id_store 2) None (id_store 1) None with
      | Ok (Some c3) => verify_masa_pledge_voucher toy (Some (ba_of c3)) (Some (s2b "A")) (Some (ba_of [1; 2; 3])) (Some (ba_of [2; 7])) (id_store 7) None (id_store 3) true true
      | _ => Ok None
      end
    | _ => Ok None
    end
  | _ => Ok None
  end = Ok (Some (ba_of [7; 0], Some [([3], 0%Z)])).
Proof. vm_compute. reflexivity. Qed.

(** C38. *)
Theorem C38_foreign_rejected : forall o cms s nb m rc dstore vcerts vstore want out mv l ms mn,
  ossl_sane o -> ba_bytes (Some cms) -> ba_bytes (Some rc) -> ba_bytes (Some nb) -> holds_bytes nb m ->
  says o cms vcerts vstore want mv l -> get_attr_str (Some mv) ASerial = Some ms -> nonce_is mv mn ->
  ms <> Some s \/ mn <> Some m ->
  verify_masa_pledge_voucher o (Some cms) (Some s) (Some nb) (Some rc) dstore vcerts vstore want out = Ok None.
Proof. exact foreign_rejected. Qed.
Print Assumptions C38_foreign_rejected.

Example C38_case : says toy (ba_of issued) None (id_store 3) false issued_voucher None /\ nonce_is issued_voucher (Some [9]) /\
  get_attr_str (Some issued_voucher) ASerial = Some (Some (s2b "A")).
Proof. split; [apply verify_says; vm_compute; reflexivity|]. split; vm_compute; reflexivity. Qed.

(** C39 is false: an expired voucher with assertion "logged" and a nonce is
    accepted by a pledge without a nonce. *)
Theorem C39_refuted : exists o cms s rc vstore mv t p, ossl_sane o /\
  says o cms None (Some vstore) false mv None /\
  get_attr_time (Some mv) AExpiresOn = Some t /\ (tm_year t + 1900 = 1950)%Z /\
  get_attr_enum (Some mv) AAssertion = Some 2%Z /\ nonce_is mv (Some [9]) /\
  verify_masa_pledge_voucher o (Some cms) (Some s) None (Some rc) None None (Some vstore) false true = Ok (Some (p, None)).
Proof. exact expired_refuted. Qed.
Print Assumptions C39_refuted.

(** C40 is false: without a store the signer is not checked. *)
Theorem C40_refuted : exists o cms s rc l p, ossl_sane o /\
  verify_masa_pledge_voucher o (Some cms) (Some s) None (Some rc) None None (Some l) false true = Ok None /\
  verify_masa_pledge_voucher o (Some cms) (Some s) None (Some rc) None None None false true = Ok (Some (p, None)).
Proof. exact no_store_refuted. Qed.
Print Assumptions C40_refuted.

(** C40, what holds: with a store, whatever [ok] OpenSSL's signer check
    guarantees is true of the message. Full statement: the same for an absent
    store. *)
Theorem C40_store_partial : forall o (ok : CMS o -> option (list (X509 o)) -> list (X509 o + CRL o) -> Prop) cms certs l want v sg,
  (forall c st s json, cms_verify o c st (Some s) false = Some json -> ok c st s) ->
  verify_cms_voucher o (Some cms) certs (Some l) want = Ok (Some (v, sg)) ->
  exists d c st s, holds_bytes cms d /\ d2i_cms o d = Some c /\ loads_certs o certs st /\ loads_store o (Some l) (Some s) /\ ok c st s.
Proof. exact store_checked. Qed.
Print Assumptions C40_store_partial.

Example C40_case : verify_cms_voucher toy (Some forged_cms) None (id_store 66) false <> Ok None /\
  forall c st s json, cms_verify toy c st (Some s) false = Some json -> existsb (toy_in (fst c)) s = true.
Proof.
  split; [vm_compute; discriminate|]. intros c st s json H. cbn [cms_verify toy orb] in H.
  destruct (existsb (toy_in (fst c)) s); [reflexivity|]. rewrite Bool.andb_false_r in H. discriminate.
Qed.

(** C60. *)
Theorem C60_masa_safe : forall o rcms expires cb cert key rcerts rstore pcerts pstore extra,
  ossl_sane o -> ba_bytes rcms -> ba_bytes cert -> ba_bytes key ->
  (forall f s regs, cb = Some f -> ba_bytes (Some (snd (f s regs)))) ->
  exists r, sign_masa_pledge_voucher o rcms expires cb cert key rcerts rstore pcerts pstore extra = Ok r.
Proof. exact masa_safe. Qed.
Print Assumptions C60_masa_safe.

Example C60_case : sign_masa_pledge_voucher toy (Some no_serial) (Some tm_case) (Some (fun _ _ => (0%Z, ba_of [7; 7]))) (id_cert 3) (id_key 3)
    None (id_store 1) None (id_store 1) None = Ok None /\ ba_bytes (Some no_serial).
Proof. split; [vm_compute; reflexivity|]. vm_compute. split; [repeat constructor|discriminate]. Qed.

(** C61. *)
Theorem C61_pledge_safe : forall o cms serial nonce rc dstore vcerts vstore want out,
  ossl_sane o -> ba_bytes cms -> ba_bytes nonce -> ba_bytes (Some rc) ->
  exists r, verify_masa_pledge_voucher o cms serial nonce (Some rc) dstore vcerts vstore want out = Ok r.
Proof. exact pledge_verify_safe. Qed.
Print Assumptions C61_pledge_safe.

Example C61_case : ba_bytes (Some old_cms) /\
  verify_masa_pledge_voucher toy (Some no_serial) (Some (s2b "A")) None (Some (ba_of [2])) None None None false true = Ok None.
Proof. split; [vm_compute; split; [repeat constructor|discriminate]|]. vm_compute. reflexivity. Qed.

(** C62 is false: without a domain store, as every pledge is run, OpenSSL
    builds whatever chain it can. *)
Theorem C62_refuted : exists o cms s rc rb vstore pinned p, ossl_sane o /\ no_store_builds o /\
  rc = ba_of rb /\ ~ chains o (Some rc) pinned (Some [(pinned, 0%Z)]) /\
  verify_masa_pledge_voucher o (Some cms) (Some s) None (Some rc) None None (Some vstore) false true = Ok (Some (p, None)) /\ p = ba_of pinned.
Proof. exact unpinned_refuted. Qed.
Print Assumptions C62_refuted.

(** C62, how far it goes: a voucher accepted with one registrar certificate is
    accepted with every other one. *)
Theorem C62_any_registrar : forall o cms serial nonce rc rc' cb x vcerts vstore want p l,
  ossl_sane o -> no_store_builds o ->
  verify_masa_pledge_voucher o cms serial nonce (Some rc) None vcerts vstore want true = Ok (Some (p, l)) ->
  ba_has (Some rc') cb -> d2i_x509 o cb = Some x ->
  verify_masa_pledge_voucher o cms serial nonce (Some rc') None vcerts vstore want true = Ok (Some (p, l)).
Proof. exact any_registrar. Qed.
Print Assumptions C62_any_registrar.

Example C62_case : no_store_builds toy /\
  verify_masa_pledge_voucher toy (Some old_cms) (Some (s2b "A")) None (Some (ba_of [2; 7])) None None (id_store 3) false true = Ok (Some (ba_of [7; 0], None)).
Proof. split; [exact toy_no_store|vm_compute; reflexivity]. Qed.

(** C63. *)
Theorem C63_pledge_request_safe : forall o t serial nonce rtls cert key extra,
  (forall s, serial = Some s -> cstr_ok s) -> ba_bytes nonce -> ba_bytes rtls -> ba_bytes cert -> ba_bytes key ->
  exists r, sign_pledge_voucher_request o (Some t) serial nonce rtls cert key extra = Ok r.
Proof. exact pledge_request_safe. Qed.
Print Assumptions C63_pledge_request_safe.

Example C63_case : sign_pledge_voucher_request toy (Some tm_case) None (Some ba_null) (Some (ba_of [2; 7])) (id_cert 1) (id_key 1) None = Ok None /\
  ba_bytes (Some ba_null).
Proof. split; vm_compute; reflexivity. Qed.
