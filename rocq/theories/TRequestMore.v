(** C35 and C39: what holds of the binding to the pledge's request and of the
    attributes a pledge looks at. *)
From Verif Require Import Base MBase64 SBase64 MSerialize SSerialize MJsmn MVoucher SVoucher SJson MCrypto MRequest SRequest SChain
  PRequest PRequest4 PRequest6 PChain2 PRequestMore.
Open Scope N_scope.

(** C35, what holds: if the registrar's request was made by this library (by
    sign_voucher_request, for a serial number of plain characters), then the
    voucher carries the nonce that the pledge signed, and the pledge asserted
    proximity. Full statement: for every registrar, false by C35_refuted. *)
Theorem C35_honest_registrar_partial : forall o p pvr n t s i rtls rcert rkey rp_certs rp_store rextra rcms expires cb mcert mkey mr_certs mr_store mp_certs mp_store mextra cms,
  ossl_sane o -> genuine o -> date_ready t -> Forall plain_char s ->
  p <> [] -> bytes_ok p -> blen p < SIZE_MAX / 4 -> i <> [] -> bytes_ok i -> blen i < SIZE_MAX / 4 ->
  says o (ba_of p) rp_certs rp_store false pvr None -> nonce_is pvr n -> n <> Some [] ->
  sign_voucher_request o (Some (ba_of p)) (Some t) (Some s) (Some (ba_of i)) rtls rcert rkey rp_certs rp_store rextra = Ok (Some rcms) ->
  sign_masa_pledge_voucher o (Some (ba_of rcms)) expires cb mcert mkey mr_certs mr_store mp_certs mp_store mextra = Ok (Some cms) ->
  get_attr_enum (Some pvr) AAssertion = Some 3%Z /\ get_attr_str (Some pvr) ASerial = Some (Some s) /\
  exists e d, expires = Some e /\ signed_voucher o mcert mkey mextra (masa_content e s n d) cms.
Proof. exact honest_bound. Qed.
Print Assumptions C35_honest_registrar_partial.

(** The hypotheses about OpenSSL hold of [toy]; C37_run is a run of it. *)
Example C35_case : ossl_sane toy /\ genuine toy /\
  match sign_pledge_voucher_request toy (Some tm_case) (Some (s2b "A")) (Some (ba_of [1; 2; 3])) (Some (ba_of [2; 7])) (id_cert 1) (id_key 1) None with
  | Ok (Some c1) =>
    (exists pvr, verify_cms_voucher toy (Some (ba_of c1)) None (id_store 1) false = Ok (Some (pvr, None)) /\ nonce_is pvr (Some [1; 2; 3])) /\
    match sign_voucher_request toy (Some (ba_of c1)) (Some tm_case) (Some (s2b "A")) (Some (ba_of [9])) (Some (ba_of [2; 7])) (id_cert 2) (id_key 2) None (id_store 1) None with
    | Ok (Some c2) => exists c3, sign_masa_pledge_voucher toy (Some (ba_of c2)) (Some tm_case) (Some (fun _ _ => (0%Z, ba_of [7; 0]))) (id_cert 3) (id_key 3) None (id_store 2) None (id_store 1) None = Ok (Some c3)
    | _ => False
    end
  | _ => False
  end.
Proof.
  split; [exact toy_sane|]. split; [exact toy_genuine|]. vm_compute. split; [eexists; split; reflexivity|]. eexists. reflexivity.
Qed.

(** C39, the attributes a pledge looks at: the serial number, the pinned certificate
    and, if the pledge has a nonce, the nonce. Two verified vouchers that agree in
    these are accepted alike, whatever their expiry date, assertion and creation
    date; so C39 holds of the nonce (C38) and of nothing else (C39_refuted). *)
Theorem C39_nonce_only_partial : forall o cms1 cms2 serial nonce rtls dstore certs1 certs2 store1 store2 want v1 v2 l1 l2 p, ossl_sane o ->
  says o cms1 certs1 store1 want v1 l1 -> says o cms2 certs2 store2 want v2 l2 ->
  get_attr_str (Some v1) ASerial = get_attr_str (Some v2) ASerial ->
  get_attr_array (Some v1) APinned = get_attr_array (Some v2) APinned ->
  (nonce <> None -> get_attr_array (Some v1) ANonce = get_attr_array (Some v2) ANonce) ->
  verify_masa_pledge_voucher o (Some cms1) serial nonce rtls dstore certs1 store1 want true = Ok (Some (p, l1)) ->
  verify_masa_pledge_voucher o (Some cms2) serial nonce rtls dstore certs2 store2 want true = Ok (Some (p, l2)).
Proof. exact pledge_looks. Qed.
Print Assumptions C39_nonce_only_partial.

Example C39_case : says toy (ba_of issued) None (id_store 3) false issued_voucher None /\
  verify_masa_pledge_voucher toy (Some (ba_of issued)) (Some (s2b "A")) (Some (ba_of [9])) (Some (ba_of [2; 7])) (id_store 7) None (id_store 3) false true = Ok (Some (ba_of [7; 7], None)) /\
  verify_masa_pledge_voucher toy (Some (ba_of issued)) (Some (s2b "A")) (Some (ba_of [8])) (Some (ba_of [2; 7])) (id_store 7) None (id_store 3) false true = Ok None /\
  (let old := ba_of (3 :: s2b "{""ietf-voucher:voucher"":{""expires-on"":""1950-11-29T21:33:09Z"",""assertion"":""logged"",""serial-number"":""A"",""pinned-domain-cert"":""Bwc="",""nonce"":""CQ==""}}") in
   verify_masa_pledge_voucher toy (Some old) (Some (s2b "A")) (Some (ba_of [9])) (Some (ba_of [2; 7])) (id_store 7) None (id_store 3) false true = Ok (Some (ba_of [7; 7], None))).
Proof. split; [apply verify_says; vm_compute; reflexivity|]. split; [|split]; vm_compute; reflexivity. Qed.
