(** Property theorems C46 and C47: the pledge client. *)
From Verif Require Import Base PBase MOs MBase64 MSerialize MVoucher MCrypto MRequest MHeap MArray MVoucherHeap MConfig MHandlers SBase64 SHeap SArray SConfig SVoucher SRequest SHandlers SPledge
  PRequest6 PMasa PPledge4.
Open Scope N_scope.

(** C46 is false: the pledge connects twice. It puts the certificate of the first
    connection into its request and checks the voucher against the certificate of
    the second; here no voucher at all verifies against the first one. *)
Theorem C46_refuted : exists o w c f post1 post2 h pinned h' tls1 tls2 d, ossl_sane o /\ world_ok w /\ heap_wf h /\ plenty h /\ pledge_config h c f /\ pledge_text_ok f /\ post_ok post1 /\ post_ok post2 /\
  pinned <> 0 /\ hp_cell h pinned = Live (Struct [P 0; I 0]) /\ post_voucher_pledge_request o w c post1 post2 h pinned = Ok (0%Z, h') /\
  pledge_obtains o w f post1 post2 tls1 tls2 d /\ (forall m, ~ pledge_takes o w f tls1 m d).
Proof. exact swapped_refuted. Qed.
Print Assumptions C46_refuted.

(** C46, with the certificate of the second connection: success exactly when the
    second answer is below 400, decodes, and verifies; the pinned certificate is
    then in the caller's array and nothing else changed. Otherwise the result is -1
    and nothing is left behind. Missing: that both connections show one
    certificate. *)
Theorem C46_exact_partial : forall o w c f post1 post2 h pinned z h', ossl_sane o -> world_ok w -> heap_wf h -> plenty h -> pledge_config h c f -> pledge_text_ok f -> post_ok post1 -> post_ok post2 ->
  pinned <> 0 -> hp_cell h pinned = Live (Struct [P 0; I 0]) -> post_voucher_pledge_request o w c post1 post2 h pinned = Ok (z, h') ->
  (z = 0%Z /\ exists tls1 tls2 d, pledge_obtains o w f post1 post2 tls1 tls2 d /\ pinned_result h h' pinned d) \/
  (z = (-1)%Z /\ (forall tls1 tls2 d, ~ pledge_obtains o w f post1 post2 tls1 tls2 d) /\ kept (hp_next h) h h' /\ no_leak (hp_next h) h').
Proof. exact pledge_outcome. Qed.
Print Assumptions C46_exact_partial.

Example C46_case : exists h' b, post_voucher_pledge_request toy pledge_world pledge_case_conf (contact 404 [] [2; 7]) (contact 200 (rfc_encode issued) [2; 7]) (pledge_case (s2b "CQ==")) 8 = Ok (0%Z, h') /\
  hp_cell h' 8 = Live (Struct [P b; I 2]) /\ hp_cell h' b = Live (Buf [7; 7]) /\ pledge_config (pledge_case (s2b "CQ==")) pledge_case_conf (pledge_case_files (s2b "CQ==")).
Proof. eexists. eexists. split; [vm_compute; reflexivity|]. split; [vm_compute; reflexivity|]. split; [vm_compute; reflexivity|]. apply pledge_case_config. apply cstr_okb_ok. reflexivity. Qed.

Example C46_case_refused : exists h' h'', post_voucher_pledge_request toy pledge_world pledge_case_conf (contact 404 [] [2; 7]) (contact 200 (rfc_encode issued) [2; 7]) (pledge_case (s2b "Cg==")) 8 = Ok ((-1)%Z, h') /\
  post_voucher_pledge_request toy pledge_world pledge_case_conf (contact 404 [] [2; 7]) (contact 404 (rfc_encode issued) [2; 7]) (pledge_case (s2b "CQ==")) 8 = Ok ((-1)%Z, h'').
Proof. eexists. eexists. split; vm_compute; reflexivity. Qed.

(** C47 is false: a configured nonce with bad base64 padding. *)
Theorem C47_refuted : exists o w c f post1 post2 h pinned k, ossl_sane o /\ world_ok w /\ heap_wf h /\ plenty h /\ pledge_config h c f /\ pledge_text_ok f /\ post_ok post1 /\ post_ok post2 /\
  pinned <> 0 /\ hp_cell h pinned = Live (Struct [P 0; I 0]) /\ post_voucher_pledge_request o w c post1 post2 h pinned = UB k.
Proof. exact config_refuted. Qed.
Print Assumptions C47_refuted.

(** C47 is false for the response check with any nonce that does not decode, also
    one for which the request is refused cleanly. *)
Theorem C47_check_refuted : exists w c f, world_ok w /\ heap_wf (pledge_case (s2b "!")) /\ plenty (pledge_case (s2b "!")) /\ pledge_config (pledge_case (s2b "!")) c f /\ pledge_text_ok f /\
  (exists h', voucher_pledge_request_to_array toy w c (pledge_case (s2b "!")) 9 = Ok (0, h')) /\
  (exists k, verify_masa_pledge_request toy w c (pledge_case (s2b "!")) (Z.of_N (blen issued)) 11 9 8 = UB k).
Proof. exact nonce_refuted. Qed.
Print Assumptions C47_check_refuted.

(** C47, exactly which configurations and answers the whole run does not survive. *)
Theorem C47_exact_partial : forall o w c f post1 post2 h pinned, ossl_sane o -> world_ok w -> heap_wf h -> plenty h -> pledge_config h c f -> pledge_text_ok f -> post_ok post1 -> post_ok post2 ->
  pinned <> 0 -> hp_cell h pinned = Live (Struct [P 0; I 0]) ->
  ((exists k, post_voucher_pledge_request o w c post1 post2 h pinned = UB k) <-> pledge_unsafe o w f post1 post2).
Proof. exact pledge_survives_iff. Qed.
Print Assumptions C47_exact_partial.

(** C47, the creation of the request: when it does not survive, and otherwise that
    it returns exactly the signed request, or NULL with nothing left behind. *)
Theorem C47_request_partial : forall o w c f h tls tb, ossl_sane o -> world_ok w -> heap_wf h -> plenty h -> pledge_config h c f -> pledge_text_ok f ->
  tls <> 0 -> h_barray h tls = Ok (Some (ba_of tb)) -> bytes_ok tb ->
  ((exists k, voucher_pledge_request_to_array o w c h tls = UB k) <-> asks_crash w f) /\
  (forall p h', voucher_pledge_request_to_array o w c h tls = Ok (p, h') -> kept (hp_next h) h h' /\
     (p = 0 /\ no_leak (hp_next h) h' /\ (forall cms, ~ pledge_asks o w f tb cms) \/
      p <> 0 /\ exists cms, h_barray h' p = Ok (Some (ba_of cms)) /\ pledge_asks o w f tb cms)).
Proof. exact request_exact. Qed.
Print Assumptions C47_request_partial.

Example C47_request_case : exists p h', voucher_pledge_request_to_array toy pledge_world pledge_case_conf (pledge_case (s2b "CQ==")) 9 = Ok (p, h') /\
  h_barray h' p = Ok (Some (ba_of (1 :: s2b "{""ietf-voucher:voucher"":{""created-on"":""1973-11-29T21:33:09Z"",""assertion"":""proximity"",""serial-number"":""A"",""domain-cert-revocation-checks"":false,""nonce"":""CQ=="",""proximity-registrar-cert"":""Agc=""}}"))) /\ h_barray (pledge_case (s2b "CQ==")) 9 = Ok (Some (ba_of [2; 7])).
Proof. eexists. eexists. split; [vm_compute; reflexivity|]. split; vm_compute; reflexivity. Qed.

(** C47, the response check. *)
Theorem C47_check_partial : forall o w c f h rc arr m tls tb pinned, ossl_sane o -> world_ok w -> heap_wf h -> plenty h -> pledge_config h c f -> pledge_text_ok f ->
  h_barray h tls = Ok (Some (ba_of tb)) -> bytes_ok tb -> pinned <> 0 -> hp_cell h pinned = Live (Struct [P 0; I 0]) ->
  rc = Z.of_N (blen m) -> load_buf h arr = Ok (Some m) -> bytes_ok m ->
  ((exists k, verify_masa_pledge_request o w c h rc arr tls pinned = UB k) <-> (forall n, ~ nonce_given f n) \/ missing (w_cert w) (pf_verify f) \/ missing (w_cert w) (pf_store f)).
Proof. exact verify_exact. Qed.
Print Assumptions C47_check_partial.

Example C47_check_case : exists h', verify_masa_pledge_request toy pledge_world pledge_case_conf (pledge_case (s2b "CQ==")) (Z.of_N (blen issued)) 11 9 8 = Ok (0%Z, h') /\
  load_buf (pledge_case (s2b "CQ==")) 11 = Ok (Some issued).
Proof. eexists. split; vm_compute; reflexivity. Qed.
