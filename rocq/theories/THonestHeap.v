(** C65 for texts of the library, and C120: parties whose trusted peers use this
    library, each with its complete memory. *)
From Verif Require Import Base PBase MOs MBase64 MSerialize MVoucher MCrypto MRequest MHeap MArray MVoucherHeap MConfig MHandlers MSerialHeap MRequestHeap MHandlerHeap
  SBase64 SHeap SArray SConfig SJson SVoucher SRequest SHandlers SPledge SChain SVoucherHeap SSerialHeap SRequestHeap SEnrolLogHeap SHandlerHeap SHonestHeap
  PVoucherHeapWritten PRequest6 PMasa PRegistrar2 PPledge4 PHandlerHeap6 PHandlerHeap10 PHonestHeap PHonestHeap2 PHonestHeap3 PHonestHeap4.
Open Scope N_scope.

(** C65: what the library wrote is read, and freeing what was read leaves nothing. *)
Theorem C65_written : forall v text h0, json_ready v -> serialize_voucher (Some v) = Ok (Some text) -> blen text < 2147483648 -> heap_wf h0 -> plenty h0 ->
  exists w h h', h_deserialize_voucher h0 text = Ok (w, h) /\ w <> 0 /\ h_free_voucher h w = Ok h' /\ kept (hp_next h0) h0 h' /\ no_leak (hp_next h0) h'.
Proof. exact written_no_leak. Qed.
Print Assumptions C65_written.

(** A serial number that is the name of a member. *)
Example C65_written_case : exists t, json_ready named /\ serialize_voucher (Some named) = Ok (Some t) /\ repeated (attr_name ANonce) t.
Proof. exact named_case. Qed.

(** C120: if the trusted pledges use this library, the registrar loses no memory over
    any sequence of requests, trusted or not. *)
Theorem C120_registrar : forall o w c f nn post h reqs answers h', ossl_sane o -> genuine o -> world_ok w -> heap_wf h -> plenty h -> registrar_config h c f -> names_at (hp_next h) nn h -> Forall (request_ok o w f) reqs ->
  Forall (fun r => honest_pledge o w f (snd r)) reqs -> full_registrar_serves o w c nn post h reqs = Ok (answers, h') -> kept (hp_next h) h h' /\ no_leak (hp_next h) h'.
Proof. exact honest_registrar_keeps. Qed.
Print Assumptions C120_registrar.

Example C120_registrar_case : honest_pledge toy registrar_world registrar_case_files (rfc_encode sent1) /\
  exists h', full_registrar_serves toy registrar_world registrar_case_conf nn_full granting full_case [(Some pledge_view, rfc_encode sent1); (Some pledge_view, rfc_encode sent1)] = Ok ([(200%Z, s2b "voucher"); (200%Z, s2b "voucher")], h').
Proof. exact registrar_hears. Qed.

(** C120: if the trusted registrars and the pledges behind them use this library, the
    MASA loses no memory over any sequence of requests, trusted or not. *)
Theorem C120_masa : forall o w c f bodies h answers h', ossl_sane o -> genuine o -> signers_written o -> world_ok w -> heap_wf h -> plenty h -> masa_config h c f -> Forall bytes_ok bodies -> Forall (masa_fits o w f) bodies ->
  Forall (honest_registrar o w f) bodies -> full_masa_serves o w c 0 h bodies = Ok (answers, h') -> kept (hp_next h) h h' /\ no_leak (hp_next h) h'.
Proof. exact honest_masa_keeps. Qed.
Print Assumptions C120_masa.

Example C120_masa_case : honest_registrar toy masa_world masa_case_files (rfc_encode sent2) /\
  exists v h', full_masa_serves toy masa_world masa_case_conf 0 PMasa.masa_case [rfc_encode sent2; rfc_encode sent2] = Ok ([(200%Z, v); (200%Z, v)], h').
Proof. exact masa_hears. Qed.

(** C120: if the trusted MASA uses this library, the pledge is left with the
    certificate on success and with nothing otherwise. *)
Theorem C120_pledge : forall o w c f post1 post2 h pinned z h', ossl_sane o -> genuine o -> world_ok w -> heap_wf h -> plenty h -> pledge_config h c f -> pledge_text_ok f -> post_ok post1 -> post_ok post2 ->
  pledge_fits w f post1 -> pinned <> 0 -> hp_cell h pinned = Live (Struct [P 0; I 0]) -> honest_masa o w f post1 post2 -> full_post_voucher_pledge_request o w c post1 post2 h pinned = Ok (z, h') ->
  (z = 0%Z /\ exists d, pinned_result h h' pinned d) \/ (z = (-1)%Z /\ kept (hp_next h) h h' /\ no_leak (hp_next h) h').
Proof. exact honest_pledge_keeps. Qed.
Print Assumptions C120_pledge.
Example C120_pledge_case : honest_masa toy pledge_world (pledge_case_files (s2b "CQ==")) ask_first (reply sent3) /\
  exists h', full_post_voucher_pledge_request toy pledge_world pledge_case_conf ask_first (reply sent3) (PPledge4.pledge_case (s2b "CQ==")) 8 = Ok (0%Z, h').
Proof. exact pledge_hears. Qed.

(** C120, the whole exchange: pledge, registrar and MASA connected through their
    handlers. The pledge ends with the domain certificate the MASA is configured with
    and no other new memory, or with an error and none; registrar and MASA end with
    the memory they had. *)
Theorem C120_exchange : forall o wp wr wm cp fp cr fr cm fm hp hr hm nn client server post1 pinned,
  ossl_sane o -> genuine o -> signers_written o -> world_ok wp -> world_ok wr -> world_ok wm -> heap_wf hp -> heap_wf hr -> heap_wf hm -> plenty hp -> plenty hr -> plenty hm ->
  pledge_config hp cp fp -> registrar_config hr cr fr -> masa_config hm cm fm -> names_at (hp_next hr) nn hr ->
  pledge_text_ok fp -> view_ok client -> short_view client -> view_ok server -> post_ok post1 ->
  pledge_ready wp fp -> registrar_values wr client -> masa_values wm fm -> (forall tls1, first_contact post1 tls1 -> bytes_ready tls1) ->
  client_values client -> (forall s, pf_serial fp = Some s -> blen s < 128) -> pinned <> 0 -> hp_cell hp pinned = Live (Struct [P 0; I 0]) ->
  (forall z h', full_post_voucher_pledge_request o wp cp post1 (full_registrar_service o wr cr nn (full_masa_service o wm cm hm) hr client server) hp pinned = Ok (z, h') ->
     (z = 0%Z /\ exists d, w_cert wm (mf_ldevid fm) = Some d /\ pinned_result hp h' pinned d) \/ (z = (-1)%Z /\ kept (hp_next hp) hp h' /\ no_leak (hp_next hp) h')) /\
  (forall cms1 s r h', pledge_sends o wp fp post1 cms1 -> full_registrar_requestvoucher o wr cr nn (full_masa_service o wm cm hm) hr (Some client) (rfc_encode cms1) = Ok (s, r, h') ->
     kept (hp_next hr) hr h' /\ no_leak (hp_next hr) h') /\
  (forall cms1 cms2 s r l h', pledge_sends o wp fp post1 cms1 -> cms1 <> [] -> registrar_posts o wr fr client cms1 cms2 -> full_masa_requestvoucher o wm cm 0 hm (rfc_encode cms2) = Ok (s, r, l, h') ->
     kept (hp_next hm) hm h' /\ no_leak (hp_next hm) h').
Proof. exact full_exchange. Qed.
Print Assumptions C120_exchange.

(** The parties of C73. *)
Example C120_exchange_case : exists h', full_post_voucher_pledge_request toy pledge_world pledge_case_conf (contact 404 [] [2; 7])
    (full_registrar_service toy registrar_world registrar_case_conf nn_full (full_masa_service toy masa_world masa_case_conf PMasa.masa_case) full_case pledge_view (server [2; 7])) (PPledge4.pledge_case (s2b "CQ==")) 8 = Ok (0%Z, h') /\ pinned_result (PPledge4.pledge_case (s2b "CQ==")) h' 8 [7; 7].
Proof. exact full_chain_runs. Qed.

(** C73 with complete memory: parties that trust each other end with the voucher
    accepted, and the pledge holds the domain certificate and no other new memory. *)
Theorem C73_full_memory : forall o wp wr wm cp fp cr fr cm fm hp hr hm nn client server post1 pinned k
    t1 t2 t3 s n i rc d pcert pkey padd pverify pstore rcert rkey radd rverify rstore mcert mkey madd mrverify mrstore mpverify mpstore,
  ossl_sane o -> genuine o -> world_ok wp -> world_ok wr -> world_ok wm -> heap_wf hp -> heap_wf hr -> heap_wf hm -> plenty hp -> plenty hr -> plenty hm ->
  pledge_config hp cp fp -> registrar_config hr cr fr -> masa_config hm cm fm -> pledge_text_ok fp -> names_at (hp_next hr) nn hr -> view_ok client -> short_view client -> view_ok server -> post_ok post1 ->
  pinned <> 0 -> hp_cell hp pinned = Live (Struct [P 0; I 0]) ->
  pledge_time wp fp = Some t1 -> w_now wr = Some t2 -> serialize_str2time (mf_expires fm) = Some t3 -> date_ready t1 -> date_ready t2 -> date_ready t3 ->
  pf_serial fp = Some s -> Forall plain_char s -> blen s < 128 -> client_serial client s ->
  nonce_given fp n -> (forall x, n = Some x -> x <> [] /\ bytes_ok x) -> cv_issuer_text client = Some i -> i <> [] ->
  first_contact post1 rc -> cv_der server = Some rc -> rc <> [] -> d <> [] ->
  pledge_material wp fp pcert pkey padd pverify pstore -> registrar_material wr fr rc rcert rkey radd rverify rstore -> masa_material wm fm d mcert mkey madd mrverify mrstore mpverify mpstore ->
  4 * (match n with None => 0 | Some x => blen x end + blen rc + blen i + blen d + k) + 40000 < 2147483648 ->
  trusts o (Some (ba_of pcert)) (Some (ba_of pkey)) padd rverify rstore false k -> trusts o (Some (ba_of pcert)) (Some (ba_of pkey)) padd mpverify mpstore false k ->
  trusts o (Some (ba_of rcert)) (Some (ba_of rkey)) radd mrverify mrstore true k -> trusts o (Some (ba_of mcert)) (Some (ba_of mkey)) madd pverify pstore false k ->
  chains o (Some (ba_of rc)) d None ->
  exists h', full_post_voucher_pledge_request o wp cp post1 (full_registrar_service o wr cr nn (full_masa_service o wm cm hm) hr client server) hp pinned = Ok (0%Z, h') /\ pinned_result hp h' pinned d.
Proof. exact full_onboarding. Qed.
Print Assumptions C73_full_memory.

(** The parties of C120 meet the conditions. *)
Example C73_full_memory_case : exists h', full_post_voucher_pledge_request toy pledge_world pledge_case_conf (contact 404 [] [2; 7])
    (full_registrar_service toy registrar_world registrar_case_conf nn_full (full_masa_service toy masa_world masa_case_conf PMasa.masa_case) full_case pledge_view (server [2; 7])) (PPledge4.pledge_case (s2b "CQ==")) 8 = Ok (0%Z, h') /\ pinned_result (PPledge4.pledge_case (s2b "CQ==")) h' 8 [7; 7].
Proof. exact full_onboarding_case. Qed.
