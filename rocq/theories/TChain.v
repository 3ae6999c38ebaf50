(** Property theorems C73 and C74, and the completeness of C46: pledge, registrar and
    MASA connected through their HTTP handlers. *)
From Verif Require Import Base PBase MOs MBase64 MSerialize MVoucher MCrypto MRequest MHeap MArray MVoucherHeap MConfig MHandlers SBase64 SHeap SArray SConfig SJson SVoucher SRequest SHandlers SPledge SChain
  PRequest6 PMasa PRegistrar2 PPledge4 PChain2.
Open Scope N_scope.

(** C46, the converse: a pledge that can obtain a certificate does. *)
Theorem C46_complete : forall o w c f post1 post2 h pinned tls1 tls2 d, ossl_sane o -> world_ok w -> heap_wf h -> plenty h -> pledge_config h c f -> pledge_text_ok f -> post_ok post1 -> post_ok post2 ->
  pinned <> 0 -> hp_cell h pinned = Live (Struct [P 0; I 0]) -> pledge_obtains o w f post1 post2 tls1 tls2 d ->
  exists h', post_voucher_pledge_request o w c post1 post2 h pinned = Ok (0%Z, h') /\ pinned_result h h' pinned d.
Proof. exact pledge_succeeds. Qed.
Print Assumptions C46_complete.

Example C46_complete_case : exists h', post_voucher_pledge_request toy pledge_world pledge_case_conf (contact 404 [] [2; 7]) (contact 399 (rfc_encode issued) [9; 9]) (pledge_case (s2b "CQ==")) 8 = Ok (0%Z, h').
Proof. eexists. vm_compute. reflexivity. Qed.

(** C73: with certificates that the parties trust, dates and values that can be
    written as JSON, and enough memory, the pledge ends with success and holds the
    MASA's configured domain certificate. *)
Theorem C73_honest_onboarding : forall o wp wr wm cp fp cr fr cm fm hp hr hm ld client server post1 pinned k
    t1 t2 t3 s n i rc d pcert pkey padd pverify pstore rcert rkey radd rverify rstore mcert mkey madd mrverify mrstore mpverify mpstore,
  ossl_sane o -> world_ok wp -> world_ok wr -> world_ok wm -> heap_wf hp -> heap_wf hr -> heap_wf hm -> plenty hp -> plenty hr -> plenty hm ->
  pledge_config hp cp fp -> registrar_config hr cr fr -> masa_config hm cm fm -> pledge_text_ok fp -> view_ok client -> view_ok server -> post_ok post1 ->
  pinned <> 0 -> hp_cell hp pinned = Live (Struct [P 0; I 0]) ->
  pledge_time wp fp = Some t1 -> w_now wr = Some t2 -> serialize_str2time (mf_expires fm) = Some t3 -> date_ready t1 -> date_ready t2 -> date_ready t3 ->
  pf_serial fp = Some s -> Forall plain_char s -> blen s < 128 -> client_serial client s ->
  nonce_given fp n -> (forall x, n = Some x -> x <> [] /\ bytes_ok x) -> cv_issuer_text client = Some i -> i <> [] ->
  first_contact post1 rc -> cv_der server = Some rc -> rc <> [] -> d <> [] ->
  pledge_material wp fp pcert pkey padd pverify pstore -> registrar_material wr fr rc rcert rkey radd rverify rstore -> masa_material wm fm d mcert mkey madd mrverify mrstore mpverify mpstore ->
  4 * (match n with None => 0 | Some x => blen x end + blen rc + blen i + blen d + k) + 40000 < 2147483648 ->
  trusts o (Some (ba_of pcert)) (Some (ba_of pkey)) padd rverify rstore false k -> trusts o (Some (ba_of pcert)) (Some (ba_of pkey)) padd mpverify mpstore false k ->
  trusts o (Some (ba_of rcert)) (Some (ba_of rkey)) radd mrverify mrstore true k -> trusts o (Some (ba_of mcert)) (Some (ba_of mkey)) madd pverify pstore false k ->
  chains o (Some (ba_of rc)) d None ->
  exists h', post_voucher_pledge_request o wp cp post1 (registrar_service o wr cr (masa_service o wm cm ld hm) hr client server) hp pinned = Ok (0%Z, h') /\ pinned_result hp h' pinned d.
Proof. exact chain_complete. Qed.
Print Assumptions C73_honest_onboarding.

Example C73_case : exists h', chain_case (s2b "CQ==") = Ok (0%Z, h') /\ pinned_result (pledge_case (s2b "CQ==")) h' 8 [7; 7].
Proof. exact chain_case_runs. Qed.

(** C74: whatever certificate the first connection showed, success means that the
    pledge holds the domain certificate the MASA is configured with, that the
    registrar's own TLS certificate was in the request, and that the registrar
    saw the pledge's serial number in the client certificate. OpenSSL is assumed
    to give back what was signed. *)
Theorem C74_onboarding_sound : forall o wp wr wm cp fp cr fr cm fm hp hr hm ld client server post1 pinned h',
  ossl_sane o -> genuine o -> world_ok wp -> world_ok wr -> world_ok wm -> heap_wf hp -> heap_wf hr -> heap_wf hm -> plenty hp -> plenty hr -> plenty hm ->
  pledge_config hp cp fp -> registrar_config hr cr fr -> masa_config hm cm fm ->
  (ld = 0 \/ serialize_str2time (mf_expires fm) <> None) -> pledge_text_ok fp -> view_ok client -> view_ok server -> post_ok post1 ->
  pledge_ready wp fp -> registrar_values wr client -> masa_values wm fm -> (forall tls1, first_contact post1 tls1 -> bytes_ready tls1) ->
  pinned <> 0 -> hp_cell hp pinned = Live (Struct [P 0; I 0]) ->
  post_voucher_pledge_request o wp cp post1 (registrar_service o wr cr (masa_service o wm cm ld hm) hr client server) hp pinned = Ok (0%Z, h') ->
  exists d tls1 tls2 s, w_cert wm (mf_ldevid fm) = Some d /\ pinned_result hp h' pinned d /\
    first_contact post1 tls1 /\ w_cert wr (rf_tls fr) = Some tls1 /\ cv_der server = Some tls2 /\ chains o (Some (ba_of tls2)) d None /\
    pf_serial fp = Some s /\ client_serial client s.
Proof. exact chain_sound. Qed.
Print Assumptions C74_onboarding_sound.

(** The hypotheses hold of the concrete parties. *)
Example C74_case : genuine toy /\ pledge_ready pledge_world (pledge_case_files (s2b "CQ==")) /\ registrar_values registrar_world pledge_view /\ masa_values masa_world masa_case_files /\
  (forall tls1, first_contact (contact 404 [] [2; 7]) tls1 -> bytes_ready tls1) /\ exists h', chain_case (s2b "CQ==") = Ok (0%Z, h').
Proof.
  assert (DR : date_ready tm_case) by (right; vm_compute; repeat split; discriminate).
  assert (BR : forall d, d <> [] -> bytes_okb d = true -> blen d < SIZE_MAX / 4 -> bytes_ready d) by (intros d H1 H2 H3; split; [exact H1|]; split; [apply bytes_okb_ok; exact H2|exact H3]).
  split; [exact toy_genuine|]. split; [|split; [|split; [|split]]].
  - split; [intros t Q; injection Q as <-; exact DR|]. split; [intros s Q; injection Q as <-; constructor; [unfold plain_char; vm_compute; repeat split; discriminate|constructor]|].
    intros n d (d' & Q & ->) E. injection E as <-. vm_compute in Q. injection Q as <-. apply BR; [discriminate|reflexivity|reflexivity].
  - split; [intros t Q; injection Q as <-; exact DR|]. intros i Q. injection Q as <-. apply BR; [discriminate|reflexivity|vm_compute; reflexivity].
  - split; [intros t Q; vm_compute in Q; injection Q as <-; right; vm_compute; repeat split; discriminate|]. intros d Q. vm_compute in Q. injection Q as <-. apply BR; [discriminate|reflexivity|reflexivity].
  - intros t (s & r & v & Q & _ & D). injection Q as <- <- <-. injection D as <-. apply BR; [discriminate|reflexivity|reflexivity].
  - destruct C73_case as (h' & E & _). exists h'. exact E.
Qed.
