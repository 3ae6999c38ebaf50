(** C117 to C119: the memory of a MASA and a registrar that serve one request after
    another, and of a pledge that asks for a voucher, every allocation of the handlers and of request.c included. *)
From Verif Require Import Base MOs MBase64 MSerialize MVoucher MCrypto MRequest MHeap MArray MVoucherHeap MConfig MHandlers MEnrolLog MEnrolLogHeap MSerialHeap MRequestHeap MHandlerHeap
  SBase64 SHeap SArray SConfig SVoucher SRequest SHandlers SPledge SEnrolLogHeap SSerialHeap SRequestHeap SHandlerHeap
  PRequest6 PMasa PPledge4 PRegistrar2 PHandlerHeap3 PHandlerHeap6 PHandlerHeap10.
Open Scope N_scope.

(** C117: the MASA stops exactly at a request whose base64 padding is bad, or, its own
    material being readable, at any request while a listed certificate is missing. *)
Theorem C117_exact : forall o w c f bodies h, ossl_sane o -> world_ok w -> heap_wf h -> plenty h -> masa_config h c f -> Forall bytes_ok bodies -> Forall (masa_fits o w f) bodies ->
  ((exists k, full_masa_serves o w c 0 h bodies = UB k) <-> Exists (masa_crash w f) bodies).
Proof. exact full_masa_exact. Qed.
Print Assumptions C117_exact.

(** C117, what holds: every answer is the right one, the configuration is unchanged,
    and no memory is lost unless some request repeats a member or a trusted registrar
    signed what is no voucher. The full statement has no such exception. *)
Theorem C117_answers_partial : forall o w c f bodies h answers h', ossl_sane o -> world_ok w -> heap_wf h -> plenty h -> masa_config h c f -> Forall bytes_ok bodies -> Forall (masa_fits o w f) bodies ->
  full_masa_serves o w c 0 h bodies = Ok (answers, h') ->
  Forall2 (masa_answer o w f) bodies answers /\ kept (hp_next h) h h' /\ (Forall (masa_clean o w f) bodies -> no_leak (hp_next h) h').
Proof. exact full_masa_answers. Qed.
Print Assumptions C117_answers_partial.

(** C117 is false: every message of a trusted registrar that carries no voucher costs
    the MASA memory for as long as it runs. *)
Theorem C117_wasted : forall o w c f bodies h, ossl_sane o -> heap_wf h -> plenty h -> masa_config h c f -> Forall bytes_ok bodies -> Forall (masa_wastes o w f) bodies ->
  exists answers h', full_masa_serves o w c 0 h bodies = Ok (answers, h') /\ Forall (eq (400%Z, [])) answers /\ lost h h' (List.length bodies).
Proof. exact full_masa_wasted. Qed.
Print Assumptions C117_wasted.

Theorem C117_refuted : exists o w c f h body, ossl_sane o /\ world_ok w /\ heap_wf h /\ plenty h /\ masa_config h c f /\ bytes_ok body /\ forall n,
  exists answers h', full_masa_serves o w c 0 h (repeat body n) = Ok (answers, h') /\ Forall (eq (400%Z, [])) answers /\ lost h h' n.
Proof. exact full_masa_refuted. Qed.
Print Assumptions C117_refuted.

(** Two requests of a registrar are answered with vouchers and leave nothing. *)
Example C117_case : exists v h', full_masa_serves toy masa_world masa_case_conf 0 PMasa.masa_case [good; good] = Ok ([(200%Z, v); (200%Z, v)], h') /\ v <> [] /\ no_leak (hp_next PMasa.masa_case) h'.
Proof. exact full_masa_twice. Qed.

(** C118: the registrar stops exactly at a request it does not survive alone. *)
Theorem C118_exact : forall o w c f nn post h reqs, ossl_sane o -> world_ok w -> heap_wf h -> plenty h -> registrar_config h c f -> names_at (hp_next h) nn h -> Forall (request_ok o w f) reqs ->
  ((exists k, full_registrar_serves o w c nn post h reqs = UB k) <-> Exists (fun r => registrar_unsafe o w f (fst r) (snd r)) reqs).
Proof. exact full_registrar_exact. Qed.
Print Assumptions C118_exact.

(** C118, what holds: every answer is the right one, the configuration is unchanged,
    and no memory is lost unless some pledge's request repeats a member. The full
    statement has no such exception. *)
Theorem C118_answers_partial : forall o w c f nn post h reqs answers h', ossl_sane o -> world_ok w -> heap_wf h -> plenty h -> registrar_config h c f -> names_at (hp_next h) nn h -> Forall (request_ok o w f) reqs ->
  full_registrar_serves o w c nn post h reqs = Ok (answers, h') ->
  Forall2 (fun r => registrar_answer o w f post (fst r) (snd r)) reqs answers /\ kept (hp_next h) h h' /\ (Forall (fun r => registrar_clean o w f (snd r)) reqs -> no_leak (hp_next h) h').
Proof. exact full_registrar_answers. Qed.
Print Assumptions C118_answers_partial.

(** C118 is false: a pledge that repeats a member costs the registrar a block with
    every request, and is served. *)
Theorem C118_refuted : exists o w c f nn post h v body h', ossl_sane o /\ world_ok w /\ heap_wf h /\ plenty h /\ registrar_config h c f /\ names_at (hp_next h) nn h /\ request_ok o w f (Some v, body) /\
  full_registrar_serves o w c nn post h [(Some v, body); (Some v, body); (Some v, body)] = Ok ([(200%Z, s2b "voucher"); (200%Z, s2b "voucher"); (200%Z, s2b "voucher")], h') /\ lost h h' 3.
Proof. exact full_registrar_refuted. Qed.
Print Assumptions C118_refuted.

(** Two requests are granted and leave nothing. *)
Example C118_case : exists h', full_registrar_serves toy registrar_world registrar_case_conf nn_full granting full_case [(Some pledge_view, rfc_encode once); (Some pledge_view, rfc_encode once)] = Ok ([(200%Z, s2b "voucher"); (200%Z, s2b "voucher")], h') /\ no_leak (hp_next full_case) h'.
Proof. exact full_once. Qed.

(** C119: the pledge does not survive exactly when its nonce or the answer has bad
    base64 padding or a listed certificate cannot be read. *)
Theorem C119_exact : forall o w c f post1 post2 h pinned, ossl_sane o -> world_ok w -> heap_wf h -> plenty h -> pledge_config h c f -> pledge_text_ok f -> post_ok post1 -> post_ok post2 ->
  pledge_fits w f post1 -> pinned <> 0 -> hp_cell h pinned = Live (Struct [P 0; I 0]) ->
  ((exists k, full_post_voucher_pledge_request o w c post1 post2 h pinned = UB k) <-> pledge_unsafe o w f post1 post2).
Proof. exact full_pledge_exact. Qed.
Print Assumptions C119_exact.

(** C119, what holds: success means that a voucher was obtained and its certificate is
    in the caller's array, an error that none was; nothing else the caller had is
    changed, and nothing but the certificate is left unless the answer repeats a
    member. The full statement has no such exception. *)
Theorem C119_outcome_partial : forall o w c f post1 post2 h pinned z h', ossl_sane o -> world_ok w -> heap_wf h -> plenty h -> pledge_config h c f -> pledge_text_ok f -> post_ok post1 -> post_ok post2 ->
  pledge_fits w f post1 -> pinned <> 0 -> hp_cell h pinned = Live (Struct [P 0; I 0]) -> full_post_voucher_pledge_request o w c post1 post2 h pinned = Ok (z, h') ->
  (z = 0%Z /\ exists tls1 tls2 d, pledge_obtains o w f post1 post2 tls1 tls2 d /\ pinned_at h h' pinned d /\ (pledge_clean o w f post1 post2 -> pinned_result h h' pinned d)) \/
  (z = (-1)%Z /\ (forall tls1 tls2 d, ~ pledge_obtains o w f post1 post2 tls1 tls2 d) /\ kept (hp_next h) h h' /\ (pledge_clean o w f post1 post2 -> no_leak (hp_next h) h')).
Proof. exact full_pledge_outcome. Qed.
Print Assumptions C119_outcome_partial.

(** C119 is false: a voucher that repeats a member is accepted and leaves a second
    block. *)
Theorem C119_refuted : exists o w c f post1 post2 h pinned h', ossl_sane o /\ world_ok w /\ heap_wf h /\ plenty h /\ pledge_config h c f /\ pledge_text_ok f /\ post_ok post1 /\ post_ok post2 /\ pledge_fits w f post1 /\
  pinned <> 0 /\ hp_cell h pinned = Live (Struct [P 0; I 0]) /\ full_post_voucher_pledge_request o w c post1 post2 h pinned = Ok (0%Z, h') /\ lost h h' 2.
Proof. exact full_pledge_refuted. Qed.
Print Assumptions C119_refuted.

(** A voucher is obtained and only the certificate is left. *)
Example C119_case : exists h', full_post_voucher_pledge_request toy pledge_world pledge_case_conf ask_first (reply issued) (PPledge4.pledge_case (s2b "CQ==")) 8 = Ok (0%Z, h') /\ pinned_result (PPledge4.pledge_case (s2b "CQ==")) h' 8 [7; 7].
Proof. exact full_pledge_case. Qed.
