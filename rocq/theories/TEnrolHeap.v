(** C121: a registrar that serves voucher requests and enrolments. *)
From Verif Require Import Base PBase MBase64 MSerialize MVoucher MCrypto MRequest MHeap MArray MConfig MHandlers MEnrolLog MHandlerHeap MEnrolHeap SBase64 SHeap SArray SConfig SVoucher SRequest SHandlers SEnrolLog SEnrolLogHeap SHandlerHeap SEnrolHeap
  PRequest6 PRegistrar2 PEnrolLogHeap PHandlerHeap6 PEnrolHeap2.
Open Scope N_scope.

(** C121: the registrar stops exactly at a request it does not survive alone. *)
Theorem C121_exact : forall o sc w c f ca nn seen post l h log, ossl_sane o -> world_ok w -> (forall k ct tbs out, sc k ct tbs = Some out -> bytes_ok out) -> (forall d l, seen d = Some l -> short_view (cs_view l)) ->
  heap_wf h -> plenty h -> registrar_config h c f -> ca_config h c ca -> names_at (hp_next h) nn h -> Forall (arrival_ok o w f) l ->
  ((exists k, registrar_works o sc w c nn seen post h log l = UB k) <-> Exists (fatal o w f) l).
Proof. exact works_exact. Qed.
Print Assumptions C121_exact.

(** C121, what holds: every answer is the right one, the log has an entry for every
    enrolment that can be described, in their order, the configuration is unchanged,
    and no memory is lost unless some voucher request repeats a member. The full
    statement has no such exception. *)
Theorem C121_answers_partial : forall o sc w c f ca nn seen post l h log answers h' log', ossl_sane o -> world_ok w -> (forall k ct tbs out, sc k ct tbs = Some out -> bytes_ok out) -> (forall d l, seen d = Some l -> short_view (cs_view l)) ->
  heap_wf h -> plenty h -> registrar_config h c f -> ca_config h c ca -> names_at (hp_next h) nn h -> Forall (arrival_ok o w f) l ->
  registrar_works o sc w c nn seen post h log l = Ok (answers, h', log') ->
  Forall2 (right_answer o sc w f ca post) l answers /\ recorded sc w ca seen l log log' /\ kept (hp_next h) h h' /\ (Forall (arrival_clean o w f) l -> no_leak (hp_next h) h').
Proof. exact works_answers. Qed.
Print Assumptions C121_answers_partial.

(** C121 is false: voucher requests that repeat a member are granted and cost a block
    each, between enrolments that cost none. *)
Theorem C121_refuted : exists o sc w c f ca nn seen post h log l answers h' log', ossl_sane o /\ world_ok w /\ (forall k ct tbs out, sc k ct tbs = Some out -> bytes_ok out) /\ (forall d l, seen d = Some l -> short_view (cs_view l)) /\
  heap_wf h /\ plenty h /\ registrar_config h c f /\ ca_config h c ca /\ names_at (hp_next h) nn h /\ Forall (arrival_ok o w f) l /\
  registrar_works o sc w c nn seen post h log l = Ok (answers, h', log') /\ lost h h' 2.
Proof. exact works_refuted. Qed.
Print Assumptions C121_refuted.

(** Two voucher requests and four enrolments, of which one is refused and one comes
    without a certificate: two entries, and nothing is left in memory. *)
Example C121_case : Forall (arrival_ok toy registrar_world registrar_case_files) (day once) /\ ca_config full_case registrar_case_conf ca_case /\
  exists h', registrar_works toy toy_sign registrar_world registrar_case_conf nn_full seen_new granting full_case [] (day once) = Ok (day_answers, h', day_log) /\ no_leak (hp_next full_case) h'.
Proof. split; [exact (day_ok once (or_intror eq_refl))|]. split; [exact ca_case_config|exact works_case]. Qed.
Example C121_fatal_case : fatal toy registrar_world registrar_case_files (Enrols None (s2b "====") 0 true) /\
  exists k, registrar_works toy toy_sign registrar_world registrar_case_conf nn_full seen_new granting full_case [] [Enrols None (s2b "====") 0 true] = UB k.
Proof. split; [eexists; split; [vm_compute; reflexivity|vm_compute; lia]|]. eexists. vm_compute. reflexivity. Qed.
