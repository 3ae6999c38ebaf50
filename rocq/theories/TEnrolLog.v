(** C90, C91, C92: the registrar's enrolment log. *)
From Verif Require Import Base MOs MSerialize MHeap MArray MHandlers MEnrolLog MEnrolLogHeap SHeap SArray SBase64 SSerialize SHandlers SEnrolLog SEnrolLogHeap PBase64 PAcquire PEnrolLog PEnrolLog2 PEnrolLogHeap.
Open Scope N_scope.

(** C90, full statement: every certificate the registrar hands out is entered in its
    log. False: a client without a certificate obtains one and leaves no trace. *)
Theorem C90_refuted : exists sc w c h seen now log body tbs out h', (forall k ct tbs out, sc k ct tbs = Some out -> bytes_ok out) /\ world_ok w /\ heap_wf h /\ plenty h /\
  heap_string h (rc_ca_cert c) = Ok (s2b "ca") /\ heap_string h (rc_ca_key c) = Ok (s2b "cakey") /\ bytes_ok body /\
  rfc_decode (c_string body) = Some tbs /\ enrolls sc w (s2b "ca") (s2b "cakey") tbs out /\ seen out <> None /\
  enroll_logged sc w c h seen now true log None body = Ok (200%Z, rfc_encode out, h', log).
Proof. exact enroll_untraced. Qed.
Print Assumptions C90_refuted.

(** C90, exactly: an enrolment adds one entry that describes it if the file opens, the
    client has a certificate and the names of both certificates can be read; nothing
    else changes the log. Missing: out of memory, and requests whose base64 has bad
    padding (C05, C71). *)
Theorem C90_exact_partial : forall sc w c cert key h seen now opens log peer body, (forall k ct tbs out, sc k ct tbs = Some out -> bytes_ok out) ->
  heap_wf h -> plenty h -> heap_string h (rc_ca_cert c) = Ok cert -> heap_string h (rc_ca_key c) = Ok key -> bytes_ok body -> ~ bad_padding (c_string body) ->
  exists status response h' log', enroll_logged sc w c h seen now opens log peer body = Ok (status, response, h', log') /\
    registrar_est_simpleenroll sc w c h (option_map cs_view peer) body = Ok (status, response, h') /\
    (status <> 200%Z /\ log' = log \/
     status = 200%Z /\ exists tbs out, rfc_decode (c_string body) = Some tbs /\ enrolls sc w cert key tbs out /\ response = rfc_encode out /\
       ((exists i l e line, opens = true /\ peer = Some i /\ seen out = Some l /\ describes now i l e /\ entry_text e line /\ log' = log ++ line) \/
        (log' = log /\ ~ (opens = true /\ exists i l e, peer = Some i /\ seen out = Some l /\ describes now i l e)))).
Proof. exact enroll_log_exact. Qed.
Print Assumptions C90_exact_partial.

Example C90_case : exists sc w c h seen now log i body tbs out h' e line, (forall k ct tbs out, sc k ct tbs = Some out -> bytes_ok out) /\ world_ok w /\ heap_wf h /\ plenty h /\
  heap_string h (rc_ca_cert c) = Ok (s2b "ca") /\ heap_string h (rc_ca_key c) = Ok (s2b "cakey") /\ bytes_ok body /\ ~ bad_padding (c_string body) /\
  rfc_decode (c_string body) = Some tbs /\ enrolls sc w (s2b "ca") (s2b "cakey") tbs out /\ plain_entry e /\ entry_text e line /\
  enroll_logged sc w c h seen now true log (Some i) body = Ok (200%Z, rfc_encode out, h', log ++ line).
Proof. exact enroll_traced. Qed.

(** C91, full statement: two histories with the same log are the same. False: the name
    in a certificate can end the entry and start another one, so that one enrolment
    leaves the log of two. *)
Theorem C91_refuted : exists e es log, logs [e] log /\ logs es log /\ List.length es = 2%nat /\ Forall plain_entry es /\
  fits (en_time e) /\ fits (en_client e) /\ fits (en_cert e) /\ plain_holder (en_client_holder e).
Proof. exact log_forged. Qed.
Print Assumptions C91_refuted.

(** C91: every certificate number of more than 64 bits is logged as 0. *)
Theorem C91_numbers_refuted : forall z, ~ fits z -> exists e e' log, logs [e] log /\ logs [e'] log /\ en_cert e = z /\ en_cert e' = 0%Z /\
  en_time e = en_time e' /\ en_client e = en_client e' /\ en_client_holder e = en_client_holder e' /\ en_cert_holder e = en_cert_holder e'.
Proof. exact log_numbers_lost. Qed.
Print Assumptions C91_numbers_refuted.

(** C91: a holder called NULL looks like none. *)
Theorem C91_null_refuted : exists e e' log, logs [e] log /\ logs [e'] log /\ en_cert_holder e = None /\ en_cert_holder e' = Some (s2b "NULL") /\ fits (en_cert e) /\ fits (en_cert e').
Proof. exact log_null. Qed.
Print Assumptions C91_null_refuted.

(** C91: what holds. Enrolments with numbers that fit, and with holders that have no
    quotes and are not called NULL, can be read back, whatever their number. *)
Theorem C91_partial : forall es es' log, Forall plain_entry es -> Forall plain_entry es' -> logs es log -> logs es' log -> es = es'.
Proof. exact log_reads_back. Qed.
Print Assumptions C91_partial.

(** C91: every further enrolment extends the log by its entry. *)
Theorem C91_grows : forall es log now i l, logs es log -> readable_names (cs_view i) -> readable_names (cs_view l) ->
  exists e line, describes now i l e /\ entry_text e line /\ logs (es ++ [e]) (log ++ line).
Proof. exact log_grows. Qed.
Print Assumptions C91_grows.

Example C91_case : logs (map entry_of two_enrolments) (run_case two_enrolments) /\ Forall plain_entry (map entry_of two_enrolments) /\
  run_case two_enrolments = s2b "1700000000 0x1 ""A"" 0x2 ""B""" ++ [10] ++ s2b "1700000001 0x3 ""C"" 0x4 ""D""" ++ [10].
Proof.
  split; [apply run_case_logs; vm_compute; reflexivity|]. split; [|vm_compute; reflexivity].
  repeat constructor; vm_compute; intuition discriminate.
Qed.
Example C91_numbers_case : ~ fits 18446744073709551616 /\ ~ fits (-1).
Proof. split; vm_compute; intuition congruence. Qed.
Example C91_grows_case : readable_names (cs_view (named (Some (s2b "A")) 1)).
Proof. exact (named_readable (Some (s2b "A")) 1). Qed.

(** C92, full statement: the recording enters the enrolment, or when memory runs out
    leaves the log as it is, and releases what it allocated. False: when the second of
    two lists cannot be allocated the first one is lost. *)
Theorem C92_refuted : exists nn now log i l h h' x, heap_wf h /\ names_at (hp_next h) nn h /\ short_view (cs_view i) /\ short_view (cs_view l) /\
  h_save_to_log nn now true log (Some i) l h = Ok (log, h') /\ hp_next h <= x /\ is_live h' x /\ exists log', log' <> log /\ save_to_log now true log (Some i) l = Ok log'.
Proof. exact save_leaks. Qed.
Print Assumptions C92_refuted.

(** C92: when a copy of a name cannot be allocated, NULL is dereferenced (C13). *)
Theorem C92_crash_refuted : exists nn now log i l h, heap_wf h /\ names_at (hp_next h) nn h /\ short_view (cs_view i) /\ short_view (cs_view l) /\
  h_save_to_log nn now true log (Some i) l h = UB NullDeref.
Proof. exact save_crashes. Qed.
Print Assumptions C92_crash_refuted.

(** C92: what holds, whichever allocations fail. These two are all that goes wrong:
    otherwise all memory is released, no block of the caller is touched, and the log is
    the old one or the one it should be, the latter if no allocation fails. *)
Theorem C92_partial : forall nn now opens log icert lcert h, heap_wf h -> names_at (hp_next h) nn h -> (forall c, icert = Some c -> short_view (cs_view c)) -> short_view (cs_view lcert) ->
  (~ plenty h /\ h_save_to_log nn now opens log icert lcert h = UB NullDeref) \/
  exists log' h', h_save_to_log nn now opens log icert lcert h = Ok (log', h') /\ kept (hp_next h) h h' /\ (log' = log \/ save_to_log now opens log icert lcert = Ok log') /\
    ((no_leak (hp_next h) h' /\ (plenty h -> save_to_log now opens log icert lcert = Ok log')) \/
     (~ plenty h /\ log' = log /\ exists x, forall a, hp_next h <= a -> (is_live h' a <-> a = x))).
Proof. exact save_mem. Qed.
Print Assumptions C92_partial.

Example C92_case : exists nn now log i l h h' log', heap_wf h /\ plenty h /\ names_at (hp_next h) nn h /\ short_view (cs_view i) /\ short_view (cs_view l) /\
  h_save_to_log nn now true log (Some i) l h = Ok (log', h') /\ log' = s2b "1700000000 0x1 ""A"" 0x2 ""B""" ++ [10].
Proof. exact save_runs. Qed.
