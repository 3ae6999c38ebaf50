(** Theorems about the program: C82, C83, C84. *)
From Verif Require Import Base MOs MBase64 MSerialize MVoucher MCrypto MRequest MHeap MArray MVoucherHeap MConfig MHandlers MLog MSignCert MMain SBase64 SHeap SArray SConfig SVoucher SRequest SHandlers SPledge SLog SSignCert SMain
  PConfigMore PRequest6 PMasa PPledge3 PPledge4 PSignCert3 PMain PMain2 PMain3 PMain4 PMain5 PMain6.
Open Scope N_scope.

(** C82, the options: for every line of words, the program runs a command with
    options exactly when the line, read as a list of options and words, asks for it. *)
Theorem C82_line_partial : forall args o c, process_options args = inl (o, c) <-> asks_for args o c.
Proof. exact options_exact. Qed.
Print Assumptions C82_line_partial.

(** C82, the lines that run no command. *)
Theorem C82_stops_partial : forall args l, process_options args = inr l <-> stops args l.
Proof. exact options_end. Qed.
Print Assumptions C82_stops_partial.

Example C82_line_case : asks_for [s2b "-dc"; s2b "brski.ini"; s2b "-p8443"; s2b "preq"; s2b "-oout"; s2b "-c"; s2b "other.ini"; s2b "--"; s2b "-x"] (mk_options true (s2b "other.ini") [] (s2b "out") 8443 []) CPledgeRequest /\
  stops [s2b "-c"] LBadOption /\ stops [s2b "-dv"; s2b "preq"] LVersion /\ stops [s2b "preg"] LNoCommand.
Proof. split; [apply options_exact; vm_compute; reflexivity|]. split; [|split]; apply options_end; vm_compute; reflexivity. Qed.

(** C82, the port: a numeral below 2^32 is the port the registrar is started with. *)
Theorem C82_port_partial : forall e name ps more rest p n h r h' m, outside_ok e -> heap_wf h -> plenty h -> Forall piece_ok ps -> Forall cstr_ok (written ps more) -> operands ps more = s2b "registrar" :: rest ->
  given 112 ps = Some p -> numeral p n -> 0 < n < 4294967296 -> e_ini e (or_empty (given 99 ps)) = Some m ->
  main e name (written ps more) h = Ok (r, h') -> starts (e_registrar e (address_of m (or_empty (given 97 ps))) n) r.
Proof. exact port_used. Qed.
Print Assumptions C82_port_partial.

Example C82_port_case : outside_ok (main_case signing tls_file) /\ heap_wf start_heap /\ plenty start_heap /\ numeral (s2b "08443") 8443 /\
  let ps := [PJoined 1 99 (s2b "brski.ini"); PApart 0 112 (s2b "08443"); PWord (s2b "registrar")] in
  Forall piece_ok ps /\ Forall cstr_ok (written ps None) /\ operands ps None = [s2b "registrar"] /\ given 112 ps = Some (s2b "08443") /\ e_ini (main_case signing tls_file) (or_empty (given 99 ps)) = Some (minini (main_file signing tls_file)) /\
  exists h1 h2, main (main_case signing tls_file) prog (written ps None) start_heap = Ok (mk_ending 0 [] [], h1) /\
  main (main_case signing tls_file) prog [s2b "-c"; s2b "brski.ini"; s2b "-p"; s2b "8444"; s2b "registrar"] start_heap = Ok (mk_ending 1 [] [], h2).
Proof.
  split; [apply main_case_ok; vm_compute; reflexivity|]. destruct start_heap_ok as [W PL]. split; [exact W|]. split; [exact PL|].
  split. { split; [intros Q; discriminate Q|]. split; [|reflexivity]. repeat (apply Forall_cons; [vm_compute; split; intros Q; discriminate Q|]). apply Forall_nil. }
  intros ps. split. { apply Forall_cons; [split; [vm_compute; tauto|intros Q; discriminate Q]|]. apply Forall_cons; [vm_compute; tauto|]. apply Forall_cons; [right; intros x Q; discriminate Q|apply Forall_nil]. }
  split. { repeat (apply Forall_cons; [apply PBase.cstr_okb_ok; vm_compute; reflexivity|]). apply Forall_nil. }
  split; [reflexivity|]. split; [reflexivity|]. split; [reflexivity|].
  edestruct status_ok as [h1 E1]; [|edestruct status_ok as [h2 E2]; [|exists h1, h2; split; [exact E1|exact E2]]]; vm_compute; reflexivity.
Qed.

(** C82 is false: a port that is not a number is as if it were not given, and -1 is
    4294967295, whatever the outside and the memory. *)
Theorem C82_refuted : (forall e name h, main e name [s2b "-p"; s2b "https"; s2b "registrar"] h = main e name [s2b "registrar"] h) /\
  (forall e name h, main e name [s2b "-p"; s2b "-1"; s2b "registrar"] h = main e name [s2b "-p"; s2b "4294967295"; s2b "registrar"] h).
Proof. exact port_refuted. Qed.
Print Assumptions C82_refuted.

(** C83, the outcome for every command, configuration, registrar and memory: 0
    exactly with the result in the place that was asked for, 1 when there is none
    or the place cannot be written. The configuration file was read. Missing: the
    names of the files are cut after 254 characters. *)
Theorem C83_exact_partial : forall e name args o c m h r h', outside_ok e -> heap_wf h -> plenty h -> Forall cstr_ok args -> asks_for args o c -> (c <> CGetSerial -> e_ini e (op_config o) = Some m) ->
  main e name args h = Ok (r, h') -> answers e m o c r.
Proof. exact main_answers. Qed.
Print Assumptions C83_exact_partial.

Example C83_case : outside_ok (main_case signing tls_file) /\ heap_wf start_heap /\ plenty start_heap /\ asks_for (line [s2b "-oout"] (s2b "sign")) (mk_options true (s2b "brski.ini") [] (s2b "out") 8443 (s2b "10.0.0.1")) CSignCert /\
  exists h1 h2 h3 h4 h5, main (main_case signing tls_file) prog (line [s2b "-oout"] (s2b "sign")) start_heap = Ok (mk_ending 0 [] [(s2b "out.key", s2b "K" ++ [1; 2]); (s2b "out.crt", s2b "C" ++ [1; 2])], h1) /\
  main (main_case signing tls_file) prog (line [] (s2b "preq")) start_heap = Ok (mk_ending 0 (s2b "Bwc=" ++ [10]) [], h2) /\
  main (main_case signing tls_file) prog (line [s2b "-itls"] (s2b "vmasa")) start_heap = Ok (mk_ending 0 (s2b "Bwc=" ++ [10]) [], h3) /\
  main (main_case signing tls_file) prog (line [s2b "-itls"] (s2b "serial")) start_heap = Ok (mk_ending 0 (s2b "A-17") [], h4) /\
  main (main_case signing tls_file) prog [s2b "-c"; s2b "brski.ini"; s2b "preq"; s2b "-p"; s2b "8444"] start_heap = Ok (mk_ending 1 [] [], h5).
Proof.
  split; [apply main_case_ok; vm_compute; reflexivity|]. destruct start_heap_ok as [W PL]. split; [exact W|]. split; [exact PL|]. split; [apply options_exact; vm_compute; reflexivity|].
  edestruct status_ok as [h1 E1]; [|edestruct status_ok as [h2 E2]; [|edestruct status_ok as [h3 E3]; [|edestruct status_ok as [h4 E4]; [|edestruct status_ok as [h5 E5]; [|exists h1, h2, h3, h4, h5; split; [exact E1|split; [exact E2|split; [exact E3|split; [exact E4|exact E5]]]]]]]]]; vm_compute; reflexivity.
Qed.

(** C83 without a configuration that can be read: 1, and nothing is written. *)
Theorem C83_unread : forall e name args o c h r h', heap_wf h -> plenty h -> asks_for args o c -> c <> CGetSerial -> e_ini e (op_config o) = None -> main e name args h = Ok (r, h') -> r = mk_ending 1 [] [].
Proof. exact main_unread_status. Qed.
Print Assumptions C83_unread.

Example C83_unread_case : asks_for [s2b "-cnone.ini"; s2b "preq"] (mk_options false (s2b "none.ini") [] [] 0 []) CPledgeRequest /\ e_ini (main_case signing tls_file) (s2b "none.ini") = None /\
  exists h, main (main_case signing tls_file) prog [s2b "-cnone.ini"; s2b "preq"] start_heap = Ok (mk_ending 1 [] [], h).
Proof. split; [apply options_exact; vm_compute; reflexivity|]. split; [reflexivity|]. apply status_ok. vm_compute. reflexivity. Qed.

(** C83, the names of the files for -o with at most 250 characters. *)
Theorem C83_names_partial : forall e name args o m h r h', outside_ok e -> heap_wf h -> plenty h -> Forall cstr_ok args -> asks_for args o CSignCert -> e_ini e (op_config o) = Some m ->
  main e name args h = Ok (r, h') -> en_status r = 0%Z -> op_out o <> [] -> blen (op_out o) <= 250 ->
  exists cert key t t', enrol_gives e m o key cert /\ e_pem_cert e cert = Some t /\ e_pem_key e key = Some t' /\ en_out r = [] /\ en_files r = [(op_out o ++ s2b ".key", t'); (op_out o ++ s2b ".crt", t)].
Proof. exact names_pair. Qed.
Print Assumptions C83_names_partial.

(** C83 is false: with a name of 253 characters the key is written over the
    certificate, into a file with neither of the two names, and the status is 0. *)
Theorem C83_names_refuted : exists e name args o m h r h' n t t', outside_ok e /\ heap_wf h /\ plenty h /\ Forall cstr_ok args /\ asks_for args o CSignCert /\ e_ini e (op_config o) = Some m /\
  main e name args h = Ok (r, h') /\ en_status r = 0%Z /\ en_files r = [(n, t'); (n, t)] /\ t <> t' /\ n <> op_out o ++ s2b ".crt" /\ n <> op_out o ++ s2b ".key".
Proof. exact names_refuted. Qed.
Print Assumptions C83_names_refuted.

(** C84, exactly when a command does not survive. *)
Theorem C84_exact_partial : forall e name args o c m h, outside_ok e -> heap_wf h -> plenty h -> Forall cstr_ok args -> asks_for args o c -> (c <> CGetSerial -> e_ini e (op_config o) = Some m) ->
  ((exists k, main e name args h = UB k) <-> crashes e m o c).
Proof. exact main_survives. Qed.
Print Assumptions C84_exact_partial.

Example C84_case : outside_ok (main_case signing tls_file) /\ asks_for (line [] (s2b "epvr")) (mk_options true (s2b "brski.ini") [] [] 8443 (s2b "10.0.0.1")) CExportPvr /\
  (exists r h', main (main_case signing tls_file) prog (line [] (s2b "epvr")) start_heap = Ok (r, h') /\ en_status r = 0%Z) /\
  exists k, main (main_case signing []) prog (line [] (s2b "epvr")) start_heap = UB k.
Proof.
  split; [apply main_case_ok; vm_compute; reflexivity|]. split; [apply options_exact; vm_compute; reflexivity|]. split.
  - edestruct status_ok as [h' E]; [|eexists; exists h'; split; [exact E|]]; vm_compute; reflexivity.
  - apply status_ub. vm_compute. reflexivity.
Qed.

(** C84, a configuration file that cannot be read. *)
Theorem C84_unread : forall e name args o c h k, heap_wf h -> plenty h -> asks_for args o c -> c <> CGetSerial -> e_ini e (op_config o) = None -> main e name args h <> UB k.
Proof. exact main_unread_survives. Qed.
Print Assumptions C84_unread.

(** C84, the lines that run no command: the version and a bad option end the
    program with 0 and 1; the others are below. *)
Theorem C84_stops_partial : forall e name args l h, stops args l -> ~ In 0 name ->
  main e name args h = match l with LVersion => Ok (mk_ending 0 [] [], h) | LBadOption => Ok (mk_ending 1 [] [], h) | _ => UB OOBRead end.
Proof. exact main_stops. Qed.
Print Assumptions C84_stops_partial.

(** C84 is false: -h, an empty line and a line without a command: the program's name
    is copied without its terminating zero and given to basename. *)
Theorem C84_help_refuted : forall e name args h l, ~ In 0 name -> stops args l -> l = LHelp \/ l = LNothing \/ l = LNoCommand -> exists k, main e name args h = UB k.
Proof. exact help_refuted. Qed.
Print Assumptions C84_help_refuted.

Example C84_help_case : ~ In 0 prog /\ stops [s2b "-h"] LHelp /\ stops [] LNothing /\ stops [s2b "-d"; s2b "pledge"] LNoCommand.
Proof. split; [vm_compute; intuition discriminate|]. split; [|split]; apply options_end; vm_compute; reflexivity. Qed.

(** C84 is false: a configuration without tlsCertPath, and epvr. *)
Theorem C84_export_refuted : exists e name h o m, outside_ok e /\ heap_wf h /\ plenty h /\ e_ini e (op_config o) = Some m /\ ini_ok m /\ registrar_setting m (s2b "tlsCertPath") = None /\ signs m /\
  exists args k, Forall cstr_ok args /\ asks_for args o CExportPvr /\ main e name args h = UB k.
Proof. exact survive_refuted. Qed.
Print Assumptions C84_export_refuted.

(** C84 is false: a configuration without cmsSignCertPath, and preq. *)
Theorem C84_request_refuted : exists e name h o m, outside_ok e /\ heap_wf h /\ plenty h /\ e_ini e (op_config o) = Some m /\ ini_ok m /\ pledge_setting m (s2b "cmsSignCertPath") = None /\
  exists args k, Forall cstr_ok args /\ asks_for args o CPledgeRequest /\ main e name args h = UB k.
Proof. exact survive2_refuted. Qed.
Print Assumptions C84_request_refuted.
