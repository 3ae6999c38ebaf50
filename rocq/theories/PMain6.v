(** Proofs about the program: cases and findings. *)
From Verif Require Import Base PBase MOs MBase64 MSerialize MVoucher MCrypto MRequest MHeap MArray MVoucherHeap MConfig MHandlers MLog MSignCert MMain SBase64 SHeap SArray SConfig SVoucher SRequest SHandlers SPledge SLog SSignCert SMain
  PHeap PArray PConfig PConfigMore PRequest6 PMasa PPledge3 PPledge4 PSignCert3 PMain PMain2 PMain3 PMain4 PMain5.
Open Scope N_scope.

(** *** What main does *)
Lemma main_answers : forall e name args o c m h r h', outside_ok e -> heap_wf h -> plenty h -> Forall cstr_ok args -> asks_for args o c -> (c <> CGetSerial -> e_ini e (op_config o) = Some m) ->
  main e name args h = Ok (r, h') -> answers e m o c r.
Proof.
  intros e name args o c m h r h' OK W PL TA AF EI E.
  assert (D : c = CGetSerial \/ c <> CGetSerial) by (destruct c; ((left; reflexivity) || (right; discriminate))). destruct D as [->|NC].
  - destruct (main_serial_run e name args o h W PL AF) as (r' & h'' & E2 & D). rewrite E in E2. injection E2 as -> _. exact D.
  - destruct (main_command e name args o c m h OK W PL TA AF NC (EI NC)) as [[_ [k E2]]|[_ (r' & h'' & E2 & R)]]; rewrite E in E2; [discriminate E2|]. injection E2 as -> _. exact R.
Qed.
Lemma main_survives : forall e name args o c m h, outside_ok e -> heap_wf h -> plenty h -> Forall cstr_ok args -> asks_for args o c -> (c <> CGetSerial -> e_ini e (op_config o) = Some m) ->
  ((exists k, main e name args h = UB k) <-> crashes e m o c).
Proof.
  intros e name args o c m h OK W PL TA AF EI. assert (D : c = CGetSerial \/ c <> CGetSerial) by (destruct c; ((left; reflexivity) || (right; discriminate))). destruct D as [->|NC].
  - destruct (main_serial_run e name args o h W PL AF) as (r' & h'' & E2 & D). rewrite E2. cbn [crashes]. split; [intros [k Q]; discriminate Q|tauto].
  - destruct (main_command e name args o c m h OK W PL TA AF NC (EI NC)) as [[U [k E2]]|[NU (r' & h'' & E2 & R)]]; rewrite E2; split; try tauto; [eauto|intros [k Q]; discriminate Q].
Qed.
Lemma main_unread_status : forall e name args o c h r h', heap_wf h -> plenty h -> asks_for args o c -> c <> CGetSerial -> e_ini e (op_config o) = None -> main e name args h = Ok (r, h') -> r = mk_ending 1 [] [].
Proof. intros e name args o c h r h' W PL AF NC EI E. destruct (main_unread e name args o c h W PL AF NC EI) as (h2 & E2). rewrite E in E2. injection E2 as -> _. reflexivity. Qed.
Lemma main_unread_survives : forall e name args o c h k, heap_wf h -> plenty h -> asks_for args o c -> c <> CGetSerial -> e_ini e (op_config o) = None -> main e name args h <> UB k.
Proof. intros e name args o c h k W PL AF NC EI. destruct (main_unread e name args o c h W PL AF NC EI) as (h2 & E2). rewrite E2. discriminate. Qed.

(** The names of the files. *)
Lemma short_name : forall out ext, blen out + blen ext <= 254 -> firstn 254 (out ++ ext) = out ++ ext.
Proof. intros out ext L. apply firstn_all2. rewrite app_length. unfold blen in L. lia. Qed.
Lemma names_pair : forall e name args o m h r h', outside_ok e -> heap_wf h -> plenty h -> Forall cstr_ok args -> asks_for args o CSignCert -> e_ini e (op_config o) = Some m ->
  main e name args h = Ok (r, h') -> en_status r = 0%Z -> op_out o <> [] -> blen (op_out o) <= 250 ->
  exists cert key t t', enrol_gives e m o key cert /\ e_pem_cert e cert = Some t /\ e_pem_key e key = Some t' /\ en_out r = [] /\ en_files r = [(op_out o ++ s2b ".key", t'); (op_out o ++ s2b ".crt", t)].
Proof.
  intros e name args o m h r h' OK W PL TA AF EI E S NE L. pose proof (main_answers e name args o CSignCert m h r h' OK W PL TA AF (fun _ => EI) E) as A. cbn [answers] in A.
  destruct A as [([cert key] & G & SH)|[Q _]]; [|congruence]. cbn [fst snd] in *. destruct SH as [(Q & _)|(_ & t & t' & _ & T1 & _ & T2 & ->)]; [contradiction|].
  rewrite !short_name by (change (blen (s2b ".crt")) with 4; change (blen (s2b ".key")) with 4; lia). exists cert, key, t, t'. auto.
Qed.

(** *** A case *)
Definition main_world : world := mk_world (files_case [(s2b "pledge", [1; 0]); (s2b "masa", [3; 0]); (s2b "tls", [2; 7])]) (files_case [(s2b "pledgekey", [1])]) (Some tm_case).
Definition main_file (certs : list (bytes * bytes)) (tls : list (bytes * bytes)) : ini_file :=
  [(s2b "pledge", certs ++ [(s2b "serialNumber", s2b "A"); (s2b "nonce", s2b "CQ=="); (s2b "cmsVerifyStorePath", s2b "masa"); (s2b "idevidKeyPath", s2b "i.key"); (s2b "idevidCertPath", s2b "i.crt")]);
   (s2b "registrar", tls)].
Definition signing : list (bytes * bytes) := [(s2b "cmsSignCertPath", s2b "pledge"); (s2b "cmsSignKeyPath", s2b "pledgekey")].
Definition tls_file : list (bytes * bytes) := [(s2b "tlsCertPath", s2b "tls")].
Definition only_at {A} (x no : A) (a : bytes) (p : N) : A := if beqb a (s2b "10.0.0.1") && (p =? 8443) then x else no.
Definition main_case (certs tls : list (bytes * bytes)) : outside :=
  mk_outside (fun n => if beqb n (s2b "brski.ini") then Some (minini (main_file certs tls)) else None) (fun _ => 443)
    toy main_world (sign_device (Some rnd1) (Some [1; 2]))
    (fun _ _ => only_at (contact 404 [] [2; 7]) (fun _ => ((-1)%Z, [], None))) (fun _ _ => only_at (contact 200 (rfc_encode issued) [2; 7]) (fun _ => ((-1)%Z, [], None)))
    (fun _ _ => only_at (fun ca body => (200%Z, s2b "AQI=")) (fun _ _ => ((-1)%Z, [])))
    (fun _ => true) (fun d => Some (s2b "C" ++ d)) (fun d => Some (s2b "K" ++ d)) (fun d => Some (s2b "M" ++ d))
    (fun d => Some (if beqb d [2; 7] then mk_view (fun _ => Some None) (fun n => if beqb n (s2b "serialNumber") then Some (Some (s2b "A-17")) else Some None) None (Some d) else server d)) (rfc_encode issued) (repeat 0 (N.to_nat 4096))
    (fun a p => if p =? 8443 then 3%Z else (-1)%Z) 0%Z.
Definition start_heap : heap := mk_heap 1 (fun _ => Fresh) (fun _ => false).
Lemma start_heap_ok : heap_wf start_heap /\ plenty start_heap.
Proof. split; [|intros a; reflexivity]. split; [reflexivity|]. split; [reflexivity|]. intros a _. reflexivity. Qed.
Lemma main_case_ok : forall certs tls, file_okb (main_file certs tls) = true -> outside_ok (main_case certs tls).
Proof.
  intros certs tls F. split. { intros n m Q. cbn [main_case e_ini] in Q. destruct (beqb n (s2b "brski.ini")); [|discriminate Q]. injection Q as <-. apply minini_ok, file_okb_ok. exact F. }
  split; [exact toy_sane|]. split; [split; apply files_ok; repeat (apply Forall_cons; [reflexivity|]); apply Forall_nil|]. split; [apply sign_device_ok; [exact rnd1_ok|intros d Q; injection Q as <-; apply bytes_okb_ok; reflexivity]|].
  split; [exact issued_ok|]. split; [vm_compute; reflexivity|].
  split; [|split]; intros k c a p; cbn [main_case e_post1 e_post2 e_post3]; unfold only_at; destruct (beqb a _ && (p =? 8443)).
  - apply contact_ok; [constructor|apply bytes_okb_ok; reflexivity].
  - exact refused_ok.
  - apply contact_ok; [exact issued_ok|apply bytes_okb_ok; reflexivity].
  - exact refused_ok.
  - apply sign_reply_ok, bytes_okb_ok. reflexivity.
  - exact refused_ca_ok.
Qed.
Definition line (out : list bytes) (cmd : bytes) : list bytes := [s2b "-dc"; s2b "brski.ini"; s2b "-p8443"] ++ out ++ [s2b "-a"; s2b "10.0.0.1"; cmd].
Definition prog : bytes := s2b "/usr/bin/brski".

Definition status_of (x : outcome (ending * heap)) : option ending := match x with Ok (r, _) => Some r | UB _ => None end.
Lemma status_ok : forall x r, status_of x = Some r -> exists h, x = Ok (r, h).
Proof. intros [[r' h]|k] r Q; [injection Q as ->; eauto|discriminate Q]. Qed.
Lemma status_ub : forall x, status_of x = None -> exists k, x = UB k.
Proof. intros [[r' h]|k] Q; [discriminate Q|eauto]. Qed.

(** *** Findings *)
Lemma port_refuted : (forall e name h, main e name [s2b "-p"; s2b "https"; s2b "registrar"] h = main e name [s2b "registrar"] h) /\
  (forall e name h, main e name [s2b "-p"; s2b "-1"; s2b "registrar"] h = main e name [s2b "-p"; s2b "4294967295"; s2b "registrar"] h).
Proof.
  split; intros e name h; unfold main.
  - replace (process_options [s2b "-p"; s2b "https"; s2b "registrar"]) with (process_options [s2b "registrar"]) by (vm_compute; reflexivity). reflexivity.
  - replace (process_options [s2b "-p"; s2b "-1"; s2b "registrar"]) with (process_options [s2b "-p"; s2b "4294967295"; s2b "registrar"]) by (vm_compute; reflexivity). reflexivity.
Qed.
Lemma help_refuted : forall e name args h l, ~ In 0 name -> stops args l -> l = LHelp \/ l = LNothing \/ l = LNoCommand -> exists k, main e name args h = UB k.
Proof. intros e name args h l N S L. rewrite (main_stops e name args l h S N). destruct L as [->|[-> | ->]]; eauto. Qed.
Definition long_name : bytes := repeat 97 (N.to_nat 253).
Lemma names_refuted : exists e name args o m h r h' n t t', outside_ok e /\ heap_wf h /\ plenty h /\ Forall cstr_ok args /\ asks_for args o CSignCert /\ e_ini e (op_config o) = Some m /\
  main e name args h = Ok (r, h') /\ en_status r = 0%Z /\ en_files r = [(n, t'); (n, t)] /\ t <> t' /\ n <> op_out o ++ s2b ".crt" /\ n <> op_out o ++ s2b ".key".
Proof.
  assert (S : exists h', main (main_case signing tls_file) prog (line [s2b "-o"; long_name] (s2b "sign")) start_heap = Ok (mk_ending 0 [] [(long_name ++ s2b ".", s2b "K" ++ [1; 2]); (long_name ++ s2b ".", s2b "C" ++ [1; 2])], h')) by (apply status_ok; vm_compute; reflexivity).
  destruct S as [h' S]. exists (main_case signing tls_file), prog, (line [s2b "-o"; long_name] (s2b "sign")), (mk_options true (s2b "brski.ini") [] long_name 8443 (s2b "10.0.0.1")), (minini (main_file signing tls_file)), start_heap, (mk_ending 0 [] [(long_name ++ s2b ".", s2b "K" ++ [1; 2]); (long_name ++ s2b ".", s2b "C" ++ [1; 2])]), h', (long_name ++ s2b "."), (s2b "C" ++ [1; 2]), (s2b "K" ++ [1; 2]).
  split; [apply main_case_ok; vm_compute; reflexivity|]. destruct start_heap_ok as [W PL]. split; [exact W|]. split; [exact PL|].
  split. { repeat (apply Forall_cons; [apply cstr_okb_ok; vm_compute; reflexivity|]). apply Forall_nil. }
  split; [apply options_exact; vm_compute; reflexivity|]. split; [reflexivity|]. split; [exact S|]. split; [reflexivity|]. split; [reflexivity|].
  split; [intros Q; discriminate Q|]. split; vm_compute; intros Q; discriminate Q.
Qed.
Lemma crash_witness : forall certs tls cmd c, file_okb (main_file certs tls) = true -> process_options (line [] cmd) = inl (mk_options true (s2b "brski.ini") [] [] 8443 (s2b "10.0.0.1"), c) ->
  status_of (main (main_case certs tls) prog (line [] cmd) start_heap) = None ->
  exists k, asks_for (line [] cmd) (mk_options true (s2b "brski.ini") [] [] 8443 (s2b "10.0.0.1")) c /\ outside_ok (main_case certs tls) /\ e_ini (main_case certs tls) (s2b "brski.ini") = Some (minini (main_file certs tls)) /\ main (main_case certs tls) prog (line [] cmd) start_heap = UB k.
Proof. intros certs tls cmd c F P S. destruct (status_ub _ S) as [k U]. exists k. split; [apply options_exact; exact P|]. split; [apply main_case_ok; exact F|]. split; [reflexivity|exact U]. Qed.
(** A registrar section without tlsCertPath, then epvr; a pledge section without
    cmsSignCertPath, then preq. *)
Lemma survive_refuted : exists e name h o m, outside_ok e /\ heap_wf h /\ plenty h /\ e_ini e (op_config o) = Some m /\ ini_ok m /\ registrar_setting m (s2b "tlsCertPath") = None /\ signs m /\
  exists args k, Forall cstr_ok args /\ asks_for args o CExportPvr /\ main e name args h = UB k.
Proof.
  destruct (crash_witness signing [] (s2b "epvr") CExportPvr ltac:(vm_compute; reflexivity) ltac:(vm_compute; reflexivity) ltac:(vm_compute; reflexivity)) as (k & A & O & I & U).
  destruct start_heap_ok as [W PL]. exists (main_case signing []), prog, start_heap, (mk_options true (s2b "brski.ini") [] [] 8443 (s2b "10.0.0.1")), (minini (main_file signing [])).
  split; [exact O|]. split; [exact W|]. split; [exact PL|]. split; [exact I|]. split; [exact (proj1 O _ _ I)|]. split; [vm_compute; reflexivity|]. split; [split; vm_compute; discriminate|].
  exists (line [] (s2b "epvr")), k. split; [|tauto]. repeat (apply Forall_cons; [apply cstr_okb_ok; vm_compute; reflexivity|]). apply Forall_nil.
Qed.
Lemma survive2_refuted : exists e name h o m, outside_ok e /\ heap_wf h /\ plenty h /\ e_ini e (op_config o) = Some m /\ ini_ok m /\ pledge_setting m (s2b "cmsSignCertPath") = None /\
  exists args k, Forall cstr_ok args /\ asks_for args o CPledgeRequest /\ main e name args h = UB k.
Proof.
  destruct (crash_witness [] tls_file (s2b "preq") CPledgeRequest ltac:(vm_compute; reflexivity) ltac:(vm_compute; reflexivity) ltac:(vm_compute; reflexivity)) as (k & A & O & I & U).
  destruct start_heap_ok as [W PL]. exists (main_case [] tls_file), prog, start_heap, (mk_options true (s2b "brski.ini") [] [] 8443 (s2b "10.0.0.1")), (minini (main_file [] tls_file)).
  split; [exact O|]. split; [exact W|]. split; [exact PL|]. split; [exact I|]. split; [exact (proj1 O _ _ I)|]. split; [vm_compute; reflexivity|].
  exists (line [] (s2b "preq")), k. split; [|tauto]. repeat (apply Forall_cons; [apply cstr_okb_ok; vm_compute; reflexivity|]). apply Forall_nil.
Qed.
(** A port of the line as a numeral is the port used. *)
Lemma port_used : forall e name ps more rest p n h r h' m, outside_ok e -> heap_wf h -> plenty h -> Forall piece_ok ps -> Forall cstr_ok (written ps more) -> operands ps more = s2b "registrar" :: rest ->
  given 112 ps = Some p -> numeral p n -> 0 < n < 4294967296 -> e_ini e (or_empty (given 99 ps)) = Some m ->
  main e name (written ps more) h = Ok (r, h') -> starts (e_registrar e (address_of m (or_empty (given 97 ps))) n) r.
Proof.
  intros e name ps more rest p n h r h' m OK W PL P TA OP GP NP L EI E.
  assert (AF : asks_for (written ps more) (mk_options (loud ps) (or_empty (given 99 ps)) (or_empty (given 105 ps)) (or_empty (given 111 ps)) n (or_empty (given 97 ps))) CRegistrar).
  { exists ps, more, (s2b "registrar"), rest. split; [exact P|]. split; [reflexivity|]. split; [exact OP|]. split; [reflexivity|]. split; [reflexivity|]. do 4 (split; [reflexivity|]). rewrite GP. exact (numeral_port p n NP (proj2 L)). }
  pose proof (main_answers e name _ _ CRegistrar m h r h' OK W PL TA AF (fun _ => EI) E) as A. cbn [answers] in A. unfold port_of in A. cbn [op_port op_address] in A. replace (n =? 0) with false in A by (symmetry; apply N.eqb_neq; lia). exact A.
Qed.
