(** Property theorems C112: concurrent requests to the registrar. *)
From Verif Require Import Base PBase MOs MBase64 MSerialize MVoucher MCrypto MRequest MHeap MArray MVoucherHeap MConfig MHandlers MConcurrent MConcurrentReg SBase64 SHeap SArray SConfig SVoucher SRequest SHandlers SConcurrentReg
  PRequest6 PRegistrar2 PConcurrentReg5.
Open Scope N_scope.

(** C112: any number of voucher and enrolment requests, interleaved in any way.
    Either one of the requests that has begun is one the registrar does not survive
    when it serves it alone, and the server stops there, or it goes on: the
    configuration is as it was, every answer is the answer that the request gets when
    it is served alone from the initial state, a request that gets 26 turns is
    answered, and when all are answered nothing they allocated is left. *)
Theorem C112_together : forall o sign_cert c f cert key h,
  ossl_sane o -> (forall k ct tbs out, sign_cert k ct tbs = Some out -> bytes_ok out) -> heap_wf h -> plenty h -> registrar_config h c f ->
  heap_string h (rc_ca_cert c) = Ok cert -> heap_string h (rc_ca_key c) = Ok key -> forall reqs is, Forall reg_request_ok reqs ->
  (exists i r, In i is /\ nth_error reqs i = Some r /\ (exists k, reg_alone o sign_cert c h r = UB k) /\ exists k, schedule is (h, 0, map (reg_steps o sign_cert c) reqs) = UB k) \/
  exists h' ps, schedule is (h, 0, map (reg_steps o sign_cert c) reqs) = Ok (h', 0, ps) /\ kept (hp_next h) h h' /\ List.length ps = List.length reqs /\
    (forall i r status response, nth_error reqs i = Some r -> nth_error ps i = Some (Ret status response) -> exists h1, reg_alone o sign_cert c h r = Ok (status, response, h1)) /\
    (forall i, (i < List.length reqs)%nat -> (26 <= turns is i)%nat -> exists p, nth_error ps i = Some p /\ answered p) /\
    (Forall answered ps -> no_leak (hp_next h) h').
Proof. exact reg_together. Qed.
Print Assumptions C112_together.

(** C112: the steps of a request are those of the handler. A request that takes all
    its turns, with no other in between, does what the handler does, whatever the
    heap and the configuration. *)
Theorem C112_steps : forall o sign_cert c r h k, (26 <= k)%nat ->
  schedule (repeat 0%nat k) (h, 0, [reg_steps o sign_cert c r]) = obind (reg_alone o sign_cert c h r) (fun x => let '(status, response, h) := x in Ok (h, 0, [Ret status response])).
Proof. exact reg_steps_alone. Qed.
Print Assumptions C112_steps.

(** Two voucher requests and an enrolment, a step of each in turn. *)
Example C112_case :
  let answer : post_fn := fun _ => (200%Z, s2b "voucher") in
  let reqs := [RVoucher registrar_world answer (Some pledge_view) pledge_body; REnroll registrar_world None (rfc_encode [9; 8; 7]); RVoucher registrar_world refusing None pledge_body] in
  let is := List.concat (repeat [0; 1; 2]%nat 26) in
  ossl_sane toy /\ heap_wf registrar_case /\ plenty registrar_case /\ registrar_config registrar_case registrar_case_conf registrar_case_files /\
  heap_string registrar_case (rc_ca_cert registrar_case_conf) = Ok (s2b "ca") /\ heap_string registrar_case (rc_ca_key registrar_case_conf) = Ok (s2b "cakey") /\ Forall reg_request_ok reqs /\
  match schedule is (registrar_case, 0, map (reg_steps toy toy_sign registrar_case_conf) reqs) with
  | Ok (_, _, [Ret s1 r1; Ret s2 r2; Ret s3 r3]) => s1 = 200%Z /\ r1 = s2b "voucher" /\ s2 = 200%Z /\ r2 = rfc_encode [9; 5; 8; 7] /\ s3 = 400%Z /\ r3 = []
  | _ => False
  end.
Proof.
  cbv zeta. split; [exact toy_sane|]. split; [exact registrar_case_wf|]. split; [intros a; reflexivity|]. split; [exact registrar_case_config|]. split; [reflexivity|]. split; [reflexivity|]. split.
  - repeat (apply Forall_cons; [cbn [reg_request_ok]; repeat split; first [apply registrar_world_ok|exact pledge_body_ok|exact (pledge_view_ok _)|discriminate|apply bytes_okb_ok; reflexivity|idtac]|]).
    all: try apply Forall_nil. all: first [exact pledge_body_ok|eapply pledge_view_ok; eassumption|discriminate].
  - vm_compute. repeat split.
Qed.
(** A request that the registrar does not survive alone stops all the others. *)
Example C112_case_crash :
  let reqs := [REnroll registrar_world None (rfc_encode [9; 8; 7]); REnroll registrar_world None (s2b "====")] in
  (exists k, reg_alone toy toy_sign registrar_case_conf registrar_case (REnroll registrar_world None (s2b "====")) = UB k) /\
  exists k, schedule (List.concat (repeat [0; 1]%nat 26)) (registrar_case, 0, map (reg_steps toy toy_sign registrar_case_conf) reqs) = UB k.
Proof. split; eexists; vm_compute; reflexivity. Qed.
