(** Property theorem C45: concurrent requests to the MASA. *)
From Verif Require Import Base PBase MOs MBase64 MSerialize MVoucher MCrypto MRequest MHeap MArray MVoucherHeap MConfig MHandlers MConcurrent SBase64 SHeap SArray SConfig SVoucher SRequest SHandlers SConcurrent SConcurrentReg SConcurrentMasa
  PRequest6 PMasa PMasa2 PConcurrent PConcurrentMasa3.
Open Scope N_scope.

(** C45 is false: requests that are answered with a voucher when served alone,
    interleaved, use memory another request has released. *)
Theorem C45_refuted : exists o w c f h bodies is k, ossl_sane o /\ world_ok w /\ heap_wf h /\ plenty h /\ masa_config h c f /\ Forall bytes_ok bodies /\
  (forall body, In body bodies -> exists text ld' h', masa_requestvoucher o w c 0 h body = Ok (200%Z, text, ld', h')) /\
  schedule is (h, 0, map (masa_steps o w c) bodies) = UB k.
Proof. exact interleaving_refuted. Qed.
Print Assumptions C45_refuted.

(** C45 for serial schedules: any number of requests, in any order, each running
    to its end before the next begins. The server survives exactly when no request
    is one it does not survive alone, each answer is the one the request gets
    alone, and nothing is left behind. Missing: schedules in which requests
    overlap, for which the property is false. *)
Theorem C45_serial_partial : forall o w c f bodies pl h, ossl_sane o -> world_ok w -> heap_wf h -> plenty h -> masa_config h c f -> Forall bytes_ok bodies -> serial (List.length bodies) pl ->
  (exists e, In e pl /\ masa_crash w f (nth (fst e) bodies [])) /\ (exists k, schedule (steps_of pl) (h, 0, map (masa_steps o w c) bodies) = UB k) \/
  ~ (exists e, In e pl /\ masa_crash w f (nth (fst e) bodies [])) /\ (exists h' ld' ps, schedule (steps_of pl) (h, 0, map (masa_steps o w c) bodies) = Ok (h', ld', ps) /\
    kept (hp_next h) h h' /\ no_leak (hp_next h) h' /\
    forall e, In e pl -> exists s r, nth_error ps (fst e) = Some (Ret s r) /\ masa_answer o w f (nth (fst e) bodies []) (s, r)).
Proof. exact serial_plan. Qed.
Print Assumptions C45_serial_partial.

Example C45_case : serial 2 [(1, 30); (0, 40)]%nat /\
  match schedule (steps_of [(1, 30); (0, 40)]%nat) (masa_case, 0, map (masa_steps toy masa_world masa_case_conf) [good_request; s2b "AAAA"]) with
  | Ok (_, _, [Ret s1 _; Ret s2 r2]) => s1 = 200%Z /\ s2 = 400%Z /\ r2 = []
  | _ => False
  end.
Proof.
  split; [|vm_compute; repeat split]. split; [cbn; repeat (constructor; [cbn; intuition lia|]); constructor|]. repeat (constructor; [cbn; lia|]). constructor.
Qed.

(** C45, exactly: requests to a MASA with a complete configuration, interleaved in
    any way and all run to their end, make the server use released memory if and
    only if one of them is a request it does not survive alone, or some request
    loads the domain certificate while another one still holds its own. *)
Theorem C45_exact : forall o w c f h bodies is, ossl_sane o -> world_ok w -> heap_wf h -> plenty h -> masa_config h c f -> Forall bytes_ok bodies -> masa_usable w f ->
  (forall i, (i < List.length bodies)%nat -> (30 <= turns is i)%nat) ->
  ((exists k, schedule is (h, 0, map (masa_steps o w c) bodies) = UB k) <-> Exists (masa_crash w f) bodies \/ ~ exclusive o w f bodies is).
Proof. exact overlap_exact. Qed.
Print Assumptions C45_exact.

(** C45 for all schedules in which the requests keep out of each other's way,
    finished or not: the server survives, every answer given is the one the request
    gets alone, every request that has run long enough is answered, and when all
    are, nothing is left behind. *)
Theorem C45_overlap_partial : forall o w c f h bodies is, ossl_sane o -> world_ok w -> heap_wf h -> plenty h -> masa_config h c f -> Forall bytes_ok bodies -> masa_usable w f ->
  exclusive o w f bodies is -> (forall i, In i is -> (i < List.length bodies)%nat -> ~ masa_crash w f (nth i bodies [])) ->
  exists h' ld' ps, schedule is (h, 0, map (masa_steps o w c) bodies) = Ok (h', ld', ps) /\ kept (hp_next h) h h' /\ List.length ps = List.length bodies /\
    (forall i s r, nth_error ps i = Some (Ret s r) -> masa_answer o w f (nth i bodies []) (s, r)) /\
    (forall i, (i < List.length bodies)%nat -> (30 <= turns is i)%nat -> exists s r, nth_error ps i = Some (Ret s r)) /\
    (Forall answered ps -> no_leak (hp_next h) h').
Proof. exact overlap_answers. Qed.
Print Assumptions C45_overlap_partial.

(** Two requests that overlap: both have decoded their bodies before the first
    goes on, and its clean-up is interrupted by the second. *)
Example C45_overlap_case : masa_usable masa_world masa_case_files /\
  exclusive toy masa_world masa_case_files [good_request; s2b "AAAA"] ([0; 1; 1; 0] ++ repeat 0 11 ++ repeat 1 8 ++ repeat 0 30 ++ repeat 1 30)%nat /\
  match schedule ([0; 1; 1; 0] ++ repeat 0 11 ++ repeat 1 8 ++ repeat 0 30 ++ repeat 1 30)%nat (masa_case, 0, map (masa_steps toy masa_world masa_case_conf) [good_request; s2b "AAAA"]) with
  | Ok (_, _, [Ret s1 _; Ret s2 r2]) => s1 = 200%Z /\ s2 = 400%Z /\ r2 = []
  | _ => False
  end.
Proof.
  split; [|split; [apply quiet_exclusive; vm_compute; reflexivity|vm_compute; repeat split]].
  split; [vm_compute; discriminate|]. split; [vm_compute; discriminate|]. split; [vm_compute; discriminate|]. split; [vm_compute; discriminate|].
  unfold masa_lists. repeat (apply Forall_cons; [intros (t & Hi & E); vm_compute in Hi; repeat (destruct Hi as [<-|Hi]; [vm_compute in E; discriminate E|]); destruct Hi|]). apply Forall_nil.
Qed.
(** Two requests that do not keep apart. *)
Example C45_clash_case : ~ exclusive toy masa_world masa_case_files [good_request; good_request] (repeat 0 3 ++ repeat 1 40 ++ repeat 0 40)%nat /\
  exists k, schedule (repeat 0 3 ++ repeat 1 40 ++ repeat 0 40)%nat (masa_case, 0, map (masa_steps toy masa_world masa_case_conf) [good_request; good_request]) = UB k.
Proof.
  split; [|eexists; vm_compute; reflexivity]. intros H. apply (H [0; 0; 0; 1; 1]%nat 1%nat (repeat 1 37 ++ repeat 0 40)%nat eq_refl ltac:(cbn; lia) eq_refl 0%nat ltac:(cbn; lia) ltac:(discriminate)). left. vm_compute. lia.
Qed.
