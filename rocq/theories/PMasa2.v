(** Concrete runs of the MASA's voucher endpoint. *)
From Verif Require Import Base PBase MOs MBase64 MSerialize MVoucher MCrypto MRequest MHeap MArray MVoucherHeap MConfig MHandlers SBase64 SHeap SArray SConfig SVoucher SRequest SHandlers
  PRequest6 PMasa.
Open Scope N_scope.

Lemma masa_survives_refuted : exists o w c f h body k, ossl_sane o /\ world_ok w /\ heap_wf h /\ plenty h /\ masa_config h c f /\ bytes_ok body /\
  masa_requestvoucher o w c 0 h body = UB k.
Proof.
  exists toy, masa_world, masa_case_conf, masa_case_files, masa_case, (s2b "===="), DoubleFree.
  split; [exact toy_sane|]. split; [exact masa_world_ok|]. split; [exact masa_case_wf|]. split; [intros a; reflexivity|]. split; [exact masa_case_config|]. split; [apply bytes_okb_ok; reflexivity|].
  vm_compute. reflexivity.
Qed.
