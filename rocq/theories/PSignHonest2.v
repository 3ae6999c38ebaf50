(** A device enrols with the parties of C73. *)
From Coq Require Import ZifyBool ZifyNat ZifyN.
From Verif Require Import Base PBase MOs MBase64 MSerialize MVoucher MCrypto MRequest MHeap MArray MVoucherHeap MConfig MHandlers MLog MSerialHeap MRequestHeap MEnrolLog MEnrolLogHeap MHandlerHeap MEnrolHeap MSignCert MSignHeap
  SBase64 SHeap SArray SConfig SJson SVoucher SRequest SHandlers SPledge SChain SLog SVoucherHeap SSerialHeap SRequestHeap SEnrolLog SEnrolLogHeap SHandlerHeap SHonestHeap SEnrolHeap SSignCert SSignHeap SSignHonest
  PBase64 PHeap PArray PConfig PRequest PRequest6 PRequest7 PEnrolLog2 PMasa PMasa2 PRegistrar PRegistrar2 PPledge PPledge2 PPledge3 PPledge4 PChain PChain2 PRequestHeap12 PHandlerHeap3 PHandlerHeap6 PHandlerHeap10 PHonestHeap PHonestHeap2 PHonestHeap3 PHonestHeap4 PEnrolHeap2 PSignCert2 PSignCert3 PSignHeap4 PSignHonest.
Open Scope N_scope.

Definition own_case : bytes := [1; 2] ++ s2b "0123456789ABCDE" ++ [160].
Definition out_case : bytes := [1; 5; 2] ++ s2b "0123456789ABCDE" ++ [160].

Lemma honest_enrolment_case :
  (exists h', full_sign_cert_command toy pledge_world pledge_case_conf case_text case_device (contact 404 [] [2; 7])
     (full_registrar_service toy registrar_world registrar_case_conf nn_full (full_masa_service toy masa_world masa_case_conf PMasa.masa_case) full_case pledge_view (PPledge4.server [2; 7]))
     (full_enrol_service toy_sign registrar_world registrar_case_conf nn_full seen_new 1700000000 true [] full_case PEnrolHeap2.client (beqb (pem [7; 7]))) case_heap = Ok (0%Z, h') /\ both_arrays case_heap h' out_case [1; 2]) /\
  (exists cms1 cms3 h' log', pledge_sends toy pledge_world (pledge_case_files (s2b "CQ==")) (contact 404 [] [2; 7]) cms1 /\
     registrar_works toy toy_sign registrar_world registrar_case_conf nn_full seen_new (full_masa_service toy masa_world masa_case_conf PMasa.masa_case) full_case []
       [Asks (Some PEnrolHeap2.client) (rfc_encode cms1); Enrols (Some PEnrolHeap2.client) (rfc_encode own_case) 1700000000 true] = Ok ([(200%Z, rfc_encode cms3); (200%Z, rfc_encode out_case)], h', log') /\
     kept (hp_next full_case) full_case h' /\ no_leak (hp_next full_case) h' /\
     (true = true -> forall l e, seen_new out_case = Some l -> describes 1700000000 PEnrolHeap2.client l e -> exists line, entry_text e line /\ log' = [] ++ line)).
Proof.
  assert (CN : cstr_ok (s2b "CQ==")) by (apply cstr_okb_ok; reflexivity). assert (DR : date_ready tm_case) by (right; vm_compute; repeat split; discriminate).
  assert (T3 : exists t3, serialize_str2time (mf_expires masa_case_files) = Some t3 /\ date_ready t3).
  { destruct (serialize_str2time (mf_expires masa_case_files)) as [t3|] eqn:E; [|vm_compute in E; discriminate]. exists t3. split; [reflexivity|]. vm_compute in E. injection E as <-. right. vm_compute. repeat split; discriminate. }
  destruct T3 as (t3 & T3 & D3). destruct (case_setting issued (or_introl eq_refl)) as (S1 & S2 & S3 & S4 & S5 & S6 & S7 & S8 & S9 & S10 & S11 & S12).
  eapply (honest_enrolment toy pledge_world registrar_world masa_world pledge_case_conf (pledge_case_files (s2b "CQ==")) registrar_case_conf registrar_case_files masa_case_conf masa_case_files ca_case
    case_heap full_case full_case PMasa.masa_case case_text nn_full toy_sign seen_new 1700000000 true [] [] (beqb (pem [7; 7])) PEnrolHeap2.client (PPledge4.server [2; 7]) case_device (contact 404 [] [2; 7]) 1 tm_case tm_case t3 (s2b "A") (Some [9]) (s2b "maker CA") [2; 7] [7; 7]
    [1; 0] [1] None None (id_store 3) [2; 0] [2] None None (id_store 1) [3; 0] [3] None None (id_store 2) None (id_store 1) [1; 2] own_case out_case).
  - exact toy_sane.
  - exact toy_genuine.
  - exact pledge_world_ok.
  - exact registrar_world_ok.
  - exact masa_world_ok.
  - exact S3.
  - exact full_case_wf.
  - exact full_case_wf.
  - exact masa_case_wf.
  - exact S4.
  - intros a. reflexivity.
  - intros a. reflexivity.
  - intros a. reflexivity.
  - exact S5.
  - exact full_case_config.
  - exact full_case_config.
  - exact ca_case_config.
  - exact ca_case_config.
  - exact masa_case_config.
  - exact S6.
  - exact full_case_names.
  - exact full_case_names.
  - exact S11.
  - apply pledge_view_ok. reflexivity.
  - exact pledge_view_short.
  - apply server_ok. apply bytes_okb_ok. reflexivity.
  - apply contact_ok; apply bytes_okb_ok; reflexivity.
  - exact S10.
  - exact toy_sign_ok.
  - exact seen_new_short.
  - reflexivity.
  - reflexivity.
  - exact T3.
  - exact DR.
  - exact DR.
  - exact D3.
  - reflexivity.
  - constructor; [unfold plain_char; vm_compute; repeat split; discriminate|constructor].
  - reflexivity.
  - split; [intros n Hn; cbn [PEnrolHeap2.client cs_view pledge_view cv_issuer_entry cv_subject_entry]; split; [discriminate|destruct (beqb n (s2b "serialNumber")); discriminate]|]. exists (s2b "A"). split; reflexivity.
  - exists [9]. split; [vm_compute; reflexivity|reflexivity].
  - intros x Q. injection Q as <-. split; [discriminate|apply bytes_okb_ok; reflexivity].
  - reflexivity.
  - discriminate.
  - exists 404%Z, [], (PPledge4.server [2; 7]). split; [reflexivity|]. split; [lia|reflexivity].
  - reflexivity.
  - discriminate.
  - discriminate.
  - split; [reflexivity|]. split; [reflexivity|]. split; [reflexivity|]. split; [reflexivity|]. apply id_list. reflexivity.
  - split; [reflexivity|]. split; [reflexivity|]. split; [reflexivity|]. split; [reflexivity|]. split; [reflexivity|]. apply id_list. reflexivity.
  - split; [reflexivity|]. split; [reflexivity|]. split; [reflexivity|]. split; [reflexivity|]. split; [reflexivity|]. split; [apply id_list; reflexivity|]. split; [reflexivity|]. apply id_list. reflexivity.
  - vm_compute. reflexivity.
  - apply toy_trusts. lia.
  - apply toy_trusts. lia.
  - apply toy_trusts. lia.
  - apply toy_trusts. lia.
  - exists [2; 7], [2; 7], [7; 7], None, [[2; 7]]. split; [apply ba_of_has|]. repeat split; discriminate.
  - exists rnd1. split; [reflexivity|]. split; [reflexivity|]. vm_compute. reflexivity.
  - discriminate.
  - vm_compute. reflexivity.
  - exists [5; 0], [5]. split; [reflexivity|]. split; [reflexivity|]. vm_compute. reflexivity.
  - discriminate.
  - vm_compute. reflexivity.
  - vm_compute. reflexivity.
Qed.

(** The enrolment can be described in the log. *)
Lemma enrolment_described : exists l e, seen_new out_case = Some l /\ describes 1700000000 PEnrolHeap2.client l e.
Proof.
  exists (PEnrolLog2.named (Some (s2b "B")) 1), (mk_enrolled 1700000000 1 (Some (s2b "A")) 1 (Some (s2b "B"))). split; [reflexivity|].
  split; [|split; [|split; [reflexivity|split; [reflexivity|split; [eexists; split; reflexivity|split; [reflexivity|eexists; split; reflexivity]]]]]].
  all: intros n Hn; cbn [NNAMES In] in Hn; repeat (destruct Hn as [<-|Hn]; [split; vm_compute; discriminate|]); destruct Hn.
Qed.
