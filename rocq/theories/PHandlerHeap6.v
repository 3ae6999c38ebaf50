(** The registrar's voucher endpoint with complete memory: the results. *)
From Coq Require Import Permutation ZifyBool ZifyNat ZifyN.
From Verif Require Import Base PBase MOs MBase64 MSerialize MVoucher MCrypto MRequest MHeap MArray MVoucherHeap MConfig MHandlers MEnrolLog MEnrolLogHeap MSerialHeap MRequestHeap MHandlerHeap
  SBase64 SHeap SArray SConfig SVoucher SRequest SHandlers SEnrolLogHeap SSerialHeap SRequestHeap SHandlerHeap
  PBase64 PHeap PArray PBlocks PConfig POwn PHold PVoucherHeap PVoucherHeapFind PVoucherHeapJson PVoucherHeapOom PRequest PRequest2 PRequest3 PRequest4 PRequest6 PRequest7 PMasa PRegistrar PRegistrar2 PEnrolLogHeap PRequestHeap3 PRequestHeap4 PRequestHeap5 PRequestHeap9 PHandlerHeap PHandlerHeap2 PHandlerHeap3 PHandlerHeap4 PHandlerHeap5.
Open Scope N_scope.

Lemma full_registrar_exact : forall o w c f nn post h reqs, ossl_sane o -> world_ok w -> heap_wf h -> plenty h -> registrar_config h c f -> names_at (hp_next h) nn h -> Forall (request_ok o w f) reqs ->
  ((exists k, full_registrar_serves o w c nn post h reqs = UB k) <-> Exists (fun r => registrar_unsafe o w f (fst r) (snd r)) reqs).
Proof.
  intros o w c f nn post h reqs OS WO W PL RC NA RO. destruct (full_registrar_sequence o w c f nn post reqs h OS WO W PL RC NA RO) as [[C U]|[NC (a & h' & lk & E & _)]]; [tauto|].
  split; [intros [k Q]; congruence|intros Q; contradiction].
Qed.
Lemma full_registrar_answers : forall o w c f nn post h reqs answers h', ossl_sane o -> world_ok w -> heap_wf h -> plenty h -> registrar_config h c f -> names_at (hp_next h) nn h -> Forall (request_ok o w f) reqs ->
  full_registrar_serves o w c nn post h reqs = Ok (answers, h') ->
  Forall2 (fun r => registrar_answer o w f post (fst r) (snd r)) reqs answers /\ kept (hp_next h) h h' /\ (Forall (fun r => registrar_clean o w f (snd r)) reqs -> no_leak (hp_next h) h').
Proof.
  intros o w c f nn post h reqs answers h' OS WO W PL RC NA RO E. destruct (full_registrar_sequence o w c f nn post reqs h OS WO W PL RC NA RO) as [[_ [k Q]]|[_ (a & h1 & lk & E1 & X & HK & Cl & A)]]; [congruence|].
  assert (a = answers) as -> by congruence. assert (h1 = h') as -> by congruence. split; [exact A|]. split; [apply X|]. intros C. rewrite (Cl C) in HK. apply hold_none. exact HK.
Qed.

(** *** A registrar with its constants *)
Definition full_cells : list cell := registrar_cells ++ map (fun n => Live (Buf (n ++ [0]))) NNAMES.
Definition full_case : heap := mk_heap 19 (cells full_cells) (fun _ => false).
Definition nn_full (n : bytes) : N := 8 + nn_case n.
Lemma full_case_wf : heap_wf full_case.
Proof. apply cells_wf; [lia|vm_compute; lia|reflexivity]. Qed.
Lemma full_case_config : registrar_config full_case registrar_case_conf registrar_case_files.
Proof. split; [reflexivity|]. split; [reflexivity|]. split; [reflexivity|]. split; [left; split; reflexivity|]. split; [apply (one_path_list _ 4 6); vm_compute; reflexivity|]. left; split; reflexivity. Qed.
Lemma full_case_names : names_at (hp_next full_case) nn_full full_case.
Proof. intros n Hn. cbn [NNAMES In] in Hn. repeat (destruct Hn as [<-|Hn]; [split; vm_compute; reflexivity|]). destruct Hn. Qed.
Lemma pledge_view_short : short_view pledge_view.
Proof. split; intros n s _ Q; cbn [pledge_view cv_issuer_entry cv_subject_entry] in Q; [discriminate|]. destruct (beqb n (s2b "serialNumber")); [|discriminate]. injection Q as <-. reflexivity. Qed.

(** The pledge's request with a member repeated. *)
Definition again : bytes := 1 :: s2b "{""ietf-voucher:voucher"":{""assertion"":""proximity"",""serial-number"":""A"",""nonce"":""AQID"",""nonce"":""AQID"",""proximity-registrar-cert"":""Agc=""}}".
Definition once : bytes := 1 :: s2b "{""ietf-voucher:voucher"":{""assertion"":""proximity"",""serial-number"":""A"",""nonce"":""AQID"",""proximity-registrar-cert"":""Agc=""}}".
Definition granting : post_fn := fun _ => (200%Z, s2b "voucher").
Lemma rlists : cert_list (w_cert registrar_world) [] None /\ cert_list (w_cert registrar_world) [s2b "maker"] pledges_store.
Proof. split; [reflexivity|]. split; [discriminate|]. constructor; [split; reflexivity|constructor]. Qed.
Lemma rfits : forall m, m = again \/ m = once -> registrar_fits toy registrar_world registrar_case_files (Some pledge_view) (rfc_encode m).
Proof.
  intros m Hm v t s n i m' vc vs pvr Ev Et CS Ei Ed L1 L2 Sy Hn v0 text Hv Ht. assert (v = pledge_view) as -> by congruence. assert (t = tm_case) as -> by (cbn [registrar_world w_now] in Et; congruence).
  assert (i = s2b "maker CA") as -> by (cbn [pledge_view cv_issuer_text] in Ei; congruence).
  assert (s = s2b "A") as -> by (destruct CS as [_ (t & Q & ->)]; vm_compute in Q; assert (t = [65]) as -> by congruence; reflexivity).
  destruct rlists as (C1 & C2). rewrite (cert_list_fun _ _ _ _ L1 C1), (cert_list_fun _ _ _ _ L2 C2) in Sy. clear L1 L2 C1 C2. apply pv2_unique in Hv. subst v0.
  assert (m' = m) as ->. { destruct Hm as [-> | ->]; vm_compute in Ed; symmetry in Ed; vm_compute; congruence. } clear Ed.
  apply verify_says in Sy. assert (Ns : v_nonce pvr = ba_of [1; 2; 3]).
  { apply (f_equal (fun o => match o with Ok (Some (v, _)) => v_nonce v | _ => ba_null end)) in Sy. rewrite <- Sy. destruct Hm as [-> | ->]; vm_compute; reflexivity. }
  unfold nonce_is in Hn. cbn [get_attr_array] in Hn. rewrite Ns in Hn. destruct n as [n|]; [|discriminate Hn]. assert (n = [1; 2; 3]) as -> by (unfold ba_of in Hn; congruence).
  apply (f_equal (fun o => match o with Ok (Some y) => blen y | _ => 0 end)) in Ht. rewrite <- Ht. destruct Hm as [-> | ->]; vm_compute; reflexivity.
Qed.
Lemma rok : forall m, m = again \/ m = once -> request_ok toy registrar_world registrar_case_files (Some pledge_view, rfc_encode m).
Proof.
  intros m Hm. split; [cbn [snd]; apply bytes_okb_ok; destruct Hm as [-> | ->]; vm_compute; reflexivity|]. split; [|apply rfits; exact Hm].
  intros v Q. split; [apply pledge_view_ok; exact Q|]. cbn [fst] in Q. injection Q as <-. exact pledge_view_short.
Qed.
Lemma once_clean : registrar_clean toy registrar_world registrar_case_files (rfc_encode once).
Proof.
  intros m vc vs Ed _ _ x c st json Ex Hv. left. intros a Ha. assert (m = once) as -> by (vm_compute in Ed; symmetry in Ed; vm_compute; congruence). assert (x = ba_of once) as -> by congruence. unfold once in Hv. apply toy_content in Hv. subst json.
  intros R. apply repeated_b in R. pose proof (owning_all a Ha) as Hi. cbn [all_attrs In] in Hi. repeat (destruct Hi as [<-|Hi]; [vm_compute in R; discriminate|]). destruct Hi.
Qed.
Lemma full_once : exists h', full_registrar_serves toy registrar_world registrar_case_conf nn_full granting full_case [(Some pledge_view, rfc_encode once); (Some pledge_view, rfc_encode once)] = Ok ([(200%Z, s2b "voucher"); (200%Z, s2b "voucher")], h') /\ no_leak (hp_next full_case) h'.
Proof.
  pose proof (rok once (or_intror eq_refl)) as RO. set (reqs := [(Some pledge_view, rfc_encode once); (Some pledge_view, rfc_encode once)]).
  assert (FO : Forall (request_ok toy registrar_world registrar_case_files) reqs) by (constructor; [exact RO|constructor; [exact RO|constructor]]).
  destruct (full_registrar_serves toy registrar_world registrar_case_conf nn_full granting full_case reqs) as [[a h']|k] eqn:E.
  - exists h'. assert (AA : a = [(200%Z, s2b "voucher"); (200%Z, s2b "voucher")]).
    { assert (QQ : match full_registrar_serves toy registrar_world registrar_case_conf nn_full granting full_case reqs with Ok (a, _) => a | _ => [] end = [(200%Z, s2b "voucher"); (200%Z, s2b "voucher")]) by (vm_compute; reflexivity). rewrite E in QQ. exact QQ. }
    rewrite AA in *. split; [reflexivity|]. eapply full_registrar_answers; [exact toy_sane|exact registrar_world_ok|exact full_case_wf|intros x; reflexivity|exact full_case_config|exact full_case_names|exact FO|exact E|].
    pose proof once_clean. constructor; [assumption|constructor; [assumption|constructor]].
  - exfalso. assert (QQ : match full_registrar_serves toy registrar_world registrar_case_conf nn_full granting full_case reqs with Ok _ => true | _ => false end = true) by (vm_compute; reflexivity). rewrite E in QQ. discriminate QQ.
Qed.

(** Three requests of a known pledge that repeat a member are granted and cost
    three blocks. *)
Lemma full_registrar_refuted : exists o w c f nn post h v body h', ossl_sane o /\ world_ok w /\ heap_wf h /\ plenty h /\ registrar_config h c f /\ names_at (hp_next h) nn h /\ request_ok o w f (Some v, body) /\
  full_registrar_serves o w c nn post h [(Some v, body); (Some v, body); (Some v, body)] = Ok ([(200%Z, s2b "voucher"); (200%Z, s2b "voucher"); (200%Z, s2b "voucher")], h') /\ lost h h' 3.
Proof.
  set (reqs := [(Some pledge_view, rfc_encode again); (Some pledge_view, rfc_encode again); (Some pledge_view, rfc_encode again)]).
  set (h' := match full_registrar_serves toy registrar_world registrar_case_conf nn_full granting full_case reqs with Ok (_, h) => h | _ => full_case end).
  exists toy, registrar_world, registrar_case_conf, registrar_case_files, nn_full, granting, full_case, pledge_view, (rfc_encode again), h'.
  split; [exact toy_sane|]. split; [exact registrar_world_ok|]. split; [exact full_case_wf|]. split; [intros a; reflexivity|]. split; [exact full_case_config|]. split; [exact full_case_names|]. split; [exact (rok again (or_introl eq_refl))|].
  split; [vm_compute; reflexivity|]. exists [45; 144; 243]. split; [repeat constructor; cbn [In]; intuition discriminate|]. split; [reflexivity|].
  repeat (apply Forall_cons; [split; [vm_compute; discriminate|eexists; vm_compute; reflexivity]|]). apply Forall_nil.
Qed.
