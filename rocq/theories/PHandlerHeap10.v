(** The pledge client with complete memory: the results. *)
From Coq Require Import Permutation ZifyBool ZifyNat ZifyN.
From Verif Require Import Base PBase MOs MBase64 MSerialize MVoucher MCrypto MRequest MHeap MArray MVoucherHeap MConfig MHandlers MSerialHeap MRequestHeap MHandlerHeap
  SBase64 SHeap SArray SConfig SVoucher SRequest SHandlers SPledge SSerialHeap SRequestHeap SHandlerHeap
  PBase64 PHeap PArray PBlocks PConfig POwn PHold PVoucherHeap PVoucherHeapFind PVoucherHeapJson PVoucherHeapOom PRequest PRequest2 PRequest3 PRequest4 PRequest6 PRequest7 PMasa PPledge3 PPledge4
  PRequestHeap5 PRequestHeap9 PRequestHeap12 PHandlerHeap PHandlerHeap8 PHandlerHeap9.
Open Scope N_scope.

Lemma full_pledge_exact : forall o w c f post1 post2 h pinned, ossl_sane o -> world_ok w -> heap_wf h -> plenty h -> pledge_config h c f -> pledge_text_ok f -> post_ok post1 -> post_ok post2 ->
  pledge_fits w f post1 -> pinned <> 0 -> hp_cell h pinned = Live (Struct [P 0; I 0]) ->
  ((exists k, full_post_voucher_pledge_request o w c post1 post2 h pinned = UB k) <-> pledge_unsafe o w f post1 post2).
Proof.
  intros o w c f post1 post2 h pinned OS WO W PL CF TX PO1 PO2 FI P0 CP. destruct (full_pledge_run o w c f post1 post2 h pinned OS WO W PL CF TX PO1 PO2 FI P0 CP) as [[U C]|[NU (z' & h1 & lk & Q & D)]]; [tauto|].
  split; [intros [k E]; congruence|intros U; contradiction].
Qed.
Lemma full_pledge_outcome : forall o w c f post1 post2 h pinned z h', ossl_sane o -> world_ok w -> heap_wf h -> plenty h -> pledge_config h c f -> pledge_text_ok f -> post_ok post1 -> post_ok post2 ->
  pledge_fits w f post1 -> pinned <> 0 -> hp_cell h pinned = Live (Struct [P 0; I 0]) -> full_post_voucher_pledge_request o w c post1 post2 h pinned = Ok (z, h') ->
  (z = 0%Z /\ exists tls1 tls2 d, pledge_obtains o w f post1 post2 tls1 tls2 d /\ pinned_at h h' pinned d /\ (pledge_clean o w f post1 post2 -> pinned_result h h' pinned d)) \/
  (z = (-1)%Z /\ (forall tls1 tls2 d, ~ pledge_obtains o w f post1 post2 tls1 tls2 d) /\ kept (hp_next h) h h' /\ (pledge_clean o w f post1 post2 -> no_leak (hp_next h) h')).
Proof.
  intros o w c f post1 post2 h pinned z h' OS WO W PL CF TX PO1 PO2 FI P0 CP E. destruct (full_pledge_run o w c f post1 post2 h pinned OS WO W PL CF TX PO1 PO2 FI P0 CP) as [[_ [k Q]]|[_ (z' & h1 & lk & Q & CL & D)]]; [congruence|].
  rewrite E in Q. injection Q as <- <-. destruct D as [(-> & X & S & N)|(-> & t1 & t2 & d & b & OB & (_ & _ & _ & K) & CP' & CB & S)].
  - right. split; [reflexivity|]. split; [exact N|]. split; [apply X|]. intros C. rewrite (CL C) in S. apply st_leak. exact S.
  - left. split; [reflexivity|]. exists t1, t2, d. split; [exact OB|]. apply st_hold in S. rewrite oprint_bufs in S. destruct (hold_in _ _ _ b S (or_introl eq_refl)) as (_ & _ & _ & B).
    split; [exists b; auto|]. intros C. rewrite (CL C) in S. exists b. split; [exact B|]. split; [exact CP'|]. split; [exact CB|]. split; [exact K|].
    intros a Ha La. destruct S as (_ & _ & _ & _ & V). apply (V a Ha) in La. destruct La as [<-|[]]. reflexivity.
Qed.

(** *** One exchange *)
Definition ask_first : post_cert_fn := contact 400 [] [2; 7].
Definition reply (m : bytes) : post_cert_fn := contact 200 (rfc_encode m) [2; 7].
Lemma cq_ok : cstr_ok (s2b "CQ==").
Proof. apply cstr_okb_ok. reflexivity. Qed.
Lemma pfits : pledge_fits pledge_world (pledge_case_files (s2b "CQ==")) ask_first.
Proof.
  intros tls t s n F Et Es Hn v text Hv Ht. assert (tls = [2; 7]) as -> by (eapply first_fun; [exact F|exists 400%Z, [], (server [2; 7]); repeat split; discriminate]).
  assert (t = tm_case) as -> by (cbn in Et; congruence). assert (s = s2b "A") as -> by (cbn [pledge_case_files pf_serial] in Es; congruence).
  destruct Hn as (d & Q & ->). vm_compute in Q. assert (d = [9]) as -> by congruence. apply pv1_unique in Hv. subst v.
  apply (f_equal (fun o => match o with Ok (Some y) => blen y | _ => 0 end)) in Ht. rewrite <- Ht. vm_compute. reflexivity.
Qed.
Lemma reply_ok : forall m, m = issued \/ m = issued_twice -> post_ok (reply m).
Proof. intros m H. apply contact_ok; apply bytes_okb_ok; [destruct H as [-> | ->]; vm_compute; reflexivity|reflexivity]. Qed.
Lemma reply_clean : pledge_clean toy pledge_world (pledge_case_files (s2b "CQ==")) ask_first (reply issued).
Proof.
  intros tls1 cms tls r m vc vs _ _ _ (s & v & Q & _) Ed L1 L2. assert (r = rfc_encode issued) as -> by (unfold reply, contact in Q; congruence).
  assert (m = issued) as -> by (vm_compute in Ed; symmetry in Ed; vm_compute; congruence).
  intros x c st json Ex Hv. left. intros a Ha R. assert (x = ba_of issued) as -> by congruence. apply toy_verified in Hv. destruct Hv as (d & Hd & _ & ->). assert (d = issued) as -> by (eapply holds_bytes_fun; [exact Hd|right; apply ba_of_has]).
  apply repeated_b in R. pose proof (owning_all a Ha) as Hi. cbn [all_attrs In] in Hi. repeat (destruct Hi as [<-|Hi]; [vm_compute in R; discriminate|]). destruct Hi.
Qed.
Lemma full_pledge_case : exists h', full_post_voucher_pledge_request toy pledge_world pledge_case_conf ask_first (reply issued) (PPledge4.pledge_case (s2b "CQ==")) 8 = Ok (0%Z, h') /\ pinned_result (PPledge4.pledge_case (s2b "CQ==")) h' 8 [7; 7].
Proof.
  set (h := PPledge4.pledge_case (s2b "CQ==")). destruct (full_post_voucher_pledge_request toy pledge_world pledge_case_conf ask_first (reply issued) h 8) as [[z h']|k] eqn:E.
  - assert (QQ : match full_post_voucher_pledge_request toy pledge_world pledge_case_conf ask_first (reply issued) h 8 with Ok (z, h') => (z, match hp_cell h' 8 with Live (Struct [P b; _]) => match hp_cell h' b with Live (Buf d) => d | _ => [] end | _ => [] end) | _ => (7%Z, []) end = (0%Z, [7; 7])) by (vm_compute; reflexivity).
    rewrite E in QQ. exists h'. assert (z = 0%Z) as -> by congruence. split; [reflexivity|].
    destruct (full_pledge_outcome toy pledge_world pledge_case_conf (pledge_case_files (s2b "CQ==")) ask_first (reply issued) h 8 0%Z h' toy_sane pledge_world_ok (pledge_case_wf _) (fun a => eq_refl) (pledge_case_config _ cq_ok) (pledge_case_text _ cq_ok)) as [(_ & t1 & t2 & d & _ & _ & R)|[Q _]];
      [apply contact_ok; apply bytes_okb_ok; reflexivity|apply reply_ok; left; reflexivity|exact pfits|discriminate|reflexivity|exact E| |discriminate Q].
    specialize (R reply_clean). pose proof R as (b & _ & C1 & C2 & _). rewrite C1, C2 in QQ. assert (d = [7; 7]) as -> by congruence. exact R.
  - exfalso. assert (QQ : match full_post_voucher_pledge_request toy pledge_world pledge_case_conf ask_first (reply issued) h 8 with Ok _ => true | _ => false end = true) by (vm_compute; reflexivity). rewrite E in QQ. discriminate QQ.
Qed.

(** A voucher of the MASA that repeats a member is accepted and costs a further
    block. *)
Lemma full_pledge_refuted : exists o w c f post1 post2 h pinned h', ossl_sane o /\ world_ok w /\ heap_wf h /\ plenty h /\ pledge_config h c f /\ pledge_text_ok f /\ post_ok post1 /\ post_ok post2 /\ pledge_fits w f post1 /\
  pinned <> 0 /\ hp_cell h pinned = Live (Struct [P 0; I 0]) /\ full_post_voucher_pledge_request o w c post1 post2 h pinned = Ok (0%Z, h') /\ lost h h' 2.
Proof.
  set (h := PPledge4.pledge_case (s2b "CQ==")).
  set (h' := match full_post_voucher_pledge_request toy pledge_world pledge_case_conf ask_first (reply issued_twice) h 8 with Ok (_, h) => h | _ => h end).
  exists toy, pledge_world, pledge_case_conf, (pledge_case_files (s2b "CQ==")), ask_first, (reply issued_twice), h, 8, h'.
  split; [exact toy_sane|]. split; [exact pledge_world_ok|]. split; [apply pledge_case_wf|]. split; [intros a; reflexivity|]. split; [exact (pledge_case_config _ cq_ok)|]. split; [exact (pledge_case_text _ cq_ok)|].
  split; [apply contact_ok; apply bytes_okb_ok; reflexivity|]. split; [apply reply_ok; right; reflexivity|]. split; [exact pfits|]. split; [discriminate|]. split; [reflexivity|]. split; [vm_compute; reflexivity|].
  exists [97; 110]. split; [repeat constructor; cbn [In]; intuition discriminate|]. split; [reflexivity|].
  repeat (apply Forall_cons; [split; [vm_compute; discriminate|eexists; vm_compute; reflexivity]|]). apply Forall_nil.
Qed.
