(** Proofs about the memory of the command sign-cert: outcome and cases. *)
From Coq Require Import Permutation.
From Verif Require Import Base PBase MOs MBase64 MSerialize MVoucher MCrypto MRequest MHeap MArray MVoucherHeap MConfig MHandlers MLog MEnrolLogHeap MHandlerHeap MSignCert MSignHeap SBase64 SHeap SArray SConfig SVoucher SRequest SHandlers SPledge SLog SHandlerHeap SSignCert SSignHeap
  PBase64 PHeap PArray PBlocks PConfig PConfigMore PCertFiles POwn PHold PAcquire PAcquire2 PRequest PRequest2 PRequest3 PRequest4 PRequest5 PRequest6 PRequest7 PMasa PRegistrar PPledge PPledge2 PPledge3 PPledge4 PLog PHandlerHeap PHandlerHeap8 PRequestHeap12 PHandlerHeap9 PHandlerHeap10 PSignCert2 PSignCert3 PSignHeap PSignHeap2 PSignHeap3.
Open Scope N_scope.

Lemma full_command_run : forall o w c f nn dv post1 post2 post3 h, ossl_sane o -> world_ok w -> heap_wf h -> plenty h -> pledge_config h c f -> pledge_text_ok f -> post_ok post1 -> post_ok post2 -> post_ca_ok post3 -> device_ok dv ->
  texts_at nn h -> pledge_fits w f post1 ->
  full_sign_ends o w f dv post1 post2 post3 h (hp_next h) (hp_next h + 1) (full_sign_cert_command o w c nn dv post1 post2 post3 h).
Proof.
  intros o w c f nn dv post1 post2 post3 h OS WO W PL CF TX PO1 PO2 PO3 DO TA FI. unfold full_sign_cert_command.
  assert (A0 : arrs [] h h []) by (split; [apply ext_refl; exact W|]; split; [apply st_init; exact W|constructor]).
  destruct (arrs_local _ _ _ _ A0) as (h1 & E1 & A1 & _ & N1). rewrite E1. destruct (arrs_local _ _ _ _ A1) as (h2 & E2 & A2 & _ & _). rewrite E2. rewrite N1 in *.
  apply full_sign_run; try assumption. eapply arrs_perm; [|exact A2]. apply perm_swap.
Qed.

Lemma full_arrs_kept : forall R h0 h l, arrs R h0 h l -> kept (hp_next h0) h0 h.
Proof. intros R h0 h l ((_ & _ & K & _) & _). exact K. Qed.
Lemma full_arrs_only : forall R h0 h l a, arrs R h0 h l -> hp_next h0 <= a -> is_live h a -> In a (places R l).
Proof. intros R h0 h l a (_ & ((_ & _ & O) & _) & _) L H. apply O; assumption. Qed.

Lemma full_command_outcome : forall o w c f nn dv post1 post2 post3 h z h', ossl_sane o -> world_ok w -> heap_wf h -> plenty h -> pledge_config h c f -> pledge_text_ok f -> post_ok post1 -> post_ok post2 -> post_ca_ok post3 -> device_ok dv ->
  texts_at nn h -> pledge_fits w f post1 -> full_sign_cert_command o w c nn dv post1 post2 post3 h = Ok (z, h') ->
  (z = 0%Z /\ exists key cert, sign_obtains o w f dv post1 post2 post3 key cert /\ arrays_hold h h' cert key /\ (pledge_clean o w f post1 post2 -> both_arrays h h' cert key)) \/
  (z = (-1)%Z /\ (forall key cert, ~ sign_obtains o w f dv post1 post2 post3 key cert) /\ arrays_empty h h' /\ (pledge_clean o w f post1 post2 -> no_arrays h h')).
Proof.
  intros o w c f nn dv post1 post2 post3 h z h' OS WO W PL CF TX PO1 PO2 PO3 DO TA FI E. destruct (full_command_run o w c f nn dv post1 post2 post3 h OS WO W PL CF TX PO1 PO2 PO3 DO TA FI) as [[_ [k Q]]|[_ (z' & h1 & lk & Q & CL & D)]]; [congruence|].
  rewrite E in Q. injection Q as <- <-. destruct D as [(-> & A & N)|(-> & key & cert & bc & bk & S & A & Bc & Bk & Cc & Ck)]; [right|left].
  - split; [reflexivity|]. split; [exact N|]. pose proof A as (_ & _ & F). destruct (cells_inv _ _ _ _ _ F) as (_ & C1 & F1). destruct (cells_inv _ _ _ _ _ F1) as (_ & C2 & _). pose proof (full_arrs_kept _ _ _ _ A) as K.
    split; [split; [exact C1|]; split; [exact C2|exact K]|]. intros Q. rewrite (CL Q) in A.
    split; [exact C1|]. split; [exact C2|]. split; [exact K|]. intros a La Ha. pose proof (full_arrs_only _ _ _ _ _ A La Ha) as Q1. cbn in Q1. destruct Q1 as [<-|[<-|[]]]; auto.
  - split; [reflexivity|]. exists key, cert. split; [exact S|]. pose proof A as (_ & (_ & _ & ND & _) & F). destruct (cells_inv _ _ _ _ _ F) as (_ & C1 & F1). destruct (cells_inv _ _ _ _ _ F1) as (_ & C2 & _). pose proof (full_arrs_kept _ _ _ _ A) as K.
    assert (NE : bc <> bk).
    { intros ->. change (NoDup (snd (slot_owned (hp_next h, bk, Z.of_N (blen cert))) ++ places (bufs lk) [(hp_next h + 1, bk, Z.of_N (blen key))])) in ND.
      eapply disjoint_of_NoDup; [exact ND| |eapply places_b; [left; reflexivity|exact Bk]]. rewrite slot_fst, (proj2 (N.eqb_neq _ _) Bk). right. left. reflexivity. }
    split; [exists bc, bk; split; [split; assumption|]; split; [split; assumption|]; split; [exact NE|exact K]|]. intros Q. rewrite (CL Q) in A. exists bc, bk.
    split; [split; assumption|]. split; [split; assumption|]. split; [exact NE|]. split; [exact K|].
    intros a La Ha. pose proof (full_arrs_only _ _ _ _ _ A La Ha) as Q1. rewrite !places_cons, !slot_fst, (proj2 (N.eqb_neq _ _) Bk), (proj2 (N.eqb_neq _ _) Bc) in Q1. cbn in Q1. destruct Q1 as [<-|[<-|[<-|[<-|[]]]]]; auto.
Qed.

Lemma full_command_survives : forall o w c f nn dv post1 post2 post3 h, ossl_sane o -> world_ok w -> heap_wf h -> plenty h -> pledge_config h c f -> pledge_text_ok f -> post_ok post1 -> post_ok post2 -> post_ca_ok post3 -> device_ok dv ->
  texts_at nn h -> pledge_fits w f post1 -> ((exists k, full_sign_cert_command o w c nn dv post1 post2 post3 h = UB k) <-> sign_unsafe o w f dv post1 post2 post3).
Proof.
  intros o w c f nn dv post1 post2 post3 h OS WO W PL CF TX PO1 PO2 PO3 DO TA FI. destruct (full_command_run o w c f nn dv post1 post2 post3 h OS WO W PL CF TX PO1 PO2 PO3 DO TA FI) as [[U C]|[NU (z' & h1 & lk & Q & D)]]; [tauto|].
  split; [intros [k E]; congruence|intros U; contradiction].
Qed.

Lemma full_command_succeeds : forall o w c f nn dv post1 post2 post3 h key cert, ossl_sane o -> world_ok w -> heap_wf h -> plenty h -> pledge_config h c f -> pledge_text_ok f -> post_ok post1 -> post_ok post2 -> post_ca_ok post3 -> device_ok dv ->
  texts_at nn h -> pledge_fits w f post1 -> sign_obtains o w f dv post1 post2 post3 key cert -> exists h', full_sign_cert_command o w c nn dv post1 post2 post3 h = Ok (0%Z, h') /\ arrays_hold h h' cert key.
Proof.
  intros o w c f nn dv post1 post2 post3 h key cert OS WO W PL CF TX PO1 PO2 PO3 DO TA FI S. destruct (full_command_run o w c f nn dv post1 post2 post3 h OS WO W PL CF TX PO1 PO2 PO3 DO TA FI) as [[U _]|[_ (z & h' & lk & Q & _)]]; [destruct (sign_safe _ _ _ _ _ _ _ _ _ S U)|].
  destruct (full_command_outcome o w c f nn dv post1 post2 post3 h z h' OS WO W PL CF TX PO1 PO2 PO3 DO TA FI Q) as [(-> & k & ct & S' & B & _)|(_ & N & _)]; [|destruct (N _ _ S)].
  exists h'. split; [exact Q|]. destruct S as (r & E & D), S' as (r' & E' & D'). destruct (enrolled_fun _ _ _ _ _ _ _ _ _ _ _ E E') as [<- <-]. rewrite D in D'. injection D' as <-. exact B.
Qed.

(** *** Cases *)
Definition case_text (t : bytes) : N := if beqb t (s2b "C") then 12 else if beqb t (s2b "IE") then 13 else if beqb t (s2b "CN") then 14 else if beqb t (s2b "ldevid-cert") then 15 else 16.
Definition case_heap : heap := mk_heap 17 (cells (pledge_cells (s2b "CQ==") ++ map text subject_texts)) (fun _ => false).
Definition case_device : device := sign_device (Some rnd1) (Some [1; 2]).
Definition case_enrol : post_ca_fn := fun ca body => (200%Z, if beqb ca (pem [7; 7]) then body else []).

Lemma case_wf : heap_wf case_heap.
Proof. apply cells_wf; [lia|vm_compute; lia|reflexivity]. Qed.
Lemma case_ext : ext (pledge_case (s2b "CQ==")) case_heap.
Proof.
  split; [exact case_wf|]. split; [vm_compute; discriminate|]. split; [|reflexivity]. intros a Ha. cbn [pledge_case case_heap hp_cell hp_next] in *. unfold cells. apply app_nth1. change (List.length (pledge_cells (s2b "CQ=="))) with 12%nat. lia.
Qed.
Lemma case_setting : forall m, m = issued \/ m = issued_twice ->
  ossl_sane toy /\ world_ok pledge_world /\ heap_wf case_heap /\ plenty case_heap /\ pledge_config case_heap pledge_case_conf (pledge_case_files (s2b "CQ==")) /\ pledge_text_ok (pledge_case_files (s2b "CQ==")) /\ post_ok ask_first /\ post_ok (reply m) /\
  post_ca_ok case_enrol /\ device_ok case_device /\ texts_at case_text case_heap /\ pledge_fits pledge_world (pledge_case_files (s2b "CQ==")) ask_first.
Proof.
  intros m M. split; [exact toy_sane|]. split; [exact pledge_world_ok|]. split; [exact case_wf|]. split; [intros a; reflexivity|]. split; [exact (ext_pledge _ _ _ _ (pledge_case_wf _) case_ext (pledge_case_config _ cq_ok))|].
  split; [exact (pledge_case_text _ cq_ok)|]. split; [apply contact_ok; apply bytes_okb_ok; reflexivity|]. split; [apply reply_ok; exact M|].
  split; [intros ca body s r B Q; unfold case_enrol in Q; injection Q as _ <-; destruct (beqb ca (pem [7; 7])); [exact B|constructor]|].
  split; [apply sign_device_ok; [exact rnd1_ok|intros d Q; injection Q as <-; apply bytes_okb_ok; reflexivity]|].
  split; [|exact pfits]. intros t [<-|[<-|[<-|[<-|[<-|[]]]]]]; (split; reflexivity).
Qed.

(** Enrolment: all that was added are the two arrays with what is in them. *)
Lemma full_command_case : exists h' cert, full_sign_cert_command toy pledge_world pledge_case_conf case_text case_device ask_first (reply issued) case_enrol case_heap = Ok (0%Z, h') /\
  both_arrays case_heap h' cert [1; 2] /\ cert = [1; 2] ++ s2b "0123456789ABCDE" ++ [160].
Proof.
  destruct (case_setting issued (or_introl eq_refl)) as (S1 & S2 & S3 & S4 & S5 & S6 & S7 & S8 & S9 & S10 & S11 & S12).
  destruct (full_sign_cert_command toy pledge_world pledge_case_conf case_text case_device ask_first (reply issued) case_enrol case_heap) as [[z h']|k] eqn:E.
  - assert (QQ : match full_sign_cert_command toy pledge_world pledge_case_conf case_text case_device ask_first (reply issued) case_enrol case_heap with Ok (z, h') => (z, match hp_cell h' 17 with Live (Struct [P b; _]) => match hp_cell h' b with Live (Buf d) => d | _ => [] end | _ => [] end) | _ => (7%Z, []) end = (0%Z, [1; 2] ++ s2b "0123456789ABCDE" ++ [160])) by (vm_compute; reflexivity).
    rewrite E in QQ. injection QQ as -> QC.
    destruct (full_command_outcome _ _ _ _ _ _ _ _ _ _ _ _ S1 S2 S3 S4 S5 S6 S7 S8 S9 S10 S11 S12 E) as [(_ & key & cert & (rs & EN & _) & _ & B)|[Q _]]; [|discriminate Q].
    specialize (B reply_clean). destruct EN as (? & ? & ? & ? & ? & _ & _ & (? & _ & QK & _) & _). injection QK as <-. exists h', cert. split; [reflexivity|]. split; [exact B|].
    destruct B as (bc & bk & [B1 B2] & _). change (hp_next case_heap) with 17 in B1. rewrite B1, B2 in QC. exact QC.
  - exfalso. assert (QQ : match full_sign_cert_command toy pledge_world pledge_case_conf case_text case_device ask_first (reply issued) case_enrol case_heap with Ok _ => true | _ => false end = true) by (vm_compute; reflexivity). rewrite E in QQ. discriminate QQ.
Qed.

(** With a voucher that repeats a member a fifth block remains. *)
Lemma full_command_refuted : exists o w c f nn dv post1 post2 post3 h h', ossl_sane o /\ world_ok w /\ heap_wf h /\ plenty h /\ pledge_config h c f /\ pledge_text_ok f /\ post_ok post1 /\ post_ok post2 /\ post_ca_ok post3 /\ device_ok dv /\
  texts_at nn h /\ pledge_fits w f post1 /\ full_sign_cert_command o w c nn dv post1 post2 post3 h = Ok (0%Z, h') /\ lost h h' 5.
Proof.
  destruct (case_setting issued_twice (or_intror eq_refl)) as (S1 & S2 & S3 & S4 & S5 & S6 & S7 & S8 & S9 & S10 & S11 & S12).
  set (h' := match full_sign_cert_command toy pledge_world pledge_case_conf case_text case_device ask_first (reply issued_twice) case_enrol case_heap with Ok (_, h) => h | _ => case_heap end).
  exists toy, pledge_world, pledge_case_conf, (pledge_case_files (s2b "CQ==")), case_text, case_device, ask_first, (reply issued_twice), case_enrol, case_heap, h'.
  repeat (split; [assumption|]). split; [vm_compute; reflexivity|].
  exists [17; 18; 32; 119; 135]. split; [repeat constructor; cbn [In]; intuition discriminate|]. split; [reflexivity|].
  repeat (apply Forall_cons; [split; [vm_compute; discriminate|eexists; vm_compute; reflexivity]|]). apply Forall_nil.
Qed.
