(** Proofs about the registrar's enrolment endpoint. *)
From Coq Require Import Permutation.
From Verif Require Import Base PBase MOs MBase64 MSerialize MVoucher MCrypto MRequest MHeap MArray MVoucherHeap MConfig MHandlers SBase64 SHeap SArray SConfig SVoucher SRequest SHandlers
  PBase64 PHeap PArray PBlocks PConfig PConfigMore PCertFiles POwn PAcquire PAcquire2 PMasa.
Open Scope N_scope.

Definition enroll_done (sc : sign_cert_fn) (w : world) (cert key : bytes) (h : heap) (body : bytes) (r : outcome (Z * bytes * heap)) : Prop :=
  exists status response h', r = Ok (status, response, h') /\ ext h h' /\ st (hp_next h) h' [] /\ enroll_answer sc w cert key body (status, response).

Lemma enroll_ret : forall sc w cert key h body h1 l xs nulls status response, st (hp_next h) h1 l -> ext h h1 -> Forall is_null nulls -> Permutation xs (nulls ++ map fst l) ->
  enroll_answer sc w cert key body (status, response) -> enroll_done sc w cert key h body (obind (cleanup h1 xs) (fun h => Ok (status, response, h))).
Proof.
  intros sc w cert key h body h1 l xs nulls status response S E Nl Pm A. destruct (cleanup_all _ _ _ _ nulls S Nl Pm) as (h2 & E2 & S2 & K2 & Hn & Ho). rewrite E2. cbn [obind].
  exists status, response, h2. split; [reflexivity|]. split; [|split; [exact S2|exact A]].
  pose proof E as (W1 & N1 & K1 & O1). split; [eapply st_wf; exact S2|]. split; [lia|]. split; [|congruence]. intros a Ha. rewrite K2 by lia. apply K1. exact Ha.
Qed.

Lemma enroll_run : forall sc w c cert key h peer body, (forall k ct tbs out, sc k ct tbs = Some out -> bytes_ok out) ->
  heap_wf h -> plenty h -> heap_string h (rc_ca_cert c) = Ok cert -> heap_string h (rc_ca_key c) = Ok key -> bytes_ok body ->
  (bad_padding (c_string body) /\ exists k, registrar_est_simpleenroll sc w c h peer body = UB k) \/
  (~ bad_padding (c_string body) /\ enroll_done sc w cert key h body (registrar_est_simpleenroll sc w c h peer body)).
Proof.
  intros sc w c cert key h peer body SC W PL Cc Ck B. unfold registrar_est_simpleenroll. rewrite c_str_ok. cbn [obind]. cbv zeta.
  pose proof (st_init h W) as S0. set (base := hp_next h) in *.
  pose proof (decode_arrives h (c_string body) W PL (c_string_bytes _ B)) as D. destruct (rfc_decode (c_string body)) as [m|] eqn:Ed.
  - right. split; [rewrite decode_bad; intros [Q _]; congruence|]. destruct D as (p & h1 & E1 & P0 & A1 & LB). rewrite E1. cbn [obind].
    destruct (Z.ltb_spec (Z.of_N (blen m)) 0) as [Q|_]; [lia|].
    pose proof (proj1 A1) as Ex1. destruct (arrived_list _ _ _ _ _ S0 A1) as [Fp S1]. pose proof (proj1 Ex1) as W1. pose proof (ext_plenty _ _ Ex1 PL) as PL1.
    pose proof (cert_arrives (w_cert w) h1 _ _ W1 PL1 (ext_string _ _ _ _ W Ex1 Cc)) as D2. unfold h_file_to_cert, h_file_to_keybuf. destruct (w_cert w cert) as [cd|] eqn:El.
    2:{ rewrite D2. cbn [obind N.eqb]. eapply (enroll_ret _ _ _ _ _ _ _ _ _ [OArr 0; OArr 0]); [exact S1|exact Ex1|null|perm|]. right. split; [reflexivity|]. intros (? & ? & _ & (? & ? & Q & _) & _). congruence. }
    destruct D2 as (ct & h2 & E2 & C0 & A2 & B2). rewrite E2. cbn [obind]. rewrite (proj2 (N.eqb_neq _ _) C0). pose proof (ext_trans _ _ _ Ex1 (proj1 A2)) as Ex2.
    destruct (arrived_list _ _ _ _ _ S1 A2) as [Fc S2]. pose proof (proj1 Ex2) as W2. pose proof (ext_plenty _ _ Ex2 PL) as PL2.
    pose proof (cert_arrives (w_key w) h2 _ _ W2 PL2 (ext_string _ _ _ _ W Ex2 Ck)) as D3. destruct (w_key w key) as [kd|] eqn:Ek.
    2:{ rewrite D3. cbn [obind N.eqb]. eapply (enroll_ret _ _ _ _ _ _ _ _ _ [OArr 0]); [exact S2|exact Ex2|null|perm|]. right. split; [reflexivity|]. intros (? & ? & _ & (? & ? & _ & Q & _) & _). congruence. }
    destruct D3 as (ky & h3 & E3 & K0 & A3 & B3). rewrite E3. cbn [obind]. rewrite (proj2 (N.eqb_neq _ _) K0). pose proof (ext_trans _ _ _ Ex2 (proj1 A3)) as Ex3.
    destruct (arrived_list _ _ _ _ _ S2 A3) as [Fk S3]. pose proof (proj1 Ex3) as W3. pose proof (ext_plenty _ _ Ex3 PL) as PL3.
    rewrite B3. cbn [obind]. rewrite (ext_barray _ _ _ _ W2 (proj1 A3) B2). cbn [obind].
    rewrite (ext_load_buf _ _ _ _ W1 (ext_trans _ _ _ (proj1 A2) (proj1 A3)) LB). cbn [obind].
    assert (R : forall d, ba_read (ba_of d) = Ok d). { intros d. unfold ba_read. cbn [ba_of ba_data ba_len]. unfold take_mem. rewrite N.leb_refl. unfold blen. rewrite Nat2N.id, firstn_all. reflexivity. }
    rewrite !R. cbn [obind]. rewrite N2Z.id. unfold take_mem. rewrite N.leb_refl. cbn [obind]. replace (firstn (N.to_nat (blen m)) m) with m by (unfold blen; rewrite Nat2N.id, firstn_all; reflexivity).
    assert (NOT : (forall out, sc kd cd m = Some out -> blen out < SIZE_MAX / 4 -> False) -> enroll_answer sc w cert key body (400%Z, [])).
    { intros Q. right. split; [reflexivity|]. intros (tbs & out & Q1 & (c' & k' & Q2 & Q3 & Q4) & Q5). rewrite Ed in Q1. injection Q1 as <-. assert (c' = cd) as -> by congruence. assert (k' = kd) as -> by congruence. exact (Q _ Q4 Q5). }
    destruct (sc kd cd m) as [out|] eqn:Es.
    2:{ eapply (enroll_ret _ _ _ _ _ _ _ _ _ []); [exact S3|exact Ex3|null|perm|]. apply NOT. intros out Q. discriminate. }
    pose proof (SC _ _ _ _ Es) as Bo.
    destruct (buf_arrives h3 out W3 PL3) as (n & h4 & E4 & N0 & A4 & B4). rewrite E4, (proj2 (N.eqb_neq _ _) N0). pose proof (ext_trans _ _ _ Ex3 (proj1 A4)) as Ex4.
    destruct (arrived_list _ _ _ _ _ S3 A4) as [Fn S4].
    assert (S4' : st base h4 ((OBuf p, Fp) :: (OBuf n, Fn) :: (OArr ky, Fk) :: (OArr ct, Fc) :: [])). { eapply st_perm; [|exact S4]. perm. }
    destruct (st_free _ _ _ _ _ S4') as (h5 & E5 & S5 & [_ R5] & N5 & O5). cbn [free_owned] in E5. rewrite E5. cbn [obind].
    assert (Ex5 : ext h h5).
    { pose proof Ex4 as (W4 & L4 & K4 & O4). split; [eapply st_wf; exact S5|]. split; [lia|]. split; [|congruence]. intros a Ha. rewrite R5; [apply K4; exact Ha|]. intros Q.
      assert (base <= a); [|unfold base in *; lia]. destruct S4' as (_ & _ & _ & Bl). apply Bl. change (oprint ((OBuf p, Fp) :: ?l)) with (Fp ++ oprint l). apply in_or_app. left. exact Q. }
    pose proof (proj1 Ex5) as W5. pose proof (ext_plenty _ _ Ex5 PL) as PL5. rewrite (PL5 (hp_next h5)). cbn [negb]. rewrite (encode_spec out Bo).
    destruct (blen out <? SIZE_MAX / 4) eqn:Lo; cbn [obind].
    2:{ eapply (enroll_ret _ _ _ _ _ _ _ _ _ []); [exact S5|exact Ex5|null|perm|]. apply NOT. intros out' Q. injection Q as <-. lia. }
    destruct (plenty_alloc h5 (Buf (rfc_encode out ++ [0])) W5 PL5) as (a & h6 & E6 & Aa0 & _ & _ & Ca & _ & Ex56 & O6). rewrite E6.
    destruct (buf_arrives h5 (rfc_encode out ++ [0]) W5 PL5) as (a' & h6' & E6' & _ & A6 & _). rewrite E6 in E6'. injection E6' as <- <-.
    destruct (Z.ltb_spec (Z.of_N (rfc_len (blen out))) 0) as [Q|_]; [lia|].
    rewrite (heap_string_exact h6 a _ Aa0 Ca) by (apply in_or_app; right; left; reflexivity). cbn [obind]. rewrite c_string_app by (apply no_nul, rfc_encode_cstr; exact Bo).
    destruct (arrived_list _ _ _ _ _ S5 A6) as [Fa S6]. eapply (enroll_ret _ _ _ _ _ _ _ _ _ []); [exact S6|exact (ext_trans _ _ _ Ex5 Ex56)|null|perm|].
    left. exists m, out. split; [exact Ed|]. split; [exists cd, kd; auto|]. split; [lia|reflexivity].
  - assert (NOT : enroll_answer sc w cert key body (400%Z, [])) by (right; split; [reflexivity|]; intros (tbs & out & Q1 & _); congruence).
    destruct (filter b64_relevant (c_string body)) as [|x r] eqn:Ef.
    + rewrite D. cbn [obind]. change ((-1 <? 0)%Z) with true. cbv iota. right. split; [rewrite decode_bad; intros [_ Q]; congruence|].
      eapply (enroll_ret _ _ _ _ _ _ _ _ _ [OBuf 0; OArr 0; OArr 0]); [exact S0|apply ext_refl; exact W|null|perm|exact NOT].
    + destruct D as (p & h1 & E1 & P0 & Ex1 & S1 & C1). rewrite E1. cbn [obind]. change ((-1 <? 0)%Z) with true. cbv iota. left. split; [apply decode_bad; split; [exact Ed|rewrite Ef; discriminate]|].
      cbn [cleanup]. unfold free_owned at 1. unfold sys_free. rewrite (proj2 (N.eqb_neq _ _) P0), C1. eexists. reflexivity.
Qed.

(** The client's certificate has no influence. *)
Lemma enroll_anyone : forall sc w c h peer body, registrar_est_simpleenroll sc w c h peer body = registrar_est_simpleenroll sc w c h None body.
Proof. reflexivity. Qed.
