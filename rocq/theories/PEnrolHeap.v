(** Proofs about the registrar's enrolment endpoint with all its memory. *)
From Coq Require Import Permutation.
From Verif Require Import Base PBase MOs MBase64 MSerialize MVoucher MCrypto MRequest MHeap MArray MVoucherHeap MConfig MHandlers MEnrolLog MEnrolLogHeap MHandlerHeap MEnrolHeap
  SBase64 SHeap SArray SConfig SVoucher SRequest SHandlers SEnrolLog SEnrolLogHeap SHandlerHeap SEnrolHeap
  PBase64 PHeap PArray PBlocks PKlist PConfig PConfigMore PCertFiles POwn PAcquire PAcquire2 PMasa PEnroll PEnrolLog PEnrolLogHeap PHold PHandlerHeap PHandlerHeap5.
Open Scope N_scope.

(** Recording with enough memory: the heap is extended and nothing new is left. *)
Lemma save_runs_clean : forall nn now opens log icert lcert h, heap_wf h -> plenty h -> names_at (hp_next h) nn h -> (forall c, icert = Some c -> short_view (cs_view c)) -> short_view (cs_view lcert) ->
  exists log' h', h_save_to_log nn now opens log icert lcert h = Ok (log', h') /\ later (hp_next h) h h' /\ kst (hp_next h) h' [] /\ save_to_log now opens log icert lcert = Ok log'.
Proof.
  intros nn now opens log icert lcert h W PL NA SI SL. unfold h_save_to_log. remember (hp_next h) as base eqn:EB.
  assert (K0 : kst base h []) by (rewrite EB; apply kst_init; exact W).
  assert (NPO : forall h' x, later base h h' -> hp_oom h' x = true -> False) by (intros h' x [_ Q] Q2; rewrite Q, PL in Q2; discriminate).
  destruct (kst_new base h [] K0) as (I & h1 & E1 & L1 & C1). rewrite E1. cbn [obind]. destruct C1 as [(_ & O1 & _)|(I0 & K1)]; [exfalso; exact (NPO _ _ (later_refl base h) O1)|].
  destruct (kst_new base h1 _ K1) as (S & h2 & E2 & L2 & C2). rewrite E2. cbn [obind]. pose proof (later_trans _ _ _ _ L1 L2) as L02. destruct C2 as [(_ & O2 & _)|(S0 & K2)]; [exfalso; exact (NPO _ _ L1 O2)|].
  rewrite (proj2 (N.eqb_neq _ _) I0), (proj2 (N.eqb_neq _ _) S0). cbn [orb].
  destruct (kst_meta base nn (option_map cs_view icert) h2 I S [I] [S] [] K2 (names_later _ _ _ _ NA L02)) as [(NP & E3)|[(h3 & it & FI & it2 & FS & E3 & L3 & K3 & G)|(h3 & li & FI & ls & FS & E3 & L3 & K3 & G)]].
  { intros v Hv. destruct icert as [c|]; [|discriminate]. injection Hv as <-. apply SI. reflexivity. }
  - exfalso. apply NP. eapply later_plenty; eassumption.
  - rewrite E3. cbn [obind]. change ((-1 <? 0)%Z) with true. cbv iota. assert (K3' : kst base h3 ([(I, it, FI); (S, it2, FS)] ++ [])) by (eapply kst_perm; [apply perm_swap|exact K3]).
    destruct (kst_free_all base _ h3 [] K3') as (h4 & E4 & L4 & K4). cbn [map fst] in E4. rewrite E4. cbn [obind]. exists log, h4. split; [reflexivity|].
    split; [eapply later_trans; [exact L02|eapply later_trans; eassumption]|]. split; [exact K4|]. unfold save_to_log. rewrite G by (eapply later_plenty; [exact L02|exact PL]). reflexivity.
  - rewrite E3. cbn [obind]. change ((0 <? 0)%Z) with false. cbv iota. pose proof (later_trans _ _ _ _ L02 L3) as L03.
    destruct icert as [ic|]; [|cbn [option_map crypto_getcert_meta] in G; discriminate]. cbn [option_map] in G.
    destruct (kst_new base h3 _ K3) as (I' & h4 & E4 & L4 & C4). rewrite E4. cbn [obind]. pose proof (later_trans _ _ _ _ L03 L4) as L04. destruct C4 as [(_ & O4 & _)|(I0' & K4)]; [exfalso; exact (NPO _ _ L03 O4)|].
    destruct (kst_new base h4 _ K4) as (S' & h5 & E5 & L5 & C5). rewrite E5. cbn [obind]. pose proof (later_trans _ _ _ _ L04 L5) as L05. destruct C5 as [(_ & O5 & _)|(S0' & K5)]; [exfalso; exact (NPO _ _ L04 O5)|].
    rewrite (proj2 (N.eqb_neq _ _) I0'), (proj2 (N.eqb_neq _ _) S0'). cbn [orb].
    assert (FREE4 : forall hx a b fa fb, later base h hx -> kst base hx ((S', a, fa) :: (I', b, fb) :: [(S, ls, FS); (I, li, FI)]) -> exists hy, free_lists hx [I; S; I'; S'] = Ok hy /\ later base h hy /\ kst base hy []).
    { intros hx a b fa fb LX KX. assert (KX' : kst base hx ([(I, li, FI); (S, ls, FS); (I', b, fb); (S', a, fa)] ++ [])).
      { eapply kst_perm; [|exact KX]. rewrite app_nil_r. apply Permutation_sym. apply (Permutation_rev [(I, li, FI); (S, ls, FS); (I', b, fb); (S', a, fa)]). }
      destruct (kst_free_all base _ hx [] KX') as (hy & EY & LY & KY). exists hy. split; [exact EY|]. split; [eapply later_trans; eassumption|exact KY]. }
    destruct (kst_meta base nn (Some (cs_view lcert)) h5 I' S' [I'] [S'] _ K5 (names_later _ _ _ _ NA L05)) as [(NP & E6)|[(h6 & jt & FJ & jt2 & FT & E6 & L6 & K6 & G6)|(h6 & mi & FJ & ms & FT & E6 & L6 & K6 & G6)]].
    { intros v Hv. injection Hv as <-. exact SL. }
    + exfalso. apply NP. eapply later_plenty; eassumption.
    + rewrite E6. cbn [obind]. change ((-1 <? 0)%Z) with true. cbv iota. destruct (FREE4 h6 _ _ _ _ (later_trans _ _ _ _ L05 L6) K6) as (h7 & E7 & L7 & K7). rewrite E7. cbn [obind].
      exists log, h7. split; [reflexivity|]. split; [exact L7|]. split; [exact K7|]. unfold save_to_log. cbn [option_map]. rewrite G. cbn [obind]. rewrite G6 by (eapply later_plenty; [exact L05|exact PL]). reflexivity.
    + rewrite E6. cbn [obind]. change ((0 <? 0)%Z) with false. cbv iota. pose proof (later_trans _ _ _ _ L05 L6) as L06.
      assert (SV : save_to_log now opens log (Some ic) lcert = Ok (if opens then log ++ log_line now (get_uint64 (cs_serial ic)) (crypto_getcert_serial ls) (get_uint64 (cs_serial lcert)) (crypto_getcert_serial ms) else log)).
      { unfold save_to_log. cbn [option_map]. rewrite G. cbn [obind]. rewrite G6. cbn [obind]. destruct opens; reflexivity. }
      destruct opens.
      2:{ cbn [N.eqb obind]. destruct (FREE4 h6 _ _ _ _ L06 K6) as (h7 & E7 & L7 & K7). rewrite E7. cbn [obind]. exists log, h7. auto. }
      destruct (kst_alloc base h6 _ (Buf []) K6) as (f & h7 & E7 & L7 & [(-> & NP & K7)|(F0 & R7 & W7 & h8 & E8 & L8 & K8)]); rewrite E7; [exfalso; apply NP; eapply later_plenty; eassumption|].
      rewrite (proj2 (N.eqb_neq _ _) F0). apply Forall_cons_iff in R7. destruct R7 as [RS' R7]. apply Forall_cons_iff in R7. destruct R7 as [RI' R7]. apply Forall_cons_iff in R7. destruct R7 as [RS R7]. cbn [fst snd] in RS', RS.
      rewrite (klist_items _ _ _ _ W7 RS). cbn [obind]. rewrite (klist_items _ _ _ _ W7 RS'). cbn [obind]. cbv zeta. rewrite E8. cbn [obind].
      destruct (FREE4 h8 _ _ _ _ (later_trans _ _ _ _ L06 L8) K8) as (h9 & E9 & L9 & K9). rewrite E9. cbn [obind]. eexists _, h9. split; [reflexivity|]. split; [exact L9|]. split; [exact K9|exact SV].
Qed.

Lemma kst_ext : forall h h', later (hp_next h) h h' -> kst (hp_next h) h' [] -> ext h h' /\ st (hp_next h) h' [].
Proof.
  intros h h' [K O] (On & _). pose proof On as (W & B & L). cbn [flat_map] in On, L. split; [split; [exact W|split; [exact B|split; [exact K|exact O]]]|].
  split; [exact On|]. split; [constructor|]. split; [constructor|intros a []].
Qed.

(** The recording inside the endpoint. *)
Lemma record_runs : forall nn seen now opens log peer out h base l, (forall d l, seen d = Some l -> short_view (cs_view l)) -> (forall c, peer = Some c -> short_view (cs_view c)) ->
  heap_wf h -> plenty h -> names_at (hp_next h) nn h -> st base h l ->
  exists log' h', record_enrolment nn seen now opens log peer out h = Ok (log', h') /\ ext h h' /\ st base h' l /\
    match seen out with None => Ok log | Some scert => save_to_log now opens log peer scert end = Ok log'.
Proof.
  intros nn seen now opens log peer out h base l SE SP W PL NA S. unfold record_enrolment. destruct (seen out) as [lc|] eqn:Es.
  2:{ exists log, h. split; [reflexivity|]. split; [apply ext_refl; exact W|]. split; [exact S|reflexivity]. }
  destruct (buf_arrives h out W PL) as (x & h1 & E1 & X0 & A1 & _). rewrite E1, (proj2 (N.eqb_neq _ _) X0). pose proof (proj1 A1) as Ex1. destruct (arrived_list _ _ _ _ _ S A1) as [Fx S1].
  destruct (save_runs_clean nn now opens log peer lc h1 (proj1 Ex1) (ext_plenty _ _ Ex1 PL) (ext_names _ _ _ Ex1 NA) SP (SE _ _ Es)) as (log' & h2 & E2 & L2 & K2 & SV). rewrite E2. cbn [obind].
  destruct (kst_ext _ _ L2 K2) as [Ex2 S2]. pose proof (st_acquire _ _ _ _ _ S1 Ex2 S2) as S3. cbn [app] in S3. pose proof (ext_trans _ _ _ Ex1 Ex2) as Ex02.
  destruct (st_free _ _ _ _ _ S3) as (h3 & E3 & S4 & [_ R3] & N3 & O3). cbn [free_owned] in E3. rewrite E3. cbn [obind]. exists log', h3. split; [reflexivity|].
  split; [|split; [exact S4|exact SV]]. pose proof Ex02 as (W2 & L02 & K02 & O02). split; [eapply st_wf; exact S4|]. split; [lia|]. split; [|congruence]. intros a Ha. rewrite R3; [apply K02; exact Ha|].
  intros Q. destruct A1 as (_ & F' & SA). destruct S3 as (_ & Ow & _). apply Forall_cons_iff in Ow. destruct Ow as [Ow _]. cbn [owns fst snd] in Ow. destruct Ow as [[-> _]|(_ & _ & ->)]; [congruence|].
  destruct Q as [<-|[]]. destruct SA as (_ & Ow' & _ & Bl). apply Forall_cons_iff in Ow'. destruct Ow' as [Ow' _]. cbn [owns fst snd] in Ow'. destruct Ow' as [[-> _]|(_ & _ & ->)]; [congruence|].
  assert (hp_next h <= x); [|lia]. apply Bl. left. reflexivity.
Qed.

(** The endpoint with all its memory gives what the endpoint with a recording on the
    side gives. *)
Definition both (h : heap) (r r' : outcome (Z * bytes * heap * bytes)) : Prop :=
  exists status response h1 h2 log', r = Ok (status, response, h1, log') /\ r' = Ok (status, response, h2, log') /\ ext h h1 /\ st (hp_next h) h1 [].
Lemma both_ret : forall h h1 l xs nulls status response (log : bytes), st (hp_next h) h1 l -> ext h h1 -> Forall is_null nulls -> Permutation xs (nulls ++ map fst l) ->
  both h (obind (cleanup h1 xs) (fun h => Ok (status, response, h, log))) (obind (cleanup h1 xs) (fun h => Ok (status, response, h, log))).
Proof.
  intros h h1 l xs nulls status response log S E Nl Pm. destruct (cleanup_all _ _ _ _ nulls S Nl Pm) as (h2 & E2 & S2 & K2 & Hn & Ho). rewrite E2. cbn [obind].
  exists status, response, h2, h2, log. split; [reflexivity|]. split; [reflexivity|]. split; [|exact S2].
  pose proof E as (W1 & N1 & K1 & O1). split; [eapply st_wf; exact S2|]. split; [lia|]. split; [|congruence]. intros a Ha. rewrite K2 by lia. apply K1. exact Ha.
Qed.

Lemma full_enroll_run : forall sc w c cert key nn seen now opens log h peer body, (forall k ct tbs out, sc k ct tbs = Some out -> bytes_ok out) ->
  (forall d l, seen d = Some l -> short_view (cs_view l)) -> (forall i, peer = Some i -> short_view (cs_view i)) ->
  heap_wf h -> plenty h -> names_at (hp_next h) nn h -> heap_string h (rc_ca_cert c) = Ok cert -> heap_string h (rc_ca_key c) = Ok key -> bytes_ok body ->
  (bad_padding (c_string body) /\ exists k, full_est_simpleenroll sc w c nn seen now opens log h peer body = UB k) \/
  (~ bad_padding (c_string body) /\ both h (full_est_simpleenroll sc w c nn seen now opens log h peer body) (enroll_logged sc w c h seen now opens log peer body)).
Proof.
  intros sc w c cert key nn seen now opens log h peer body SC SE SP W PL NA Cc Ck B. unfold full_est_simpleenroll, enroll_logged. rewrite c_str_ok. cbn [obind]. cbv zeta.
  pose proof (st_init h W) as S0. set (base := hp_next h) in *.
  pose proof (decode_arrives h (c_string body) W PL (c_string_bytes _ B)) as D. destruct (rfc_decode (c_string body)) as [m|] eqn:Ed.
  - right. split; [rewrite decode_bad; intros [Q _]; congruence|]. destruct D as (p & h1 & E1 & P0 & A1 & LB). rewrite E1. cbn [obind].
    destruct (Z.ltb_spec (Z.of_N (blen m)) 0) as [Q|_]; [lia|].
    pose proof (proj1 A1) as Ex1. destruct (arrived_list _ _ _ _ _ S0 A1) as [Fp S1]. pose proof (proj1 Ex1) as W1. pose proof (ext_plenty _ _ Ex1 PL) as PL1.
    pose proof (cert_arrives (w_cert w) h1 _ _ W1 PL1 (ext_string _ _ _ _ W Ex1 Cc)) as D2. unfold h_file_to_cert, h_file_to_keybuf. destruct (w_cert w cert) as [cd|] eqn:El.
    2:{ rewrite D2. cbn [obind N.eqb]. eapply (both_ret _ _ _ _ [OArr 0; OArr 0]); [exact S1|exact Ex1|null|perm]. }
    destruct D2 as (ct & h2 & E2 & C0 & A2 & B2). rewrite E2. cbn [obind]. rewrite (proj2 (N.eqb_neq _ _) C0). pose proof (ext_trans _ _ _ Ex1 (proj1 A2)) as Ex2.
    destruct (arrived_list _ _ _ _ _ S1 A2) as [Fc S2]. pose proof (proj1 Ex2) as W2. pose proof (ext_plenty _ _ Ex2 PL) as PL2.
    pose proof (cert_arrives (w_key w) h2 _ _ W2 PL2 (ext_string _ _ _ _ W Ex2 Ck)) as D3. destruct (w_key w key) as [kd|] eqn:Ek.
    2:{ rewrite D3. cbn [obind N.eqb]. eapply (both_ret _ _ _ _ [OArr 0]); [exact S2|exact Ex2|null|perm]. }
    destruct D3 as (ky & h3 & E3 & K0 & A3 & B3). rewrite E3. cbn [obind]. rewrite (proj2 (N.eqb_neq _ _) K0). pose proof (ext_trans _ _ _ Ex2 (proj1 A3)) as Ex3.
    destruct (arrived_list _ _ _ _ _ S2 A3) as [Fk S3]. pose proof (proj1 Ex3) as W3. pose proof (ext_plenty _ _ Ex3 PL) as PL3.
    rewrite B3. cbn [obind]. rewrite (ext_barray _ _ _ _ W2 (proj1 A3) B2). cbn [obind].
    rewrite (ext_load_buf _ _ _ _ W1 (ext_trans _ _ _ (proj1 A2) (proj1 A3)) LB). cbn [obind].
    assert (R : forall d, ba_read (ba_of d) = Ok d). { intros d. unfold ba_read. cbn [ba_of ba_data ba_len]. unfold take_mem. rewrite N.leb_refl. unfold blen. rewrite Nat2N.id, firstn_all. reflexivity. }
    rewrite !R. cbn [obind]. rewrite N2Z.id. unfold take_mem. rewrite N.leb_refl. cbn [obind]. replace (firstn (N.to_nat (blen m)) m) with m by (unfold blen; rewrite Nat2N.id, firstn_all; reflexivity).
    destruct (sc kd cd m) as [out|] eqn:Es.
    2:{ eapply (both_ret _ _ _ _ []); [exact S3|exact Ex3|null|perm]. }
    pose proof (SC _ _ _ _ Es) as Bo.
    destruct (buf_arrives h3 out W3 PL3) as (n & h4 & E4 & N0 & A4 & B4). rewrite E4, (proj2 (N.eqb_neq _ _) N0). pose proof (ext_trans _ _ _ Ex3 (proj1 A4)) as Ex4.
    destruct (arrived_list _ _ _ _ _ S3 A4) as [Fn S4].
    assert (S4' : st base h4 ((OBuf p, Fp) :: (OBuf n, Fn) :: (OArr ky, Fk) :: (OArr ct, Fc) :: [])). { eapply st_perm; [|exact S4]. perm. }
    destruct (st_free _ _ _ _ _ S4') as (h5 & E5 & S5 & [_ R5] & N5 & O5). cbn [free_owned] in E5. rewrite E5. cbn [obind].
    assert (Ex5 : ext h h5).
    { pose proof Ex4 as (W4 & L4 & K4 & O4). split; [eapply st_wf; exact S5|]. split; [lia|]. split; [|congruence]. intros a Ha. rewrite R5; [apply K4; exact Ha|]. intros Q.
      assert (base <= a); [|unfold base in *; lia]. destruct S4' as (_ & _ & _ & Bl). apply Bl. change (oprint ((OBuf p, Fp) :: ?l)) with (Fp ++ oprint l). apply in_or_app. left. exact Q. }
    pose proof (proj1 Ex5) as W5. pose proof (ext_plenty _ _ Ex5 PL) as PL5. rewrite (PL5 (hp_next h5)). cbn [negb]. rewrite (encode_spec out Bo).
    destruct (blen out <? SIZE_MAX / 4) eqn:Lo; cbn [obind].
    2:{ eapply (both_ret _ _ _ _ []); [exact S5|exact Ex5|null|perm]. }
    destruct (plenty_alloc h5 (Buf (rfc_encode out ++ [0])) W5 PL5) as (a & h6 & E6 & Aa0 & _ & _ & Ca & _ & Ex56 & O6). rewrite E6.
    destruct (buf_arrives h5 (rfc_encode out ++ [0]) W5 PL5) as (a' & h6' & E6' & _ & A6 & _). rewrite E6 in E6'. injection E6' as <- <-.
    destruct (Z.ltb_spec (Z.of_N (rfc_len (blen out))) 0) as [Q|_]; [lia|].
    rewrite (heap_string_exact h6 a _ Aa0 Ca) by (apply in_or_app; right; left; reflexivity). cbn [obind].
    destruct (arrived_list _ _ _ _ _ S5 A6) as [Fa S6]. pose proof (ext_trans _ _ _ Ex5 Ex56) as Ex6.
    destruct (record_runs nn seen now opens log peer out h6 base _ SE SP (proj1 Ex6) (ext_plenty _ _ Ex6 PL) (ext_names _ _ _ Ex6 NA) S6) as (log' & h7 & E7 & Ex67 & S7 & SV). rewrite E7. cbn [obind]. rewrite SV. cbn [obind].
    assert (Pm : Permutation [OBuf a; OBuf n; OArr ct; OArr ky] ([] ++ map fst [(OBuf a, Fa); (OBuf n, Fn); (OArr ky, Fk); (OArr ct, Fc)])) by perm.
    destruct (cleanup_all _ _ _ _ [] S7 (Forall_nil _) Pm) as (h8 & E8 & S8 & K8 & Hn8 & Ho8). destruct (cleanup_all _ _ _ _ [] S6 (Forall_nil _) Pm) as (h9 & E9 & _). rewrite E8, E9. cbn [obind].
    exists 200%Z, (c_string (rfc_encode out ++ [0])), h8, h9, log'. split; [reflexivity|]. split; [reflexivity|]. split; [|exact S8]. pose proof (ext_trans _ _ _ Ex6 Ex67) as (W7 & N7 & K7 & O7).
    split; [eapply st_wf; exact S8|]. split; [lia|]. split; [|congruence]. intros x Hx. rewrite K8 by (unfold base in *; lia). apply K7. exact Hx.
  - destruct (filter b64_relevant (c_string body)) as [|x r] eqn:Ef.
    + rewrite D. cbn [obind]. change ((-1 <? 0)%Z) with true. cbv iota. right. split; [rewrite decode_bad; intros [_ Q]; congruence|].
      eapply (both_ret _ _ _ _ [OBuf 0; OArr 0; OArr 0]); [exact S0|apply ext_refl; exact W|null|perm].
    + destruct D as (p & h1 & E1 & P0 & Ex1 & S1 & C1). rewrite E1. cbn [obind]. change ((-1 <? 0)%Z) with true. cbv iota. left. split; [apply decode_bad; split; [exact Ed|rewrite Ef; discriminate]|].
      cbn [cleanup]. unfold free_owned at 1. unfold sys_free. rewrite (proj2 (N.eqb_neq _ _) P0), C1. eexists. reflexivity.
Qed.
