(** The pledge client with the memory of request.c: the answer. *)
From Coq Require Import Permutation ZifyBool ZifyNat ZifyN.
From Verif Require Import Base PBase MOs MBase64 MSerialize MVoucher MCrypto MRequest MHeap MArray MVoucherHeap MConfig MHandlers MSerialHeap MRequestHeap MHandlerHeap
  SBase64 SHeap SArray SConfig SVoucher SRequest SHandlers SPledge SSerialHeap SRequestHeap SHandlerHeap
  PBase64 PHeap PArray PBlocks PConfig PConfigMore PCertFiles POwn PHold PVoucherHeap PVoucherHeapOom PAcquire PAcquire2 PRequest PRequest2 PRequest3 PRequest4 PRequest5 PRequest6 PRequest7 PMasa PRegistrar
  PRequestHeap PRequestHeap2 PRequestHeap3 PRequestHeap4 PRequestHeap5 PRequestHeap6 PRequestHeap10 PRequestHeap11 PHandlerHeap PHandlerHeap2 PHandlerHeap4 PRequestHeap9 PPledge PPledge2 PPledge3 PHandlerHeap7.
Open Scope N_scope.

(** All but the caller's array is as before. *)
Definition beside (h h' : heap) (pin : N) : Prop :=
  heap_wf h' /\ hp_next h <= hp_next h' /\ hp_oom h' = hp_oom h /\ (forall a, a < hp_next h -> a <> pin -> hp_cell h' a = hp_cell h a).
Lemma beside_ext : forall h h' pin, beside h h' pin -> hp_cell h' pin = hp_cell h pin -> ext h h'.
Proof. intros h h' pin (W & N & O & K) E. split; [exact W|]. split; [exact N|]. split; [|exact O]. intros a Ha. destruct (N.eq_dec a pin) as [->|Na]; [exact E|apply K; assumption]. Qed.
Lemma beside_put : forall h h' pin x, beside h h' pin -> hp_cell h' pin = Live x -> ext (put h pin (Live x)) h'.
Proof.
  intros h h' pin x (W & N & O & K) E. split; [exact W|]. split; [exact N|]. split; [|exact O]. intros a Ha. destruct (N.eq_dec a pin) as [->|Na]; [rewrite put_same; exact E|]. rewrite put_other by exact Na. apply K; assumption.
Qed.
Lemma ext_beside : forall h h' pin, ext h h' -> beside h h' pin.
Proof. intros h h' pin (W & N & K & O). split; [exact W|]. split; [exact N|]. split; [exact O|]. intros a Ha _. apply K. exact Ha. Qed.
Lemma beside_trans : forall h h1 h2 pin, beside h h1 pin -> beside h1 h2 pin -> beside h h2 pin.
Proof. intros h h1 h2 pin (W & N & O & K) (W' & N' & O' & K'). split; [exact W'|]. split; [lia|]. split; [congruence|]. intros a Ha Na. rewrite K' by (try exact Na; lia). apply K; assumption. Qed.
Lemma hold_write : forall base h L p x, hold base h L -> p < base -> p <> 0 -> is_live h p -> hold base (put h p (Live x)) L.
Proof. intros base h L p x H Hp P0 Lp. apply hold_st in H. pose proof (st_write _ _ _ p x H Hp P0 Lp) as Q. apply st_hold in Q. rewrite oprint_bufs in Q. exact Q. Qed.

Definition verify_called (h : heap) (pin : N) (cl : Prop) (m : outcome (Z * heap)) (r : option (barray * option certlist)) : Prop :=
  exists z h' lk, m = Ok (z, h') /\ (cl -> lk = []) /\
    (z = (-1)%Z /\ r = None /\ ext h h' /\ hold (hp_next h) h' lk \/
     z = 0%Z /\ exists d l b, r = Some (ba_of d, l) /\ beside h h' pin /\ hp_cell h' pin = Live (Struct [P b; I (Z.of_N (blen d))]) /\ hp_cell h' b = Live (Buf d) /\ hold (hp_next h) h' (b :: lk)).

Lemma verify_calls : forall o c h m arr nonce tls vc vs pinned s n tb lv ls r, ossl_sane o -> heap_wf h -> plenty h -> string_at h (pl_serial c) s -> array_at h (nonce, 0%nat) n -> array_at h (tls, 0%nat) (Some tb) ->
  h_certlist h vc = Ok lv -> h_certlist h vs = Ok ls -> arr <> 0 -> load_buf h arr = Ok (Some m) -> bytes_ok m -> pinned <> 0 -> hp_cell h pinned = Live (Struct [P 0; I 0]) ->
  verify_masa_pledge_voucher o (Some (ba_of m)) s n (Some tb) None lv ls false true = Ok r ->
  verify_called h pinned (clean o (Some (ba_of m)) lv ls) (pledge_verify o c h (Z.of_N (blen m)) arr nonce tls vc vs pinned) r.
Proof.
  intros o c h m arr nonce tls vc vs pinned s n tb lv ls r OS W PL Ss Sn St Lv Ls A0 LB Bm P0 CP Er. unfold pledge_verify. destruct (Z.ltb_spec (Z.of_N (blen m)) 0) as [Q|_]; [lia|].
  destruct (local h (Struct [P arr; I (Z.of_N (blen m))])) as [a h1] eqn:El. destruct (PRequestHeap6.hold_local _ _ _ _ _ _ (hold_init h W) El) as (X1 & Ea & a0 & Hn1 & Ca & K1 & H1). pose proof (proj1 X1) as W1. pose proof (ext_plenty _ _ X1 PL) as PL1.
  assert (Am : array_at h1 (a, 0%nat) (Some (ba_of m))).
  { cbn [array_at fst snd ba_of ba_len ba_data]. split; [exact a0|]. exists [P arr; I (Z.of_N (blen m))], arr. split; [exact Ca|]. split; [reflexivity|]. split; [reflexivity|]. split; [exact A0|].
    destruct (ok_live_buf _ _ _ LB) as [_ Cc]. split; [|lia]. rewrite K1 by (eexists; exact Cc). exact Cc. }
  assert (Lp : pinned < hp_next h) by (apply live_below; [exact W|eexists; exact CP]).
  assert (CP1 : hp_cell h1 pinned = Live (Struct [P 0; I 0])) by (rewrite K1 by (eexists; exact CP); exact CP).
  pose proof (pledge_by o h1 (a, 0%nat) (pl_serial c) nonce tls 0 vc vs false pinned (Some (ba_of m)) s n tb None lv ls OS W1 Am (ext_string_at _ _ _ _ W X1 Ss) (ext_array_at _ _ _ _ W X1 Sn) (ext_array_at _ _ _ _ W X1 St) eq_refl
    (ext_certlist _ _ _ _ W X1 Lv) (ext_certlist _ _ _ _ W X1 Ls) (ba_bytes_of _ Bm) (or_intror (ex_intro _ _ (ex_intro _ _ CP1)))) as G.
  rewrite (proj2 (N.eqb_neq _ _) P0) in G. cbn [negb] in G. rewrite Er in G. cbn [settles] in G.
  destruct (h_verify_masa_pledge_voucher o h1 _ _ _ _ _ _ _ _ _) as [[[z l] h2]|k]; [|destruct G as [_ Q]; destruct (plenty_not_starved _ PL1 Q)]. destruct G as (W2 & N2 & O2 & K2 & G). cbn [obind].
  assert (NR : ~ refused h1 h2) by (intros Q; apply (plenty_not_starved _ PL1); eapply refused_starved; exact Q).
  assert (B2 : beside h1 h2 pinned) by (split; [exact W2|split; [exact N2|split; [exact O2|exact K2]]]).
  destruct G as [(-> & d & lst & b & F & lk & -> & _ & _ & C2 & Cb & HK & HL & HF)|(-> & Q & Cp & L & HK & HL)].
  - rewrite (HF eq_refl) in HK. cbn [app] in HK.
    pose proof (hold_write _ _ _ _ (Struct [P b; I (Z.of_N (blen d))]) H1 Lp P0 (ex_intro _ _ CP1)) as H1'.
    pose proof (hold_grow _ _ _ _ _ H1' (beside_put _ _ _ _ B2 C2) HK) as H3. assert (H4 : hold (hp_next h) h2 (a :: b :: lk)) by (eapply hold_perm; [|exact H3]; apply Permutation_sym; apply (Permutation_cons_append (b :: lk) a)).
    destruct (hold_free _ _ _ _ H4) as [E5 H5]. rewrite E5. cbn [obind]. exists 0%Z, (put h2 a Freed), lk. split; [reflexivity|]. split; [exact HL|]. right. split; [reflexivity|]. exists d, lst, b. split; [reflexivity|].
    assert (ab : a <> b) by (destruct H4 as (_ & _ & D & _); apply NoDup_cons_iff in D; destruct D as [D _]; intros ->; apply D; left; reflexivity).
    split; [|split; [rewrite put_other by lia; exact C2|split; [rewrite put_other by (intros ->; apply ab; reflexivity); exact Cb|exact H5]]].
    split; [apply (hold_wf _ _ _ H5)|]. split; [change (hp_next (put h2 a Freed)) with (hp_next h2); lia|]. split; [change (hp_oom (put h2 a Freed)) with (hp_oom h2); rewrite O2; apply X1|].
    intros x Hx Nx. rewrite put_other by lia. rewrite K2 by (try exact Nx; lia). apply X1. exact Hx.
  - assert (r = None) as -> by (destruct Q; [assumption|contradiction]). assert (Cp' : hp_cell h2 pinned = hp_cell h1 pinned) by (destruct Cp as [Cp|[Q' _]]; [exact Cp|contradiction]). clear Cp.
    pose proof (beside_ext _ _ _ B2 Cp') as X2. pose proof (hold_grow _ _ _ _ _ H1 X2 HK) as H3. assert (H4 : hold (hp_next h) h2 (a :: L)) by (eapply hold_perm; [|exact H3]; apply Permutation_sym; apply (Permutation_cons_append L a)).
    destruct (hold_free _ _ _ _ H4) as [E5 H5]. rewrite E5. cbn [obind]. exists (-1)%Z, (put h2 a Freed), L. split; [reflexivity|]. split; [intros Cl; destruct (HL Cl eq_refl); [assumption|contradiction]|]. left. split; [reflexivity|]. split; [reflexivity|].
    split; [eapply ext_put_held; [exact (ext_trans _ _ _ X1 X2)|exact H4|left; reflexivity]|exact H5].
Qed.

(** What is signed in this message repeats no member. *)
Definition message_clean (o : ossl) (w : world) (f : pledge_files) (m : option bytes) : Prop :=
  forall m' vc vs, m = Some m' -> cert_list (w_cert w) (pf_verify f) vc -> cert_list (w_cert w) (pf_store f) vs -> clean_content o (Some (ba_of m')) vc vs.
Definition full_verified (o : ossl) (w : world) (f : pledge_files) (tb : bytes) (m : option bytes) (h : heap) (pinned : N) (r : outcome (Z * heap)) : Prop :=
  exists z h' lk, r = Ok (z, h') /\ (message_clean o w f m -> lk = []) /\
     (z = (-1)%Z /\ ext h h' /\ st (hp_next h) h' (bufs lk) /\ (forall m' d, m = Some m' -> ~ pledge_takes o w f tb m' d) \/
      z = 0%Z /\ exists m' d b, m = Some m' /\ pledge_takes o w f tb m' d /\ beside h h' pinned /\ hp_cell h' pinned = Live (Struct [P b; I (Z.of_N (blen d))]) /\ hp_cell h' b = Live (Buf d) /\ st (hp_next h) h' (bufs (b :: lk))).
Lemma full_verify_run : forall o w c f h rc arr m tls tb pinned, ossl_sane o -> world_ok w -> heap_wf h -> plenty h -> pledge_config h c f -> pledge_text_ok f ->
  array_at h (tls, 0%nat) (Some (ba_of tb)) -> bytes_ok tb -> pinned <> 0 -> hp_cell h pinned = Live (Struct [P 0; I 0]) ->
  match m with Some m => rc = Z.of_N (blen m) /\ arr <> 0 /\ load_buf h arr = Ok (Some m) /\ bytes_ok m | None => rc = (-1)%Z end ->
  (verify_crash w f /\ exists k, pledge_verify_handler (pledge_verify o c) w c h rc arr tls pinned = UB k) \/
  (~ verify_crash w f /\ full_verified o w f tb m h pinned (pledge_verify_handler (pledge_verify o c) w c h rc arr tls pinned)).
Proof.
  intros o w c f h rc arr m tls tb pinned OS WO W PL (Ccr & Cse & Cno & Cce & Cke & Cad & Cve & Cst) [TS TN] HT BT P0 CP HM.
  unfold pledge_verify_handler. cbv zeta. pose proof (st_init h W) as S0. set (base := hp_next h) in *.
  assert (FAIL : forall h1 l lk xs nulls, st base h1 (l ++ bufs lk) -> ext h h1 -> Forall is_null nulls -> Permutation xs (nulls ++ map fst l) -> (forall m' d, m = Some m' -> ~ pledge_takes o w f tb m' d) -> (message_clean o w f m -> lk = []) ->
    full_verified o w f tb m h pinned (obind (cleanup h1 xs) (fun h => Ok ((-1)%Z, h)))).
  { intros h1 l lk xs nulls S E Nl Pm A Cl. destruct (cleanup_most _ _ _ _ _ nulls S Nl Pm) as (h2 & E2 & S2 & K2 & Hn & Ho). rewrite E2. cbn [obind]. exists (-1)%Z, h2, lk. split; [reflexivity|]. split; [exact Cl|]. left. split; [reflexivity|]. split; [|auto].
    pose proof E as (W1 & N1 & K1 & O1). split; [eapply st_wf; exact S2|]. split; [lia|]. split; [|congruence]. intros a Ha. rewrite K2 by (unfold base; exact Ha). apply K1. exact Ha. }
  pose proof (fun n h1 nn => nonce_at h _ _ n h1 nn W PL Cno TN) as NAT.
  destruct (nonce_arrives h _ _ W PL Cno TN) as [(no & h1 & nn & E1 & A1 & NT & B1)|[(no & h1 & E1 & N0 & A1 & NT & NB)|(no & h1 & ar & E1 & N0 & R0 & Ex & Sn & Cn & Ca & BP & NT)]]; rewrite E1; cbn [obind negb].
  2:{ left. split; [left; exact NT|]. destruct A1 as [Ex1 [Fn S1]]. destruct (freed_arr _ _ _ _ S1 N0) as (h2 & E2 & k & E3). change (h_free_binary_array h1 no) with (free_owned h1 (OArr no)). rewrite E2. cbn [obind cleanup]. rewrite E3. cbn [obind]. exists k. reflexivity. }
  2:{ left. split; [left; exact NT|]. destruct (cleanup_hold _ _ _ [] [] [] [] no ar 0%Z [] Sn (Permutation_refl _) (Forall_nil _) (Permutation_refl _) N0 R0 Cn Ca) as [k Q]. cbn [app cleanup free_owned] in Q.
      destruct (h_free_binary_array h1 no) as [h2|k2]; [discriminate Q|]. exists k2. reflexivity. }
  assert (NG : nonce_given f nn) by exact NT.
  pose proof (proj1 A1) as Ex1. destruct (arrived_list _ _ _ _ _ S0 A1) as [Fn S1]. pose proof (proj1 Ex1) as W1. pose proof (ext_plenty _ _ Ex1 PL) as PL1.
  destruct (list_arrives (w_cert w) h1 _ _ W1 PL1 (ext_path_list _ _ _ _ W Ex1 Cve)) as [(vc & h2 & lvc & E2 & A2 & B2 & CL2 & NM2)|(vc & h2 & E2 & R0 & Exf & Sf & Cf & Mi)]; rewrite E2; cbn [obind].
  2:{ change ((-1 <? 0)%Z) with true. cbv iota. left. split; [right; left; exact Mi|]. pose proof (st_acquire _ _ _ _ _ S1 Exf Sf) as S2. cbn [app] in S2.
      destruct (cleanup_crash _ _ _ _ [] [OArr no] [] (OList vc) [OList 0] S2 (eq_ind _ (fun z => Permutation _ z) (Permutation_refl _) _ (eq_sym (app_nil_r _))) (Forall_nil _)) as [k Q]; [perm|apply (freed_list h2); assumption|].
      cbn [app] in Q. rewrite Q. cbn [obind]. exists k. reflexivity. }
  change ((0 <? 0)%Z) with false. cbv iota. pose proof (ext_trans _ _ _ Ex1 (proj1 A2)) as Ex2. destruct (arrived_list _ _ _ _ _ S1 A2) as [Fv S2]. pose proof (proj1 Ex2) as W2. pose proof (ext_plenty _ _ Ex2 PL) as PL2.
  destruct (list_arrives (w_cert w) h2 _ _ W2 PL2 (ext_path_list _ _ _ _ W Ex2 Cst)) as [(vs & h3 & lvs & E3 & A3 & B3 & CL3 & NM3)|(vs & h3 & E3 & R0 & Exf & Sf & Cf & Mi)]; rewrite E3; cbn [obind].
  2:{ change ((-1 <? 0)%Z) with true. cbv iota. left. split; [right; right; exact Mi|]. pose proof (st_acquire _ _ _ _ _ S2 Exf Sf) as S3. cbn [app] in S3.
      destruct (cleanup_crash _ _ _ _ [] [OArr no; OList vc] [] (OList vs) [] S3 (eq_ind _ (fun z => Permutation _ z) (Permutation_refl _) _ (eq_sym (app_nil_r _))) (Forall_nil _)) as [k Q]; [perm|apply (freed_list h3); assumption|].
      cbn [app] in Q. rewrite Q. cbn [obind]. exists k. reflexivity. }
  change ((0 <? 0)%Z) with false. cbv iota. pose proof (ext_trans _ _ _ Ex2 (proj1 A3)) as Ex3. destruct (arrived_list _ _ _ _ _ S2 A3) as [Fs S3]. pose proof (proj1 Ex3) as W3. pose proof (ext_plenty _ _ Ex3 PL) as PL3.
  right. split; [intros [Q|[Q|Q]]; [exact (Q _ NG)|contradiction|contradiction]|].
  pose proof (ext_trans _ _ _ (proj1 A2) (proj1 A3)) as X13.
  destruct m as [m|].
  2:{ subst rc. unfold pledge_verify. change ((-1 <? 0)%Z) with true. cbv iota. cbn [obind]. change ((-1 <? 0)%Z) with true. cbv iota. apply (FAIL h3 [(OList vs, Fs); (OList vc, Fv); (OArr no, Fn)] [] _ []); [exact S3|exact Ex3|null|perm|intros m' d Q; discriminate|auto]. }
  destruct HM as (-> & AR0 & LB & BM).
  assert (BN : ba_bytes (option_map ba_of nn)). { destruct nn as [d|]; [|exact Logic.I]. apply ba_bytes_of. unfold nonce_text in NT. destruct (pf_nonce f); [|discriminate]. destruct NT as (d' & Q1 & Q2). injection Q2 as <-. eapply rfc_decode_bytes. exact Q1. }
  destruct (pledge_verify_safe o (Some (ba_of m)) (pf_serial f) (option_map ba_of nn) (ba_of tb) None lvc lvs false true OS (ba_bytes_of _ BM) BN (ba_bytes_of _ BT)) as [r Er].
  assert (TK : forall d, pledge_takes o w f tb m d <-> r = Some (ba_of d, None)).
  { intros d. transitivity (Ok r = Ok (Some (ba_of d, @None certlist))); [|split; [congruence|intros ->; reflexivity]]. rewrite <- Er, (pledge_accepts _ _ _ _ _ _ _ _ _ _ _ OS). split.
    - intros (s & n & vc' & vs' & mv & Q1 & Q2 & Q3 & Q4 & Q5 & Q6 & Q7 & Q8 & Q9). exists (ba_of m), mv, s, d. rewrite <- (cert_list_fun _ _ _ _ CL2 Q3), <- (cert_list_fun _ _ _ _ CL3 Q4) in Q5.
      assert (n = nn) as ->. { unfold nonce_given in *. destruct (pf_nonce f); [|congruence]. destruct Q2 as (? & ? & ->), NG as (? & ? & ->). congruence. }
      split; [reflexivity|]. split; [exact Q1|]. split; [exact Q5|]. split; [exact Q6|]. split; [|auto]. intros nb Q. destruct nn as [x|]; [|discriminate]. injection Q as <-. exists x. split; [apply Q7; discriminate|]. right. apply ba_of_has.
    - intros (mc & mv & s & d' & Q1 & Q2 & Q3 & Q4 & Q5 & Q6 & Q7 & Q8). injection Q1 as <-. assert (d' = d) as -> by (cbv [ba_of] in Q8; congruence).
      exists s, nn, lvc, lvs, mv. split; [exact Q2|]. split; [exact NG|]. split; [exact CL2|]. split; [exact CL3|]. split; [exact Q3|]. split; [exact Q4|]. split; [|auto].
      intros Nn. destruct nn as [x|]; [|congruence]. destruct (Q5 _ eq_refl) as (x' & R1 & R2). destruct R2 as [(R2 & _)|R2]; [discriminate|]. rewrite (ba_has_of _ _ R2) in R1. exact R1. }
  pose proof (verify_calls o c h3 m arr no tls vc vs pinned (pf_serial f) (option_map ba_of nn) (ba_of tb) lvc lvs r OS W3 PL3 (ext_string_at _ _ _ _ W Ex3 (opt_string_at _ _ _ Cse TS)) (ext_array_at _ _ _ _ W1 X13 (NAT _ _ _ E1 NT)) (ext_array_at _ _ _ _ W Ex3 HT)
    (ext_certlist _ _ _ _ W2 (proj1 A3) B2) B3 AR0 (ext_load_buf _ _ _ _ W Ex3 LB) BM P0) as V.
  assert (Lp : pinned < base) by (apply (live_below h pinned W); eexists; exact CP).
  assert (CP3 : hp_cell h3 pinned = Live (Struct [P 0; I 0])) by (rewrite <- CP; apply Ex3; exact Lp).
  destruct (V CP3 Er) as (z & h4 & lk & E4 & HL & D). clear V. rewrite E4. cbn [obind].
  assert (CLN : message_clean o w f (Some m) -> lk = []) by (intros Q; apply HL; apply clean_of; exact (Q m lvc lvs eq_refl CL2 CL3)).
  destruct D as [(-> & -> & X34 & HK)|(-> & d & l & b & -> & B34 & C4 & Cb & HK)].
  - change ((-1 <? 0)%Z) with true. cbv iota. pose proof (st_acquire _ _ _ _ _ S3 X34 (hold_st _ _ _ HK)) as S4. apply (st_perm _ _ _ ([(OList vs, Fs); (OList vc, Fv); (OArr no, Fn)] ++ bufs lk)) in S4; [|apply Permutation_app_comm].
    eapply (FAIL _ _ _ _ []); [exact S4|exact (ext_trans _ _ _ Ex3 X34)|null|perm| |exact CLN]. intros m' d Q Q2. injection Q as <-. apply TK in Q2. discriminate.
  - change ((0 <? 0)%Z) with false. cbv iota. assert (PT : pledge_takes o w f tb m d).
    { apply TK. destruct (proj1 (pledge_accepts _ _ _ _ _ _ _ _ _ _ _ OS) Er) as (mc & mv & s & d' & Q1 & Q2 & Q3 & _). assert (l = None) as -> by (destruct Q3 as (c0 & st0 & js & _ & _ & Q); exact Q). reflexivity. }
    pose proof (st_write _ _ _ pinned (Struct [P b; I (Z.of_N (blen d))]) S3 Lp P0 (ex_intro _ _ CP3)) as S3'.
    pose proof (st_acquire _ _ _ _ _ S3' (beside_put _ _ _ _ B34 C4) (hold_st _ _ _ HK)) as S4. apply (st_perm _ _ _ ([(OList vs, Fs); (OList vc, Fv); (OArr no, Fn)] ++ bufs (b :: lk))) in S4; [|apply Permutation_app_comm].
    destruct (cleanup_part base h4 _ _ [OArr no; OList vc; OList vs] [] S4 (Forall_nil _)) as (h7 & E7 & S8 & [_ R7] & N7 & O7); [perm|]. rewrite E7. cbn [obind]. exists 0%Z, h7, lk. split; [reflexivity|]. split; [exact CLN|]. right. split; [reflexivity|].
    exists m, d, b. split; [reflexivity|]. split; [exact PT|].
    assert (LOW : forall a, a < base -> hp_cell h7 a = hp_cell h4 a). { intros a Ha. apply R7. intros Q. destruct S4 as (_ & _ & _ & Bl). assert (base <= a); [|lia]. apply Bl. rewrite oprint_app. apply in_or_app. left. exact Q. }
    destruct B34 as (W4 & N4 & O4 & K4). split.
    { split; [eapply st_wf; exact S8|]. split; [rewrite N7; assert (hp_next h <= hp_next h3) by apply Ex3; lia|]. split; [rewrite O7, O4; apply Ex3|]. intros a Ha Na. rewrite LOW by exact Ha. rewrite K4; [apply Ex3; exact Ha| |exact Na]. assert (hp_next h <= hp_next h3) by apply Ex3. lia. }
    split; [rewrite LOW by exact Lp; exact C4|]. split; [|exact S8]. rewrite R7; [exact Cb|]. destruct S4 as (_ & _ & ND & _). rewrite oprint_app in ND. intros Q. apply (disjoint_of_NoDup _ _ ND b Q). left. reflexivity.
Qed.
