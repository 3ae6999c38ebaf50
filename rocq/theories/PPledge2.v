(** Proofs about the pledge client: the answer. *)
From Coq Require Import Permutation.
From Verif Require Import Base PBase MOs MBase64 MSerialize MVoucher MCrypto MRequest MHeap MArray MVoucherHeap MConfig MHandlers SBase64 SHeap SArray SConfig SVoucher SRequest SHandlers SPledge
  PBase64 PHeap PArray PBlocks PConfig PConfigMore PCertFiles POwn PAcquire PAcquire2 PRequest PRequest2 PRequest3 PRequest4 PRequest5 PRequest6 PRequest7 PMasa PRegistrar PPledge.
Open Scope N_scope.

Lemma ask64_run : forall o w c f h tls tb, ossl_sane o -> world_ok w -> heap_wf h -> plenty h -> pledge_config h c f -> pledge_text_ok f ->
  tls <> 0 -> h_barray h tls = Ok (Some (ba_of tb)) -> bytes_ok tb ->
  (asks_crash w f /\ exists k, voucher_pledge_request_to_base64 o w c h tls = UB k) \/
  (~ asks_crash w f /\ exists text h', voucher_pledge_request_to_base64 o w c h tls = Ok (text, h') /\ ext h h' /\ st (hp_next h) h' [] /\
     match text with
     | None => forall cms, pledge_asks o w f tb cms -> blen cms < SIZE_MAX / 4 -> False
     | Some x => exists cms, pledge_asks o w f tb cms /\ blen cms < SIZE_MAX / 4 /\ x = rfc_encode cms
     end).
Proof.
  intros o w c f h tls tb OS WO W PL CF TX T0 HT BT. unfold voucher_pledge_request_to_base64.
  destruct (ask_run o w c f h tls tb OS WO W PL CF TX T0 HT BT) as [[C [k E]]|[NC (p & h1 & E & Ex1 & D)]]; rewrite E; cbn [obind].
  { left. split; [exact C|]. exists k. reflexivity. }
  right. split; [exact NC|]. destruct D as [(-> & S & N)|(P0 & cms & F & S & B & A)].
  { exists None, h1. cbn [N.eqb]. split; [reflexivity|]. split; [exact Ex1|]. split; [exact S|]. intros cms Q _. exact (N _ Q). }
  rewrite (proj2 (N.eqb_neq _ _) P0). pose proof (proj1 Ex1) as W1. pose proof (ext_plenty _ _ Ex1 PL) as PL1.
  assert (BC : bytes_ok cms) by (destruct A as (? & ? & ? & ? & ? & ? & _ & _ & _ & _ & _ & _ & _ & Q); eapply signed_bytes; [exact OS|exact Q]).
  destruct (encode_step h1 p cms W1 PL1 BC B) as (h2 & E2 & Ex2 & S2). rewrite E2. cbn [obind].
  pose proof (st_acquire _ _ _ _ _ S Ex2 S2) as S3. cbn [app] in S3.
  change (h_free_binary_array h2 p) with (free_owned h2 (OArr p)). destruct (st_free _ _ _ _ _ S3) as (h3 & E3 & S4 & R3 & N3 & O3). rewrite E3. cbn [obind].
  eexists _, h3. split; [reflexivity|]. split.
  { eapply (part_ext h h2 h3 [(OArr p, F)] []); [exact (ext_trans _ _ _ Ex1 Ex2)|exact S3|exact S4| |exact N3|exact O3]; unfold oprint; cbn [map List.concat snd]; rewrite app_nil_r; exact R3. }
  split; [exact S4|]. destruct (N.ltb_spec (blen cms) (SIZE_MAX / 4)) as [L|L].
  - exists cms. auto.
  - intros cms' A' L'. assert (cms' = cms); [|subst; lia].
    destruct A as (t & s & n & ce & ke & ad & Q1 & Q2 & Q3 & Q4 & Q5 & Q6 & Q7 & Q8), A' as (t' & s' & n' & ce' & ke' & ad' & R1 & R2 & R3' & R4 & R5 & R6 & R7 & R8).
    assert (n' = n) as ->. { unfold nonce_given in *. destruct (pf_nonce f); [|congruence]. destruct Q4 as (? & ? & ->), R4 as (? & ? & ->). congruence. }
    rewrite <- (cert_list_fun _ _ _ _ Q7 R7) in R8. assert (t' = t) as -> by congruence. assert (s' = s) as -> by congruence. assert (ce' = ce) as -> by congruence. assert (ke' = ke) as -> by congruence.
    apply (signed_voucher_sign _ _ _ _ _ _ _ (fun v H => pv1_unique v _ _ _ _ H)) in Q8. apply (signed_voucher_sign _ _ _ _ _ _ _ (fun v H => pv1_unique v _ _ _ _ H)) in R8. congruence.
Qed.

(** *** The caller's array *)
Lemma st_write : forall base h l p x, st base h l -> p < base -> p <> 0 -> is_live h p -> st base (MHeap.put h p (Live x)) l.
Proof.
  intros base h l p x S Hp P0 [y Hy]. pose proof S as (O & Ow & ND & B). pose proof O as (W & Hb & _).
  assert (W' : heap_wf (MHeap.put h p (Live x))) by (eapply wf_write; [exact W|exact P0|exact Hy|auto]).
  split; [|split; [|split; assumption]].
  - eapply only_same; [exact O|exact W'|exact Hb|]. intros a Ha. apply put_other. lia.
  - rewrite Forall_forall in *. intros e He. eapply owns_frame; [apply Ow; exact He|]. intros a Ha. apply put_other. assert (base <= a); [|lia]. apply B. eapply oprint_in; [exact He|exact Ha].
Qed.

(** What [verify_masa_pledge_request] does besides checking. *)
Definition filled (h h' : heap) (pinned : N) (d : bytes) : Prop :=
  exists b, b <> 0 /\ hp_next h <= hp_next h' /\ heap_wf h' /\ hp_oom h' = hp_oom h /\ st (hp_next h) h' [(OBuf b, [b])] /\ hp_cell h' b = Live (Buf d) /\
    hp_cell h' pinned = Live (Struct [P b; I (Z.of_N (blen d))]) /\ (forall a, a < hp_next h -> a <> pinned -> hp_cell h' a = hp_cell h a).

Definition verify_crash (w : world) (f : pledge_files) : Prop :=
  (forall n, ~ nonce_given f n) \/ missing (w_cert w) (pf_verify f) \/ missing (w_cert w) (pf_store f).

Lemma freed_arr : forall base h p F, st base h [(OArr p, F)] -> p <> 0 -> exists h', free_owned h (OArr p) = Ok h' /\ exists k, free_owned h' (OArr p) = UB k.
Proof.
  intros base h p F S P0. pose proof S as (_ & Ow & _ & _). inversion Ow as [|? ? O1 _]; subst. cbn [fst snd] in O1. destruct O1 as [[Q _]|O1]; [contradiction|].
  destruct (st_free _ _ _ _ _ S) as (h' & E & _ & [R1 _] & _). exists h'. split; [exact E|].
  assert (Fp : hp_cell h' p = Freed). { apply R1. destruct O1 as (b & n & _ & _ & [[_ ->]|(_ & _ & _ & ->)]); left; reflexivity. }
  cbn [free_owned]. unfold h_free_binary_array. rewrite (proj2 (N.eqb_neq _ _) P0). unfold get_ptr, get_field, load. rewrite (proj2 (N.eqb_neq _ _) P0), Fp. eexists. reflexivity.
Qed.

Lemma verify_run : forall o w c f h rc arr m tls tb pinned, ossl_sane o -> world_ok w -> heap_wf h -> plenty h -> pledge_config h c f -> pledge_text_ok f ->
  h_barray h tls = Ok (Some (ba_of tb)) -> bytes_ok tb -> pinned <> 0 -> hp_cell h pinned = Live (Struct [P 0; I 0]) ->
  match m with Some m => rc = Z.of_N (blen m) /\ load_buf h arr = Ok (Some m) /\ bytes_ok m | None => rc = (-1)%Z end ->
  (verify_crash w f /\ exists k, verify_masa_pledge_request o w c h rc arr tls pinned = UB k) \/
  (~ verify_crash w f /\ exists z h', verify_masa_pledge_request o w c h rc arr tls pinned = Ok (z, h') /\
     (z = (-1)%Z /\ ext h h' /\ st (hp_next h) h' [] /\ (forall m' d, m = Some m' -> ~ pledge_takes o w f tb m' d) \/
      z = 0%Z /\ exists m' d, m = Some m' /\ pledge_takes o w f tb m' d /\ filled h h' pinned d)).
Proof.
  intros o w c f h rc arr m tls tb pinned OS WO W PL (Ccr & Cse & Cno & Cce & Cke & Cad & Cve & Cst) [TS TN] HT BT P0 CP HM.
  unfold verify_masa_pledge_request. cbv zeta. pose proof (st_init h W) as S0. set (base := hp_next h) in *.
  assert (FAIL : forall h1 l xs nulls, st base h1 l -> ext h h1 -> Forall is_null nulls -> Permutation xs (nulls ++ map fst l) -> (forall m' d, m = Some m' -> ~ pledge_takes o w f tb m' d) ->
    exists z h', obind (cleanup h1 xs) (fun h => Ok ((-1)%Z, h)) = Ok (z, h') /\
     (z = (-1)%Z /\ ext h h' /\ st base h' [] /\ (forall m' d, m = Some m' -> ~ pledge_takes o w f tb m' d) \/ z = 0%Z /\ exists m' d, m = Some m' /\ pledge_takes o w f tb m' d /\ filled h h' pinned d)).
  { intros h1 l xs nulls S E Nl Pm A. destruct (cleanup_all _ _ _ _ nulls S Nl Pm) as (h2 & E2 & S2 & K2 & Hn & Ho). rewrite E2. cbn [obind]. exists (-1)%Z, h2. split; [reflexivity|]. left. split; [reflexivity|]. split; [|auto].
    pose proof E as (W1 & N1 & K1 & O1). split; [eapply st_wf; exact S2|]. split; [lia|]. split; [|congruence]. intros a Ha. rewrite K2 by (unfold base; exact Ha). apply K1. exact Ha. }
  destruct (nonce_arrives h _ _ W PL Cno TN) as [(no & h1 & nn & E1 & A1 & NT & B1)|[(no & h1 & E1 & N0 & A1 & NT & NB)|(no & h1 & ar & E1 & N0 & R0 & Ex & Sn & Cn & Ca & BP & NT)]]; rewrite E1; cbn [obind negb].
  2:{ left. split; [left; exact NT|]. destruct A1 as [Ex1 [Fn S1]]. destruct (freed_arr _ _ _ _ S1 N0) as (h2 & E2 & k & E3). change (h_free_binary_array h1 no) with (free_owned h1 (OArr no)). rewrite E2. cbn [obind cleanup]. rewrite E3. cbn [obind]. exists k. reflexivity. }
  2:{ left. split; [left; exact NT|]. destruct (cleanup_hold _ _ _ [] [] [] [] no ar 0%Z [] Sn (Permutation_refl _) (Forall_nil _) (Permutation_refl _) N0 R0 Cn Ca) as [k Q]. cbn [app cleanup free_owned] in Q.
      destruct (h_free_binary_array h1 no) as [h2|k2]; [discriminate Q|]. exists k2. reflexivity. }
  assert (NG : nonce_given f nn) by exact NT.
  pose proof (proj1 A1) as Ex1. destruct (arrived_list _ _ _ _ _ S0 A1) as [Fn S1]. pose proof (proj1 Ex1) as W1. pose proof (ext_plenty _ _ Ex1 PL) as PL1.
  destruct (list_arrives (w_cert w) h1 _ _ W1 PL1 (ext_path_list _ _ _ _ W Ex1 Cve)) as [(vc & h2 & lvc & E2 & A2 & B2 & CL2 & NM2)|(vc & h2 & E2 & R0 & Exf & Sf & Cf & Mi)]; rewrite E2; cbn [obind].
  2:{ change ((-1 <? 0)%Z) with true. cbv iota. left. split; [right; left; exact Mi|]. pose proof (st_acquire _ _ _ _ _ S1 Exf Sf) as S2. cbn [app] in S2.
      destruct (cleanup_crash _ _ _ _ [] [OArr no] [] (OList vc) [OList 0] S2 (eq_ind _ (fun z => Permutation _ z) (Permutation_refl _) _ (eq_sym (app_nil_r _))) (Forall_nil _)) as [k Q]; [perm|apply (freed_list h2); assumption|].
      cbn [app] in Q. rewrite Q. cbn [obind]. exists k. reflexivity. }
  change ((0 <? 0)%Z) with false. cbv iota. pose proof (ext_trans _ _ _ Ex1 (proj1 A2)) as Ex2. destruct (arrived_list _ _ _ _ _ S1 A2) as [Fv S2]. pose proof (proj1 Ex2) as W2. pose proof (ext_plenty _ _ Ex2 PL) as PL2.
  destruct (list_arrives (w_cert w) h2 _ _ W2 PL2 (ext_path_list _ _ _ _ W Ex2 Cst)) as [(vs & h3 & lvs & E3 & A3 & B3 & CL3 & NM3)|(vs & h3 & E3 & R0 & Exf & Sf & Cf & Mi)]; rewrite E3; cbn [obind].
  2:{ change ((-1 <? 0)%Z) with true. cbv iota. left. split; [right; right; exact Mi|]. pose proof (st_acquire _ _ _ _ _ S2 Exf Sf) as S3. cbn [app] in S3.
      destruct (cleanup_crash _ _ _ _ [] [OArr no; OList vc] [] (OList vs) [] S3 (eq_ind _ (fun z => Permutation _ z) (Permutation_refl _) _ (eq_sym (app_nil_r _))) (Forall_nil _)) as [k Q]; [perm|apply (freed_list h3); assumption|].
      cbn [app] in Q. rewrite Q. cbn [obind]. exists k. reflexivity. }
  change ((0 <? 0)%Z) with false. cbv iota. pose proof (ext_trans _ _ _ Ex2 (proj1 A3)) as Ex3. destruct (arrived_list _ _ _ _ _ S2 A3) as [Fs S3]. pose proof (proj1 Ex3) as W3. pose proof (ext_plenty _ _ Ex3 PL) as PL3.
  right. split; [intros [Q|[Q|Q]]; [exact (Q _ NG)|contradiction|contradiction]|].
  pose proof (ext_trans _ _ _ (proj1 A2) (proj1 A3)) as X13.
  rewrite (ext_opt_string _ _ _ _ W Ex3 Cse). cbn [obind]. rewrite (ext_barray _ _ _ _ W1 X13 B1). cbn [obind]. rewrite (ext_barray _ _ _ _ W Ex3 HT). cbn [obind]. rewrite (ext_certlist _ _ _ _ W2 (proj1 A3) B2). cbn [obind]. rewrite B3. cbn [obind].
  destruct m as [m|].
  2:{ subst rc. unfold with_cms. change ((-1 <? 0)%Z) with true. cbv iota. cbn [obind]. eapply (FAIL _ _ _ []); [exact S3|exact Ex3|null|perm|]. intros m' d Q. discriminate. }
  destruct HM as (-> & LB & BM). rewrite (with_cms_ok _ _ _ _ _ (ext_load_buf _ _ _ _ W Ex3 LB)). cbv beta.
  assert (BN : ba_bytes (option_map ba_of nn)). { destruct nn as [d|]; [|exact Logic.I]. apply ba_bytes_of. unfold nonce_text in NT. destruct (pf_nonce f); [|discriminate]. destruct NT as (d' & Q1 & Q2). injection Q2 as <-. eapply rfc_decode_bytes. exact Q1. }
  destruct (pledge_verify_safe o (Some (ba_of m)) (pf_serial f) (option_map ba_of nn) (ba_of tb) None lvc lvs false true OS (ba_bytes_of _ BM) BN (ba_bytes_of _ BT)) as [r Er]. rewrite Er. cbn [obind].
  assert (TK : forall d, pledge_takes o w f tb m d <-> r = Some (ba_of d, None)).
  { intros d. transitivity (Ok r = Ok (Some (ba_of d, @None certlist))); [|split; [congruence|intros ->; reflexivity]]. rewrite <- Er, (pledge_accepts _ _ _ _ _ _ _ _ _ _ _ OS). split.
    - intros (s & n & vc' & vs' & mv & Q1 & Q2 & Q3 & Q4 & Q5 & Q6 & Q7 & Q8 & Q9). exists (ba_of m), mv, s, d. rewrite <- (cert_list_fun _ _ _ _ CL2 Q3), <- (cert_list_fun _ _ _ _ CL3 Q4) in Q5.
      assert (n = nn) as ->. { unfold nonce_given in *. destruct (pf_nonce f); [|congruence]. destruct Q2 as (? & ? & ->), NG as (? & ? & ->). congruence. }
      split; [reflexivity|]. split; [exact Q1|]. split; [exact Q5|]. split; [exact Q6|]. split; [|auto]. intros nb Q. destruct nn as [x|]; [|discriminate]. injection Q as <-. exists x. split; [apply Q7; discriminate|]. right. apply ba_of_has.
    - intros (mc & mv & s & d' & Q1 & Q2 & Q3 & Q4 & Q5 & Q6 & Q7 & Q8). injection Q1 as <-. assert (d' = d) as -> by (cbv [ba_of] in Q8; congruence).
      exists s, nn, lvc, lvs, mv. split; [exact Q2|]. split; [exact NG|]. split; [exact CL2|]. split; [exact CL3|]. split; [exact Q3|]. split; [exact Q4|]. split; [|auto].
      intros Nn. destruct nn as [x|]; [|congruence]. destruct (Q5 _ eq_refl) as (x' & R1 & R2). destruct R2 as [(R2 & _)|R2]; [discriminate|]. rewrite (ba_has_of _ _ R2) in R1. exact R1. }
  destruct r as [[p l]|].
  2:{ eapply (FAIL _ _ _ []); [exact S3|exact Ex3|null|perm|]. intros m' d Q Q2. injection Q as <-. apply TK in Q2. discriminate. }
  destruct (proj1 (pledge_accepts _ _ _ _ _ _ _ _ _ _ _ OS) Er) as (mc & mv & s & d & Q1 & Q2 & Q3 & Q4 & Q5 & Q6 & Q7 & ->).
  assert (l = None) as -> by (destruct Q3 as (c0 & st0 & js & _ & _ & Q); exact Q).
  assert (PT : pledge_takes o w f tb m d) by (apply TK; reflexivity).
  assert (R : ba_read (ba_of d) = Ok d). { unfold ba_read. cbn [ba_of ba_data ba_len]. unfold take_mem. rewrite N.leb_refl. unfold blen. rewrite Nat2N.id, firstn_all. reflexivity. }
  rewrite R. cbn [obind]. destruct (plenty_alloc h3 (Buf d) W3 PL3) as (b & h4 & E4 & B0 & Bn & Hn4 & Cb & Cx & Ex34 & O4). rewrite E4, (proj2 (N.eqb_neq _ _) B0).
  destruct (buf_arrives h3 d W3 PL3) as (b' & h4' & E4' & _ & A4 & _). rewrite E4 in E4'. injection E4' as <- <-.
  pose proof (ext_trans _ _ _ Ex3 Ex34) as Ex4. destruct (arrived_list _ _ _ _ _ S3 A4) as [Fb S4].
  assert (Lp : pinned < base) by (apply (live_below h pinned W); eexists; exact CP).
  assert (CP4 : hp_cell h4 pinned = Live (Struct [P 0; I 0])) by (rewrite <- CP; apply Ex4; exact Lp).
  erewrite set_field_at; [|exact P0|exact CP4|reflexivity]. cbn [set_nthv obind]. erewrite set_field_at; [|exact P0|apply put_same|reflexivity]. cbn [set_nthv obind].
  set (h5 := MHeap.put h4 pinned (Live (Struct [P b; I 0]))). set (h6 := MHeap.put h5 pinned (Live (Struct [P b; I (Z.of_N (blen d))]))).
  assert (S5 : st base h5 ((OBuf b, Fb) :: (OList vs, Fs) :: (OList vc, Fv) :: (OArr no, Fn) :: [])) by (apply st_write; [exact S4|exact Lp|exact P0|eexists; exact CP4]).
  assert (S6 : st base h6 ((OBuf b, Fb) :: (OList vs, Fs) :: (OList vc, Fv) :: (OArr no, Fn) :: [])) by (apply st_write; [exact S5|exact Lp|exact P0|eexists; apply put_same]).
  assert (Fb = [b]) as ->. { destruct S6 as (_ & Ow & _). inversion Ow as [|? ? O1 _]; subst. destruct O1 as [[Q _]|(_ & _ & Q)]; [contradiction|exact Q]. }
  assert (S7 : st base h6 ([(OArr no, Fn); (OList vc, Fv); (OList vs, Fs)] ++ [(OBuf b, [b])])) by (eapply st_perm; [|exact S6]; perm).
  destruct (cleanup_part base h6 _ _ [OArr no; OList vc; OList vs] [] S7 (Forall_nil _)) as (h7 & E7 & S8 & R7 & N7 & O7); [perm|]. rewrite E7. cbn [obind]. exists 0%Z, h7. split; [reflexivity|]. right. split; [reflexivity|].
  exists m, d. split; [reflexivity|]. split; [exact PT|]. exists b. split; [exact B0|]. split; [rewrite N7; exact (proj1 (proj2 Ex4))|]. split; [eapply st_wf; exact S8|]. split; [rewrite O7; exact (proj2 (proj2 (proj2 Ex4)))|]. split; [exact S8|].
  destruct R7 as [_ R7].
  assert (LOW : forall a, a < base -> hp_cell h7 a = hp_cell h6 a). { intros a Ha. apply R7. intros Q. destruct S7 as (_ & _ & _ & Bl). assert (base <= a); [|lia]. apply Bl. rewrite oprint_app. apply in_or_app. left. exact Q. }
  split; [|split].
  - rewrite R7. + unfold h6, h5. pose proof (proj1 (proj2 Ex3)) as LE3; assert (b <> pinned) by (unfold base in Lp; lia); rewrite !put_other by assumption. exact Cb. + destruct S7 as (_ & _ & ND & _). rewrite oprint_app in ND. intros Q. apply (disjoint_of_NoDup _ _ ND b Q). left. reflexivity.
  - rewrite LOW by exact Lp. apply put_same.
  - intros a Ha Na. rewrite LOW by exact Ha. unfold h6, h5. rewrite !put_other by exact Na. apply Ex4. exact Ha.
Qed.
