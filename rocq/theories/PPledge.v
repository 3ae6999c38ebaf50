(** Proofs about the pledge client. *)
From Coq Require Import Permutation.
From Verif Require Import Base PBase MOs MBase64 MSerialize MVoucher MCrypto MRequest MHeap MArray MVoucherHeap MConfig MHandlers SBase64 SHeap SArray SConfig SVoucher SRequest SHandlers SPledge
  PBase64 PHeap PArray PBlocks PConfig PConfigMore PCertFiles POwn PAcquire PAcquire2 PRequest PRequest2 PRequest3 PRequest4 PRequest5 PRequest6 PRequest7 PMasa PRegistrar.
Open Scope N_scope.

(** *** Releasing a part *)
Lemma cleanup_part : forall base h l1 l2 xs nulls, st base h (l1 ++ l2) -> Forall is_null nulls -> Permutation xs (nulls ++ map fst l1) ->
  exists h', cleanup h xs = Ok h' /\ st base h' l2 /\ released h h' (oprint l1) /\ hp_next h' = hp_next h /\ hp_oom h' = hp_oom h.
Proof.
  intros base h l1 l2 xs nulls S Nl Pm. pose proof (st_nulls _ _ _ _ S Nl) as S1. rewrite app_assoc in S1.
  assert (E : nulls ++ map fst l1 = map fst (map (fun x => (x, @nil N)) nulls ++ l1)) by (rewrite map_app, map_map; cbn [fst]; rewrite map_id; reflexivity).
  rewrite E in Pm. destruct (perm_lift _ _ Pm) as (l' & P' & <-).
  assert (S2 : st base h (l' ++ l2)) by (eapply st_perm; [|exact S1]; apply Permutation_app_tail, Permutation_sym; exact P').
  destruct (st_cleanup base l' _ h S2) as (h' & E' & S' & R & Hn & Ho). exists h'. split; [exact E'|]. split; [exact S'|]. split; [|auto].
  assert (Q : forall a, In a (oprint l') <-> In a (oprint l1)).
  { intros a. assert (Z : oprint (map (fun x => (x, @nil N)) nulls) = []) by (clear; induction nulls as [|x r IH]; [reflexivity|exact IH]).
    pose proof (oprint_perm _ _ P') as PP. rewrite oprint_app, Z in PP. cbn [app] in PP. split; apply Permutation_in; [exact PP|apply Permutation_sym; exact PP]. }
  destruct R as [R1 R2]. split; [intros a Ha; apply R1; apply Q; exact Ha|]. intros a Ha. apply R2. rewrite Q. exact Ha.
Qed.
Lemma part_ext : forall h0 h h' l1 l2, ext h0 h -> st (hp_next h0) h (l1 ++ l2) -> st (hp_next h0) h' l2 -> released h h' (oprint l1) -> hp_next h' = hp_next h -> hp_oom h' = hp_oom h -> ext h0 h'.
Proof.
  intros h0 h h' l1 l2 (W & N1 & K & O) S S' [_ R] Hn Ho. split; [eapply st_wf; exact S'|]. split; [lia|]. split; [|congruence]. intros a Ha. rewrite R; [apply K; exact Ha|].
  intros Q. destruct S as (_ & _ & _ & B). assert (hp_next h0 <= a) by (apply B; rewrite oprint_app; apply in_or_app; left; exact Q). lia.
Qed.
Lemma barray_frame : forall h h' p F b, owns h (OArr p) F -> (forall a, In a F -> hp_cell h' a = hp_cell h a) -> h_barray h p = Ok b -> h_barray h' p = Ok b.
Proof.
  intros h h' p F b Ow H E. destruct Ow as [[-> _]|(q & n & P0 & C & Q)]; [exact E|].
  assert (Cp : hp_cell h' p = hp_cell h p) by (apply H; destruct Q as [[_ ->]|(_ & _ & _ & ->)]; left; reflexivity).
  rewrite <- E. unfold h_barray. rewrite (proj2 (N.eqb_neq _ _) P0).
  assert (G1 : get_ptr h' p 0 = get_ptr h p 0) by (unfold get_ptr, get_field, load; rewrite Cp; reflexivity).
  assert (G2 : get_int h' p 1 = get_int h p 1) by (unfold get_int, get_field, load; rewrite Cp; reflexivity).
  rewrite G1, G2. assert (G3 : get_ptr h p 0 = Ok q) by (eapply get_ptr_cell; [exact P0|exact C|reflexivity]). rewrite G3. cbn [obind].
  assert (G4 : load_buf h' q = load_buf h q); [|rewrite G4; reflexivity]. unfold load_buf. destruct Q as [[-> _]|(B0 & _ & _ & ->)]; [reflexivity|]. rewrite (H q) by (right; left; reflexivity). reflexivity.
Qed.
Lemma part_keeps : forall base h h' l1 l2 p F b, st base h (l1 ++ l2) -> released h h' (oprint l1) -> In (OArr p, F) l2 -> h_barray h p = Ok b -> h_barray h' p = Ok b.
Proof.
  intros base h h' l1 l2 p F b (_ & Ow & ND & _) [_ R] Hin E. apply (barray_frame h h' p F); [|intros a Ha; apply R|exact E].
  - rewrite Forall_forall in Ow. apply (Ow (OArr p, F)). apply in_or_app. right. exact Hin.
  - rewrite oprint_app in ND. intros Q. apply (disjoint_of_NoDup _ _ ND a Q). eapply oprint_in; [exact Hin|exact Ha].
Qed.

(** *** The nonce *)
Lemma st_null_arr : forall base h l, st base h l -> st base h ((OArr 0, []) :: l).
Proof. intros base h l S. apply st_null; [exact S|left; auto]. Qed.
Definition nonce_text (x : option bytes) (n : option bytes) : Prop := match x with None => n = None | Some x => exists d, rfc_decode x = Some d /\ n = Some d end.
Lemma nonce_arrives : forall h p x, heap_wf h -> plenty h -> opt_string h p = Ok x -> (forall s, x = Some s -> bytes_ok s) ->
  (exists n h' nn, load_nonce h p = Ok (true, n, h') /\ arrived h h' (OArr n) /\ nonce_text x nn /\ h_barray h' n = Ok (option_map ba_of nn)) \/
  (exists n h', load_nonce h p = Ok (false, n, h') /\ n <> 0 /\ arrived h h' (OArr n) /\ (forall nn, ~ nonce_text x nn) /\ ~ (exists s, x = Some s /\ bad_padding s)) \/
  (exists n h' arr, load_nonce h p = Ok (false, n, h') /\ n <> 0 /\ arr <> 0 /\ ext h h' /\ st (hp_next h) h' [(OBuf n, [n])] /\ hp_cell h' n = Live (Struct [P arr; I 0]) /\ hp_cell h' arr = Freed /\
     (exists s, x = Some s /\ bad_padding s) /\ (forall nn, ~ nonce_text x nn)).
Proof.
  intros h p x W PL E B. unfold load_nonce. unfold opt_string in E. destruct (N.eqb_spec p 0) as [->|P0].
  { injection E as <-. left. exists 0, h, None. split; [reflexivity|]. split; [|split; [reflexivity|reflexivity]]. split; [apply ext_refl; exact W|]. exists []. apply st_null_arr. apply st_init. exact W. }
  destruct (heap_string h p) as [s|] eqn:Es; [|discriminate]. cbn [obind] in E. injection E as <-. specialize (B s eq_refl).
  destruct (decode_into h s W PL B) as (n & h1 & rc & arr & h2 & h3 & h4 & Q1 & N0 & X1 & Q2 & Q3 & Q4 & D). rewrite Q1, (proj2 (N.eqb_neq _ _) N0). rewrite (ext_string _ _ _ _ W X1 Es). cbn [obind]. rewrite Q2. cbn [obind]. rewrite Q3. cbn [obind].
  pose proof (decode_bad s) as DB. unfold decoded_into in D. destruct (rfc_decode s) as [d|] eqn:Ed.
  - destruct D as (-> & A0 & A & _ & HB). destruct (Z.ltb_spec (Z.of_N (blen d)) 0) as [Q|_]; [lia|]. rewrite Q4. cbn [obind]. left. exists n, h4, (Some d). split; [reflexivity|]. split; [exact A|]. split; [exists d; auto|exact HB].
  - destruct D as (-> & D). change ((-1 <? 0)%Z) with true. cbv iota.
    assert (NT : forall nn, ~ nonce_text (Some s) nn) by (intros nn (d & Q & _); congruence).
    destruct (filter b64_relevant s) eqn:Ef.
    + destruct D as (-> & A & _). right. left. exists n, h3. split; [reflexivity|]. split; [exact N0|]. split; [exact A|]. split; [exact NT|]. intros (s' & Q & Q2'). injection Q as <-. apply DB in Q2'. destruct Q2'. congruence.
    + destruct D as (A0 & X3 & _ & S3 & _ & C3 & _ & Ca & _). right. right. exists n, h3, arr. split; [reflexivity|]. repeat (split; [assumption|]). split; [|exact NT]. exists s. split; [reflexivity|]. apply DB. split; [reflexivity|discriminate].
Qed.

(** *** The request *)
Definition asked (o : ossl) (w : world) (f : pledge_files) (tls : bytes) (h : heap) (r : outcome (N * heap)) : Prop :=
  exists p h', r = Ok (p, h') /\ ext h h' /\
    (p = 0 /\ st (hp_next h) h' [] /\ (forall cms, ~ pledge_asks o w f tls cms) \/
     p <> 0 /\ exists cms F, st (hp_next h) h' [(OArr p, F)] /\ h_barray h' p = Ok (Some (ba_of cms)) /\ pledge_asks o w f tls cms).

Lemma asked_no : forall o w f tls h h1 l xs nulls, st (hp_next h) h1 l -> ext h h1 -> Forall is_null nulls -> Permutation xs (nulls ++ map fst l) ->
  (forall cms, ~ pledge_asks o w f tls cms) -> asked o w f tls h (obind (cleanup h1 xs) (fun h => Ok (0, h))).
Proof.
  intros o w f tls h h1 l xs nulls S E Nl Pm A. destruct (cleanup_all _ _ _ _ nulls S Nl Pm) as (h2 & E2 & S2 & K2 & Hn & Ho). rewrite E2. cbn [obind].
  exists 0, h2. split; [reflexivity|]. split; [|left; auto].
  pose proof E as (W1 & N1 & K1 & O1). split; [eapply st_wf; exact S2|]. split; [lia|]. split; [|congruence]. intros a Ha. rewrite K2 by lia. apply K1. exact Ha.
Qed.

Lemma ask_run : forall o w c f h tls tb, ossl_sane o -> world_ok w -> heap_wf h -> plenty h -> pledge_config h c f -> pledge_text_ok f ->
  tls <> 0 -> h_barray h tls = Ok (Some (ba_of tb)) -> bytes_ok tb ->
  (asks_crash w f /\ exists k, voucher_pledge_request_to_array o w c h tls = UB k) \/
  (~ asks_crash w f /\ asked o w f tb h (voucher_pledge_request_to_array o w c h tls)).
Proof.
  intros o w c f h tls tb OS [WC WK] W PL (Ccr & Cse & Cno & Cce & Cke & Cad & Cve & Cst) [TS TN] T0 HT BT.
  unfold voucher_pledge_request_to_array. rewrite (proj2 (N.eqb_neq _ _) T0), Ccr. cbn [obind]. change (match pf_created f with Some _ => serialize_str2time (pf_created f) | None => w_now w end) with (pledge_time w f).
  destruct (pledge_time w f) as [t|] eqn:Et.
  2:{ right. split; [intros [Q _]; congruence|]. exists 0, h. split; [reflexivity|]. split; [apply ext_refl; exact W|]. left. split; [reflexivity|]. split; [apply st_init; exact W|]. intros cms (t & ? & ? & ? & ? & ? & Q & _). congruence. }
  pose proof (st_init h W) as S0. set (base := hp_next h) in *.
  destruct (nonce_arrives h _ _ W PL Cno TN) as [(no & h1 & nn & E1 & A1 & NT & B1)|[(no & h1 & E1 & N0 & A1 & NT & NB)|(no & h1 & arr & E1 & N0 & R0 & Ex & Sn & Cn & Ca & BP & NT)]]; rewrite E1; cbn [obind negb].
  - assert (NG : nonce_given f nn) by exact NT.
    assert (NOB : ~ exists x, pf_nonce f = Some x /\ bad_padding x). { intros (x & Q & Q2). unfold nonce_text in NT. rewrite Q in NT. destruct NT as (d & Q3 & _). apply decode_bad in Q2. destruct Q2. congruence. }
    pose proof (proj1 A1) as Ex1. destruct (arrived_list _ _ _ _ _ S0 A1) as [Fn S1]. pose proof (proj1 Ex1) as W1. pose proof (ext_plenty _ _ Ex1 PL) as PL1. unfold h_file_to_cert, h_file_to_keybuf.
    pose proof (cert_arrives (w_cert w) h1 _ _ W1 PL1 (ext_string _ _ _ _ W Ex1 Cce)) as D2. destruct (w_cert w (pf_cert f)) as [dc|] eqn:Elc.
    2:{ rewrite D2. cbn [obind N.eqb]. right. split; [intros (_ & [Q|(_ & Q & _)]); [contradiction|congruence]|]. eapply (asked_no _ _ _ _ _ _ _ _ [OArr 0; OArr 0; OList 0]); [exact S1|exact Ex1|null|perm|].
        intros cms (? & ? & ? & ? & ? & ? & _ & _ & _ & _ & Q & _). congruence. }
    destruct D2 as (ce & h2 & E2 & ce0 & A2 & B2). rewrite E2. cbn [obind]. rewrite (proj2 (N.eqb_neq _ _) ce0). pose proof (ext_trans _ _ _ Ex1 (proj1 A2)) as Ex2. destruct (arrived_list _ _ _ _ _ S1 A2) as [Fc S2]. pose proof (proj1 Ex2) as W2. pose proof (ext_plenty _ _ Ex2 PL) as PL2.
    pose proof (cert_arrives (w_key w) h2 _ _ W2 PL2 (ext_string _ _ _ _ W Ex2 Cke)) as D3. destruct (w_key w (pf_key f)) as [dk|] eqn:Elk.
    2:{ rewrite D3. cbn [obind N.eqb]. right. split; [intros (_ & [Q|(_ & _ & Q & _)]); [contradiction|congruence]|]. eapply (asked_no _ _ _ _ _ _ _ _ [OArr 0; OList 0]); [exact S2|exact Ex2|null|perm|].
        intros cms (? & ? & ? & ? & ? & ? & _ & _ & _ & _ & _ & Q & _). congruence. }
    destruct D3 as (ke & h3 & E3 & ke0 & A3 & B3). rewrite E3. cbn [obind]. rewrite (proj2 (N.eqb_neq _ _) ke0). pose proof (ext_trans _ _ _ Ex2 (proj1 A3)) as Ex3. destruct (arrived_list _ _ _ _ _ S2 A3) as [Fk S3]. pose proof (proj1 Ex3) as W3. pose proof (ext_plenty _ _ Ex3 PL) as PL3.
    destruct (list_arrives (w_cert w) h3 _ _ W3 PL3 (ext_path_list _ _ _ _ W Ex3 Cad)) as [(ad & h4 & lad & E4 & A4 & B4 & CL & NM)|(ad & h4 & E4 & R0 & Exf & Sf & Cf & Mi)]; rewrite E4; cbn [obind].
    2:{ change ((-1 <? 0)%Z) with true. cbv iota. left. split; [split; [congruence|]; right; split; [exists nn; exact NG|]; split; [congruence|]; split; [congruence|exact Mi]|].
        pose proof (st_acquire _ _ _ _ _ S3 Exf Sf) as S4. cbn [app] in S4.
        destruct (cleanup_crash _ _ _ _ [] [OArr no; OArr ce; OArr ke] [] (OList ad) [] S4 (eq_ind _ (fun z => Permutation _ z) (Permutation_refl _) _ (eq_sym (app_nil_r _))) (Forall_nil _)) as [k Q]; [perm|apply (freed_list h4); assumption|].
        cbn [app] in Q. rewrite Q. cbn [obind]. exists k. reflexivity. }
    change ((0 <? 0)%Z) with false. cbv iota. pose proof (ext_trans _ _ _ Ex3 (proj1 A4)) as Ex4. destruct (arrived_list _ _ _ _ _ S3 A4) as [Fa S4]. pose proof (proj1 Ex4) as W4. pose proof (ext_plenty _ _ Ex4 PL) as PL4.
    right. split; [intros (_ & [Q|(_ & _ & _ & Q)]); contradiction|].
    pose proof (ext_trans _ _ _ (proj1 A3) (proj1 A4)) as X24. pose proof (ext_trans _ _ _ (proj1 A2) X24) as X14.
    rewrite (ext_opt_string _ _ _ _ W Ex4 Cse). cbn [obind]. rewrite (ext_barray _ _ _ _ W1 X14 B1). cbn [obind]. rewrite (ext_barray _ _ _ _ W Ex4 HT). cbn [obind].
    rewrite (ext_barray _ _ _ _ W2 X24 B2). cbn [obind]. rewrite (ext_barray _ _ _ _ W3 (proj1 A4) B3). cbn [obind]. rewrite B4. cbn [obind].
    assert (BN : ba_bytes (option_map ba_of nn)). { destruct nn as [d|]; [|exact Logic.I]. apply ba_bytes_of. unfold nonce_text in NT. destruct (pf_nonce f); [|discriminate]. destruct NT as (d' & Q1 & Q2). injection Q2 as <-. eapply rfc_decode_bytes. exact Q1. }
    destruct (pledge_request_safe o t (pf_serial f) (option_map ba_of nn) (Some (ba_of tb)) (Some (ba_of dc)) (Some (ba_of dk)) lad TS BN (ba_bytes_of _ BT) (ba_bytes_of _ (WC _ _ Elc)) (ba_bytes_of _ (WK _ _ Elk))) as [r Er]. rewrite Er. cbn [obind].
    assert (ON : forall n, opt_has (option_map ba_of nn) n <-> n = nn).
    { intros n. destruct nn as [d|], n as [d'|]; cbn [option_map opt_has]; split; intros Q; try contradiction; try discriminate; try reflexivity; try exact Logic.I; [f_equal; eapply ba_has_of; exact Q|injection Q as ->; apply ba_of_has]. }
    pose proof (pledge_iff o (Some t) (pf_serial f) (option_map ba_of nn) (Some (ba_of tb)) (Some (ba_of dc)) (Some (ba_of dk)) lad) as IFF.
    assert (ASK : forall cms, pledge_asks o w f tb cms <-> r = Some cms).
    { intros cms. transitivity (Ok r = Ok (Some cms)); [|split; [congruence|intros ->; reflexivity]]. rewrite <- Er, (IFF cms TS). split.
      - intros (t' & s & n & c' & k' & a' & Q1 & Q2 & Q3 & Q4 & Q5 & Q6 & Q7 & Q8). exists t, s, n, tb. assert (t' = t) as -> by congruence. assert (c' = dc) as -> by congruence. assert (k' = dk) as -> by congruence.
        rewrite (cert_list_fun _ _ _ _ CL Q7). split; [reflexivity|]. split; [exact Q2|]. split; [exact Q3|]. split; [|split; [apply ba_of_has|exact Q8]]. apply ON. unfold nonce_given in Q4, NG. destruct (pf_nonce f); [|congruence]. destruct Q4 as (d1 & R1 & ->), NG as (d2 & R2 & ->). congruence.
      - intros (t' & s & n & c' & Q1 & Q2 & Q3 & Q4 & Q5 & Q6). injection Q1 as <-. apply ON in Q4. subst n. assert (c' = tb) as -> by (eapply ba_has_of; exact Q5). exists t, s, nn, dc, dk, lad. auto 10. }
    destruct r as [cms|].
    2:{ eapply (asked_no _ _ _ _ _ _ _ _ []); [exact S4|exact Ex4|null|perm|]. intros cms Q. apply ASK in Q. discriminate. }
    assert (PA : pledge_asks o w f tb cms) by (apply ASK; reflexivity).
    destruct (new_array_arrives h4 cms W4 PL4) as (p & h5 & E5 & P0 & A5 & B5). rewrite E5. cbn [obind]. pose proof (ext_trans _ _ _ Ex4 (proj1 A5)) as Ex5. destruct (arrived_list _ _ _ _ _ S4 A5) as [Fp S5].
    assert (S6 : st base h5 ([(OArr no, Fn); (OArr ce, Fc); (OArr ke, Fk); (OList ad, Fa)] ++ [(OArr p, Fp)])) by (eapply st_perm; [|exact S5]; perm).
    destruct (cleanup_part base h5 _ _ [OArr no; OArr ce; OArr ke; OList ad] [] S6 (Forall_nil _)) as (h6 & E6 & S7 & R6 & N6 & O6); [perm|]. rewrite E6. cbn [obind].
    exists p, h6. split; [reflexivity|]. split; [eapply part_ext; [exact Ex5|exact S6|exact S7|exact R6|exact N6|exact O6]|]. right. split; [exact P0|]. exists cms, Fp. split; [exact S7|]. split; [|exact PA].
    eapply part_keeps; [exact S6|exact R6|left; reflexivity|exact B5].
  - right. split; [intros (_ & [Q|([nn Q] & _)]); [contradiction|exact (NT _ Q)]|]. destruct A1 as [Ex1 [Fn S1]].
    change (obind (h_free_binary_array h1 no) (fun h => Ok (0, h))) with (obind (free_owned h1 (OArr no)) (fun h => Ok (0, h))).
    destruct (st_free _ _ _ _ _ S1) as (h2 & E2 & S2 & R2 & N2 & O2). rewrite E2. cbn [obind]. exists 0, h2. split; [reflexivity|].
    split; [eapply (part_ext h h1 h2 [(OArr no, Fn)] []); [exact Ex1|exact S1|exact S2| |exact N2|exact O2]; unfold oprint; cbn [map List.concat snd]; rewrite app_nil_r; exact R2|]. left. split; [reflexivity|]. split; [exact S2|].
    intros cms (? & ? & n & ? & ? & ? & _ & _ & _ & Q & _). exact (NT _ Q).
  - left. split; [split; [congruence|]; left; exact BP|].
    destruct (cleanup_hold _ _ _ [] [] [] [] no arr 0%Z [] Sn (Permutation_refl _) (Forall_nil _) (Permutation_refl _) N0 R0 Cn Ca) as [k Q]. cbn [app cleanup free_owned] in Q.
    destruct (h_free_binary_array h1 no) as [h2|k2]; [discriminate Q|]. exists k2. reflexivity.
Qed.
