(** Proofs about the memory of the command sign-cert: generating the certificate. *)
From Coq Require Import Permutation.
From Verif Require Import Base PBase MOs MBase64 MSerialize MVoucher MCrypto MRequest MHeap MArray MVoucherHeap MConfig MHandlers MLog MEnrolLogHeap MHandlerHeap MSignCert MSignHeap SBase64 SHeap SArray SConfig SVoucher SRequest SHandlers SPledge SLog SSignCert SSignHeap
  PBase64 PHeap PArray PBlocks PKlist PConfig PConfigMore PCertFiles POwn PHold PAcquire PAcquire2 PMasa PRegistrar PPledge PPledge2 PPledge3 PLog PEnrolLogHeap PHandlerHeap PHandlerHeap5 PHandlerHeap8 PSignCert2 PSignHeap.
Open Scope N_scope.

(** *** More and fewer blocks beside the arrays *)
Lemma arrs_rest : forall R R' h0 h l, Permutation R R' -> arrs R h0 h l -> arrs R' h0 h l.
Proof. intros R R' h0 h l Pm (E & S & F). split; [exact E|]. split; [eapply st_perm; [|exact S]; apply Permutation_app_head; exact Pm|exact F]. Qed.
Lemma arrs_more : forall R R' h0 h h' l, arrs R h0 h l -> ext h h' -> st (hp_next h) h' R' -> arrs (R' ++ R) h0 h' l.
Proof.
  intros R R' h0 h h' l A X S'. pose proof A as (E & S & F). split; [eapply ext_trans; eassumption|]. split.
  - eapply st_perm; [|exact (st_acquire _ _ _ _ _ S X S')]. rewrite !app_assoc. apply Permutation_app_tail, Permutation_app_comm.
  - rewrite Forall_forall in *. intros [[p b] z] H. pose proof (F _ H) as [P0 C]. split; [exact P0|]. rewrite <- C. apply X. apply (arrs_places _ _ _ _ _ A). eapply places_p. exact H.
Qed.
Lemma places_rest : forall R l a, In a (oprint R) -> In a (places R l).
Proof. intros R l a H. unfold places. rewrite oprint_app. apply in_or_app. right. exact H. Qed.
Lemma places_grow : forall R R' l a, In a (places R l) -> In a (places (R' ++ R) l).
Proof. intros R R' l a H. unfold places in *. rewrite !oprint_app in *. rewrite !in_app_iff in *. tauto. Qed.
Lemma released_arrs : forall F R h0 h l h', arrs (bufs F ++ R) h0 h l -> released h h' F -> heap_wf h' -> hp_next h' = hp_next h -> hp_oom h' = hp_oom h ->
  arrs R h0 h' l /\ forall a, In a (places R l) -> hp_cell h' a = hp_cell h a.
Proof.
  intros F R h0 h l h' (E & S & Fc) Rl W' Hn Ho. pose proof Rl as [R1 R2].
  assert (S1 : st (hp_next h0) h (bufs F ++ (map slot_owned l ++ R))) by (eapply st_perm; [|exact S]; rewrite !app_assoc; apply Permutation_app_tail, Permutation_app_comm).
  destruct S1 as (O & Ow & ND & Bl). rewrite oprint_app, oprint_bufs in O, ND, Bl.
  assert (DJ : forall a, In a (places R l) -> ~ In a F) by (intros a Q1 Q2; exact (disjoint_of_NoDup _ _ ND a Q2 Q1)).
  assert (HH : hold (hp_next h0) h' (oprint (map slot_owned l ++ R))) by (apply (hold_released _ h F); [destruct O as (W & B & V); split; [exact W|]; split; [exact B|]; split; [exact ND|]; split; [exact Bl|exact V]|exact Rl|exact W'|exact Hn]).
  split; [|intros a Ha; apply R2, DJ, Ha]. split; [|split].
  - destruct E as (W & N1 & K & Oo). split; [exact W'|]. split; [lia|]. split; [|congruence]. intros a Ha. rewrite R2; [apply K; exact Ha|]. intros Q. assert (hp_next h0 <= a) by (apply Bl; apply in_or_app; left; exact Q). lia.
  - destruct HH as (_ & B & D & G & V). split; [split; [exact W'|]; split; [exact B|exact V]|]. split; [|split; [exact D|exact G]].
    apply Forall_app in Ow. destruct Ow as [_ Ow]. rewrite Forall_forall in *. intros e He. eapply owns_frame; [apply Ow; exact He|]. intros a Ha. apply R2, DJ. eapply oprint_in; eassumption.
  - rewrite Forall_forall in *. intros [[p b] z] H. pose proof (Fc _ H) as [P0 C]. split; [exact P0|]. rewrite <- C. apply R2, DJ. eapply places_p. exact H.
Qed.

(** A block from beside the arrays becomes the content of one. *)
Lemma arrs_take : forall R h0 h p z l b d z', arrs ((OBuf b, [b]) :: R) h0 h ((p, 0, z) :: l) -> hp_cell h b = Live (Buf d) ->
  arrs R h0 (MHeap.put h p (Live (Struct [P b; I z']))) ((p, b, z') :: l) /\ forall a, a <> p -> hp_cell (MHeap.put h p (Live (Struct [P b; I z']))) a = hp_cell h a.
Proof.
  intros R h0 h p z l b d z' A D. pose proof A as (E & S & F).
  assert (S2 : st (hp_next h0) h ((OBuf b, [b]) :: slot_owned (p, 0, z) :: map slot_owned l ++ R)) by (eapply st_perm; [|exact S]; symmetry; apply (Permutation_middle (map slot_owned ((p, 0, z) :: l)) R)).
  destruct E as (W & Hn & K & Ho). destruct (cells_inv _ _ _ _ _ F) as (P0 & C1 & F2). pose proof S2 as (O & Ow & ND & Bl).
  assert (B0 : b <> 0) by (intros ->; destruct W as (_ & Q & _); congruence).
  set (h' := MHeap.put h p (Live (Struct [P b; I z']))). assert (X : forall a, a <> p -> hp_cell h' a = hp_cell h a) by (intros a Ha; apply put_other; exact Ha). split; [|exact X].
  change (NoDup (b :: p :: places R l)) in ND. inversion ND as [|? ? N1 N2]; subst. inversion N2 as [|? ? N3 N4]; subst.
  assert (Lp : hp_next h0 <= p) by (apply Bl; right; left; reflexivity).
  assert (W' : heap_wf h') by (eapply wf_write; [exact W|exact P0|exact C1|auto]). split; [split; [exact W'|]; split; [exact Hn|]; split; [intros a Ha; rewrite X by lia; apply K; exact Ha|exact Ho]|]. split.
  - unfold st. replace (oprint (map slot_owned ((p, b, z') :: l) ++ R)) with (p :: b :: places R l) by (cbn [map slot_owned]; rewrite (proj2 (N.eqb_neq _ _) B0); reflexivity). split; [|split; [|split]].
    + apply only_write; [|eexists; exact C1]. eapply only_iff; [exact O|]. intros a _. change (In a (b :: p :: places R l) <-> In a (p :: b :: places R l)). cbn [In]. tauto.
    + inversion Ow as [|? ? _ Ow2]; subst. inversion Ow2 as [|? ? _ O2]; subst. cbn [map app]. constructor.
      * cbn [slot_owned fst snd]. rewrite (proj2 (N.eqb_neq _ _) B0). right. exists b, z'. split; [exact P0|]. split; [apply put_same|]. right. split; [exact B0|]. assert (b <> p) by (intros ->; apply N1; left; reflexivity). split; [assumption|]. split; [|reflexivity]. exists d. rewrite X by assumption. exact D.
      * rewrite Forall_forall in *. intros e He. eapply owns_frame; [apply O2; exact He|]. intros a Ha. apply X. intros ->. apply N3. eapply oprint_in; eassumption.
    + constructor; [|constructor; [|exact N4]]; [intros [Q|Q]; [apply N1; left; congruence|apply N3; exact Q]|]. intros Q. apply N1. right. exact Q.
    + intros a Ha. apply Bl. change (In a (b :: p :: places R l)). cbn [In] in *. tauto.
  - constructor; [split; [exact P0|apply put_same]|]. rewrite Forall_forall in *. intros [[q c] y] H. destruct (F2 _ H) as [Q0 Cq]. split; [exact Q0|]. assert (In q (places R l)) by (eapply places_p; exact H). rewrite X by (intros ->; contradiction). exact Cq.
Qed.

(** *** A local block *)
Lemma local_hold : forall h b, heap_wf h -> exists h', local h b = (hp_next h, h') /\ ext h h' /\ hold (hp_next h) h' [hp_next h] /\ hp_cell h' (hp_next h) = Live b.
Proof.
  intros h b W. unfold local. set (h' := mk_heap _ _ _). exists h'. split; [reflexivity|].
  assert (X : forall a, a <> hp_next h -> hp_cell h' a = hp_cell h a) by (intros a Ha; cbn [h' hp_cell]; rewrite (proj2 (N.eqb_neq _ _) Ha); reflexivity).
  assert (Y : hp_cell h' (hp_next h) = Live b) by (cbn [h' hp_cell]; rewrite N.eqb_refl; reflexivity).
  assert (W' : heap_wf h'). { destruct W as (W1 & W2 & W3). split; [cbn; lia|]. split; [rewrite X by lia; exact W2|]. intros a Ha. cbn [h' hp_next] in Ha. rewrite X by lia. apply W3. lia. }
  split; [split; [exact W'|]; split; [cbn; lia|]; split; [intros a Ha; apply X; lia|reflexivity]|]. split; [|exact Y].
  split; [exact W'|]. split; [cbn; lia|]. split; [constructor; [intros []|constructor]|]. split; [intros a [<-|[]]; lia|].
  intros a Ha. split; [|intros [<-|[]]; eexists; exact Y]. intros [x Hx]. destruct (N.eq_dec a (hp_next h)) as [->|Na]; [left; reflexivity|]. rewrite X in Hx by exact Na. destruct W as (_ & _ & W3). rewrite W3 in Hx by exact Ha. discriminate.
Qed.

(** *** The subject's list *)
Lemma kst_push : forall base h H items F L key kd value vd, plenty h -> kst base h ((H, items, F) :: L) -> key <> 0 -> value <> 0 ->
  hp_cell h key = Live (Buf kd) -> stringy kd -> hp_cell h value = Live (Buf vd) -> stringy vd ->
  exists h' F', push_keyvalue_list h H key value = Ok (0%Z, h') /\ later base h h' /\ kst base h' ((H, items ++ [(c_string kd, c_string vd)], F') :: L).
Proof.
  intros base h H items F L key kd value vd PL KS K0 V0 Ck Sk Cv Sv. pose proof KS as (O & N & Fr & B). pose proof (Forall_inv Fr) as KL. cbn [fst snd] in KL. cbn [flat_map snd] in O, N, B. pose proof O as (W & Bn & Lv).
  destruct (push_klist h H items F key kd value vd W KL K0 V0 Ck Sk Cv Sv) as [(Q & _)|[([Q|Q] & _)|(_ & h2 & F' & E2 & W2 & Hn2 & Ho2 & KL2 & PF & Cy)]]; try (rewrite PL in Q; discriminate).
  exists h2, F'. split; [exact E2|]. remember (hp_next h) as x eqn:Ex.
  assert (FN : forall a, In a F' <-> In a F \/ a = x \/ a = x + 1 \/ a = x + 2).
  { intros a. split; [intros Q; apply (Permutation_in _ PF) in Q|intros Q; apply (Permutation_in _ (Permutation_sym PF))]; rewrite in_app_iff in *; cbn [In] in *; intuition. }
  assert (OLD : forall a, In a (F ++ flat_map snd L) -> a < x). { intros a Q. pose proof (B _ Q) as Q1. apply (Lv _ Q1) in Q. pose proof (live_below _ _ W Q). lia. }
  assert (CX : forall a, ~ In a F' -> hp_cell h2 a = hp_cell h a) by (intros a Q; rewrite FN in Q; apply Cy; intros X; apply Q; auto).
  assert (DJ : forall a, In a (flat_map snd L) -> ~ In a F').
  { intros a Ha Q. apply FN in Q. destruct Q as [Q|Q].
    - eapply (disjoint_of_NoDup F (flat_map snd L)); [exact N|exact Q|exact Ha].
    - pose proof (OLD a ltac:(apply in_or_app; right; exact Ha)). lia. }
  split; [split; [|exact Ho2]|split; [|split; [|split]]].
  - intros a Ha. apply CX. rewrite FN. intros [Q|Q]; [|lia]. pose proof (B a ltac:(apply in_or_app; left; exact Q)). lia.
  - split; [exact W2|]. split; [lia|]. intros a Ha. cbn [flat_map snd]. rewrite in_app_iff. destruct (in_dec N.eq_dec a F') as [X|X].
    { split; [auto|]. intros _. eapply klist_live; eassumption. }
    unfold is_live. rewrite (CX a X). rewrite (Lv a Ha). rewrite in_app_iff. split; [intros [Z|Z]; [exfalso; apply X; apply FN; auto|auto]|intros [Z|Z]; [contradiction|auto]].
  - cbn [flat_map snd]. eapply Permutation_NoDup; [apply Permutation_app_tail; apply Permutation_sym; exact PF|]. eapply Permutation_NoDup with (l := [x; x + 1; x + 2] ++ (F ++ flat_map snd L)).
    { rewrite app_assoc. apply Permutation_app_tail. apply Permutation_app_comm. }
    cbn [app]. assert (NX : forall y, x <= y -> ~ In y (F ++ flat_map snd L)) by (intros y Hy Q; specialize (OLD _ Q); lia).
    constructor; [intros [Q|[Q|Q]]; [lia|lia|]; exact (NX x ltac:(lia) Q)|]. constructor; [intros [Q|Q]; [lia|]; exact (NX (x + 1) ltac:(lia) Q)|]. constructor; [intros Q; exact (NX (x + 2) ltac:(lia) Q)|]. exact N.
  - constructor; [exact KL2|]. eapply kst_rows; [exact (Forall_inv_tail Fr)|]. intros a Ha. apply CX, DJ, Ha.
  - intros a Ha. cbn [flat_map snd] in Ha. apply in_app_or in Ha. destruct Ha as [Ha|Ha]; [|apply B; apply in_or_app; right; exact Ha]. apply FN in Ha. destruct Ha as [Ha|Ha]; [apply B; apply in_or_app; left; exact Ha|lia].
Qed.

Lemma text_string : forall t, In t subject_texts -> stringy (t ++ [0]) /\ c_string (t ++ [0]) = t.
Proof. intros t [<-|[<-|[<-|[<-|[<-|[]]]]]]; (split; [split; [vm_compute; tauto|vm_compute; reflexivity]|reflexivity]). Qed.

Lemma subject_run : forall nn h rands m s, heap_wf h -> plenty h -> texts_at nn h -> rands <> 0 -> rands < hp_next h -> hp_cell h rands = Live (Buf m) -> In 0 m -> c_string m = s -> blen s < SIZE_MAX ->
  exists IL SL h1 h2 h3 FS, init_keyvalue_list h = Ok (IL, h1) /\ IL <> 0 /\ init_keyvalue_list h1 = Ok (SL, h2) /\ SL <> 0 /\ push_all h2 SL (subject_entries nn rands) = Ok (0%Z, h3) /\
    ext h h3 /\ hold (hp_next h) h3 (FS ++ [IL]) /\ klist h3 IL [] [IL] /\ klist h3 SL [(s2b "C", s2b "IE"); (s2b "CN", s2b "ldevid-cert"); (s2b "serialNumber", s)] FS.
Proof.
  intros nn h rands m s W PL TX R0 Rl Cr Zr Es Sh. pose proof (kst_init h W) as K0. set (base := hp_next h) in *.
  destruct (kst_new _ _ _ K0) as (IL & h1 & E1 & LT1 & C1). destruct C1 as [(_ & Q & _)|(I0 & K1)]; [rewrite PL in Q; discriminate|]. assert (PL1 : plenty h1) by (eapply later_plenty; eassumption).
  destruct (kst_new _ _ _ K1) as (SL & h2 & E2 & LT2 & C2). destruct C2 as [(_ & Q & _)|(S0 & K2)]; [rewrite PL1 in Q; discriminate|]. pose proof (later_trans _ _ _ _ LT1 LT2) as LT02. assert (PL2 : plenty h2) by (eapply later_plenty; eassumption).
  assert (TT : forall t g, In t subject_texts -> later base h g -> nn t <> 0 /\ hp_cell g (nn t) = Live (Buf (t ++ [0])) /\ stringy (t ++ [0])).
  { intros t g Ht [K _]. destruct (TX t Ht) as [A C]. split; [intros Q; destruct W as (_ & W2 & _); rewrite Q, W2 in C; discriminate|]. split; [rewrite K by exact A; exact C|apply text_string; exact Ht]. }
  assert (RR : forall g, later base h g -> hp_cell g rands = Live (Buf m)) by (intros g [K _]; rewrite K by exact Rl; exact Cr).
  assert (SM : stringy m) by (split; [exact Zr|rewrite Es; exact Sh]).
  assert (T1 : In (s2b "C") subject_texts) by (left; reflexivity). assert (T2 : In (s2b "IE") subject_texts) by (right; left; reflexivity). assert (T3 : In (s2b "CN") subject_texts) by (right; right; left; reflexivity).
  assert (T4 : In (s2b "ldevid-cert") subject_texts) by (right; right; right; left; reflexivity). assert (T5 : In (s2b "serialNumber") subject_texts) by (right; right; right; right; left; reflexivity).
  destruct (TT _ h2 T1 LT02) as (A1 & B1 & D1). destruct (TT _ h2 T2 LT02) as (A2 & B2 & D2).
  destruct (kst_push _ _ _ _ _ _ _ _ _ _ PL2 K2 A1 A2 B1 D1 B2 D2) as (h3 & F3 & E3 & LT3 & K3). pose proof (later_trans _ _ _ _ LT02 LT3) as LT03. assert (PL3 : plenty h3) by (eapply later_plenty; eassumption).
  destruct (TT _ h3 T3 LT03) as (A3 & B3 & D3). destruct (TT _ h3 T4 LT03) as (A4 & B4 & D4).
  destruct (kst_push _ _ _ _ _ _ _ _ _ _ PL3 K3 A3 A4 B3 D3 B4 D4) as (h4 & F4 & E4 & LT4 & K4). pose proof (later_trans _ _ _ _ LT03 LT4) as LT04. assert (PL4 : plenty h4) by (eapply later_plenty; eassumption).
  destruct (TT _ h4 T5 LT04) as (A5 & B5 & D5).
  destruct (kst_push _ _ _ _ _ _ _ _ _ _ PL4 K4 A5 R0 B5 D5 (RR _ LT04) SM) as (h5 & F5 & E5 & LT5 & K5). pose proof (later_trans _ _ _ _ LT04 LT5) as LT05.
  exists IL, SL, h1, h2, h5, F5. split; [exact E1|]. split; [exact I0|]. split; [exact E2|]. split; [exact S0|]. split.
  { unfold subject_entries. cbn [push_all]. rewrite E3. cbn [obind]. change ((0 <? 0)%Z) with false. cbv iota. rewrite E4. cbn [obind]. change ((0 <? 0)%Z) with false. cbv iota. rewrite E5. reflexivity. }
  split; [exact (kst_ext _ _ _ K5 LT05)|]. pose proof (kst_hold _ _ _ K5) as H5. cbn [flat_map snd app] in H5. split; [exact H5|].
  pose proof K5 as (_ & _ & KL & _). inversion KL as [|? ? KS KL']; subst. inversion KL' as [|? ? KI _]; subst. cbn [fst snd] in KS, KI. split; [exact KI|]. exact KS.
Qed.

(** *** Generating *)
Lemma rands_mem : forall dv r, device_ok dv -> dv_random dv = Some r -> exists m n, printf_hex (Some (dv_stack dv)) 16 (Some r) 8 true = Ok (Some m, n) /\ In 0 m /\ c_string m = firstn 15 (hex_text true r).
Proof.
  intros dv r (S & R & _) E. destruct (R _ E) as [B L]. destruct (hex_spec (dv_stack dv) 16 r 8 true) as (m & H & _ & _ & Z & C); [lia|lia|lia|lia|exact B|].
  exists m. eexists. split; [exact H|]. split; [eapply nth_error_In; exact Z|]. rewrite C. change (N.to_nat (16 - 1)) with 15%nat. f_equal. f_equal. unfold blen in L. rewrite firstn_all2; [reflexivity|]. lia.
Qed.

Lemma full_gen_run : forall nn dv h0 h oc ok l r, device_ok dv -> plenty h0 -> texts_at nn h0 -> dv_random dv = Some r -> arrs [] h0 h ((oc, 0, 0%Z) :: (ok, 0, 0%Z) :: l) ->
  exists h' bc zc bk zk, full_generate_sign_cert nn dv h oc ok = Ok (0%Z, h') /\ arrs [] h0 h' ((oc, bc, zc) :: (ok, bk, zk) :: l) /\ (forall a, In a (places [] l) -> hp_cell h' a = hp_cell h a) /\
    made h' (dv_key dv) bk zk /\ made h' (made_cert dv r) bc zc.
Proof.
  intros nn dv h0 h oc ok l r DO PL TX ER A. unfold full_generate_sign_cert. rewrite ER. destruct (rands_mem dv r DO ER) as (m & n & E1 & Z1 & C1). rewrite E1. cbn [obind fst].
  pose proof (arrs_wf _ _ _ _ A) as W. destruct (local_hold h (Buf m) W) as (hr & ER1 & XR & HR & CR). rewrite ER1. set (rands := hp_next h) in *.
  assert (AR : arrs (bufs [rands] ++ []) h0 hr ((oc, 0, 0%Z) :: (ok, 0, 0%Z) :: l)) by (eapply arrs_more; [exact A|exact XR|apply hold_st; exact HR]).
  pose proof (arrs_wf _ _ _ _ AR) as WR. pose proof (arrs_plenty _ _ _ _ AR PL) as PLR. pose proof AR as (XR0 & _ & _).
  assert (R0 : rands <> 0) by (destruct W as (Q & _); unfold rands; lia).
  assert (TXR : texts_at nn hr). { intros t Ht. destruct (TX t Ht) as [Q1 Q2]. destruct XR0 as (_ & Q3 & Q4 & _). split; [lia|]. rewrite Q4 by exact Q1. exact Q2. }
  assert (RL : rands < hp_next hr). { apply (live_below _ _ WR). eexists. exact CR. }
  assert (SH : blen (firstn 15 (hex_text true r)) < SIZE_MAX). { unfold blen. pose proof (firstn_le_length 15 (hex_text true r)). assert (15 < SIZE_MAX) by reflexivity. lia. }
  destruct (subject_run nn hr rands m _ WR PLR TXR R0 RL CR Z1 C1 SH) as (IL & SL & g1 & g2 & hk & FS & F1 & I0 & F2 & S0 & F3 & XK & HK & KI & KS).
  rewrite F1. cbn [obind]. rewrite (proj2 (N.eqb_neq _ _) I0). rewrite F2. cbn [obind]. rewrite (proj2 (N.eqb_neq _ _) S0). rewrite F3. cbn [obind]. change ((0 <? 0)%Z) with false. cbv iota. clear F1 F2 F3 g1 g2.
  set (T := bufs (FS ++ [IL]) ++ bufs [rands] ++ []).
  assert (AK : arrs T h0 hk ((oc, 0, 0%Z) :: (ok, 0, 0%Z) :: l)) by (eapply arrs_more; [exact AR|exact XK|apply hold_st; exact HK]).
  assert (IT : forall a, In a (FS ++ [IL]) \/ a = rands -> In a (oprint T)).
  { intros a Ha. unfold T. rewrite !oprint_app, !oprint_bufs, !in_app_iff. cbn [In]. rewrite in_app_iff in Ha. cbn [In] in Ha. intuition. }
  destruct (der_out hk (dv_key dv)) as [[z b] h1] eqn:D1.
  assert (A' : arrs T h0 hk ((ok, 0, 0%Z) :: (oc, 0, 0%Z) :: l)) by (eapply arrs_perm; [|exact AK]; apply perm_swap).
  destruct (out_step _ _ _ _ _ _ _ _ _ PL A' D1) as (ha & hb & G1 & G2 & A1 & X1 & M1). rewrite G1. cbn [obind]. rewrite G2. cbn [obind].
  assert (LK : load_buf hb b = Ok (dv_key dv)). { unfold load_buf. destruct (dv_key dv) as [k|]; [destruct M1 as (B & _ & Q); rewrite (proj2 (N.eqb_neq _ _) B), Q; reflexivity|]. destruct M1 as [-> _]. reflexivity. }
  rewrite LK. cbn [obind]. pose proof (arrs_wf _ _ _ _ A1) as W1.
  assert (KI1 : klist hb IL [] [IL]) by (eapply klist_frame; [exact KI|]; intros a Ha; apply X1, places_rest, IT; left; apply in_or_app; right; exact Ha).
  assert (KS1 : klist hb SL [(s2b "C", s2b "IE"); (s2b "CN", s2b "ldevid-cert"); (s2b "serialNumber", firstn 15 (hex_text true r))] FS) by (eapply klist_frame; [exact KS|]; intros a Ha; apply X1, places_rest, IT; left; apply in_or_app; left; exact Ha).
  rewrite (klist_items _ _ _ _ W1 KI1). cbn [obind]. rewrite (klist_items _ _ _ _ W1 KS1). cbn [obind].
  assert (M : mk_meta (gen_rand64 (dv_rand dv) (dv_now dv)) 0 (s2b "99991231235959Z") [] [(s2b "C", s2b "IE"); (s2b "CN", s2b "ldevid-cert"); (s2b "serialNumber", firstn 15 (hex_text true r))] (s2b "CA:false") = meta_of dv r) by (unfold meta_of; rewrite (serial_value dv DO); reflexivity).
  rewrite M. clear M. change (match dv_key dv with Some k => dv_cert dv (meta_of dv r) k | None => None end) with (made_cert dv r).
  destruct (der_out hb (made_cert dv r)) as [[zc bc] h2] eqn:D2.
  assert (A1' : arrs T h0 hb ((oc, 0, 0%Z) :: (ok, b, to_size z) :: l)) by (eapply arrs_perm; [|exact A1]; apply perm_swap).
  destruct (out_step _ _ _ _ _ _ _ _ _ PL A1' D2) as (hc & hd & G3 & G4 & A2 & X2 & M2). rewrite G3. cbn [obind]. rewrite G4. cbn [obind]. cbn [free_lists].
  assert (KI2 : klist hd IL [] [IL]) by (eapply klist_frame; [exact KI1|]; intros a Ha; apply X2, places_rest, IT; left; apply in_or_app; right; exact Ha).
  assert (KS2 : klist hd SL [(s2b "C", s2b "IE"); (s2b "CN", s2b "ldevid-cert"); (s2b "serialNumber", firstn 15 (hex_text true r))] FS) by (eapply klist_frame; [exact KS1|]; intros a Ha; apply X2, places_rest, IT; left; apply in_or_app; left; exact Ha).
  pose proof (arrs_wf _ _ _ _ A2) as W2. destruct (free_klist _ _ _ _ W2 KI2) as (he & E5 & R5 & W5 & N5 & O5). rewrite E5. cbn [obind].
  set (L2 := (oc, bc, to_size zc) :: (ok, b, to_size z) :: l) in *.
  assert (AI : arrs (bufs [IL] ++ bufs FS ++ bufs [rands]) h0 hd L2) by (eapply arrs_rest; [|exact A2]; unfold T, bufs; rewrite app_nil_r, <- !map_app, app_assoc; apply Permutation_map, Permutation_app_tail, Permutation_app_comm).
  destruct (released_arrs _ _ _ _ _ _ AI R5 W5 N5 O5) as [AE XE].
  assert (KS3 : klist he SL [(s2b "C", s2b "IE"); (s2b "CN", s2b "ldevid-cert"); (s2b "serialNumber", firstn 15 (hex_text true r))] FS) by (eapply klist_frame; [exact KS2|]; intros a Ha; apply XE, places_rest; rewrite oprint_app, oprint_bufs; apply in_or_app; left; exact Ha).
  destruct (free_klist _ _ _ _ W5 KS3) as (hf & E6 & R6 & W6 & N6 & O6). rewrite E6. cbn [obind].
  destruct (released_arrs _ _ _ _ _ _ AE R6 W6 N6 O6) as [AF XF].
  assert (LR : is_live hf rands). { destruct AF as (_ & S & _). eapply st_live; [exact S|]. apply (places_rest (bufs [rands]) L2 rands). left. reflexivity. }
  destruct (free_live hf rands W6 LR) as [E7 W7]. rewrite E7. cbn [obind].
  assert (AF' : arrs (bufs [rands] ++ []) h0 hf L2) by exact AF.
  assert (RL7 : released hf (put hf rands Freed) [rands]) by (split; [intros a [<-|[]]; split; [exact LR|apply put_same]|intros a Ha; apply put_other; intros ->; apply Ha; left; reflexivity]).
  destruct (released_arrs _ _ _ _ _ _ AF' RL7 W7 eq_refl eq_refl) as [AG XG].
  exists (put hf rands Freed), bc, (to_size zc), b, (to_size z). split; [reflexivity|]. split; [exact AG|].
  assert (UP : forall a, In a (places [] L2) -> hp_cell (put hf rands Freed) a = hp_cell hd a).
  { intros a Ha. rewrite XG by exact Ha. rewrite XF by (apply (places_grow [] (bufs [rands])) in Ha; exact Ha). apply XE. apply (places_grow [] (bufs FS ++ bufs [rands])) in Ha. rewrite app_nil_r in Ha. exact Ha. }
  assert (SUB : forall Q a s1 (k : list slot), In a (places Q k) -> In a (places Q (s1 :: k))) by (intros Q a s1 k Hq; rewrite places_cons; apply in_or_app; right; exact Hq).
  assert (TG : forall k a, In a (places [] k) -> In a (places T k)) by (intros k a Ha; apply (places_grow [] T) in Ha; rewrite app_nil_r in Ha; exact Ha).
  split; [|split].
  - intros a Ha. rewrite UP by (do 2 apply SUB; exact Ha). rewrite X2 by (apply SUB, TG; exact Ha). rewrite X1 by (apply SUB, TG; exact Ha).
    assert (Q : In a (places [] ((oc, 0, 0%Z) :: (ok, 0, 0%Z) :: l))) by (do 2 apply SUB; exact Ha). pose proof (arrs_places _ _ _ _ _ A Q) as [[_ LA] _].
    destruct XK as (_ & NK & KK & _), XR as (_ & NR & KR & _). rewrite KK by lia. apply KR. exact LA.
  - unfold made. destruct (dv_key dv) as [k|]; [|destruct M1 as [-> ->]; split; reflexivity]. destruct M1 as (B & -> & Q). split; [exact B|]. split; [apply to_size_len|].
    assert (IB : In b (places [] ((ok, b, to_size (Z.of_N (blen k))) :: l))) by (eapply places_b; [left; reflexivity|exact B]).
    rewrite UP by (apply SUB; exact IB). rewrite X2 by (apply TG; exact IB). exact Q.
  - unfold made. destruct (made_cert dv r) as [k|]; [|destruct M2 as [-> ->]; split; reflexivity]. destruct M2 as (B & -> & Q). split; [exact B|]. split; [apply to_size_len|].
    rewrite UP; [exact Q|]. eapply places_b; [left; reflexivity|exact B].
Qed.
