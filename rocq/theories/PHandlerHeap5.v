(** The registrar's voucher endpoint with the memory of request.c and of the names. *)
From Coq Require Import Permutation ZifyBool ZifyNat ZifyN.
From Verif Require Import Base PBase MOs MBase64 MSerialize MVoucher MCrypto MRequest MHeap MArray MVoucherHeap MConfig MHandlers MEnrolLog MEnrolLogHeap MSerialHeap MRequestHeap MHandlerHeap
  SBase64 SHeap SArray SConfig SVoucher SRequest SHandlers SEnrolLogHeap SSerialHeap SRequestHeap SHandlerHeap
  PBase64 PHeap PArray PBlocks PKlist PConfig PConfigMore PCertFiles POwn PHold PVoucherHeap PVoucherHeapOom PAcquire PAcquire2 PMasa PRegistrar PEnrolLogHeap PRequestHeap4 PRequestHeap9 PHandlerHeap PHandlerHeap2 PHandlerHeap3 PHandlerHeap4.
Open Scope N_scope.

Lemma kst_hold : forall base h L, kst base h L -> hold base h (flat_map snd L).
Proof. intros base h L ((W & B & O) & D & _ & G). split; [exact W|]. split; [exact B|]. split; [exact D|]. split; [exact G|exact O]. Qed.
Lemma kst_ext : forall h h' L, kst (hp_next h) h' L -> later (hp_next h) h h' -> ext h h'.
Proof. intros h h' L ((W & B & _) & _) [K O]. split; [exact W|]. split; [exact B|]. split; [exact K|exact O]. Qed.

(** *** The serial number in the list *)
Lemma klist_serial : forall h H items F, heap_wf h -> klist h H items F ->
  match crypto_getcert_serial items with
  | None => h_getcert_serial h H = Ok 0
  | Some s => exists p, h_getcert_serial h H = Ok p /\ p <> 0 /\ exists d, hp_cell h p = Live (Buf d) /\ In 0 d /\ c_string d = s
  end.
Proof.
  intros h H items F W (ns & L & It & _). unfold h_getcert_serial. rewrite (for_each_ok kv_off kv_owned h H kpre ns W L). cbn [obind].
  destruct L as [[_ [_ [_ [S _]]]] _].
  assert (C : forall a pre, In (a, pre) ns -> a <> 0 /\ exists n r, hp_cell h a = node pre n r a) by (intros a pre Hin; exact (seg_cell 2 ns h H H a _ S Hin)).
  clear S W. induction It as [|[a pre] it ns items (k & v & kd & vd & K0 & V0 & Hs & Hk & Hv & Zk & Zv & ->) It IH]; [reflexivity|]. cbn [map fst snd h_find_serial crypto_getcert_serial] in *. subst pre.
  destruct (C a _ (or_introl eq_refl)) as (A0 & n & r & Hc). unfold node in Hc. cbn [app] in Hc. erewrite get_ptr_at; [|exact A0|exact Hc|reflexivity]. cbn [obind]. rewrite (heap_string_exact h k kd K0 Hk Zk). cbn [obind].
  destruct (beqb (c_string kd) (s2b "serialNumber")).
  - exists v. split; [eapply get_ptr_at; [exact A0|exact Hc|reflexivity]|]. split; [exact V0|]. exists vd. auto.
  - apply IH. intros a' pre' Hin. apply C. right. exact Hin.
Qed.

Lemma ext_rconfig : forall h h' c f, heap_wf h -> ext h h' -> registrar_config h c f -> registrar_config h' c f.
Proof.
  intros h h' c f W E (C1 & C2 & C3 & C4 & C5 & C6). split; [eapply ext_string; eassumption|]. split; [eapply ext_string; eassumption|]. split; [eapply ext_string; eassumption|].
  split; [eapply ext_path_list; eassumption|]. split; [eapply ext_path_list; eassumption|]. eapply ext_path_list; eassumption.
Qed.

(** *** The handler once the serial number is known *)
Lemma registrar_handled : forall o w c f post v h body serial s i sub, ossl_sane o -> world_ok w -> heap_wf h -> plenty h -> registrar_config h c f -> bytes_ok body -> view_ok v -> registrar_fits o w f (Some v) body ->
  client_serial v s -> crypto_getcert_meta (Some v) = Ok (Some (i, sub)) -> crypto_getcert_serial sub = Some s -> string_at h serial (Some s) ->
  (registrar_unsafe o w f (Some v) body /\ exists k, registrar_handler (registrar_sign o serial) w c post h (Some v) (c_string body) = UB k) \/
  (~ registrar_unsafe o w f (Some v) body /\ full_registrar_done o w f post (Some v) h body (registrar_handler (registrar_sign o serial) w c post h (Some v) (c_string body))).
Proof.
  intros o w c f post v h body serial s i sub OS WO W PL RC B V Fits CS Em Es Ss.
  destruct (registrar_reach (registrar_sign o serial) (registrar_sign_values o s) w c f post v h body W PL RC B) as [E|R]; [intros; eapply registrar_sign_refuses; eassumption| |eapply registrar_called; eassumption].
  rewrite E, <- (registrar_values o w c post h (Some v) body i sub s Em Es).
  destruct (registrar_run o w c f post h (Some v) body OS WO W PL RC B) as [Q|[NU (st0 & r & h' & E1 & X & S & D)]]; [intros v' Q; injection Q as <-; exact V|left; exact Q|right]. split; [exact NU|].
  exists st0, r, h', []. split; [exact E1|]. split; [exact X|]. split; [exact (st_hold _ _ _ S)|]. split; [reflexivity|exact D].
Qed.

Lemma free_both : forall base h IL SL it it2 FI FS lk, hold base h (lk ++ FS ++ FI) -> klist h IL it FI -> klist h SL it2 FS ->
  exists h', free_lists h [IL; SL] = Ok h' /\ hold base h' lk /\ kept base h h' /\ hp_next h' = hp_next h /\ hp_oom h' = hp_oom h.
Proof.
  intros base h IL SL it it2 FI FS lk HK KI KS. destruct (free_klist h IL it FI (hold_wf _ _ _ HK) KI) as (h1 & E1 & R1 & W1 & N1 & O1).
  assert (HK' : hold base h (FI ++ (FS ++ lk))) by (eapply hold_perm; [|exact HK]; rewrite !app_assoc; apply Permutation_trans with ((FS ++ FI) ++ lk); [rewrite <- app_assoc; apply Permutation_app_comm|apply Permutation_app_tail; apply Permutation_app_comm]).
  pose proof (hold_released _ _ _ _ _ HK' R1 W1 N1) as H1.
  assert (D : forall a, In a FS -> ~ In a FI) by (intros a Ha Q; destruct HK' as (_ & _ & D & _); exact (disjoint_of_NoDup _ _ D a Q (in_or_app _ _ _ (or_introl Ha)))).
  assert (KS1 : klist h1 SL it2 FS) by (eapply klist_frame; [exact KS|]; intros a Ha; apply R1; apply D; exact Ha).
  destruct (free_klist h1 SL it2 FS W1 KS1) as (h2 & E2 & R2 & W2 & N2 & O2). exists h2. cbn [free_lists]. rewrite E1. cbn [obind]. rewrite E2. cbn [obind]. split; [reflexivity|].
  split; [exact (hold_released _ _ _ _ _ H1 R2 W2 N2)|]. split; [|split; congruence]. destruct HK as (_ & _ & _ & G & _).
  intros a Ha. rewrite (proj2 R2), (proj2 R1); [reflexivity| |]; intros Q; assert (base <= a) by (apply G; rewrite !in_app_iff; tauto); lia.
Qed.

Lemma full_registrar_run : forall o w c f nn post h peer body, ossl_sane o -> world_ok w -> heap_wf h -> plenty h -> registrar_config h c f -> bytes_ok body -> names_at (hp_next h) nn h ->
  (forall v, peer = Some v -> view_ok v /\ short_view v) -> registrar_fits o w f peer body ->
  (registrar_unsafe o w f peer body /\ exists k, full_registrar_requestvoucher o w c nn post h peer body = UB k) \/
  (~ registrar_unsafe o w f peer body /\ full_registrar_done o w f post peer h body (full_registrar_requestvoucher o w c nn post h peer body)).
Proof.
  intros o w c f nn post h peer body OS WO W PL RC B NA Hv Fits. unfold full_registrar_requestvoucher. rewrite c_str_ok. cbn [obind].
  remember (hp_next h) as base eqn:EB. assert (K0 : kst base h []) by (rewrite EB; apply kst_init; exact W).
  destruct (kst_new _ _ _ K0) as (IL & h1 & E1 & LT1 & C1). rewrite E1. cbn [obind]. assert (PL1 : plenty h1) by (eapply later_plenty; eassumption).
  destruct C1 as [(_ & Q & _)|(I0 & K1)]; [rewrite PL in Q; discriminate|].
  destruct (kst_new _ _ _ K1) as (SL & h2 & E2 & LT2 & C2). rewrite E2. cbn [obind]. pose proof (later_trans _ _ _ _ LT1 LT2) as LT02. assert (PL2 : plenty h2) by (eapply later_plenty; eassumption).
  destruct C2 as [(_ & Q & _)|(S0 & K2)]; [rewrite PL1 in Q; discriminate|].
  rewrite (proj2 (N.eqb_neq _ _) I0), (proj2 (N.eqb_neq _ _) S0). cbn [orb].
  assert (BYE : forall h3 it2 FS it FI, later base h h3 -> kst base h3 [(SL, it2, FS); (IL, it, FI)] -> ~ client_known peer ->
    (registrar_unsafe o w f peer body /\ exists k, obind (free_lists h3 [IL; SL]) (fun h => Ok (400%Z, @nil N, h)) = UB k) \/
    (~ registrar_unsafe o w f peer body /\ full_registrar_done o w f post peer h body (obind (free_lists h3 [IL; SL]) (fun h => Ok (400%Z, @nil N, h))))).
  { intros h3 it2 FS it FI LT K3 NK. right. split; [intros (v & s & Q1 & Q2 & Q3 & _); apply NK; exists v, s; auto|].
    pose proof (kst_hold _ _ _ K3) as H3. cbn [flat_map snd] in H3. rewrite app_nil_r in H3. pose proof K3 as (_ & _ & KL & _). inversion KL as [|? ? KS KL']; subst. inversion KL' as [|? ? KI _]; subst. cbn [fst snd] in KS, KI.
    destruct (free_both _ _ IL SL it it2 FI FS [] H3 KI KS) as (h4 & E4 & H4 & K4 & N4 & O4). rewrite E4. cbn [obind]. exists 400%Z, [], h4, []. split; [reflexivity|].
    split; [|split; [exact H4|split; [reflexivity|apply refuse400; exact NK]]]. destruct LT as [LK LO]. split; [apply (hold_wf _ _ _ H4)|]. split; [rewrite N4; exact (proj1 (proj2 (proj1 K3)))|]. split; [|congruence]. intros a Ha. rewrite K4, LK by exact Ha. reflexivity. }
  assert (NA2 : names_at base nn h2) by (eapply names_later; eassumption).
  destruct (kst_meta base nn peer h2 IL SL [IL] [SL] [] K2 NA2) as [(Q & _)|[(h3 & it & FI & it2 & FS & E3 & LT3 & K3 & Em)|(h3 & li & FI & ls & FS & E3 & LT3 & K3 & Em)]];
    [intros v Q; apply (Hv v Q)|contradiction| |]; rewrite E3; cbn [obind]; pose proof (later_trans _ _ _ _ LT02 LT3) as LT03.
  { change ((-1 <? 0)%Z) with true. cbv iota. eapply BYE; [exact LT03|exact K3|]. intros (v & s & -> & CS & _). specialize (Em PL2). destruct (meta_cases v) as [(s' & i' & sub' & _ & Em' & _)|[NS _]]; [congruence|exact (NS _ CS)]. }
  change ((0 <? 0)%Z) with false. cbv iota. destruct peer as [v|]; [|discriminate Em].
  pose proof K3 as ((W3 & B3 & _) & _ & KL & _). inversion KL as [|? ? KS KL']; subst. inversion KL' as [|? ? KI _]; subst. cbn [fst snd] in KS, KI.
  pose proof (klist_serial _ _ _ _ W3 KS) as FS0. destruct (crypto_getcert_serial ls) as [s|] eqn:Es.
  2:{ rewrite FS0. cbn [obind N.eqb]. eapply BYE; [exact LT03|exact K3|]. intros (v' & s' & Q & CS & _). injection Q as <-. destruct (meta_cases v) as [(s0 & i' & sub' & _ & Em' & Es')|[NS _]]; [|exact (NS _ CS)].
      assert (sub' = ls) as -> by congruence. congruence. }
  destruct FS0 as (p & Ep & P0 & d & Cd & Zd & Ed). rewrite Ep. cbn [obind]. rewrite (proj2 (N.eqb_neq _ _) P0). destruct (Hv v eq_refl) as [Vv _].
  assert (CS : client_serial v s) by (destruct (meta_cases v) as [(s0 & i' & sub' & CS & Em' & Es')|[NS [Q|(i' & sub' & Em' & Es')]]]; [assert (sub' = ls) as -> by congruence; assert (s0 = s) as -> by congruence; exact CS|congruence|assert (sub' = ls) as -> by congruence; congruence]).
  assert (Ss : string_at h3 p (Some s)).
  { split; [exact P0|]. split; [destruct CS as [_ (t0 & Q & ->)]; apply c_string_cstr; destruct Vv as (_ & V2 & _); eapply V2; exact Q|]. exists d. auto. }
  pose proof (kst_ext _ _ _ K3 LT03) as X3. assert (PL3 : plenty h3) by (eapply later_plenty; eassumption).
  destruct (registrar_handled o w c f post v h3 body p s li ls OS WO W3 PL3 (ext_rconfig _ _ _ _ W X3 RC) B Vv Fits CS Em Es Ss) as [[U [k E]]|[NU (st0 & r & h4 & lk & E4 & X4 & H4 & HL & A)]].
  { left. split; [exact U|]. exists k. rewrite E. reflexivity. }
  right. split; [exact NU|]. rewrite E4. cbn [obind]. pose proof (kst_hold _ _ _ K3) as H3. cbn [flat_map snd] in H3. rewrite app_nil_r in H3. pose proof (hold_grow _ _ _ _ _ H3 X4 H4) as H34.
  assert (FR : forall a, In a (FS ++ FI) -> hp_cell h4 a = hp_cell h3 a) by (intros a Ha; apply (ext_live _ _ _ W3 X4); apply (hold_in _ _ _ _ H3 Ha)).
  destruct (free_both _ _ IL SL li ls FI FS lk H34) as (h5 & E5 & H5 & K5 & N5 & O5);
    [eapply klist_frame; [exact KI|]; intros a Ha; apply FR; apply in_or_app; right; exact Ha|eapply klist_frame; [exact KS|]; intros a Ha; apply FR; apply in_or_app; left; exact Ha|].
  rewrite E5. cbn [obind]. exists st0, r, h5, lk. split; [reflexivity|]. split; [|split; [exact H5|split; [exact HL|exact A]]].
  pose proof (ext_trans _ _ _ X3 X4) as (W4 & N4 & K4 & O4). split; [apply (hold_wf _ _ _ H5)|]. split; [lia|]. split; [|congruence]. intros a Ha. rewrite K5, K4 by exact Ha. reflexivity.
Qed.

Lemma ext_names : forall nn h h', ext h h' -> names_at (hp_next h) nn h -> names_at (hp_next h') nn h'.
Proof. intros nn h h' (_ & N1 & K & _) NA n Hn. destruct (NA n Hn) as [A C]. split; [lia|]. rewrite K by exact A. exact C. Qed.

Lemma full_registrar_sequence : forall o w c f nn post reqs h, ossl_sane o -> world_ok w -> heap_wf h -> plenty h -> registrar_config h c f -> names_at (hp_next h) nn h -> Forall (request_ok o w f) reqs ->
  (Exists (fun r => registrar_unsafe o w f (fst r) (snd r)) reqs /\ exists k, full_registrar_serves o w c nn post h reqs = UB k) \/
  (~ Exists (fun r => registrar_unsafe o w f (fst r) (snd r)) reqs /\ exists answers h' lk, full_registrar_serves o w c nn post h reqs = Ok (answers, h') /\ ext h h' /\ hold (hp_next h) h' lk /\
     (Forall (fun r => registrar_clean o w f (snd r)) reqs -> lk = []) /\ Forall2 (fun r => registrar_answer o w f post (fst r) (snd r)) reqs answers).
Proof.
  intros o w c f nn post reqs. induction reqs as [|[pe b] r IH]; intros h OS WO W PL RC NA RO.
  { right. split; [intros Q; inversion Q|]. exists [], h, []. split; [reflexivity|]. split; [apply ext_refl; exact W|]. split; [apply hold_init; exact W|]. split; [reflexivity|constructor]. }
  inversion RO as [|? ? (B1 & V1 & F1) RO2]; subst. cbn [fst snd] in *. cbn [full_registrar_serves fst snd].
  destruct (full_registrar_run o w c f nn post h pe b OS WO W PL RC B1 NA V1 F1) as [[C [k E]]|[NC (s1 & r1 & h1 & lk1 & E & X & S & Cl & A)]]; rewrite E; cbn [obind].
  { left. split; [apply Exists_cons_hd; exact C|]. exists k. reflexivity. }
  destruct (IH h1 OS WO (proj1 X) (ext_plenty _ _ X PL) (ext_rconfig _ _ _ _ W X RC) (ext_names _ _ _ X NA) RO2) as [[C [k E2]]|[NC2 (ans & h2 & lk2 & E2 & X2 & S2 & Cl2 & F2)]]; rewrite E2; cbn [obind fst snd].
  - left. split; [apply Exists_cons_tl; exact C|]. exists k. reflexivity.
  - right. split; [intros Q; inversion Q; subst; contradiction|]. exists ((s1, r1) :: ans), h2, (lk2 ++ lk1). split; [reflexivity|]. split; [eapply ext_trans; eassumption|]. split; [eapply hold_grow; eassumption|].
    split; [|constructor; assumption]. intros Q. inversion Q; subst. rewrite Cl, Cl2 by assumption. reflexivity.
Qed.
