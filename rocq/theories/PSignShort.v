(** Proofs about a device short of memory: the two lists. *)
From Coq Require Import Permutation.
From Verif Require Import Base PBase MOs MBase64 MSerialize MVoucher MCrypto MRequest MHeap MArray MVoucherHeap MConfig MHandlers MLog MEnrolLogHeap MHandlerHeap MSignCert MSignHeap SBase64 SHeap SArray SConfig SVoucher SRequest SHandlers SPledge SLog SSignCert SSignHeap SSignShort
  PBase64 PHeap PArray PBlocks PKlist PConfig PConfigMore PCertFiles POwn PHold PAcquire PAcquire2 PMasa PRegistrar PPledge PPledge2 PPledge3 PLog PEnrolLogHeap PHandlerHeap PHandlerHeap5 PHandlerHeap8 PSignCert2 PSignHeap PSignHeap2.
Open Scope N_scope.

(** *** One entry *)
Lemma push_kinds : forall h H items F key kd value vd, heap_wf h -> klist h H items F -> key <> 0 -> value <> 0 ->
  hp_cell h key = Live (Buf kd) -> stringy kd -> hp_cell h value = Live (Buf vd) -> stringy vd ->
  (exists x, push_keyvalue_list h H key value = Ok x /\ hp_oom h (hp_next h) = true) \/
  (push_keyvalue_list h H key value = UB NullDeref /\ hp_oom h (hp_next h) = false /\ (hp_oom h (hp_next h + 1) = true \/ hp_oom h (hp_next h + 1) = false /\ hp_oom h (hp_next h + 2) = true)) \/
  (hp_oom h (hp_next h) = false /\ hp_oom h (hp_next h + 1) = false /\ hp_oom h (hp_next h + 2) = false).
Proof.
  intros h H items F key kd value vd W KL A0 B0 Ckey0 Skd0 Cval0 Svd0. destruct (klist_head _ _ _ _ KL) as [_ H0].
  unfold push_keyvalue_list. rewrite (proj2 (N.eqb_neq _ _) H0), (proj2 (N.eqb_neq _ _) A0), (proj2 (N.eqb_neq _ _) B0).
  destruct (alloc_cases h kv_node W) as [el [h1 [Ea [W1 [Hn1 [Ho1 C1]]]]]]. rewrite Ea. clear Ea.
  destruct C1 as [[-> [Oom Cx]]|[Hel [El0 [Oom [Cel [Cfr Cx]]]]]].
  { left. cbn [N.eqb]. eexists. split; [reflexivity|exact Oom]. }
  right. rewrite (proj2 (N.eqb_neq _ _) El0).
  assert (Old : forall x b, hp_cell h x = Live b -> hp_cell h1 x = Live b) by (intros x b Hb; rewrite Cx by congruence; exact Hb).
  pose proof (heap_strdup_ok h1 key W1 A0) as K.
  destruct (heap_strdup h1 key) as [[k h2]|u]; cbn [obind].
  2:{ exfalso. exact (K kd (Old _ _ Ckey0) Skd0). }
  destruct K as [W2 [Hn2 [Ho2 K]]]. rewrite Ho1, Hn1 in K.
  destruct K as [[-> [Oom2 Cy]]|(kd' & Ckey & Skd & Hk & K0 & Oom2 & Ck & Ckf & Cy)].
  { left. split; [|split; [exact Oom|left; exact Oom2]]. erewrite set_field_at; [|exact El0|rewrite Cy; exact Cel|reflexivity]. cbn [obind set_nthv N.eqb].
    erewrite (zero_node_crash 2 [0%nat; 1%nat] _ el kpre El0 eq_refl); [reflexivity|apply put_same| |reflexivity].
    cbn [free_fields]. erewrite get_ptr_at; [|exact El0|apply put_same|reflexivity]. cbn [obind N.eqb].
    erewrite get_ptr_at; [|exact El0|apply put_same|reflexivity]. cbn [obind N.eqb]. reflexivity. }
  assert (Hke : el <> k) by lia.
  erewrite set_field_at; [|exact El0|rewrite Cy by exact Hke; exact Cel|reflexivity]. cbn [obind set_nthv]. rewrite (proj2 (N.eqb_neq _ _) K0).
  match goal with |- context [heap_strdup ?x value] => set (h3 := x) end.
  assert (W3 : heap_wf h3).
  { destruct W2 as [V1 [V2 V3]]. split; [exact V1|]. split; [unfold h3; rewrite put_other by congruence; exact V2|]. intros a Ha. unfold h3 in *. cbn [put hp_next] in Ha. rewrite put_other by lia. apply V3. exact Ha. }
  assert (Old3 : forall x b, hp_cell h x = Live b -> hp_cell h3 x = Live b).
  { intros x b Hb. assert (x <> el) by congruence. assert (x <> k). { intros ->. rewrite (Old _ _ Hb) in Ckf. discriminate. } unfold h3. rewrite put_other, Cy by assumption. apply Old. exact Hb. }
  pose proof (heap_strdup_ok h3 value W3 B0) as V.
  destruct (heap_strdup h3 value) as [[v h4]|u]; cbn [obind].
  2:{ exfalso. exact (V vd (Old3 _ _ Cval0) Svd0). }
  destruct V as [W4 [Hn4 [Ho4 V]]].
  assert (Hn3 : hp_next h3 = hp_next h + 2) by (unfold h3; cbn [put hp_next]; lia).
  assert (Ho3 : hp_oom h3 = hp_oom h) by (unfold h3; cbn [put hp_oom]; congruence).
  rewrite Ho3, Hn3 in V.
  assert (Cel3 : hp_cell h3 el = Live (Struct [P k; P 0; P 0; P 0; P 0])) by (unfold h3; apply put_same).
  destruct V as [[-> [Oom3 Cz]]|(vd' & Cval & Svd & Hv & V0 & Oom3 & Cv & Cvf & Cz)].
  { left. split; [|split; [exact Oom|right; split; [exact Oom2|exact Oom3]]]. erewrite set_field_at; [|exact El0|rewrite Cz; exact Cel3|reflexivity]. cbn [obind set_nthv N.eqb].
    erewrite (zero_node_crash 2 [0%nat; 1%nat] _ el [P k; P 0] El0 eq_refl); [reflexivity|apply put_same| |].
    - cbn [free_fields]. erewrite get_ptr_at; [|exact El0|apply put_same|reflexivity]. cbn [obind]. rewrite (proj2 (N.eqb_neq _ _) K0).
      unfold sys_free. rewrite (proj2 (N.eqb_neq _ _) K0). rewrite put_other by congruence. rewrite Cz. unfold h3 at 1. rewrite put_other by congruence. rewrite Ck. cbn [obind].
      erewrite get_ptr_at; [|exact El0|rewrite put_other by exact Hke; apply put_same|reflexivity]. cbn [obind N.eqb]. reflexivity.
    - rewrite put_other by exact Hke. reflexivity. }
  right. auto.
Qed.

Lemma kst_push_any : forall base h H items F L key kd value vd, kst base h ((H, items, F) :: L) -> key <> 0 -> value <> 0 ->
  hp_cell h key = Live (Buf kd) -> stringy kd -> hp_cell h value = Live (Buf vd) -> stringy vd ->
  (hp_oom h (hp_next h) = true /\ exists h', push_keyvalue_list h H key value = Ok ((-1)%Z, h') /\ later base h h' /\ kst base h' ((H, items, F) :: L)) \/
  (hp_oom h (hp_next h) = false /\ (hp_oom h (hp_next h + 1) = true \/ hp_oom h (hp_next h + 1) = false /\ hp_oom h (hp_next h + 2) = true) /\ push_keyvalue_list h H key value = UB NullDeref) \/
  (hp_oom h (hp_next h) = false /\ hp_oom h (hp_next h + 1) = false /\ hp_oom h (hp_next h + 2) = false /\
   exists h' F', push_keyvalue_list h H key value = Ok (0%Z, h') /\ hp_next h' = hp_next h + 3 /\ later base h h' /\ kst base h' ((H, items ++ [(c_string kd, c_string vd)], F') :: L)).
Proof.
  intros base h H items F L key kd value vd KS K0 V0 Ck Sk Cv Sv. pose proof KS as (O & N & Fr & B). pose proof (Forall_inv Fr) as KL. cbn [fst snd] in KL. cbn [flat_map snd] in O, N, B. pose proof O as (W & Bn & Lv).
  pose proof (push_kinds h H items F key kd value vd W KL K0 V0 Ck Sk Cv Sv) as PK.
  destruct (push_klist h H items F key kd value vd W KL K0 V0 Ck Sk Cv Sv) as [(Q & h2 & E2 & W2 & Hn2 & Ho2 & Cx)|[(Q & E2)|(Q & h2 & F' & E2 & W2 & Hn2 & Ho2 & KL2 & PF & Cy)]].
  - left. split; [exact Q|]. exists h2. split; [exact E2|]. split; [split; [intros a _; apply Cx|exact Ho2]|]. split; [eapply only_same; [exact O|exact W2|lia|auto]|]. split; [exact N|]. split; [|exact B]. eapply kst_rows; [exact Fr|auto].
  - right. left. destruct PK as [(x & E & _)|[(_ & P1 & P2)|(_ & P1 & P2)]]; [congruence|auto|]. destruct Q; congruence.
  - right. right. destruct PK as [(x & E & Q2)|[(E & _)|(P0 & P1 & P2)]]; [congruence|congruence|]. split; [exact P0|]. split; [exact P1|]. split; [exact P2|]. clear P0 P1 P2.
  exists h2, F'. split; [exact E2|]. split; [exact Hn2|]. remember (hp_next h) as x eqn:Ex.
  assert (FN : forall a, In a F' <-> In a F \/ a = x \/ a = x + 1 \/ a = x + 2).
  { intros a. split; [intros X; apply (Permutation_in _ PF) in X|intros X; apply (Permutation_in _ (Permutation_sym PF))]; rewrite in_app_iff in *; cbn [In] in *; intuition. }
  assert (OLD : forall a, In a (F ++ flat_map snd L) -> a < x). { intros a X. pose proof (B _ X) as Q1. apply (Lv _ Q1) in X. pose proof (live_below _ _ W X). lia. }
  assert (CX : forall a, ~ In a F' -> hp_cell h2 a = hp_cell h a) by (intros a X; rewrite FN in X; apply Cy; intros Y; apply X; auto).
  assert (DJ : forall a, In a (flat_map snd L) -> ~ In a F').
  { intros a Ha X. apply FN in X. destruct X as [X|X].
    - eapply (disjoint_of_NoDup F (flat_map snd L)); [exact N|exact X|exact Ha].
    - pose proof (OLD a ltac:(apply in_or_app; right; exact Ha)). lia. }
  split; [split; [|exact Ho2]|split; [|split; [|split]]].
  + intros a Ha. apply CX. rewrite FN. intros [X|X]; [|lia]. pose proof (B a ltac:(apply in_or_app; left; exact X)). lia.
  + split; [exact W2|]. split; [lia|]. intros a Ha. cbn [flat_map snd]. rewrite in_app_iff. destruct (in_dec N.eq_dec a F') as [X|X].
    { split; [auto|]. intros _. eapply klist_live; eassumption. }
    unfold is_live. rewrite (CX a X). rewrite (Lv a Ha). rewrite in_app_iff. split; [intros [Z|Z]; [exfalso; apply X; apply FN; auto|auto]|intros [Z|Z]; [contradiction|auto]].
  + cbn [flat_map snd]. eapply Permutation_NoDup; [apply Permutation_app_tail; apply Permutation_sym; exact PF|]. eapply Permutation_NoDup with (l := [x; x + 1; x + 2] ++ (F ++ flat_map snd L)).
    { rewrite app_assoc. apply Permutation_app_tail. apply Permutation_app_comm. }
    cbn [app]. assert (NX : forall y, x <= y -> ~ In y (F ++ flat_map snd L)) by (intros y Hy X; specialize (OLD _ X); lia).
    constructor; [intros [X|[X|X]]; [lia|lia|]; exact (NX x ltac:(lia) X)|]. constructor; [intros [X|X]; [lia|]; exact (NX (x + 1) ltac:(lia) X)|]. constructor; [intros X; exact (NX (x + 2) ltac:(lia) X)|]. exact N.
  + constructor; [exact KL2|]. eapply kst_rows; [exact (Forall_inv_tail Fr)|]. intros a Ha. apply CX, DJ, Ha.
  + intros a Ha. cbn [flat_map snd] in Ha. apply in_app_or in Ha. destruct Ha as [Ha|Ha]; [|apply B; apply in_or_app; right; exact Ha]. apply FN in Ha. destruct Ha as [Ha|Ha]; [apply B; apply in_or_app; left; exact Ha|lia].
Qed.

Lemma kst_new_next : forall base h L, kst base h L -> exists H h1, init_keyvalue_list h = Ok (H, h1) /\ later base h h1 /\ hp_next h1 = hp_next h + 1 /\
  ((H = 0 /\ hp_oom h (hp_next h) = true /\ kst base h1 L) \/ (H <> 0 /\ hp_oom h (hp_next h) = false /\ kst base h1 ((H, [], [H]) :: L))).
Proof.
  intros base h L K. destruct (kst_new base h L K) as (H & h1 & E & LT & C). pose proof K as ((W & _) & _). destruct (init_klist h W) as (H' & h1' & E' & _ & Hn & _ & C'). rewrite E in E'. injection E' as <- <-.
  exists H, h1. split; [exact E|]. split; [exact LT|]. split; [exact Hn|]. destruct C as [(-> & O & K1)|(H0 & K1)]; [left; auto|right]. split; [exact H0|]. split; [|exact K1]. destruct C' as [(-> & _)|(_ & _ & O & _)]; [contradiction|exact O].
Qed.

(** *** The lists: either both, or none *)
Definition lists_made (nn : bytes -> N) (rands : N) (h : heap) : outcome (option (N * N) * heap) :=
  obind (init_keyvalue_list h) (fun x => let (issuer, h) := x in if issuer =? 0 then Ok (None, h) else
  obind (init_keyvalue_list h) (fun x => let (subject, h) := x in if subject =? 0 then obind (free_keyvalue_list h issuer) (fun h => Ok (None, h)) else
  obind (push_all h subject (subject_entries nn rands)) (fun x => let (z, h) := x in if (z <? 0)%Z then obind (free_lists h [issuer; subject]) (fun h => Ok (None, h)) else Ok (Some (issuer, subject), h)))).

(** The [i]th allocation from here is the first one refused. *)
Definition refuses (h : heap) (i : N) : Prop := hp_oom h (hp_next h + i) = true /\ forall j, j < i -> hp_oom h (hp_next h + j) = false.

Lemma lists_end : forall nn h rands m s, heap_wf h -> texts_at nn h -> rands <> 0 -> rands < hp_next h -> hp_cell h rands = Live (Buf m) -> In 0 m -> c_string m = s -> blen s < SIZE_MAX ->
  ((exists i, In i [0; 1; 2; 5; 8] /\ refuses h i) /\ exists h', lists_made nn rands h = Ok (None, h') /\ later (hp_next h) h h' /\ kst (hp_next h) h' []) \/
  ((exists i, In i [3; 4; 6; 7; 9; 10] /\ refuses h i) /\ lists_made nn rands h = UB NullDeref) \/
  ((forall j, j < 11 -> hp_oom h (hp_next h + j) = false) /\ exists IL SL h3 FS, lists_made nn rands h = Ok (Some (IL, SL), h3) /\ hp_next h3 = hp_next h + 11 /\
    ext h h3 /\ hold (hp_next h) h3 (FS ++ [IL]) /\ klist h3 IL [] [IL] /\ klist h3 SL [(s2b "C", s2b "IE"); (s2b "CN", s2b "ldevid-cert"); (s2b "serialNumber", s)] FS).
Proof.
  intros nn h rands m s W TX R0 Rl Cr Zr Es Sh. pose proof (kst_init h W) as K0. set (base := hp_next h) in *. unfold lists_made.
  destruct (kst_new_next _ _ _ K0) as (IL & h1 & E1 & LT1 & N1 & C1). rewrite E1. cbn [obind]. fold base in C1, N1. destruct C1 as [(-> & Q0 & K1)|(I0 & Q0 & K1)].
  { left. split; [exists 0; split; [left; reflexivity|]; split; [rewrite N.add_0_r; exact Q0|intros j Hj; lia]|]. cbn [N.eqb]. exists h1. auto. }
  rewrite (proj2 (N.eqb_neq _ _) I0).
  destruct (kst_new_next _ _ _ K1) as (SL & h2 & E2 & LT2 & N2 & C2). rewrite E2. cbn [obind]. pose proof (later_trans _ _ _ _ LT1 LT2) as LT02. rewrite (proj2 LT1), N1 in C2. destruct C2 as [(-> & Q1 & K2)|(S0 & Q1 & K2)].
  { left. split; [exists 1; split; [cbn; tauto|]; split; [exact Q1|intros j Hj; replace j with 0 by lia; rewrite N.add_0_r; exact Q0]|]. cbn [N.eqb].
    destruct (kst_free _ _ _ _ _ _ K2) as (h3 & E3 & LT3 & K3). rewrite E3. cbn [obind]. exists h3. split; [reflexivity|]. split; [eapply later_trans; eassumption|exact K3]. }
  rewrite (proj2 (N.eqb_neq _ _) S0).
  assert (TT : forall t g, In t subject_texts -> later base h g -> nn t <> 0 /\ hp_cell g (nn t) = Live (Buf (t ++ [0])) /\ stringy (t ++ [0])).
  { intros t g Ht [K _]. destruct (TX t Ht) as [A C]. split; [intros Q; destruct W as (_ & W2 & _); rewrite Q, W2 in C; discriminate|]. split; [rewrite K by exact A; exact C|apply text_string; exact Ht]. }
  assert (RR : forall g, later base h g -> hp_cell g rands = Live (Buf m)) by (intros g [K _]; rewrite K by exact Rl; exact Cr).
  assert (SM : stringy m) by (split; [exact Zr|rewrite Es; exact Sh]).
  assert (FL : forall g it F, later base h g -> kst base g [(SL, it, F); (IL, [], [IL])] -> exists h', obind (free_lists g [IL; SL]) (fun h => Ok (@None (N * N), h)) = Ok (None, h') /\ later base h h' /\ kst base h' []).
  { intros g it F LT K. destruct (kst_free_all base [(IL, [], [IL]); (SL, it, F)] g []) as (h' & E & LT' & K'); [rewrite app_nil_r; eapply kst_perm; [|exact K]; apply perm_swap|]. cbn [map fst] in E. rewrite E. cbn [obind]. exists h'. split; [reflexivity|]. split; [eapply later_trans; eassumption|exact K']. }
  assert (T1 : In (s2b "C") subject_texts) by (left; reflexivity). assert (T2 : In (s2b "IE") subject_texts) by (right; left; reflexivity). assert (T3 : In (s2b "CN") subject_texts) by (right; right; left; reflexivity).
  assert (T4 : In (s2b "ldevid-cert") subject_texts) by (right; right; right; left; reflexivity). assert (T5 : In (s2b "serialNumber") subject_texts) by (right; right; right; right; left; reflexivity).
  assert (P2 : forall j, j < 2 -> hp_oom h (base + j) = false) by (intros j Hj; destruct (N.eq_dec j 0) as [->|]; [rewrite N.add_0_r; exact Q0|replace j with 1 by lia; exact Q1]).
  assert (N2' : hp_next h2 = base + 2) by lia. clear N2. rename N2' into N2. unfold subject_entries. cbn [push_all].
  destruct (TT _ h2 T1 LT02) as (A1 & B1 & D1). destruct (TT _ h2 T2 LT02) as (A2 & B2 & D2).
  destruct (kst_push_any _ _ _ _ _ _ _ _ _ _ K2 A1 A2 B1 D1 B2 D2) as [(Q & h' & E & LT & K)|[(Q & Q' & E)|(Q2 & Q3 & Q4 & h3 & F3 & E3 & N3 & LT3 & K3)]].
  { rewrite E. cbn [obind]. change ((-1 <? 0)%Z) with true. cbv iota. left. rewrite (proj2 LT02), N2 in Q. split; [exists 2; split; [cbn; tauto|]; split; [exact Q|exact P2]|]. cbn [obind]. change ((-1 <? 0)%Z) with true. cbv iota. eapply FL; [|exact K]. eapply later_trans; eassumption. }
  { rewrite E. cbn [obind]. right. left. split; [|reflexivity]. rewrite (proj2 LT02), N2 in Q, Q'. replace (base + 2 + 1) with (base + 3) in Q' by lia. replace (base + 2 + 2) with (base + 4) in Q' by lia.
    destruct Q' as [Q'|[Q' Q'']]; [exists 3|exists 4]; (split; [cbn; tauto|]; split; [assumption|]).
    - intros j Hj. destruct (N.eq_dec j 2) as [->|]; [exact Q|apply P2; lia].
    - intros j Hj. destruct (N.eq_dec j 3) as [->|]; [exact Q'|]. destruct (N.eq_dec j 2) as [->|]; [exact Q|apply P2; lia]. }
  rewrite E3. cbn [obind]. change ((0 <? 0)%Z) with false. cbv iota. pose proof (later_trans _ _ _ _ LT02 LT3) as LT03.
  rewrite (proj2 LT02), N2 in Q2, Q3, Q4. rewrite N2 in N3. replace (base + 2 + 1) with (base + 3) in Q3 by lia. replace (base + 2 + 2) with (base + 4) in Q4 by lia. replace (base + 2 + 3) with (base + 5) in N3 by lia.
  assert (P5 : forall j, j < 5 -> hp_oom h (base + j) = false) by (intros j Hj; destruct (N.eq_dec j 2) as [->|]; [exact Q2|]; destruct (N.eq_dec j 3) as [->|]; [exact Q3|]; destruct (N.eq_dec j 4) as [->|]; [exact Q4|]; apply P2; lia).
  clear P2 Q2 Q3 Q4.
  destruct (TT _ h3 T3 LT03) as (A3 & B3 & D3). destruct (TT _ h3 T4 LT03) as (A4 & B4 & D4).
  destruct (kst_push_any _ _ _ _ _ _ _ _ _ _ K3 A3 A4 B3 D3 B4 D4) as [(Q & h' & E & LT & K)|[(Q & Q' & E)|(Q2 & Q3 & Q4 & h4 & F4 & E4 & N4 & LT4 & K4)]].
  { rewrite E. cbn [obind]. change ((-1 <? 0)%Z) with true. cbv iota. left. rewrite (proj2 LT03), N3 in Q. split; [exists 5; split; [cbn; tauto|]; split; [exact Q|exact P5]|]. cbn [obind]. change ((-1 <? 0)%Z) with true. cbv iota. eapply FL; [|exact K]. eapply later_trans; eassumption. }
  { rewrite E. cbn [obind]. right. left. split; [|reflexivity]. rewrite (proj2 LT03), N3 in Q, Q'. replace (base + 5 + 1) with (base + 6) in Q' by lia. replace (base + 5 + 2) with (base + 7) in Q' by lia.
    destruct Q' as [Q'|[Q' Q'']]; [exists 6|exists 7]; (split; [cbn; tauto|]; split; [assumption|]).
    - intros j Hj. destruct (N.eq_dec j 5) as [->|]; [exact Q|apply P5; lia].
    - intros j Hj. destruct (N.eq_dec j 6) as [->|]; [exact Q'|]. destruct (N.eq_dec j 5) as [->|]; [exact Q|apply P5; lia]. }
  rewrite E4. cbn [obind]. change ((0 <? 0)%Z) with false. cbv iota. pose proof (later_trans _ _ _ _ LT03 LT4) as LT04.
  rewrite (proj2 LT03), N3 in Q2, Q3, Q4. rewrite N3 in N4. replace (base + 5 + 1) with (base + 6) in Q3 by lia. replace (base + 5 + 2) with (base + 7) in Q4 by lia. replace (base + 5 + 3) with (base + 8) in N4 by lia.
  assert (P8 : forall j, j < 8 -> hp_oom h (base + j) = false) by (intros j Hj; destruct (N.eq_dec j 5) as [->|]; [exact Q2|]; destruct (N.eq_dec j 6) as [->|]; [exact Q3|]; destruct (N.eq_dec j 7) as [->|]; [exact Q4|]; apply P5; lia).
  clear P5 Q2 Q3 Q4.
  destruct (TT _ h4 T5 LT04) as (A5 & B5 & D5).
  destruct (kst_push_any _ _ _ _ _ _ _ _ _ _ K4 A5 R0 B5 D5 (RR _ LT04) SM) as [(Q & h' & E & LT & K)|[(Q & Q' & E)|(Q2 & Q3 & Q4 & h5 & F5 & E5 & N5 & LT5 & K5)]].
  { rewrite E. cbn [obind]. change ((-1 <? 0)%Z) with true. cbv iota. left. rewrite (proj2 LT04), N4 in Q. split; [exists 8; split; [cbn; tauto|]; split; [exact Q|exact P8]|]. cbn [obind]. change ((-1 <? 0)%Z) with true. cbv iota. eapply FL; [|exact K]. eapply later_trans; eassumption. }
  { rewrite E. cbn [obind]. right. left. split; [|reflexivity]. rewrite (proj2 LT04), N4 in Q, Q'. replace (base + 8 + 1) with (base + 9) in Q' by lia. replace (base + 8 + 2) with (base + 10) in Q' by lia.
    destruct Q' as [Q'|[Q' Q'']]; [exists 9|exists 10]; (split; [cbn; tauto|]; split; [assumption|]).
    - intros j Hj. destruct (N.eq_dec j 8) as [->|]; [exact Q|apply P8; lia].
    - intros j Hj. destruct (N.eq_dec j 9) as [->|]; [exact Q'|]. destruct (N.eq_dec j 8) as [->|]; [exact Q|apply P8; lia]. }
  rewrite E5. cbn [obind]. change ((0 <? 0)%Z) with false. cbv iota. cbn [obind]. change ((0 <? 0)%Z) with false. cbv iota. pose proof (later_trans _ _ _ _ LT04 LT5) as LT05.
  rewrite (proj2 LT04), N4 in Q2, Q3, Q4. rewrite N4 in N5. replace (base + 8 + 1) with (base + 9) in Q3 by lia. replace (base + 8 + 2) with (base + 10) in Q4 by lia. replace (base + 8 + 3) with (base + 11) in N5 by lia.
  right. right. split; [intros j Hj; destruct (N.eq_dec j 8) as [->|]; [exact Q2|]; destruct (N.eq_dec j 9) as [->|]; [exact Q3|]; destruct (N.eq_dec j 10) as [->|]; [exact Q4|]; apply P8; lia|].
  exists IL, SL, h5, F5. split; [reflexivity|]. split; [exact N5|]. split; [exact (kst_ext _ _ _ K5 LT05)|]. pose proof (kst_hold _ _ _ K5) as H5. cbn [flat_map snd app] in H5. split; [exact H5|].
  pose proof K5 as (_ & _ & KL & _). inversion KL as [|? ? KS KL']; subst. inversion KL' as [|? ? KI _]; subst. cbn [fst snd] in KS, KI. split; [exact KI|]. exact KS.
Qed.
