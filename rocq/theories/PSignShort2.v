(** Proofs about a device short of memory: the key and the certificate. *)
From Coq Require Import Permutation.
From Verif Require Import Base PBase MOs MBase64 MSerialize MVoucher MCrypto MRequest MHeap MArray MVoucherHeap MConfig MHandlers MLog MEnrolLogHeap MHandlerHeap MSignCert MSignHeap SBase64 SHeap SArray SConfig SVoucher SRequest SHandlers SPledge SLog SSignCert SSignHeap SSignShort
  PBase64 PHeap PArray PBlocks PKlist PConfig PConfigMore PCertFiles POwn PHold PAcquire PAcquire2 PMasa PRegistrar PPledge PPledge2 PPledge3 PLog PEnrolLogHeap PHandlerHeap PHandlerHeap5 PHandlerHeap8 PSignCert2 PSignHeap PSignHeap2 PSignShort.
Open Scope N_scope.

Lemma out_any : forall R h0 h p l d z b h1, arrs R h0 h ((p, 0, 0%Z) :: l) -> der_out h d = (z, b, h1) ->
  exists ha hb, set_field h1 p 0 (P b) = Ok ha /\ set_field ha p 1 (I (to_size z)) = Ok hb /\ arrs R h0 hb ((p, b, to_size z) :: l) /\ (forall a, In a (places R l) -> hp_cell hb a = hp_cell h a) /\
    match (if hp_oom h (hp_next h) then None else d) with Some d => b <> 0 /\ z = Z.of_N (blen d) /\ hp_cell hb b = Live (Buf d) /\ hp_next hb = hp_next h + 1 | None => b = 0 /\ z = (-1)%Z end.
Proof.
  intros R h0 h p l d z b h1 A E. pose proof (arrs_wf _ _ _ _ A) as W.
  assert (NONE : forall g, arrs R h0 g ((p, 0, 0%Z) :: l) -> (forall a, In a (places R l) -> hp_cell g a = hp_cell h a) ->
    exists ha hb, set_field g p 0 (P 0) = Ok ha /\ set_field ha p 1 (I (to_size (-1))) = Ok hb /\ arrs R h0 hb ((p, 0, to_size (-1)) :: l) /\ (forall a, In a (places R l) -> hp_cell hb a = hp_cell h a)).
  { intros g Ag Xg. pose proof Ag as (_ & S & F). destruct (cells_inv _ _ _ _ _ F) as (P0 & C & _).
    assert (NI : ~ In p (places R l)). { destruct S as (_ & _ & ND & _). intros Q. eapply (disjoint_of_NoDup [p] (places R l)); [exact ND|left; reflexivity|exact Q]. }
    erewrite set_field_at; [|exact P0|exact C|reflexivity]. cbn [set_nthv]. destruct (arrs_put R h0 g p 0 0%Z l 0%Z Ag) as [A1 X1].
    destruct (arrs_put _ _ _ _ _ _ _ (to_size (-1)) A1) as [A2 X2]. eexists. eexists. split; [reflexivity|]. erewrite set_field_at; [|exact P0|apply put_same|reflexivity]. cbn [set_nthv]. split; [reflexivity|]. split; [exact A2|].
    intros y Hy. assert (y <> p) by (intros ->; contradiction). rewrite X2, X1 by assumption. apply Xg. exact Hy. }
  destruct d as [d|]; cbn [der_out] in E.
  - destruct (only_alloc _ _ _ (Buf d) (only_init h W)) as (a & h' & Ea & Ho & Hn & C). rewrite Ea in E. destruct C as [(-> & Q & Cx & O)|(Aa & A0 & Ba & Q & Ca & Cf & Cx & On)]; rewrite Q.
    + cbn [N.eqb] in E. injection E as <- <- <-.
      assert (X : ext h h') by (split; [apply O|]; split; [lia|]; split; [intros y _; apply Cx|exact Ho]).
      destruct (NONE h') as (ha & hb & G1 & G2 & G3 & G4); [eapply arrs_ext; [exact A|exact X|]|intros y _; apply Cx|].
      { destruct (st_init h W) as (_ & B2 & B3 & B4). split; [|split; [constructor|split; [exact B3|exact B4]]]. eapply only_iff; [exact O|]. intros y Hy. cbn. tauto. }
      exists ha, hb. auto 6.
    + rewrite (proj2 (N.eqb_neq _ _) A0) in E. injection E as <- <- <-. pose proof A as (_ & S & F). destruct (cells_inv _ _ _ _ _ F) as (P0 & C & _).
      assert (NI : ~ In p (places R l)). { destruct S as (_ & _ & ND & _). intros X. eapply (disjoint_of_NoDup [p] (places R l)); [exact ND|left; reflexivity|exact X]. }
      assert (Ex : ext h h') by (split; [apply On|]; split; [lia|]; split; [intros y Hy; apply Cx; lia|exact Ho]).
      assert (S1 : st (hp_next h) h' [(OBuf a, [a])]).
      { apply st_one; [eapply only_iff; [exact On|]; intros y _; cbn [In]; split; [intros [[]|X]; auto|]; intros [<-|[]]; auto|right; split; [exact A0|]; split; [eexists; exact Ca|reflexivity]|constructor; [intros []|constructor]|intros y [<-|[]]; lia]. }
      assert (Lp : p < hp_next h) by (eapply (arrs_places _ _ _ _ p A), places_p; left; reflexivity). assert (Cp : hp_cell h' p = Live (Struct [P 0; I 0])) by (rewrite Cx by lia; exact C).
      erewrite set_field_at; [|exact P0|exact Cp|reflexivity]. cbn [set_nthv]. destruct (arrs_attach R h0 h h' p 0%Z l a d 0%Z A Ex S1 A0 Ca) as [A1 X1].
      destruct (arrs_put _ _ _ _ _ _ _ (to_size (Z.of_N (blen d))) A1) as [A2 X2]. eexists. eexists. split; [reflexivity|]. erewrite set_field_at; [|exact P0|apply put_same|reflexivity]. cbn [set_nthv]. split; [reflexivity|]. split; [exact A2|].
      assert (AP : a <> p) by lia. split; [|split; [exact A0|]; split; [reflexivity|]; split; [rewrite X2, X1 by exact AP; exact Ca|exact Hn]].
      intros y Hy. assert (y <> p) by (intros ->; contradiction). rewrite X2, X1 by assumption. apply Cx. assert (X : In y (places R ((p, 0, 0%Z) :: l))) by (rewrite places_cons; apply in_or_app; right; exact Hy). pose proof (arrs_places _ _ _ _ _ A X). lia.
  - injection E as <- <- <-. destruct (NONE h A ltac:(auto)) as (ha & hb & G1 & G2 & G3 & G4). exists ha, hb. repeat (split; [assumption|]). destruct (hp_oom h (hp_next h)); auto.
Qed.

(** The function in two parts. *)
Lemma gen_split : forall nn dv h oc ok r m n, dv_random dv = Some r -> printf_hex (Some (dv_stack dv)) 16 (Some r) 8 true = Ok (Some m, n) ->
  full_generate_sign_cert nn dv h oc ok =
  let (rands, h) := local h (Buf m) in
  obind (lists_made nn rands h) (fun x => match x with
  | (None, h) => obind (sys_free h rands) (fun h => Ok ((-1)%Z, h))
  | (Some (issuer, subject), h) =>
      let '(z, b, h) := der_out h (dv_key dv) in
      obind (set_field h ok 0 (P b)) (fun h => obind (set_field h ok 1 (I (to_size z))) (fun h => obind (load_buf h b) (fun key =>
      obind (keyvalue_items h issuer) (fun is => obind (keyvalue_items h subject) (fun subj =>
      let meta := mk_meta (gen_rand64 (dv_rand dv) (dv_now dv)) 0 (s2b "99991231235959Z") is subj (s2b "CA:false") in
      let '(z, b, h) := der_out h (match key with None => None | Some k => dv_cert dv meta k end) in
      obind (set_field h oc 0 (P b)) (fun h => obind (set_field h oc 1 (I (to_size z))) (fun h => obind (free_lists h [issuer; subject]) (fun h => obind (sys_free h rands) (fun h => Ok (0%Z, h)))))))))) end).
Proof.
  intros nn dv h oc ok r m n ER E. unfold full_generate_sign_cert, lists_made. rewrite ER, E. cbn [obind fst]. destruct (local h (Buf m)) as [rands h1]. destruct (init_keyvalue_list h1) as [[IL h2]|u]; cbn [obind]; [|reflexivity].
  destruct (IL =? 0); [reflexivity|]. destruct (init_keyvalue_list h2) as [[SL h3]|u]; cbn [obind]; [|reflexivity]. destruct (SL =? 0).
  - destruct (free_keyvalue_list h3 IL); reflexivity.
  - destruct (push_all h3 SL (subject_entries nn rands)) as [[z h4]|u]; cbn [obind]; [|reflexivity]. destruct (z <? 0)%Z; [|reflexivity]. destruct (free_lists h4 [IL; SL]); reflexivity.
Qed.

Lemma gen_end : forall nn dv h0 h oc ok r, device_ok dv -> texts_at nn h0 -> dv_random dv = Some r -> arrs [] h0 h [(oc, 0, 0%Z); (ok, 0, 0%Z)] ->
  ((exists i, In i node_allocs /\ hp_oom h (hp_next h + i) = true /\ forall j, 1 <= j -> j < i -> hp_oom h (hp_next h + j) = false) /\ exists h', full_generate_sign_cert nn dv h oc ok = Ok ((-1)%Z, h') /\ arrs [] h0 h' [(oc, 0, 0%Z); (ok, 0, 0%Z)]) \/
  ((exists i, In i text_allocs /\ hp_oom h (hp_next h + i) = true /\ forall j, 1 <= j -> j < i -> hp_oom h (hp_next h + j) = false) /\ full_generate_sign_cert nn dv h oc ok = UB NullDeref) \/
  ((forall j, 1 <= j -> j <= 11 -> hp_oom h (hp_next h + j) = false) /\ exists h' bc zc bk zk, full_generate_sign_cert nn dv h oc ok = Ok (0%Z, h') /\ arrs [] h0 h' [(oc, bc, zc); (ok, bk, zk)] /\
    let key := if hp_oom h (hp_next h + 12) then None else dv_key dv in
    made h' key bk zk /\ made h' (match key with None => None | Some k => if hp_oom h (hp_next h + 13) then None else dv_cert dv (meta_of dv r) k end) bc zc).
Proof.
  intros nn dv h0 h oc ok r DO TX ER A. destruct (rands_mem dv r DO ER) as (m & n & E1 & Z1 & C1). rewrite (gen_split nn dv h oc ok r m n ER E1).
  pose proof (arrs_wf _ _ _ _ A) as W. destruct (local_hold h (Buf m) W) as (hr & ER1 & XR & HR & CR). assert (NR1 : hp_next hr = hp_next h + 1) by (unfold local in ER1; injection ER1 as <-; reflexivity). rewrite ER1. set (rands := hp_next h) in *.
  assert (AR : arrs (bufs [rands] ++ []) h0 hr ([(oc, 0, 0%Z); (ok, 0, 0%Z)])) by (eapply arrs_more; [exact A|exact XR|apply hold_st; exact HR]).
  pose proof (arrs_wf _ _ _ _ AR) as WR. pose proof AR as (XR0 & _ & _). assert (OR : hp_oom hr = hp_oom h) by (apply XR).
  assert (R0 : rands <> 0) by (destruct W as (Q & _); unfold rands; lia).
  assert (TXR : texts_at nn hr). { intros t Ht. destruct (TX t Ht) as [Q1 Q2]. destruct XR0 as (_ & Q3 & Q4 & _). split; [lia|]. rewrite Q4 by exact Q1. exact Q2. }
  assert (RL : rands < hp_next hr) by lia.
  assert (SH : blen (firstn 15 (hex_text true r)) < SIZE_MAX). { unfold blen. pose proof (firstn_le_length 15 (hex_text true r)). assert (15 < SIZE_MAX) by reflexivity. lia. }
  assert (SHIFT : forall i, refuses hr i -> hp_oom h (rands + (i + 1)) = true /\ forall j, 1 <= j -> j < i + 1 -> hp_oom h (rands + j) = false).
  { intros i [Q1 Q2]. rewrite OR, NR1 in Q1. split; [replace (rands + (i + 1)) with (rands + 1 + i) by lia; exact Q1|]. intros j J1 J2. specialize (Q2 (j - 1) ltac:(lia)). rewrite OR, NR1 in Q2. replace (rands + 1 + (j - 1)) with (rands + j) in Q2 by lia. exact Q2. }
  destruct (lists_end nn hr rands m _ WR TXR R0 RL CR Z1 C1 SH) as [((i & Hi & Ri) & h' & E & LT & K)|[((i & Hi & Ri) & E)|(PF & IL & SL & hk & FS & E & NK & XK & HK & KI & KS)]]; rewrite E; cbn [obind]; clear E.
  - left. split.
    { exists (i + 1). split; [|apply SHIFT; exact Ri]. unfold node_allocs. destruct Hi as [<-|[<-|[<-|[<-|[<-|[]]]]]]; cbn; tauto. }
    pose proof (kst_ext _ _ _ K LT) as X. pose proof (kst_hold _ _ _ K) as H. cbn [flat_map] in H.
    assert (A' : arrs (bufs [] ++ (bufs [rands] ++ [])) h0 h' [(oc, 0, 0%Z); (ok, 0, 0%Z)]) by (eapply arrs_more; [exact AR|exact X|apply hold_st; exact H]).
    cbn [bufs map app] in A'. pose proof (arrs_wf _ _ _ _ A') as W'. assert (LR : is_live h' rands). { destruct A' as (_ & S & _). eapply st_live; [exact S|]. apply (places_rest (bufs [rands]) [(oc, 0, 0%Z); (ok, 0, 0%Z)] rands). left. reflexivity. }
    destruct (free_live h' rands W' LR) as [E7 W7]. rewrite E7. cbn [obind]. eexists. split; [reflexivity|].
    assert (RL7 : released h' (put h' rands Freed) [rands]) by (split; [intros a [<-|[]]; split; [exact LR|apply put_same]|intros a Ha; apply put_other; intros ->; apply Ha; left; reflexivity]).
    exact (proj1 (released_arrs [rands] [] _ _ _ _ A' RL7 W7 eq_refl eq_refl)).
  - right. left. split; [|reflexivity]. exists (i + 1). split; [|apply SHIFT; exact Ri]. unfold text_allocs. destruct Hi as [<-|[<-|[<-|[<-|[<-|[<-|[]]]]]]]; cbn; tauto.
  - right. right. split.
    { intros j J1 J2. specialize (PF (j - 1) ltac:(lia)). rewrite OR, NR1 in PF. replace (rands + 1 + (j - 1)) with (rands + j) in PF by lia. exact PF. }
    set (T := bufs (FS ++ [IL]) ++ bufs [rands] ++ []).
    assert (AK : arrs T h0 hk [(oc, 0, 0%Z); (ok, 0, 0%Z)]) by (eapply arrs_more; [exact AR|exact XK|apply hold_st; exact HK]).
    assert (OK : hp_oom hk = hp_oom h) by (rewrite <- OR; apply XK). assert (NK' : hp_next hk = rands + 12) by lia.
    assert (IT : forall a, In a (FS ++ [IL]) \/ a = rands -> In a (oprint T)).
    { intros a Ha. unfold T. rewrite !oprint_app, !oprint_bufs, !in_app_iff. cbn [In]. rewrite in_app_iff in Ha. cbn [In] in Ha. intuition. }
    destruct (der_out hk (dv_key dv)) as [[z b] h1] eqn:D1.
    assert (A' : arrs T h0 hk [(ok, 0, 0%Z); (oc, 0, 0%Z)]) by (eapply arrs_perm; [|exact AK]; apply perm_swap).
    destruct (out_any _ _ _ _ _ _ _ _ _ A' D1) as (ha & hb & G1 & G2 & A1 & X1 & M1). rewrite G1. cbn [obind]. rewrite G2. cbn [obind]. rewrite OK, NK' in M1. cbv zeta.
    set (key := if hp_oom h (rands + 12) then None else dv_key dv) in *.
    assert (LK : load_buf hb b = Ok key). { unfold load_buf. destruct key as [k|]; [destruct M1 as (B & _ & Q & _); rewrite (proj2 (N.eqb_neq _ _) B), Q; reflexivity|]. destruct M1 as [-> _]. reflexivity. }
    rewrite LK. cbn [obind]. pose proof (arrs_wf _ _ _ _ A1) as W1.
    assert (KI1 : klist hb IL [] [IL]) by (eapply klist_frame; [exact KI|]; intros a Ha; apply X1, places_rest, IT; left; apply in_or_app; right; exact Ha).
    assert (KS1 : klist hb SL [(s2b "C", s2b "IE"); (s2b "CN", s2b "ldevid-cert"); (s2b "serialNumber", firstn 15 (hex_text true r))] FS) by (eapply klist_frame; [exact KS|]; intros a Ha; apply X1, places_rest, IT; left; apply in_or_app; left; exact Ha).
    rewrite (klist_items _ _ _ _ W1 KI1). cbn [obind]. rewrite (klist_items _ _ _ _ W1 KS1). cbn [obind].
    assert (M : mk_meta (gen_rand64 (dv_rand dv) (dv_now dv)) 0 (s2b "99991231235959Z") [] [(s2b "C", s2b "IE"); (s2b "CN", s2b "ldevid-cert"); (s2b "serialNumber", firstn 15 (hex_text true r))] (s2b "CA:false") = meta_of dv r) by (unfold meta_of; rewrite (serial_value dv DO); reflexivity).
    rewrite M. clear M.
    destruct (der_out hb (match key with Some k => dv_cert dv (meta_of dv r) k | None => None end)) as [[zc bc] h2] eqn:D2.
    assert (A1' : arrs T h0 hb [(oc, 0, 0%Z); (ok, b, to_size z)]) by (eapply arrs_perm; [|exact A1]; apply perm_swap).
    assert (OB : hp_oom hb = hp_oom h). { pose proof A1 as ((_ & _ & _ & Q1) & _). pose proof A as ((_ & _ & _ & Q2) & _). congruence. }
    destruct (out_any _ _ _ _ _ _ _ _ _ A1' D2) as (hc & hd & G3 & G4 & A2 & X2 & M2). rewrite G3. cbn [obind]. rewrite G4. cbn [obind]. cbn [free_lists]. rewrite OB in M2.
    assert (M2' : match (match key with None => None | Some k => if hp_oom h (rands + 13) then None else dv_cert dv (meta_of dv r) k end) with Some d => bc <> 0 /\ zc = Z.of_N (blen d) /\ hp_cell hd bc = Live (Buf d) | None => bc = 0 /\ zc = (-1)%Z end).
    { destruct key as [k|]; [|destruct (hp_oom h (hp_next hb)); exact M2]. destruct M1 as (_ & _ & _ & Q). rewrite Q in M2. replace (rands + 12 + 1) with (rands + 13) in M2 by lia. destruct (hp_oom h (rands + 13)); [exact M2|]. destruct (dv_cert dv (meta_of dv r) k); [tauto|exact M2]. }
    clear M2. rename M2' into M2. set (ct := match key with None => None | Some k => if hp_oom h (rands + 13) then None else dv_cert dv (meta_of dv r) k end) in *.
    assert (KI2 : klist hd IL [] [IL]) by (eapply klist_frame; [exact KI1|]; intros a Ha; apply X2, places_rest, IT; left; apply in_or_app; right; exact Ha).
    assert (KS2 : klist hd SL [(s2b "C", s2b "IE"); (s2b "CN", s2b "ldevid-cert"); (s2b "serialNumber", firstn 15 (hex_text true r))] FS) by (eapply klist_frame; [exact KS1|]; intros a Ha; apply X2, places_rest, IT; left; apply in_or_app; left; exact Ha).
    pose proof (arrs_wf _ _ _ _ A2) as W2. destruct (free_klist _ _ _ _ W2 KI2) as (he & E5 & R5 & W5 & N5 & O5). rewrite E5. cbn [obind].
    set (L2 := [(oc, bc, to_size zc); (ok, b, to_size z)]) in *.
    assert (AI : arrs (bufs [IL] ++ bufs FS ++ bufs [rands]) h0 hd L2) by (eapply arrs_rest; [|exact A2]; unfold T, bufs; rewrite app_nil_r, <- !map_app, app_assoc; apply Permutation_map, Permutation_app_tail, Permutation_app_comm).
    destruct (released_arrs _ _ _ _ _ _ AI R5 W5 N5 O5) as [AE XE].
    assert (KS3 : klist he SL [(s2b "C", s2b "IE"); (s2b "CN", s2b "ldevid-cert"); (s2b "serialNumber", firstn 15 (hex_text true r))] FS) by (eapply klist_frame; [exact KS2|]; intros a Ha; apply XE, places_rest; rewrite oprint_app, oprint_bufs; apply in_or_app; left; exact Ha).
    destruct (free_klist _ _ _ _ W5 KS3) as (hf & E6 & R6 & W6 & N6 & O6). rewrite E6. cbn [obind].
    destruct (released_arrs _ _ _ _ _ _ AE R6 W6 N6 O6) as [AF XF].
    assert (LR : is_live hf rands). { destruct AF as (_ & S & _). eapply st_live; [exact S|]. apply (places_rest (bufs [rands]) L2 rands). left. reflexivity. }
    destruct (free_live hf rands W6 LR) as [E7 W7]. rewrite E7. cbn [obind].
    assert (AF' : arrs (bufs [rands] ++ []) h0 hf L2) by exact AF.
    assert (RL7 : released hf (put hf rands Freed) [rands]) by (split; [intros a [<-|[]]; split; [exact LR|apply put_same]|intros a Ha; apply put_other; intros ->; apply Ha; left; reflexivity]).
    destruct (released_arrs _ _ _ _ _ _ AF' RL7 W7 eq_refl eq_refl) as [AG XG].
    exists (put hf rands Freed), bc, (to_size zc), b, (to_size z). split; [reflexivity|]. split; [exact AG|].
    assert (UP : forall a, In a (places [] L2) -> hp_cell (put hf rands Freed) a = hp_cell hd a).
    { intros a Ha. rewrite XG by exact Ha. rewrite XF by (apply (places_grow [] (bufs [rands])) in Ha; exact Ha). apply XE. apply (places_grow [] (bufs FS ++ bufs [rands])) in Ha. rewrite app_nil_r in Ha. exact Ha. }
    assert (SUB : forall Q a s1 (k : list slot), In a (places Q k) -> In a (places Q (s1 :: k))) by (intros Q a s1 k Hq; rewrite places_cons; apply in_or_app; right; exact Hq).
    assert (TG : forall k a, In a (places [] k) -> In a (places T k)) by (intros k a Ha; apply (places_grow [] T) in Ha; rewrite app_nil_r in Ha; exact Ha).
    split.
    + unfold made. destruct key as [k|]; [|destruct M1 as [-> ->]; split; reflexivity]. destruct M1 as (B & -> & Q & _). split; [exact B|]. split; [apply to_size_len|].
      assert (IB : In b (places [] [(ok, b, to_size (Z.of_N (blen k)))])) by (eapply places_b; [left; reflexivity|exact B]).
      rewrite UP by (apply SUB; exact IB). rewrite X2 by (apply TG; exact IB). exact Q.
    + unfold made. destruct ct as [k|]; [|destruct M2 as [-> ->]; split; reflexivity]. destruct M2 as (B & -> & Q). split; [exact B|]. split; [apply to_size_len|].
      rewrite UP; [exact Q|]. eapply places_b; [left; reflexivity|exact B].
Qed.
